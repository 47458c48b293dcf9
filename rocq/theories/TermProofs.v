(** Every operation of a sorted set ends, in any state a sequence of operations can
    lead to: also after scores were updated, after removals by rank have damaged the
    list, and with NaN scores.  The reason is that the pointers of one level form
    chains that end: a new node is put between a node and its successor, a removed
    node is bypassed. *)
From Verif Require Import Base Float SkiplistModel ZsetModel.
From Coq Require Import ZifyBool ZifyNat.

(** the pointer of node [x] at level [i] *)
Definition fwd (s : skiplist) (i x : nat) : option (option nat) :=
  match sl_heap s !! x with Some n => fst <$> n_levels n !! i | None => None end.
(** following [f] from [x] ends after [n] nodes *)
Fixpoint chain (f : nat → option (option nat)) (n : nat) (x : option nat) : Prop :=
  match x, n with
  | None, O => True
  | Some x, S n => ∃ y, f x = Some y ∧ chain f n y
  | _, _ => False
  end.
(** all chains end, and are not longer than the number of nodes ever made *)
Record finite (s : skiplist) : Prop := {
  fi_ends : ∀ i x, is_Some (fwd s i x) → ∃ n, (n ≤ sl_next s)%nat ∧ chain (fwd s i) n (Some x);
  fi_new : ∀ x, (sl_next s ≤ x)%nat → sl_heap s !! x = None;
  fi_head : (0 < sl_next s)%nat;
}.
(** the same nodes with shorter chains *)
Record shrinks (s s' : skiplist) : Prop := {
  sh_next : sl_next s' = sl_next s;
  sh_heap : ∀ x, sl_heap s' !! x = None ↔ sl_heap s !! x = None;
  sh_has : ∀ i x, is_Some (fwd s' i x) ↔ is_Some (fwd s i x);
  sh_chain : ∀ i n x, chain (fwd s i) n x → ∃ m, (m ≤ n)%nat ∧ chain (fwd s' i) m x;
}.

Lemma chain_det f n m x : chain f n x → chain f m x → n = m.
Proof.
  revert m x. induction n as [|n IH]; intros [|m] [x|]; try done.
  cbn. intros (y & H1 & H2) (z & H3 & H4). rewrite H1 in H3. injection H3 as <-. f_equal. by eapply IH.
Qed.
Lemma chain_ext f g n x : (∀ z, f z = g z) → chain f n x → chain g n x.
Proof.
  intros Hfg. revert x. induction n as [|n IH]; intros [x|]; try done. cbn. intros (y & H1 & H2). rewrite Hfg in H1. eauto.
Qed.
(** what is shorter than the chain after [u] does not meet [u] *)
Lemma chain_after f g u y k n z : f u = Some y → chain f k y → (n ≤ k)%nat → chain f n z →
  (∀ w, w ≠ u → is_Some (f w) → z = Some w ∨ (∃ v, f v = Some (Some w)) → g w = f w) → chain g n z.
Proof.
  intros Hu Hk. revert z. induction n as [|n IH]; intros [z|] Hle Hc Hg; try done.
  pose proof Hc as (w & H1 & H2). exists w.
  assert (z ≠ u). { intros ->. assert (chain f (S k) (Some u)) by (exists y; done). pose proof (chain_det _ _ _ _ Hc H). lia. }
  split; [rewrite Hg; [done|done|by rewrite H1; eexists|by left]|]. apply IH; [lia|done|].
  intros v Hv Hs Ho. apply Hg; [done..|]. right. destruct Ho as [->|[v' Hv']]; eauto.
Qed.
Lemma chain_insert f g u x y n z : f u = Some y → u ≠ x → (∀ v, f v ≠ Some (Some x)) → g x = Some y → g u = Some (Some x) →
  (∀ w, w ≠ x → w ≠ u → g w = f w) → z ≠ Some x → chain f n z → ∃ m, (m ≤ S n)%nat ∧ chain g m z.
Proof.
  intros Hu Hux Hno Hgx Hgu Hg. revert z. induction n as [|n IH]; intros [z|] Hz Hc; try done. { exists O. split; [lia|done]. }
  pose proof Hc as (w & H1 & H2). destruct (decide (z = u)) as [->|Hzu].
  - rewrite Hu in H1. injection H1 as <-. exists (S (S n)). split; [lia|]. exists (Some x). split; [done|]. exists y. split; [done|].
    eapply chain_after; [exact Hu|exact H2|lia|exact H2|]. intros w Hw _ Ho. apply Hg; [|done].
    intros ->. destruct Ho as [->|[v Hv]]; [by eapply Hno|by eapply Hno].
  - destruct (IH w) as (m & Hm & Hcm); [by intros ->; eapply Hno|done|]. exists (S m). split; [lia|]. exists w. split; [|done].
    rewrite Hg; [done|congruence|done].
Qed.
Lemma chain_bypass f g u x w n z : f u = Some (Some x) → f x = Some w → g u = Some w → (∀ v, v ≠ u → g v = f v) →
  chain f n z → ∃ m, (m ≤ n)%nat ∧ chain g m z.
Proof.
  intros Hu Hx Hgu Hg. revert z. induction n as [|n IH]; intros [z|] Hc; try done. { exists O. split; [lia|done]. }
  pose proof Hc as (v & H1 & H2). destruct (decide (z = u)) as [->|Hzu].
  - rewrite Hu in H1. injection H1 as <-. destruct n as [|n]; [done|]. pose proof H2 as (w' & H3 & H4). rewrite Hx in H3. injection H3 as <-.
    exists (S n). split; [lia|]. exists w. split; [done|]. eapply chain_after; [exact Hu|exact H2|lia|exact H4|].
    intros w' Hw _ _. by apply Hg.
  - destruct (IH v H2) as (m & Hm & Hcm). exists (S m). split; [lia|]. exists v. split; [|done]. by rewrite Hg.
Qed.

Lemma shrinks_refl s : shrinks s s.
Proof. split; try done. intros i n x H. exists n. split; [lia|done]. Qed.
Lemma shrinks_trans s1 s2 s3 : shrinks s1 s2 → shrinks s2 s3 → shrinks s1 s3.
Proof.
  intros [A1 A2 A3 A4] [B1 B2 B3 B4]. split; [congruence|intros x; by rewrite B2, A2|intros i x; by rewrite B3, A3|].
  intros i n x H. destruct (A4 _ _ _ H) as (m & Hm & H'). destruct (B4 _ _ _ H') as (k & Hk & H''). exists k. split; [lia|done].
Qed.
Lemma shrinks_finite s s' : shrinks s s' → finite s → finite s'.
Proof.
  intros [A1 A2 A3 A4] [F1 F2 F3]. split; rewrite ?A1; [|intros x Hx; apply A2; by apply F2|done].
  intros i x Hx. apply A3 in Hx. destruct (F1 i x Hx) as (n & Hn & Hc). destruct (A4 _ _ _ Hc) as (m & Hm & H). exists m. split; [lia|done].
Qed.
(** only spans, Backward, tail, length or level changed *)
Lemma same_shrinks s s' : sl_next s' = sl_next s → (∀ x, sl_heap s' !! x = None ↔ sl_heap s !! x = None) →
  (∀ i x, fwd s' i x = fwd s i x) → shrinks s s'.
Proof.
  intros H1 H2 H3. split; [done|done|intros i x; by rewrite H3|].
  intros i n x H. exists n. split; [lia|]. by eapply chain_ext; [intros; symmetry; apply H3|].
Qed.

Ltac mo H := cbn beta in H; match type of H with mbind _ ?m = Ok _ => let E := fresh "E" in destruct m eqn:E; try discriminate H;
   change (mbind ?f (Ok ?a)) with (f a) in H; cbn beta in H end.

Lemma level_at_fwd s x i lv : level_at s x i = Ok lv → fwd s i x = Some lv.1.
Proof.
  unfold level_at, node, level_of, fwd. intros H. destruct (sl_heap s !! x) as [n|]; [|done]. cbn in *. by destruct (n_levels n !! i); simplify_eq/=.
Qed.
Lemma level_at_bad s x i : fwd s i x = None → level_at s x i = Panic.
Proof. unfold level_at, node, level_of, fwd. destruct (sl_heap s !! x) as [n|]; [|done]. cbn. by destruct (n_levels n !! i). Qed.
Lemma set_level_fwd s x i lv s' : set_level s x i lv = Ok s' →
  sl_next s' = sl_next s ∧ sl_level s' = sl_level s ∧ (∀ y, sl_heap s' !! y = None ↔ sl_heap s !! y = None) ∧ is_Some (fwd s i x) ∧
  ∀ j y, fwd s' j y = if decide (y = x ∧ j = i) then Some lv.1 else fwd s j y.
Proof.
  unfold set_level, node, level_of, fwd. intros H. destruct (sl_heap s !! x) as [n|] eqn:Hx; [|done].
  destruct (n_levels n !! i) eqn:Hi; cbn in H; rewrite Hi in H; [|done]. cbn in H. injection H as <-. cbn. split; [done|]. split; [done|].
  split. { intros y. destruct (decide (y = x)) as [->|]; [rewrite lookup_insert, Hx; naive_solver|by rewrite lookup_insert_ne]. }
  split; [by eexists|]. intros j y. destruct (decide (y = x)) as [->|Hy].
  - rewrite lookup_insert. cbn. destruct (decide (j = i)) as [->|Hj].
    + rewrite decide_True by done. rewrite list_lookup_insert; [done|]. by eapply lookup_lt_Some.
    + rewrite decide_False by naive_solver. rewrite list_lookup_insert_ne by done. by rewrite Hx.
  - rewrite lookup_insert_ne by done. rewrite decide_False by naive_solver. done.
Qed.
Lemma set_level_same s x i lv s' y : set_level s x i (y, lv) = Ok s' → fwd s i x = Some y → shrinks s s'.
Proof.
  intros H Hy. destruct (set_level_fwd _ _ _ _ _ H) as (H1 & H2 & H3 & H4 & H5). apply same_shrinks; [done..|].
  intros j z. rewrite H5. destruct (decide _) as [[-> ->]|]; [by rewrite Hy|done].
Qed.
Lemma set_back_same s x b s' : set_back s x b = Ok s' → shrinks s s' ∧ sl_level s' = sl_level s ∧ ∀ i x, fwd s' i x = fwd s i x.
Proof.
  unfold set_back, node. intros H. destruct (sl_heap s !! x) as [n|] eqn:Hx; [|done]. cbn in H. injection H as <-.
  assert (Hf : ∀ i y, fwd (with_heap s (<[x:=MkNode (n_member n) (n_score n) b (n_levels n)]> (sl_heap s))) i y = fwd s i y).
  { intros i y. unfold fwd. cbn. destruct (decide (y = x)) as [->|]; [by rewrite lookup_insert, Hx|by rewrite lookup_insert_ne]. }
  split; [|done]. apply same_shrinks; [done| |done].
  intros y. cbn. destruct (decide (y = x)) as [->|]; [rewrite lookup_insert, Hx; naive_solver|by rewrite lookup_insert_ne].
Qed.
Lemma for_levels_inv (P : skiplist → Prop) is body s s' : for_levels is body s = Ok s' → P s →
  (∀ s1 s2 i, i ∈ is → P s1 → body s1 i = Ok s2 → P s2) → P s'.
Proof.
  revert s. induction is as [|i is IH]; intros s H Hs Hb; cbn in H; [by simplify_eq|].
  mo H. eapply IH; [exact H| |]. { eapply Hb; [left|exact Hs|exact E]. } intros s1 s2 j Hj. apply Hb. by right.
Qed.

(** * Removal *)
Lemma deleteNode_shrinks s x us s' : deleteNode s x us = Ok s' → shrinks s s'.
Proof.
  unfold deleteNode. intros H. mo H.
  assert (Ha : shrinks s a).
  { eapply (for_levels_inv (shrinks s)); [exact E|apply shrinks_refl|]. intros s1 s2 i _ H1 Hb. eapply shrinks_trans; [exact H1|]. clear H1.
    mo Hb. mo Hb. apply level_at_fwd in E1. destruct (decide (a1.1 = Some x)) as [Hx|Hx].
    - mo Hb. apply level_at_fwd in E2. destruct (set_level_fwd _ _ _ _ _ Hb) as (A1 & A2 & A3 & A4 & A5). split; [done|done| |].
      + intros j y. rewrite A5. destruct (decide _) as [[-> ->]|]; [|done]. split; intros _; [done|by eexists].
      + intros j n z Hc. destruct (decide (j = i)) as [->|Hj].
        * eapply chain_bypass; [rewrite E1, Hx; done|exact E2| | |exact Hc]. { by rewrite A5, decide_True. }
          intros v Hv. rewrite A5, decide_False; [done|naive_solver].
        * exists n. split; [lia|]. eapply chain_ext; [|exact Hc]. intros y. rewrite A5, decide_False; [done|naive_solver].
    - by eapply set_level_same. }
  eapply shrinks_trans; [exact Ha|]. clear Ha E. mo H. mo H. mo H. mo H. injection H as <-.
  apply (shrinks_trans _ a2); [|by apply same_shrinks].
  destruct (a0.1); [by apply set_back_same in E1 as [? _]|]. injection E1 as <-. by apply same_shrinks.
Qed.

(** * Insertion *)
Lemma walk_in fuel s cond i x rank r : walk fuel s cond i x rank = Ok r → is_Some (sl_heap s !! r.1).
Proof.
  revert x rank. induction fuel as [|fuel IH]; intros x rank H; cbn in H; [done|]. mo H. 
  assert (is_Some (sl_heap s !! x)). { apply level_at_fwd in E. unfold fwd in E. by destruct (sl_heap s !! x); [eexists|]. }
  destruct (a.1); [|by injection H as <-]. mo H. destruct (cond _ _ _); [by eapply IH|by injection H as <-].
Qed.
Lemma descend_in s cond b n x rank l : descend s cond b n x rank = Ok l → Forall (λ u, is_Some (sl_heap s !! u.1)) l ∧ length l = n.
Proof.
  revert x rank l. induction n as [|n IH]; intros x rank l H; cbn [descend] in H; [by injection H as <-|]. mo H. mo H. injection H as <-.
  destruct (IH _ _ _ E0) as [H1 H2]. rewrite app_length, H2. cbn. split; [|lia]. apply Forall_app. split; [done|]. apply Forall_singleton.
  exact (walk_in _ _ _ _ _ _ _ E).
Qed.
(** between the nodes: [x] is the new node, linked up to level [j] *)
Record linking (N x j : nat) (s : skiplist) : Prop := {
  li_next : sl_next s = S x;
  li_new : ∀ y, (S x ≤ y)%nat → sl_heap s !! y = None;
  li_le : (N ≤ x)%nat;
  li_old : ∀ i y, y ≠ x → is_Some (fwd s i y) → ∃ n, (n ≤ if decide (i < j)%nat then S N else N)%nat ∧ chain (fwd s i) n (Some y);
  li_x : ∀ i, (i < j)%nat → is_Some (fwd s i x) → ∃ n, (n ≤ S N)%nat ∧ chain (fwd s i) n (Some x);
  li_end : ∀ i, (j ≤ i)%nat → is_Some (fwd s i x) → fwd s i x = Some None;
  li_free : ∀ i y, (j ≤ i)%nat → fwd s i y ≠ Some (Some x);
}.
Lemma linking_step N x j s u y s1 s2 sp1 sp2 : linking N x j s → (1 ≤ N)%nat → u ≠ x → fwd s j u = Some y →
  set_level s x j (y, sp1) = Ok s1 → set_level s1 u j (Some x, sp2) = Ok s2 → linking N x (S j) s2.
Proof.
  intros [L1 L2 L3 L4 L5 L6 L7] HN Hux Hu H1 H2.
  destruct (set_level_fwd _ _ _ _ _ H1) as (A1 & A2 & A3 & A4 & A5). destruct (set_level_fwd _ _ _ _ _ H2) as (B1 & B2 & B3 & B4 & B5).
  assert (Hj : ∀ z, fwd s2 j z = if decide (z = u) then Some (Some x) else if decide (z = x) then Some y else fwd s j z).
  { intros z. rewrite B5. destruct (decide (z = u)) as [->|Hz]; [by rewrite decide_True|]. rewrite decide_False by naive_solver.
    rewrite A5. destruct (decide (z = x)) as [->|Hz']; [by rewrite decide_True|]. by rewrite decide_False by naive_solver. }
  assert (Ho : ∀ i z, i ≠ j → fwd s2 i z = fwd s i z).
  { intros i z Hi. rewrite B5, decide_False, A5, decide_False by naive_solver. done. }
  split; [congruence| |done| | | |].
  - intros z Hz. apply B3, A3. by apply L2.
  - intros i z Hz Hs. destruct (decide (i = j)) as [->|Hi].
    + rewrite decide_True by lia. rewrite Hj in Hs. assert (is_Some (fwd s j z)) as Hs'.
      { destruct (decide (z = u)) as [->|]; [by rewrite Hu|]. by rewrite decide_False in Hs. }
      destruct (L4 j z Hz Hs') as (n & Hn & Hc). rewrite decide_False in Hn by lia.
      destruct (chain_insert (fwd s j) (fwd s2 j) u x y n (Some z)) as (m & Hm & Hc'); try done; [intros v; by apply L7|..].
      * by rewrite Hj, decide_False, decide_True by done.
      * by rewrite Hj, decide_True.
      * intros w Hw1 Hw2. by rewrite Hj, !decide_False.
      * congruence.
      * exists m. split; [lia|done].
    + assert (is_Some (fwd s i z)) as Hs' by (by rewrite Ho in Hs). destruct (L4 i z Hz Hs') as (n & Hn & Hc).
      exists n. split; [destruct (decide (i < j)%nat), (decide (i < S j)%nat); lia|]. eapply chain_ext; [|exact Hc]. intros w. by rewrite Ho.
  - intros i Hi Hs. destruct (decide (i = j)) as [->|Hij].
    + destruct (L4 j u Hux) as (n & Hn & Hc); [by rewrite Hu|]. rewrite decide_False in Hn by lia. destruct n as [|n]; [done|].
      pose proof Hc as (y' & E1 & E2). rewrite Hu in E1. injection E1 as <-. exists (S n). split; [lia|]. exists y.
      split; [by rewrite Hj, decide_False, decide_True by done|].
      eapply chain_after; [exact Hu|exact E2|lia|exact E2|]. intros w Hw _ Hor. rewrite Hj, decide_False by done. rewrite decide_False; [done|].
      intros ->. destruct Hor as [->|[v Hv]]; [by eapply L7|by eapply L7].
    + rewrite Ho in Hs by done. destruct (L5 i) as (n & Hn & Hc); [lia|done|]. exists n. split; [done|].
      eapply chain_ext; [|exact Hc]. intros w. by rewrite Ho.
  - intros i Hi Hs. rewrite Ho in Hs |- * by lia. apply L6; [lia|done].
  - intros i z Hi. rewrite Ho by lia. apply L7. lia.
Qed.
Lemma linking_loop N x us u0 m : ∀ j s s', linking N x j s → (1 ≤ N)%nat → Forall (λ u, u.1 ≠ x) us →
  for_levels (seq j m)
         (λ s i,
            u ← deref (us !! i);
            ul ← level_at s u.1 i;
            s ← set_level s x i (ul.1, ul.2 - (u0 - u.2));
            set_level s u.1 i (Some x, u0 - u.2 + 1)) s = Ok s' → linking N x (j + m) s'.
Proof.
  induction m as [|m IH]; intros j s s' HL HN Hus H; cbn [seq for_levels] in H. { injection H as <-. by rewrite Nat.add_0_r. }
  mo H. mo E. mo E. mo E. rewrite Nat.add_succ_r. eapply (IH (S j)); [|done|done|exact H].
  destruct (us !! j) as [u|] eqn:Hu; [|done]. cbn in E0. injection E0 as <-.
  eapply linking_step; [exact HL|done| |by apply level_at_fwd|exact E2|exact E].
  rewrite Forall_forall in Hus. apply (Hus u). by eapply elem_of_list_lookup_2.
Qed.

Lemma Insert_finite s level score member r : Insert s level score member = Ok r → finite s → finite r.1.
Proof.
  unfold Insert. intros H Hf. mo H. destruct (level <? 1); [done|]. mo H.
  assert (Hs1 : shrinks s a0).
  { eapply (for_levels_inv (shrinks s)); [exact E0|apply shrinks_refl|]. intros s1 s2 i _ H1 Hb. eapply shrinks_trans; [exact H1|].
    mo Hb. apply level_at_fwd in E1. by eapply set_level_same. }
  destruct (descend_in _ _ _ _ _ _ _ E) as [Hin _].
  pose proof (shrinks_finite _ _ Hs1 Hf) as [F1 F2 F3]. set (N := sl_next a0) in *.
  cbn [sl_next sl_heap sl_tail sl_length sl_level] in H.
  mo H. mo H.
  assert (HL : linking N N (0 + Z.to_nat level) a2).
  { eapply linking_loop; [|lia| |exact E2]; [|apply Forall_app; split].
    - set (s2 := MkSl _ _ _ _ _).
      assert (Ho : ∀ i y, y ≠ N → fwd s2 i y = fwd a0 i y). { intros i y Hy. unfold fwd, s2. cbn. by rewrite lookup_insert_ne by done. }
      assert (Hn : ∀ i, is_Some (fwd s2 i N) → fwd s2 i N = Some None).
      { intros i. unfold fwd, s2. cbn. rewrite lookup_insert. cbn. intros [z Hz]. rewrite Hz.
        destruct (replicate _ _ !! i) as [p|] eqn:Hp in Hz; [|done]. apply lookup_replicate in Hp as [-> _]. cbn in Hz. by injection Hz as <-. }
      assert (Hfree : ∀ i y, fwd a0 i y ≠ Some (Some N)).
      { intros i y Hy. destruct (F1 i y) as (n & _ & Hc); [by rewrite Hy|]. destruct n as [|n]; [done|]. destruct Hc as (w & E3 & Hc).
        rewrite Hy in E3. injection E3 as <-. destruct n as [|n]; [done|]. destruct Hc as (w & E3 & _). unfold fwd in E3. by rewrite F2 in E3 by lia. }
      split; [done| |apply le_n| | |intros i _; apply Hn|].
      + intros y Hy. cbn. rewrite lookup_insert_ne by lia. apply F2. lia.
      + intros i y Hy Hs. rewrite Ho in Hs by done. destruct (F1 i y Hs) as (n & Hn' & Hc). exists n. split; [destruct (decide (i < 0)%nat); lia|].
        clear Hn' Hs Hy. revert y Hc. induction n as [|n IH]; intros y Hc; [done|]. destruct Hc as (w & E3 & Hc). exists w.
        assert (y ≠ N). { intros ->. unfold fwd in E3. by rewrite F2 in E3 by lia. }
        split; [by rewrite Ho|]. destruct w as [w|]; [by apply IH|by destruct n].
      + intros i Hi. lia.
      + intros i y _. destruct (decide (y = N)) as [->|]; [|rewrite Ho by done; apply Hfree]. intros Hy. rewrite Hn in Hy; [done|by rewrite Hy].
    - eapply Forall_impl; [exact Hin|]. intros u [n Hu] Hx. destruct (sl_heap s !! u.1) eqn:Hd; [|done].
      assert (sl_heap a0 !! u.1 = None) as Hd' by (rewrite Hx; apply F2; lia). apply (sh_heap _ _ Hs1) in Hd'. congruence.
    - apply Forall_replicate. unfold HEAD. cbn. lia. }
  cbn [Nat.add] in HL.
  assert (Hfin : finite a2).
  { destruct HL as [L1 L2 L3 L4 L5 L6 L7]. split; rewrite L1; [|done|lia]. intros i y Hs. destruct (decide (y = N)) as [->|Hy].
    - destruct (decide (i < Z.to_nat level)%nat) as [Hi|Hi]; [by apply L5|]. exists 1%nat. split; [lia|]. exists None. split; [apply L6; [lia|done]|done].
    - destruct (L4 i y Hy Hs) as (n & Hn & Hc). exists n. split; [destruct (decide (i < Z.to_nat level)%nat); lia|done]. }
  clear HL. mo H. assert (H4 : shrinks a2 a3).
  { eapply (for_levels_inv (shrinks a2)); [exact E3|apply shrinks_refl|]. intros s1 s2 i _ H1 Hb. eapply shrinks_trans; [exact H1|].
    mo Hb. mo Hb. apply level_at_fwd in E5. by eapply set_level_same. }
  mo H. apply set_back_same in E4 as [H5 _]. mo H. mo H. injection H as <-. cbn [fst].
  eapply (shrinks_finite a6); [by apply same_shrinks|]. assert (shrinks a4 a6) as H6.
  { destruct (a5.1); [by apply set_back_same in E5 as [? _]|]. injection E5 as <-. by apply same_shrinks. }
  eapply shrinks_finite; [exact H6|]. eapply shrinks_finite; [exact H5|]. by eapply shrinks_finite; [exact H4|].
Qed.

(** * The loops end *)
Definition term {A} (m : res A) : Prop := m ≠ OutOfFuel.
Lemma term_bind {A B} (m : res A) (f : A → res B) : term m → (∀ a, m = Ok a → term (f a)) → term (m ≫= f).
Proof. unfold term. destruct m; cbn; auto. Qed.
Lemma term_ok {A} (a : A) : term (Ok a). Proof. done. Qed.
Lemma term_panic {A} : term (@Panic A). Proof. done. Qed.
Global Hint Resolve term_ok term_panic : core.
Lemma term_deref {A} (o : option A) : term (deref o). Proof. by destruct o. Qed.
Lemma term_node s x : term (node s x). Proof. apply term_deref. Qed.
Lemma term_level_of n i : term (level_of n i). Proof. apply term_deref. Qed.
Lemma term_level_at s x i : term (level_at s x i).
Proof. apply term_bind; [apply term_node|]. intros. apply term_level_of. Qed.
Lemma term_set_level s x i lv : term (set_level s x i lv).
Proof. apply term_bind; [apply term_node|]. intros. apply term_bind; [apply term_level_of|]. done. Qed.
Lemma term_set_back s x b : term (set_back s x b).
Proof. apply term_bind; [apply term_node|]. done. Qed.
Lemma term_for_levels is body s : (∀ s i, term (body s i)) → term (for_levels is body s).
Proof. intros Hb. revert s. induction is as [|i is IH]; intros s; [done|]. cbn. apply term_bind; [done|]. intros. apply IH. Qed.
Create HintDb term discriminated.
Global Hint Resolve term_ok term_panic term_deref term_node term_level_of term_level_at term_set_level term_set_back : term.
Ltac tm := repeat first [apply term_bind; [solve [auto with term]|intros ? ?] | solve [auto with term]
  | match goal with |- term (match ?x with _ => _ end) => destruct x eqn:? end ].

Lemma term_walk s cond i : ∀ fuel n x rank, chain (fwd s i) n (Some x) → (n ≤ fuel)%nat → term (walk fuel s cond i x rank).
Proof.
  induction fuel as [|fuel IH]; intros n x rank Hc Hle. { destruct n; [done|lia]. }
  destruct n as [|n]; [done|]. destruct Hc as (y & H1 & H2). cbn [walk]. apply term_bind; [auto with term|]. intros lv Hlv.
  apply level_at_fwd in Hlv. rewrite H1 in Hlv. injection Hlv as <-. destruct y as [y|]; [|done].
  apply term_bind; [auto with term|]. intros ny _. destruct (cond _ _ _); [|done]. eapply IH; [exact H2|lia].
Qed.
Lemma term_walk_any s cond i x rank : finite s → term (walk (fuel_of s) s cond i x rank).
Proof.
  intros Hf. destruct (fwd s i x) as [y|] eqn:Hx.
  - destruct (fi_ends s Hf i x) as (n & Hn & Hc); [by rewrite Hx|]. eapply term_walk; [exact Hc|]. unfold fuel_of. lia.
  - unfold fuel_of. cbn [walk]. by rewrite level_at_bad.
Qed.
Lemma term_descend s cond b n x rank : finite s → term (descend s cond b n x rank).
Proof.
  intros Hf. revert x rank. induction n as [|n IH]; intros x rank; [done|]. cbn [descend].
  apply term_bind; [by apply term_walk_any|]. intros r _. apply term_bind; [apply IH|]. done.
Qed.
Lemma term_search s cond b : finite s → term (search s cond b).
Proof. apply term_descend. Qed.
Lemma term_lower_level n s : term (lower_level n s).
Proof. induction n as [|[|n] IH]; [done..|]. cbn [lower_level]. apply term_bind; [auto with term|]. intros lv _. by destruct (lv.1). Qed.
Lemma term_Insert s level score member : finite s → term (Insert s level score member).
Proof.
  intros Hf. unfold Insert. apply term_bind; [by apply term_search|]. intros us _. destruct (level <? 1); [done|].
  apply term_bind; [apply term_for_levels; intros; tm|]. intros s1 _. apply term_bind; [auto with term|]. intros u0 _.
  apply term_bind; [apply term_for_levels; intros; tm|]. intros s3 _. apply term_bind; [apply term_for_levels; intros; tm|]. intros s4 _.
  apply term_bind; [auto with term|]. intros s5 _. apply term_bind; [auto with term|]. intros xl _.
  apply term_bind; [destruct (xl.1); auto with term|]. done.
Qed.
Lemma term_deleteNode s x us : term (deleteNode s x us).
Proof.
  unfold deleteNode. apply term_bind. { apply term_for_levels. intros; tm. }
  intros s1 _. apply term_bind; [auto with term|]. intros xl _. apply term_bind; [auto with term|]. intros nx _.
  apply term_bind; [destruct (xl.1); auto with term|]. intros s2 _. apply term_bind; [apply term_lower_level|]. done.
Qed.
Lemma term_SlDelete s score member : finite s → term (SlDelete s score member).
Proof.
  intros Hf. unfold SlDelete. apply term_bind; [by apply term_search|]. intros us _. apply term_bind; [auto with term|]. intros u0 _.
  apply term_bind; [auto with term|]. intros lv _. destruct (lv.1); [|done]. apply term_bind; [auto with term|]. intros nd _.
  destruct (_ && _); [|done]. apply term_bind; [apply term_deleteNode|]. done.
Qed.
Lemma SlDelete_finite s score member r : SlDelete s score member = Ok r → finite s → finite r.1.
Proof.
  unfold SlDelete. intros H Hf. mo H. mo H. mo H. destruct (a1.1); [|by injection H as <-]. mo H. destruct (_ && _); [|by injection H as <-].
  mo H. injection H as <-. cbn. eapply shrinks_finite; [by eapply deleteNode_shrinks|done].
Qed.
Lemma term_delete_loop us cond : ∀ fuel n s i x acc, chain (fwd s 0) n x → (n < fuel)%nat → term (delete_loop fuel s us cond i x acc).
Proof.
  induction fuel as [|fuel IH]; intros n s i x acc Hc Hle; [lia|]. cbn [delete_loop]. destruct x as [x|]; [|done].
  destruct n as [|n]; [done|]. destruct Hc as (y & H1 & H2). apply term_bind; [auto with term|]. intros nd Hn.
  destruct (cond _ _); [|done]. apply term_bind; [auto with term|]. intros lv Hlv. apply term_bind; [apply term_deleteNode|]. intros s' Hs'.
  assert (fwd s 0 x = Some lv.1) as E. { apply level_at_fwd. unfold level_at. rewrite Hn. exact Hlv. }
  rewrite H1 in E. injection E as ->. apply deleteNode_shrinks in Hs'. destruct (sh_chain _ _ Hs' _ _ _ H2) as (m & Hm & Hc).
  eapply IH; [exact Hc|lia].
Qed.
Lemma delete_loop_finite us cond fuel s i x acc r : delete_loop fuel s us cond i x acc = Ok r → finite s → finite r.1.
Proof.
  revert s i x acc. induction fuel as [|fuel IH]; intros s i x acc H Hf; cbn [delete_loop] in H; [done|].
  destruct x as [x|]; [|by injection H as <-]. mo H. destruct (cond _ _); [|by injection H as <-]. mo H. mo H.
  eapply IH; [exact H|]. eapply shrinks_finite; [by eapply deleteNode_shrinks|done].
Qed.
(** the chain that starts with what a pointer holds *)
Lemma pointer_chain s x lv : finite s → level_at s x 0 = Ok lv → ∃ n, (n < sl_next s)%nat ∧ chain (fwd s 0) n lv.1.
Proof.
  intros Hf H. apply level_at_fwd in H. destruct (fi_ends s Hf 0%nat x) as (n & Hn & Hc); [by rewrite H|].
  destruct n as [|n]; [done|]. destruct Hc as (y & H1 & H2). rewrite H in H1. injection H1 as <-. exists n. split; [lia|done].
Qed.
Lemma term_DeleteRangeByScore s min max : finite s → term (DeleteRangeByScore s min max).
Proof.
  intros Hf. unfold DeleteRangeByScore. apply term_bind; [by apply term_search|]. intros us _. apply term_bind; [auto with term|]. intros u0 _.
  apply term_bind; [auto with term|]. intros lv Hlv. destruct (pointer_chain _ _ _ Hf Hlv) as (n & Hn & Hc).
  eapply term_delete_loop; [exact Hc|unfold fuel_of; lia].
Qed.
Lemma term_DeleteRangeByRank s start end_ : finite s → term (DeleteRangeByRank s start end_).
Proof.
  intros Hf. unfold DeleteRangeByRank. destruct (_ || _); [done|]. apply term_bind; [by apply term_search|]. intros us _.
  apply term_bind; [auto with term|]. intros u0 _.
  apply term_bind; [auto with term|]. intros lv Hlv. destruct (pointer_chain _ _ _ Hf Hlv) as (n & Hn & Hc).
  eapply term_delete_loop; [exact Hc|unfold fuel_of; lia].
Qed.
Lemma DeleteRangeByScore_finite s min max r : DeleteRangeByScore s min max = Ok r → finite s → finite r.1.
Proof. unfold DeleteRangeByScore. intros H Hf. mo H. mo H. mo H. by eapply delete_loop_finite. Qed.
Lemma DeleteRangeByRank_finite s start end_ r : DeleteRangeByRank s start end_ = Ok r → finite s → finite r.1.
Proof. unfold DeleteRangeByRank. intros H Hf. destruct (_ || _); [by injection H as <-|]. mo H. mo H. mo H. by eapply delete_loop_finite. Qed.
Lemma term_GetRank s score member : finite s → term (GetRank s score member).
Proof.
  intros Hf. unfold GetRank. generalize (sl_level s), HEAD, 0. intros n. induction n as [|n IH]; intros x rank; [done|]. cbn [get_rank].
  apply term_bind; [by apply term_walk_any|]. intros r _. apply term_bind; [auto with term|]. intros nx _. destruct (decide _); [done|apply IH].
Qed.
Lemma term_GetElementByRank s rank : finite s → term (GetElementByRank s rank).
Proof.
  intros Hf. unfold GetElementByRank. generalize (sl_level s), HEAD, 0. intros n. induction n as [|n IH]; intros x t; [done|]. cbn [get_by_rank].
  apply term_bind; [by apply term_walk_any|]. intros r _. destruct (_ =? _); [done|apply IH].
Qed.
Lemma step_fwd s x y : step s false x = Ok y → fwd s 0 x = Some y.
Proof.
  unfold step. intros H. mo H. mo H. injection H as <-. apply level_at_fwd. unfold level_at. by rewrite E.
Qed.
Lemma term_step s b x : term (step s b x).
Proof. unfold step. apply term_bind; [auto with term|]. intros n _. destruct b; [done|]. apply term_bind; [auto with term|done]. Qed.
Lemma term_rank_loop s rangeLen : ∀ fuel n i x acc, chain (fwd s 0) n x → (n < fuel)%nat → term (rank_loop fuel s false i rangeLen x acc).
Proof.
  induction fuel as [|fuel IH]; intros n i x acc Hc Hle; [lia|]. cbn [rank_loop]. destruct x as [x|]; [|done]. destruct (_ <? _); [|done].
  destruct n as [|n]; [done|]. destruct Hc as (y & H1 & H2). apply term_bind; [apply term_step|]. intros z Hz. apply step_fwd in Hz.
  rewrite H1 in Hz. injection Hz as ->. eapply IH; [exact H2|lia].
Qed.
Lemma start_chain s x : finite s → (∃ n, (n ≤ sl_next s)%nat ∧ chain (fwd s 0) n x) ∨ ∃ y, x = Some y ∧ step s false y = Panic.
Proof.
  intros Hf. destruct x as [x|]; [|left; exists O; split; [lia|done]]. destruct (fwd s 0 x) as [y|] eqn:Hx.
  - left. apply (fi_ends s Hf 0%nat x). by rewrite Hx.
  - right. exists x. split; [done|]. apply level_at_bad in Hx. unfold step. unfold level_at in Hx. destruct (node s x); cbn in *; try done.
    by rewrite Hx.
Qed.
Lemma term_RangeByRank s start end_ : finite s → term (RangeByRank s start end_ false).
Proof.
  intros Hf. unfold RangeByRank. destruct (_ || _); [done|]. apply term_bind; [by apply term_GetElementByRank|]. intros x _.
  cbn zeta. destruct (negb _); [done|]. destruct (start_chain s x Hf) as [(n & Hn & Hc)|(y & -> & Hy)].
  - eapply term_rank_loop; [exact Hc|unfold fuel_of; lia].
  - cbn [rank_loop]. destruct (_ <? _); [|done]. by rewrite Hy.
Qed.
Lemma term_HasInScoreRange s min max : term (HasInScoreRange s min max).
Proof.
  unfold HasInScoreRange. apply term_bind; [auto with term|]. intros lv _. destruct (lv.1); [|done]. apply term_bind; [auto with term|]. intros nd _.
  destruct (flt _ _); [done|]. destruct (sl_tail s); [|done]. apply term_bind; [auto with term|done].
Qed.
Lemma term_GetFirstInScoreRange s min max : finite s → term (GetFirstInScoreRange s min max).
Proof.
  intros Hf. unfold GetFirstInScoreRange. apply term_bind; [apply term_HasInScoreRange|]. intros b _. destruct (negb b); [done|].
  apply term_bind; [by apply term_search|]. intros us _. apply term_bind; [auto with term|]. intros u0 _.
  apply term_bind; [auto with term|]. intros lv _. destruct (lv.1); [|done]. apply term_bind; [auto with term|done].
Qed.
Lemma term_score_loop s min max limit : ∀ fuel n i x acc, chain (fwd s 0) n x → (n < fuel)%nat → term (score_loop fuel s min max limit false i x acc).
Proof.
  induction fuel as [|fuel IH]; intros n i x acc Hc Hle; [lia|]. cbn [score_loop]. destruct x as [x|]; [|done]. destruct (_ || _); [|done].
  destruct n as [|n]; [done|]. destruct Hc as (y & H1 & H2). apply term_bind; [apply term_step|]. intros z Hz. apply step_fwd in Hz.
  rewrite H1 in Hz. injection Hz as ->. destruct z as [z|]; [|eapply IH; [exact H2|lia]].
  apply term_bind; [auto with term|]. intros nz _. destruct (_ || _); [done|]. eapply IH; [exact H2|lia].
Qed.
Lemma term_RangeByScore s min max limit : finite s → term (RangeByScore s min max limit false).
Proof.
  intros Hf. unfold RangeByScore. apply term_bind; [by apply term_GetFirstInScoreRange|]. intros x _.
  destruct (start_chain s x Hf) as [(n & Hn & Hc)|(y & -> & Hy)].
  - eapply term_score_loop; [exact Hc|unfold fuel_of; lia].
  - cbn [score_loop]. destruct (_ || _); [|done]. by rewrite Hy.
Qed.
Lemma term_Count s min max : finite s → term (Count s min max).
Proof.
  intros Hf. unfold Count. apply term_bind; [by apply term_GetFirstInScoreRange|]. intros x _.
  destruct (start_chain s x Hf) as [(n & Hn & Hc)|(y & -> & Hy)].
  - assert (n < fuel_of s)%nat as Hle by (unfold fuel_of; lia). revert Hle Hc. generalize (fuel_of s), 0. intros fuel. revert n x Hn.
    induction fuel as [|fuel IH]; intros n x Hn c Hle Hc; [lia|]. cbn [count_loop]. destruct x as [x|]; [|done].
    destruct n as [|n]; [done|]. destruct Hc as (y & H1 & H2). apply term_bind; [auto with term|]. intros nd Hnd. destruct (fle _ _); [|done].
    apply term_bind; [auto with term|]. intros lv Hlv. assert (fwd s 0 x = Some lv.1) as E. { apply level_at_fwd. unfold level_at. rewrite Hnd. exact Hlv. }
    rewrite H1 in E. injection E as ->. eapply (IH n); [lia|lia|exact H2].
  - unfold fuel_of. cbn [count_loop]. unfold step in Hy. destruct (node s y); cbn in *; try done. destruct (fle _ _); [|done].
    destruct (level_of _ _); done.
Qed.
Lemma NewSkiplist_finite : finite NewSkiplist.
Proof.
  assert (Hh : ∀ x, x ≠ HEAD → sl_heap NewSkiplist !! x = None) by (intros x Hx; by apply lookup_singleton_ne).
  assert (H0 : sl_heap NewSkiplist !! HEAD = Some (newSkiplistNode maxLevel fzero [])) by apply lookup_singleton.
  split; [|intros x Hx; apply Hh; unfold HEAD; change (sl_next NewSkiplist) with 1%nat in Hx; lia|change (sl_next NewSkiplist) with 1%nat; lia].
  intros i x Hs. destruct (decide (x = HEAD)) as [->|Hx]; [|unfold fwd in Hs; rewrite Hh in Hs by done; by destruct Hs].
  exists 1%nat. split; [apply le_n|]. exists None. split; [|done]. unfold fwd in *. rewrite H0 in *.
  cbn [n_levels newSkiplistNode] in *. destruct (replicate maxLevel _ !! i) as [p|] eqn:Hp; [|by destruct Hs].
  apply lookup_replicate in Hp as [-> _]. done.
Qed.
