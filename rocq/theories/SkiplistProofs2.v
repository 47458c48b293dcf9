(** Insert and deleteNode preserve the skiplist invariant. *)
From Verif Require Import Base Float SkiplistModel SkiplistProofs.
From Coq Require Import ZifyBool ZifyNat.
Implicit Types A Bb L R H : list ent.

Lemma for_levels_inv (P : nat → skiplist → Prop) body n : ∀ a s, P a s →
  (∀ i s, (a ≤ i < a + n)%nat → P i s → ∃ s', body s i = Ok s' ∧ P (S i) s') →
  ∃ s', for_levels (seq a n) body s = Ok s' ∧ P (a + n)%nat s'.
Proof.
  induction n as [|n IH]; intros a s Ha Hb; simpl.
  { exists s. by rewrite Nat.add_0_r. }
  destruct (Hb a s ltac:(lia) Ha) as (s1 & E1 & H1). rewrite E1. simpl.
  destruct (IH (S a) s1 H1) as (s2 & E2 & H2).
  { intros i s' Hi. apply Hb. lia. }
  exists s2. split; [done|]. by rewrite Nat.add_succ_r.
Qed.

Lemma for_levels_tab (lev : nat) (V : nat → nat → nat → option nat * Z) (bk : nat → option nat) (H : list ent) body a n s :
  tab (sl_heap s) lev (V a) bk H →
  (∀ i s, (a ≤ i < a + n)%nat → tab (sl_heap s) lev (V i) bk H →
     ∃ s', body s i = Ok s' ∧ frame s s' ∧ tab (sl_heap s') lev (V (S i)) bk H) →
  ∃ s', for_levels (seq a n) body s = Ok s' ∧ frame s s' ∧ tab (sl_heap s') lev (V (a + n)%nat) bk H.
Proof.
  intros Ht Hb.
  destruct (for_levels_inv (λ i s', frame s s' ∧ tab (sl_heap s') lev (V i) bk H) body n a s) as (s' & E & Hf & Ht').
  - split; [apply frame_refl|done].
  - intros i s1 Hi [Hf H1]. destruct (Hb i s1 Hi H1) as (s2 & E2 & Hf2 & H2).
    exists s2. split; [done|]. split; [by eapply frame_trans|done].
  - by exists s'.
Qed.

Lemma mid_cases A Bb x p e : (hd_ent :: A ++ x :: Bb) !! p = Some e →
  ((p ≤ length A)%nat ∧ (hd_ent :: A) !! p = Some e) ∨ (p = S (length A) ∧ e = x) ∨
  (S (length A) < p)%nat ∧ (hd_ent :: A ++ Bb) !! (p - 1)%nat = Some e.
Proof.
  intros Hp. destruct p as [|p]; [left; split; [lia|done]|]. simpl in Hp.
  destruct (Nat.lt_trichotomy p (length A)) as [?|[?|?]].
  - left. split; [lia|]. by rewrite lookup_app_l in Hp.
  - right; left. subst. rewrite lookup_app_r, Nat.sub_diag in Hp by lia. injection Hp as <-. done.
  - right; right. split; [lia|]. rewrite lookup_app_r in Hp by lia.
    replace (S p - 1)%nat with (S (p - 1)) by lia. simpl. rewrite lookup_app_r by lia.
    replace (p - length A)%nat with (S (p - 1 - length A)) in Hp by lia. done.
Qed.
Lemma drop_mid A Bb x p : (S (length A) < p)%nat → drop p (A ++ x :: Bb) = drop (p - 1) (A ++ Bb).
Proof.
  intros Hp. rewrite !skipn_app, !(drop_ge A) by lia. simpl.
  replace (p - length A)%nat with (S (p - 1 - length A)) by lia. done.
Qed.
Lemma drop_mid0 A Bb x : drop (S (length A)) (A ++ x :: Bb) = Bb.
Proof. rewrite skipn_app, drop_ge by lia. simpl. replace (S (length A) - length A)%nat with 1%nat by lia. done. Qed.
Lemma lookup_old A D p e : (hd_ent :: A) !! p = Some e → (hd_ent :: A ++ D) !! p = Some e.
Proof. destruct p; [done|]. simpl. intros. by rewrite lookup_app_l by (by eapply lookup_lt_Some). Qed.
Lemma lookup_old_inv A D p e : (p ≤ length A)%nat → (hd_ent :: A ++ D) !! p = Some e → (hd_ent :: A) !! p = Some e.
Proof. destruct p; [done|]. simpl. intros ? Hp. by rewrite lookup_app_l in Hp by lia. Qed.
Lemma lookup_mid A Bb x : (hd_ent :: A ++ x :: Bb) !! S (length A) = Some x.
Proof. simpl. by rewrite lookup_app_r, Nat.sub_diag by lia. Qed.

Lemma bk_mid A Bb x p : (S (S (length A)) < p)%nat → bkof (A ++ x :: Bb) p = bkof (A ++ Bb) (p - 1).
Proof.
  intros Hp. destruct p as [|[|[|p]]]; try lia. simpl.
  rewrite !lookup_app_r by lia. replace (S p - length A)%nat with (S (p - length A)) by lia. done.
Qed.
Lemma bk_old A Bb Bb' p : (p ≤ S (length A))%nat → bkof (A ++ Bb) p = bkof (A ++ Bb') p.
Proof. intros Hp. destruct p as [|[|p]]; try done. simpl. rewrite !lookup_app_l by lia. done. Qed.

Section ins.
  Context (A Bb : list ent) (x : ent).
  Let Lo := A ++ Bb.
  Let Ln := A ++ x :: Bb.
  (* links over head :: Ln while x is not linked in *)
  Definition Vold (p i : nat) : option nat * Z :=
    if decide (p ≤ length A)%nat then nxt i (drop p (A ++ Bb))
    else if decide (p = S (length A)) then (None, 0)
    else nxt i (drop (p - 1) (A ++ Bb)).
  Definition Vmix (k p i : nat) : option nat * Z :=
    if decide (i < k)%nat then vof (A ++ x :: Bb) p i else Vold p i.
End ins.

Lemma Vmix_step A Bb x k p0 e0 lev H u v :
  H = hd_ent :: A ++ x :: Bb →
  is_lst k A p0 e0 →
  (k < e_h x)%nat →
  u = ((nxt k (drop p0 (A ++ Bb))).1, (nxt k (drop p0 (A ++ Bb))).2 - (zlen A - Z.of_nat p0)) →
  v = (Some (e_id x), zlen A - Z.of_nat p0 + 1) →
  ∀ p e i, H !! p = Some e → (i < e_h e)%nat →
    ((upd2 (upd2 (Vmix A Bb x k) (S (length A)) k u) p0 k v) p i).1 = (Vmix A Bb x (S k) p i).1 ∧
    ((i < lev)%nat → ((upd2 (upd2 (Vmix A Bb x k) (S (length A)) k u) p0 k v) p i).2 = (Vmix A Bb x (S k) p i).2).
Proof.
  intros -> Hl Hk Hu Hv p e i Hp Hi.
  enough (upd2 (upd2 (Vmix A Bb x k) (S (length A)) k u) p0 k v p i = Vmix A Bb x (S k) p i) as -> by done.
  pose proof (is_lst_le _ _ _ _ Hl).
  unfold upd2. destruct (decide (i = k)) as [->|Hne].
  - unfold Vmix at 2. rewrite (decide_True (P := (k < S k)%nat)) by lia.
    destruct (decide (p = p0)) as [->|Hp0].
    + rewrite decide_True by done. unfold vof. rewrite (nxt_at k A (x :: Bb) p0 e0 Hl).
      rewrite nxt_cons by done. simpl. rewrite Hv. f_equal. lia.
    + rewrite decide_False by naive_solver. apply mid_cases in Hp as [[Hp1 Hp2]|[[-> ->]|[Hp1 Hp2]]].
      * rewrite decide_False by (intros [? ?]; lia). unfold Vmix. rewrite decide_False by lia.
        unfold Vold. rewrite decide_True by done. unfold vof. symmetry. by eapply nxt_other.
      * rewrite decide_True by done. unfold vof. rewrite drop_mid0. rewrite Hu.
        rewrite (nxt_at k A Bb p0 e0 Hl). simpl. destruct (nxt k Bb). simpl. f_equal. lia.
      * rewrite decide_False by (intros [? ?]; lia). unfold Vmix. rewrite decide_False by lia.
        unfold Vold. rewrite decide_False by lia. rewrite decide_False by lia. unfold vof. by rewrite drop_mid by lia.
  - rewrite decide_False by naive_solver. rewrite decide_False by naive_solver. unfold Vmix.
    destruct (decide (i < k)%nat).
    + by rewrite decide_True by lia.
    + by rewrite decide_False by lia.
Qed.

Lemma Vmix_step_high A Bb x k p0 e0 lev H v :
  H = hd_ent :: A ++ x :: Bb →
  is_lst k A p0 e0 →
  (e_h x ≤ k)%nat →
  v = ((nxt k (drop p0 (A ++ Bb))).1, (nxt k (drop p0 (A ++ Bb))).2 + 1) →
  ∀ p e i, H !! p = Some e → (i < e_h e)%nat →
    ((upd2 (Vmix A Bb x k) p0 k v) p i).1 = (Vmix A Bb x (S k) p i).1 ∧
    ((i < lev)%nat → ((upd2 (Vmix A Bb x k) p0 k v) p i).2 = (Vmix A Bb x (S k) p i).2).
Proof.
  intros -> Hl Hk Hv p e i Hp Hi.
  enough (upd2 (Vmix A Bb x k) p0 k v p i = Vmix A Bb x (S k) p i) as -> by done.
  pose proof (is_lst_le _ _ _ _ Hl).
  unfold upd2. destruct (decide (i = k)) as [->|Hne].
  - unfold Vmix at 2. rewrite (decide_True (P := (k < S k)%nat)) by lia.
    destruct (decide (p = p0)) as [->|Hp0].
    + rewrite decide_True by done. unfold vof. rewrite (nxt_at k A (x :: Bb) p0 e0 Hl).
      simpl. rewrite (proj2 (Nat.ltb_ge _ _)) by lia. simpl. rewrite Hv.
      rewrite (nxt_at k A Bb p0 e0 Hl). simpl. f_equal. lia.
    + rewrite decide_False by naive_solver. apply mid_cases in Hp as [[Hp1 Hp2]|[[-> ->]|[Hp1 Hp2]]].
      * unfold Vmix. rewrite decide_False by lia.
        unfold Vold. rewrite decide_True by done. unfold vof. symmetry. by eapply nxt_other.
      * lia.
      * unfold Vmix. rewrite decide_False by lia.
        unfold Vold. rewrite decide_False by lia. rewrite decide_False by lia. unfold vof. by rewrite drop_mid by lia.
  - rewrite decide_False by naive_solver. unfold Vmix.
    destruct (decide (i < k)%nat).
    + by rewrite decide_True by lia.
    + by rewrite decide_False by lia.
Qed.

(* the levels above the old Level, skiplist.go:62-70 *)
Lemma raise_spec s L level : str s L → (level ≤ maxLevel)%nat →
  ∃ s1, for_levels (seq (sl_level s) (level - sl_level s))
          (λ s i, lv ← level_at s HEAD i; set_level s HEAD i (lv.1, sl_length s)) s = Ok s1 ∧ frame s s1 ∧
    tab (sl_heap s1) (max level (sl_level s)) (vof L) (bkof L) (hd_ent :: L).
Proof.
  intros Hs Hlev. set (n := (level - sl_level s)%nat).
  pose proof (s_level _ _ Hs) as Hsl. pose proof (s_nodup _ _ Hs) as Hnd.
  destruct (for_levels_inv (λ i s', frame s s' ∧ tab (sl_heap s') i (vof L) (bkof L) (hd_ent :: L))
    (λ s i, lv ← level_at s HEAD i; set_level s HEAD i (lv.1, sl_length s)) n (sl_level s) s) as (s' & E & Hf & Ht).
  - split; [apply frame_refl|apply Hs].
  - intros i s1 Hi [Hf Ht].
    destruct (level_at_tab s1 i _ _ _ 0 hd_ent i Ht eq_refl) as (lv & E1 & Hlv & _); [simpl; lia|].
    change (e_id hd_ent) with HEAD in E1. cbv beta. rewrite E1. cbn [mbind res_bind].
    destruct (set_level_tab s1 i _ _ _ 0 hd_ent i (lv.1, sl_length s1) Hnd Ht eq_refl) as (s2 & E2 & Hf2 & Ht2); [simpl; lia|].
    exists s2. split; [done|]. split; [by eapply frame_trans|].
    intros p e Hp. destruct (Ht2 p e Hp) as (nd & N1 & N2 & N3 & N4 & N5 & N6).
    exists nd. repeat split; try done. intros j Hj. destruct (N6 j Hj) as (l & M1 & M2 & M3).
    exists l. split; [done|].
    unfold upd2 in M2, M3.
    (* level i itself *)
    destruct (decide (j = i)) as [->|Hne].
    + assert (p = 0%nat) as ->.
      { destruct (height_le s L Hs p e Hp) as [|?]; [done|]. lia. }
      destruct (Ht2 0%nat hd_ent eq_refl) as (ndh & Q1 & _ & _ & _ & _ & Q6).
      injection Hp as <-. rewrite decide_True in M2, M3 by done. simpl in M2, M3.
      split; [by rewrite <-Hlv, M2|]. intros _.
      (* span: read off the node written by set_level *)
      assert (Hget : level_at s2 (e_id hd_ent) i = Ok (lv.1, sl_length s1)).
      { clear -E2. unfold set_level in E2. unfold level_at, node, level_of in *.
        destruct (sl_heap s1 !! e_id hd_ent) as [n0|] eqn:Eh; [|done]. simpl in E2.
        destruct (n_levels n0 !! i) as [l0|] eqn:El; [|done]. simpl in E2. injection E2 as <-. simpl.
        rewrite lookup_insert. simpl. rewrite list_lookup_insert by (by eapply lookup_lt_Some). done. }
      unfold level_at, node, level_of in Hget. rewrite N1 in Hget. simpl in Hget. rewrite M1 in Hget. simpl in Hget.
      injection Hget as ->. simpl. destruct Hf as (_ & _ & -> & _ & _). rewrite (s_length _ _ Hs).
      unfold vof. rewrite drop_0. rewrite nxt_low; [done|].
      intros q e' Hq. apply (Forall_lookup_1 _ _ _ _ (s_height _ _ Hs)) in Hq. simpl in Hq. lia.
    + rewrite decide_False in M2, M3 by naive_solver. split; [done|]. intros. apply M3. lia.
  - exists s'. split; [done|]. split; [done|]. subst n.
    replace (sl_level s + (level - sl_level s))%nat with (max level (sl_level s)) in Ht by lia. done.
Qed.

Lemma tab_heap_alloc h lev A Bb x :
  tab h lev (vof (A ++ Bb)) (bkof (A ++ Bb)) (hd_ent :: A ++ Bb) →
  Forall (λ e, e_id e ≠ e_id x) (hd_ent :: A ++ Bb) →
  tab (<[e_id x := newSkiplistNode (e_h x) (e_score x) (e_member x)]> h) lev (Vmix A Bb x 0)
    (λ p, if decide (p ≤ length A)%nat then bkof (A ++ Bb) p
          else if decide (p = S (length A)) then None else bkof (A ++ Bb) (p - 1)) (hd_ent :: A ++ x :: Bb).
Proof.
  intros Ht Hfr p e Hp. destruct (mid_cases _ _ _ _ _ Hp) as [[Hp1 Hp2]|[[-> ->]|[Hp1 Hp2]]].
  - rewrite decide_True by done. apply (lookup_old A Bb) in Hp2.
    pose proof (Forall_lookup_1 _ _ _ _ Hfr Hp2) as Hid. simpl in Hid. rewrite lookup_insert_ne by done.
    destruct (Ht p e Hp2) as (nd & N1 & N2 & N3 & N4 & N5 & N6). exists nd. repeat split; try done.
    intros i Hi. unfold Vmix. rewrite decide_False by lia. unfold Vold. rewrite decide_True by done. by apply N6.
  - rewrite decide_False by lia. rewrite decide_True by done. rewrite lookup_insert. eexists. split; [done|].
    simpl. repeat split; try done; [by rewrite replicate_length|]. intros i Hi.
    exists (None, 0). rewrite lookup_replicate_2 by done. split; [done|]. unfold Vmix. rewrite decide_False by lia.
    unfold Vold. rewrite decide_False by lia. rewrite decide_True by done. done.
  - rewrite decide_False by lia. rewrite decide_False by lia.
    pose proof (Forall_lookup_1 _ _ _ _ Hfr Hp2) as Hid. simpl in Hid. rewrite lookup_insert_ne by done.
    destruct (Ht _ e Hp2) as (nd & N1 & N2 & N3 & N4 & N5 & N6). exists nd. repeat split; try done.
    intros i Hi. unfold Vmix. rewrite decide_False by lia. unfold Vold. rewrite decide_False by lia.
    rewrite decide_False by lia. by apply N6.
Qed.

Lemma us_ok_raise s A Bb us level : str s (A ++ Bb) → (level ≤ maxLevel)%nat →
  length us = sl_level s → us_ok A us (sl_level s) →
  us_ok A (us ++ replicate (level - sl_level s) (HEAD, 0)) (max level (sl_level s)).
Proof.
  intros Hs Hl Hlen Hus i Hi. destruct (decide (i < sl_level s)%nat) as [Hlt|Hge].
  - destruct (Hus i Hlt) as (p & e & H1 & H2). exists p, e. split; [|done]. by rewrite lookup_app_l by lia.
  - exists 0%nat, hd_ent. split.
    + rewrite lookup_app_r by lia. rewrite lookup_replicate_2 by lia. done.
    + apply is_lst_high; [lia|]. pose proof (s_height _ _ Hs) as Hh. apply Forall_app in Hh as [Hh _].
      eapply Forall_impl; [exact Hh|]. simpl. lia.
Qed.

Lemma last_snoc_app A Bb : last (A ++ Bb) = match last Bb with Some b => Some b | None => last A end.
Proof. rewrite last_app. by destruct (last Bb). Qed.

Lemma Insert_spec s A Bb level score member :
  str s (A ++ Bb) → 1 ≤ level ≤ Z.of_nat maxLevel →
  cond_ok (A ++ Bb) (before (score, member)) (length A) →
  ∃ s', Insert s level score member = Ok (s', sl_next s) ∧
    str s' (A ++ E (sl_next s) (Z.to_nat level) score member :: Bb) ∧ keeps s s'.
Proof.
  intros Hs Hlev Hc. unfold Insert.
  destruct (search_spec s _ Hs _ _ Hc ltac:(rewrite app_length; lia)) as (us & -> & Hlen & Hus).
  rewrite take_app in Hus. cbn [mbind res_bind]. rewrite (proj2 (Z.ltb_ge _ _)) by lia. cbv zeta.
  set (lv := Z.to_nat level). assert (Hlvb : (1 ≤ lv ≤ maxLevel)%nat) by lia. clearbody lv.
  destruct (raise_spec s _ lv Hs ltac:(lia)) as (s1 & -> & Hf1 & Ht1). cbn [mbind res_bind].
  pose proof (us_ok_raise s A Bb us lv Hs ltac:(lia) Hlen Hus) as Hus'.
  destruct Hf1 as (Fn & Ft & Fl & Fv & Fh & Fk). rewrite Fn, Ft, Fl, Fv. cbn [sl_next sl_tail sl_length sl_level sl_heap].
  set (us' := us ++ _) in *. set (x := E (sl_next s) lv score member).
  pose proof (s_height _ _ Hs) as Hh. pose proof (s_level _ _ Hs) as Hsl.
  assert (HhA : Forall (λ e, (1 ≤ e_h e)%nat) A).
  { apply Forall_app in Hh as [Hh _]. eapply Forall_impl; [exact Hh|]. simpl. lia. }
  destruct (us_ok_zero A us' (max lv (sl_level s)) ltac:(lia) HhA Hus') as (e0 & E0 & Hp0).
  rewrite E0. cbn [deref mbind res_bind].
  set (s2 := MkSl _ _ _ _ _).
  assert (Hfr : Forall (λ e, e_id e ≠ e_id x) (hd_ent :: A ++ Bb)).
  { eapply Forall_impl; [apply (s_fresh _ _ Hs)|]. simpl. lia. }
  pose proof (tab_heap_alloc _ _ _ _ x Ht1 Hfr) as Ht2.
  assert (Hnd : NoDup (e_id <$> hd_ent :: A ++ x :: Bb)).
  { pose proof (s_nodup _ _ Hs) as Hn. rewrite fmap_cons, fmap_app, fmap_cons.
    rewrite (Permutation_app_comm (e_id <$> A) (e_id x :: _)). simpl.
    rewrite Permutation_swap. apply NoDup_cons. split.
    - rewrite fmap_cons, fmap_app in Hn. intros Hin.
      assert (e_id x ∈ e_id <$> hd_ent :: A ++ Bb) as Hin'.
      { rewrite fmap_cons, fmap_app. set_solver. }
      apply elem_of_list_fmap in Hin' as (e' & He' & Hin'). eapply Forall_forall in Hfr; [|exact Hin']. done.
    - rewrite (Permutation_app_comm (e_id <$> Bb)). by rewrite <-fmap_app. }
  set (bk0 := λ p, if decide (p ≤ length A)%nat then _ else _) in Ht2.
  set (H := hd_ent :: A ++ x :: Bb) in *.
  set (lev' := max lv (sl_level s)) in *.
  (* linking x *)
  match goal with |- context [for_levels (seq 0 lv) ?b _] => set (body1 := b) end.
  destruct (for_levels_tab lev' (Vmix A Bb x) bk0 H body1 0 lv s2 Ht2) as (s3 & E3 & Hf3 & Ht3).
  { intros i t Hi Ht. unfold body1. destruct (Hus' i ltac:(lia)) as (p & e & Eu & Hl). rewrite Eu.
    cbn [deref mbind res_bind fst snd].
    assert (Hpe : H !! p = Some e) by (apply (lookup_old A (x :: Bb)); apply Hl).
    destruct (level_at_tab t lev' _ _ _ p e i Ht Hpe) as (l & El & _ & Hl2); [apply Hl|].
    rewrite El. cbn [mbind res_bind]. rewrite Hl2 by lia. pose proof (is_lst_le _ _ _ _ Hl).
    unfold Vmix at 1 2. rewrite decide_False by lia. unfold Vold at 1 2. rewrite decide_True by done.
    match goal with |- context [set_level t _ i ?v] => set (u := v) end.
    destruct (set_level_tab t lev' _ _ _ (S (length A)) x i u Hnd Ht (lookup_mid A Bb x)) as (t1 & T1 & Hf1 & Ht1'); [simpl; lia|].
    change (e_id x) with (sl_next s) in T1. rewrite T1. cbn [mbind res_bind].
    destruct (set_level_tab t1 lev' _ _ _ p e i (Some (sl_next s), zlen A - Z.of_nat p + 1) Hnd Ht1' Hpe) as (t2 & T2 & Hf2 & Ht2'); [apply Hl|].
    exists t2. split; [exact T2|]. split; [by eapply frame_trans|].
    eapply tab_ext; [exact Ht2'| |done].
    eapply (Vmix_step A Bb x i p e lev' H u _ eq_refl Hl); [simpl; lia|done|done]. }
  rewrite E3. cbn [mbind res_bind]. simpl in Ht3.
  assert (sl_level s3 = lev') as -> by apply Hf3.
  match goal with |- context [for_levels (seq lv (lev' - lv)) ?b _] => set (body2 := b) end.
  destruct (for_levels_tab lev' (Vmix A Bb x) bk0 H body2 lv (lev' - lv) s3 Ht3) as (s4 & E4 & Hf4 & Ht4).
  { intros i t Hi Ht. unfold body2. destruct (Hus' i ltac:(lia)) as (p & e & Eu & Hl). rewrite Eu.
    cbn [deref mbind res_bind fst snd].
    assert (Hpe : H !! p = Some e) by (apply (lookup_old A (x :: Bb)); apply Hl).
    destruct (level_at_tab t lev' _ _ _ p e i Ht Hpe) as (l & El & _ & Hl2); [apply Hl|].
    rewrite El. cbn [mbind res_bind]. rewrite Hl2 by lia. pose proof (is_lst_le _ _ _ _ Hl).
    unfold Vmix at 1 2. rewrite decide_False by lia. unfold Vold at 1 2. rewrite decide_True by done.
    match goal with |- context [set_level t _ i ?v] => set (u := v) end.
    destruct (set_level_tab t lev' _ _ _ p e i u Hnd Ht Hpe) as (t2 & T2 & Hf2 & Ht2'); [apply Hl|].
    exists t2. split; [exact T2|]. split; [done|].
    eapply tab_ext; [exact Ht2'| |done].
    eapply (Vmix_step_high A Bb x i p e lev' H u eq_refl Hl); [simpl; lia|done]. }
  rewrite E4. cbn [mbind res_bind]. replace (lv + (lev' - lv))%nat with lev' in Ht4 by lia.
  (* backward pointers *)
  destruct (set_back_tab s4 lev' _ _ _ (S (length A)) x (if decide (e_id e0 = HEAD) then None else Some (e_id e0)) Hnd Ht4 (lookup_mid A Bb x)) as (s5 & E5 & Hf5 & Ht5).
  cbn [fst]. change (e_id x) with (sl_next s) in E5. rewrite E5. cbn [mbind res_bind].
  destruct (level_at_tab s5 lev' _ _ _ (S (length A)) x 0 Ht5 (lookup_mid A Bb x)) as (l & El & _ & Hl2); [simpl; lia|].
  change (e_id x) with (sl_next s) in El. rewrite El. cbn [mbind res_bind]. rewrite Hl2 by lia.
  unfold Vmix at 1. rewrite decide_True by lia. unfold vof at 1. rewrite drop_mid0.
  assert (Hf5' : frame s2 s5) by (eapply frame_trans; [eapply frame_trans; [exact Hf3|exact Hf4]|exact Hf5]).
  assert (Hbk1 : bkof (A ++ x :: Bb) (S (length A)) = if decide (e_id e0 = HEAD) then None else Some (e_id e0)).
  { destruct A as [|a A' _] using rev_ind.
    - simpl in Hp0. injection Hp0 as <-. done.
    - rewrite app_length in Hp0 |- *. simpl in Hp0 |- *. rewrite Nat.add_1_r in Hp0 |- *. simpl in Hp0 |- *.
      rewrite <-app_assoc. simpl. rewrite lookup_app_r, Nat.sub_diag in Hp0 |- * by lia. simpl in *.
      injection Hp0 as <-. rewrite decide_False; [done|]. intros Hid.
      pose proof (s_nodup _ _ Hs) as Hn. apply NoDup_cons in Hn as [Hn _]. apply Hn. simpl.
      rewrite <-Hid. apply elem_of_list_fmap. exists a. split; [done|]. set_solver. }
  assert (Hfin : ∀ s6, frame s5 s6 ∨ (Bb = [] ∧ s6 = MkSl (sl_heap s5) (sl_next s5) (Some (sl_next s)) (sl_length s5) (sl_level s5)) →
     tab (sl_heap s6) lev' (Vmix A Bb x lev') (bkof (A ++ x :: Bb)) H →
     sl_tail s6 = e_id <$> last (A ++ x :: Bb) →
     str (MkSl (sl_heap s6) (sl_next s6) (sl_tail s6) (sl_length s6 + 1) (sl_level s6)) (A ++ x :: Bb) ∧
     keeps s (MkSl (sl_heap s6) (sl_next s6) (sl_tail s6) (sl_length s6 + 1) (sl_level s6))).
  { intros s6 Hf6 Ht6 Htl.
    assert (sl_next s6 = S (sl_next s) ∧ sl_length s6 = sl_length s ∧ sl_level s6 = lev' ∧
            (∀ y, sl_heap s5 !! y = None → sl_heap s6 !! y = None) ∧ keeps s5 s6) as (G1 & G2 & G3 & G4 & G5).
    { destruct Hf5' as (K1 & K2 & K3 & K4 & _). destruct Hf6 as [(J1 & J2 & J3 & J4 & J5 & J6)|[-> ->]].
      - rewrite J1, J3, J4, K1, K3, K4. done.
      - simpl. rewrite K1, K3, K4. split_and!; try done. intros y nd Hy. by exists nd. }
    assert (Hkeep : keeps s s6).
    { eapply keeps_trans; [exact Fk|]. eapply keeps_trans; [|exact G5]. eapply (keeps_trans _ s2); [|apply Hf5'].
      intros y nd Hy. simpl. rewrite lookup_insert_ne; [by exists nd|].
      intros <-. rewrite Fh in Hy; [done|]. apply (s_free _ _ Hs). done. }
    split; [|exact Hkeep].
    split; simpl.
    - rewrite G3. eapply tab_ext; [exact Ht6| |done]. intros p e i Hp Hi. unfold Vmix.
      destruct (decide (i < lev')%nat); [done|]. split; [|lia].
      destruct p as [|p].
      { injection Hp as <-. unfold Vold. rewrite decide_True by lia. unfold vof. rewrite !drop_0.
        rewrite !nxt_low; [done| |].
        - intros j e' Hj. rewrite lookup_app_Some in Hj. destruct Hj as [Hj|[_ Hj]].
          + apply (Forall_app _ A Bb) in Hh as [Hh _]. apply (Forall_lookup_1 _ _ _ _ Hh) in Hj. simpl in Hj. lia.
          + destruct (j - length A)%nat as [|j'] eqn:Ej; simpl in Hj.
            * injection Hj as <-. simpl. lia.
            * apply (Forall_app _ A Bb) in Hh as [_ Hh]. apply (Forall_lookup_1 _ _ _ _ Hh) in Hj. simpl in Hj. lia.
        - intros j e' Hj. apply (Forall_lookup_1 _ _ _ _ Hh) in Hj. simpl in Hj. lia. }
      exfalso. apply mid_cases in Hp as [[Hp1 Hp2]|[[_ ->]|[Hp1 Hp2]]].
      + simpl in Hp2. apply (Forall_app _ A Bb) in Hh as [Hh _]. apply (Forall_lookup_1 _ _ _ _ Hh) in Hp2. simpl in Hp2. lia.
      + simpl in Hi. lia.
      + destruct p as [|p]; [lia|]. simpl in Hp2. apply (Forall_lookup_1 _ _ _ _ Hh) in Hp2. simpl in Hp2. lia.
    - done.
    - rewrite G1. pose proof (s_fresh _ _ Hs) as Hfs. apply Forall_cons in Hfs as [Hfs1 Hfs2]. apply Forall_app in Hfs2 as [Hfs2 Hfs3].
      constructor; [simpl in *; lia|]. apply Forall_app. split; [|constructor; [simpl; lia|]];
        (eapply Forall_impl; [eassumption|simpl; lia]).
    - rewrite G1. intros y Hy. apply G4. destruct Hf5' as (_ & _ & _ & _ & K & _). apply K. simpl.
      rewrite lookup_insert_ne by lia. apply Fh. apply (s_free _ _ Hs). lia.
    - rewrite G1. pose proof (s_count _ _ Hs) as Hcn. rewrite app_length in *. simpl. lia.
    - rewrite G3. subst lev'. apply Forall_app in Hh as [Hh1 Hh2]. apply Forall_app. split; [|constructor; [simpl; lia|]];
        (eapply Forall_impl; [first [exact Hh1|exact Hh2]|simpl; intros; lia]).
    - rewrite G3. subst lev'. lia.
    - done.
    - rewrite G2, (s_length _ _ Hs). unfold zlen. rewrite !app_length. simpl. lia. }
  destruct Bb as [|b Bb'].
  - simpl. eexists. split; [done|].
    apply (Hfin (MkSl (sl_heap s5) (sl_next s5) (Some (sl_next s)) (sl_length s5) (sl_level s5))); [by right| |].
    + simpl. eapply tab_ext; [exact Ht5|done|]. intros p e Hp. simpl. destruct (decide (p = S (length A))) as [->|Hne]; [by rewrite Hbk1|].
      unfold bk0. destruct (mid_cases _ _ _ _ _ Hp) as [[Hp1 Hp2]|[[-> ->]|[Hp1 Hp2]]]; [|lia|].
      * rewrite decide_True by done. apply bk_old. lia.
      * exfalso. apply lookup_lt_Some in Hp. unfold H in Hp. simpl in Hp. rewrite app_length in Hp. simpl in Hp. lia.
    + simpl. by rewrite last_snoc.
  - assert (0 < e_h b)%nat as Hb.
    { apply Forall_app in Hh as [_ Hh]. apply Forall_cons in Hh as [Hh _]. lia. }
    rewrite nxt_cons by done. cbn [fst].
    assert (Hpb : H !! S (S (length A)) = Some b).
    { unfold H. simpl. rewrite lookup_app_r by lia. by replace (S (length A) - length A)%nat with 1%nat by lia. }
    destruct (set_back_tab s5 lev' _ _ _ (S (S (length A))) b (Some (sl_next s)) Hnd Ht5 Hpb) as (s6 & E6 & Hf6 & Ht6).
    rewrite E6. cbn [mbind res_bind]. eexists. split; [done|]. apply Hfin; [by left| |].
    + eapply tab_ext; [exact Ht6|done|]. intros p e Hp. simpl.
      destruct (decide (p = S (S (length A)))) as [->|Hne1].
      { simpl. rewrite lookup_app_r, Nat.sub_diag by lia. done. }
      destruct (decide (p = S (length A))) as [->|Hne]; [by rewrite Hbk1|].
      unfold bk0. destruct (mid_cases _ _ _ _ _ Hp) as [[Hp1 Hp2]|[[-> ->]|[Hp1 Hp2]]]; [|lia|].
      * rewrite decide_True by done. apply bk_old. lia.
      * rewrite decide_False by lia. rewrite decide_False by lia. symmetry. apply bk_mid. lia.
    + destruct Hf6 as (_ & -> & _). destruct Hf5' as (_ & -> & _). simpl. rewrite (s_tail _ _ Hs).
      rewrite !last_snoc_app. simpl. destruct Bb' as [|b' Bb'] ; [done|].
      change (last (x :: b :: b' :: Bb')) with (last (b :: b' :: Bb')).
      destruct (last (b :: b' :: Bb')) eqn:El'; [done|]. by apply last_None in El'.
Qed.
