(** Representation invariant of the skiplist: the level-i links are the
    sublists of the base sequence of nodes of height > i, and spans count base
    steps. *)
From Verif Require Import Base Float SkiplistModel.
From Coq Require Import ZifyBool ZifyNat.

(** An entry of the abstract sequence: node identity, height, score, member. *)
Record ent := E { e_id : nat; e_h : nat; e_score : float; e_member : bytes }.
Definition e_key (e : ent) : float * bytes := (e_score e, e_member e).
Definition hd_ent : ent := E HEAD maxLevel fzero [].

(** Forward pointer and span at level i in front of the sequence R *)
Fixpoint nxt (i : nat) (R : list ent) : option nat * Z :=
  match R with
  | [] => (None, 0)
  | e :: R' => if (i <? e_h e)%nat then (Some (e_id e), 1) else ((nxt i R').1, (nxt i R').2 + 1)
  end.

(** The heap holds, for every position p of H, a node with the links V p *)
Definition tab (h : gmap nat snode) (lev : nat) (V : nat → nat → option nat * Z) (bk : nat → option nat)
    (H : list ent) : Prop :=
  ∀ p e, H !! p = Some e → ∃ nd,
    h !! e_id e = Some nd ∧ n_member nd = e_member e ∧ n_score nd = e_score e ∧ n_back nd = bk p ∧
    length (n_levels nd) = e_h e ∧
    ∀ i, (i < e_h e)%nat → ∃ lv, n_levels nd !! i = Some lv ∧ lv.1 = (V p i).1 ∧ ((i < lev)%nat → lv.2 = (V p i).2).

Definition vof (L : list ent) (p i : nat) : option nat * Z := nxt i (drop p L).
Definition bkof (L : list ent) (p : nat) : option nat :=
  match p with S (S q) => e_id <$> L !! q | _ => None end.

Definition sorted (L : list ent) : Prop := StronglySorted (λ a b, elt (e_key a) (e_key b) = true) L.

Record str (s : skiplist) (L : list ent) : Prop := {
  s_tab : tab (sl_heap s) (sl_level s) (vof L) (bkof L) (hd_ent :: L);
  s_nodup : NoDup (e_id <$> hd_ent :: L);
  s_fresh : Forall (λ e, (e_id e < sl_next s)%nat) (hd_ent :: L);
  s_free : ∀ y, (sl_next s ≤ y)%nat → sl_heap s !! y = None;
  s_count : (length L < sl_next s)%nat;
  s_height : Forall (λ e, (1 ≤ e_h e ≤ sl_level s)%nat) L;
  s_level : (1 ≤ sl_level s ≤ maxLevel)%nat;
  s_tail : sl_tail s = e_id <$> last L;
  s_length : sl_length s = zlen L;
}.

(** * nxt *)
Lemma nxt_tall i R k e : R !! k = Some e → (i < e_h e)%nat →
  (∀ j e', (j < k)%nat → R !! j = Some e' → (e_h e' ≤ i)%nat) →
  nxt i R = (Some (e_id e), Z.of_nat k + 1).
Proof.
  revert k. induction R as [|a R IH]; intros k Hk Hh Hlow; [done|]. destruct k as [|k]; simpl in *.
  - injection Hk as ->. by rewrite (proj2 (Nat.ltb_lt _ _)) by lia.
  - pose proof (Hlow 0%nat a ltac:(lia) eq_refl).
    rewrite (proj2 (Nat.ltb_ge _ _)) by lia.
    rewrite (IH k Hk Hh) by (intros j e' Hj He'; apply (Hlow (S j) e'); [lia|done]).
    simpl. f_equal. lia.
Qed.
Lemma nxt_low i R : (∀ j e', R !! j = Some e' → (e_h e' ≤ i)%nat) → nxt i R = (None, zlen R).
Proof.
  induction R as [|a R IH]; intros Hlow; [done|]. simpl.
  pose proof (Hlow 0%nat a eq_refl). rewrite (proj2 (Nat.ltb_ge _ _)) by lia.
  rewrite IH by (intros j e' He'; apply (Hlow (S j) e'); done). simpl. unfold zlen. simpl. f_equal. lia.
Qed.
Lemma tall_dec i (R : list ent) :
  (∃ k e, R !! k = Some e ∧ (i < e_h e)%nat ∧ ∀ j e', (j < k)%nat → R !! j = Some e' → (e_h e' ≤ i)%nat) ∨
  (∀ j e', R !! j = Some e' → (e_h e' ≤ i)%nat).
Proof.
  induction R as [|a R IH]; [right; intros j e'; by rewrite lookup_nil|].
  destruct (Nat.ltb i (e_h a)) eqn:Ea.
  - left. exists 0%nat, a. split; [done|]. split; [lia|]. intros; lia.
  - destruct IH as [(k & e & H1 & H2 & H3)|H].
    + left. exists (S k), e. split; [done|]. split; [done|].
      intros [|j] e' Hj He'; simpl in *; [injection He' as ->; lia|]. apply (H3 j); [lia|done].
    + right. intros [|j] e' He'; simpl in *; [injection He' as ->; lia|]. by apply (H j).
Qed.

Lemma nxt_app_tall i C D k e : C !! k = Some e → (i < e_h e)%nat → nxt i (C ++ D) = nxt i C.
Proof.
  revert k. induction C as [|a C IH]; intros k Hk Hh; [done|]. simpl.
  destruct (Nat.ltb i (e_h a)) eqn:Ea; [done|]. destruct k as [|k]; simpl in *.
  - injection Hk as ->. lia.
  - by rewrite (IH k).
Qed.
Lemma nxt_app_low i C D : (∀ j e, C !! j = Some e → (e_h e ≤ i)%nat) →
  nxt i (C ++ D) = ((nxt i D).1, (nxt i D).2 + zlen C).
Proof.
  induction C as [|a C IH]; intros Hlow; simpl.
  - rewrite (surjective_pairing (nxt i D)) at 1. f_equal. unfold zlen. simpl. lia.
  - pose proof (Hlow 0%nat a eq_refl). rewrite (proj2 (Nat.ltb_ge _ _)) by lia.
    rewrite IH by (intros j e He; apply (Hlow (S j) e); done). simpl. unfold zlen. simpl. f_equal. lia.
Qed.
Lemma nxt_span_pos i R : 0 ≤ (nxt i R).2.
Proof. induction R; simpl; [done|]. case_match; simpl; lia. Qed.
Lemma nxt_span_some i R y : (nxt i R).1 = Some y → 1 ≤ (nxt i R).2.
Proof. pose proof (nxt_span_pos i (tail R)). destruct R; simpl in *; [done|]. case_match; simpl; lia. Qed.
Lemma nxt_cons i x R : (i < e_h x)%nat → nxt i (x :: R) = (Some (e_id x), 1).
Proof. intros. simpl. by rewrite (proj2 (Nat.ltb_lt _ _)) by lia. Qed.

(** p is the last position of head :: A whose node is taller than i *)
Definition is_lst (i : nat) (A : list ent) (p : nat) (e : ent) : Prop :=
  (hd_ent :: A) !! p = Some e ∧ (i < e_h e)%nat ∧
  ∀ q e', (p < q)%nat → (hd_ent :: A) !! q = Some e' → (e_h e' ≤ i)%nat.

Implicit Types A Bb L R : list ent.
Lemma is_lst_unique i A p e p' e' : is_lst i A p e → is_lst i A p' e' → p = p' ∧ e = e'.
Proof.
  intros (H1 & H2 & H3) (H1' & H2' & H3').
  assert (p = p').
  { destruct (Nat.lt_trichotomy p p') as [?|[?|?]]; [|done|].
    - pose proof (H3 _ _ H H1'). lia.
    - pose proof (H3' _ _ H H1). lia. }
  subst. split; congruence.
Qed.
Lemma is_lst_le i A p e : is_lst i A p e → (p ≤ length A)%nat.
Proof. intros (H1 & _ & _). apply lookup_lt_Some in H1. simpl in H1. lia. Qed.
Lemma is_lst_zero A p e : Forall (λ e, (1 ≤ e_h e)%nat) A → is_lst 0 A p e → p = length A.
Proof.
  intros HA Hl. pose proof (is_lst_le _ _ _ _ Hl). destruct Hl as (H1 & H2 & H3).
  destruct (decide (p = length A)) as [|Hne]; [done|]. exfalso.
  destruct (lookup_lt_is_Some_2 (hd_ent :: A) (length A)) as [e' He']; [simpl; lia|].
  pose proof (H3 (length A) e' ltac:(lia) He'). destruct (length A) as [|n] eqn:El; [lia|].
  simpl in He'. apply (Forall_lookup_1 _ _ _ _ HA) in He'. simpl in *. lia.
Qed.
Lemma is_lst_high i A : (i < maxLevel)%nat → Forall (λ e, (e_h e ≤ i)%nat) A → is_lst i A 0 hd_ent.
Proof.
  intros Hi HA. split; [done|]. split; [done|]. intros [|q] e' Hq He'; [lia|].
  simpl in He'. by apply (Forall_lookup_1 _ _ _ _ HA) in He'.
Qed.

(** nxt changes when an element is put between A and Bb *)
Lemma nxt_other i A Bb x p e p' e' : is_lst i A p e → (hd_ent :: A) !! p' = Some e' → (i < e_h e')%nat → p' ≠ p →
  nxt i (drop p' (A ++ x :: Bb)) = nxt i (drop p' (A ++ Bb)).
Proof.
  intros Hl Hp' Hh Hne. pose proof (is_lst_le _ _ _ _ Hl). destruct Hl as (H1 & H2 & H3).
  assert (p' < p)%nat.
  { destruct (decide (p' < p)%nat) as [|Hn]; [done|]. pose proof (H3 p' e' ltac:(lia) Hp'). lia. }
  rewrite !drop_app_le by lia.
  assert (drop p' A !! (p - 1 - p')%nat = Some e).
  { rewrite lookup_drop. destruct p as [|p]; [lia|]. simpl in H1. rewrite <-H1. f_equal. lia. }
  rewrite !(nxt_app_tall i _ _ (p - 1 - p') e) by done. done.
Qed.
Lemma is_lst_low i A p e : is_lst i A p e → ∀ j e', drop p A !! j = Some e' → (e_h e' ≤ i)%nat.
Proof.
  intros (H1 & H2 & H3) j e'. rewrite lookup_drop. intros Hj.
  apply (H3 (S (p + j))%nat); [lia|done].
Qed.
Lemma nxt_at i A D p e : is_lst i A p e →
  nxt i (drop p (A ++ D)) = ((nxt i D).1, (nxt i D).2 + (zlen A - Z.of_nat p)).
Proof.
  intros Hl. pose proof (is_lst_le _ _ _ _ Hl). rewrite drop_app_le by done.
  rewrite nxt_app_low by (by eapply is_lst_low). f_equal. unfold zlen. rewrite drop_length. lia.
Qed.

(** * Reading the heap *)
Lemma tab_ext h lev V V' bk bk' H : tab h lev V bk H →
  (∀ p e i, H !! p = Some e → (i < e_h e)%nat → (V p i).1 = (V' p i).1 ∧ ((i < lev)%nat → (V p i).2 = (V' p i).2)) →
  (∀ p e, H !! p = Some e → bk p = bk' p) →
  tab h lev V' bk' H.
Proof.
  intros Ht HV Hb p e Hp. destruct (Ht p e Hp) as (nd & H1 & H2 & H3 & H4 & H5 & H6).
  exists nd. rewrite <-(Hb p e Hp). repeat split; try done. intros i Hi.
  destruct (H6 i Hi) as (lv & Hlv & E1 & E2). destruct (HV p e i Hp Hi) as [E3 E4].
  exists lv. split; [done|]. split; [congruence|]. intros Hl. rewrite E2, E4 by done. done.
Qed.

Lemma nodup_ids (H : list ent) p q e e' : NoDup (e_id <$> H) → H !! p = Some e → H !! q = Some e' → e_id e = e_id e' → p = q.
Proof.
  intros Hn Hp Hq He. eapply (NoDup_lookup (e_id <$> H)); [done| |].
  - rewrite list_lookup_fmap, Hp. simpl. by rewrite He.
  - by rewrite list_lookup_fmap, Hq.
Qed.

Definition upd2 (V : nat → nat → option nat * Z) (p i : nat) (v : option nat * Z) : nat → nat → option nat * Z :=
  λ p' i', if decide (p' = p ∧ i' = i) then v else V p' i'.

(** [keeps s s']: no node disappears or changes its key *)
Definition keeps (s s' : skiplist) : Prop :=
  ∀ y nd, sl_heap s !! y = Some nd → ∃ nd', sl_heap s' !! y = Some nd' ∧ n_key nd' = n_key nd.
(** [frame s s']: s' differs from s only in the heap, which keeps its domain *)
Definition frame (s s' : skiplist) : Prop :=
  sl_next s' = sl_next s ∧ sl_tail s' = sl_tail s ∧ sl_length s' = sl_length s ∧ sl_level s' = sl_level s ∧
  (∀ y, sl_heap s !! y = None → sl_heap s' !! y = None) ∧ keeps s s'.
Lemma keeps_refl s : keeps s s.
Proof. intros y nd Hy. by exists nd. Qed.
Lemma keeps_trans s1 s2 s3 : keeps s1 s2 → keeps s2 s3 → keeps s1 s3.
Proof. intros H1 H2 y nd Hy. destruct (H1 y nd Hy) as (nd' & Hy' & <-). by apply H2. Qed.
Lemma frame_refl s : frame s s.
Proof. split_and!; try done. apply keeps_refl. Qed.
Lemma frame_trans s1 s2 s3 : frame s1 s2 → frame s2 s3 → frame s1 s3.
Proof.
  intros (H1 & H2 & H3 & H4 & H5 & H6) (H1' & H2' & H3' & H4' & H5' & H6').
  split_and!; try congruence; [auto|by eapply keeps_trans].
Qed.

Lemma set_level_tab s lev V bk H p e i v : NoDup (e_id <$> H) →
  tab (sl_heap s) lev V bk H → H !! p = Some e → (i < e_h e)%nat →
  ∃ s', set_level s (e_id e) i v = Ok s' ∧ frame s s' ∧ tab (sl_heap s') lev (upd2 V p i v) bk H.
Proof.
  intros Hn Ht Hp Hi. destruct (Ht p e Hp) as (nd & H1 & H2 & H3 & H4 & H5 & H6).
  destruct (H6 i Hi) as (lv & Hlv & _). unfold set_level, node, level_of. rewrite H1. simpl. rewrite Hlv. simpl.
  eexists. split; [done|]. split.
  { split_and!; try done; simpl.
    - intros y Hy. rewrite lookup_insert_ne; [done|]. congruence.
    - intros y nd' Hy. simpl. destruct (decide (y = e_id e)) as [->|Hy'].
      + rewrite lookup_insert. eexists. split; [done|]. rewrite H1 in Hy. injection Hy as <-. done.
      + rewrite lookup_insert_ne by done. by exists nd'. }
  simpl. intros p' e' Hp'. destruct (decide (p' = p)) as [->|Hne].
  - rewrite Hp in Hp'. injection Hp' as <-. rewrite lookup_insert. eexists. split; [done|]. simpl.
    repeat split; try done; [by rewrite insert_length|]. intros i' Hi'. unfold upd2.
    destruct (decide (i' = i)) as [->|Hni].
    + exists v. rewrite decide_True by done. split; [|done]. apply list_lookup_insert. lia.
    + destruct (H6 i' Hi') as (lv' & Hlv' & E1 & E2). exists lv'.
      rewrite list_lookup_insert_ne by done. rewrite decide_False by naive_solver. done.
  - assert (e_id e ≠ e_id e'). { intros He. by pose proof (nodup_ids _ _ _ _ _ Hn Hp Hp' He). }
    rewrite lookup_insert_ne by done.
    destruct (Ht p' e' Hp') as (nd' & H1' & H2' & H3' & H4' & H5' & H6').
    exists nd'. repeat split; try done. intros i' Hi'. unfold upd2. rewrite decide_False by naive_solver. by apply H6'.
Qed.

Lemma level_at_tab s lev V bk H p e i : tab (sl_heap s) lev V bk H → H !! p = Some e → (i < e_h e)%nat →
  ∃ lv, level_at s (e_id e) i = Ok lv ∧ lv.1 = (V p i).1 ∧ ((i < lev)%nat → lv = V p i).
Proof.
  intros Ht Hp Hi. destruct (Ht p e Hp) as (nd & H1 & H2 & H3 & H4 & H5 & H6).
  destruct (H6 i Hi) as (lv & Hlv & E1 & E2). exists lv. unfold level_at, node, level_of. rewrite H1. simpl. rewrite Hlv.
  split; [done|]. split; [done|]. intros Hl. apply injective_projections; auto.
Qed.

Lemma node_tab s lev V bk H p e : tab (sl_heap s) lev V bk H → H !! p = Some e →
  ∃ nd, node s (e_id e) = Ok nd ∧ n_member nd = e_member e ∧ n_score nd = e_score e ∧ n_back nd = bk p.
Proof.
  intros Ht Hp. destruct (Ht p e Hp) as (nd & H1 & H2 & H3 & H4 & H5 & H6). exists nd. unfold node. by rewrite H1.
Qed.

Lemma set_back_tab s lev V bk H p e b : NoDup (e_id <$> H) →
  tab (sl_heap s) lev V bk H → H !! p = Some e →
  ∃ s', set_back s (e_id e) b = Ok s' ∧ frame s s' ∧
        tab (sl_heap s') lev V (λ p', if decide (p' = p) then b else bk p') H.
Proof.
  intros Hn Ht Hp. destruct (Ht p e Hp) as (nd & H1 & H2 & H3 & H4 & H5 & H6).
  unfold set_back, node. rewrite H1. simpl. eexists. split; [done|]. split.
  { split_and!; try done; simpl.
    - intros y Hy. rewrite lookup_insert_ne; [done|]. congruence.
    - intros y nd' Hy. simpl. destruct (decide (y = e_id e)) as [->|Hy'].
      + rewrite lookup_insert. eexists. split; [done|]. rewrite H1 in Hy. injection Hy as <-. done.
      + rewrite lookup_insert_ne by done. by exists nd'. }
  simpl. intros p' e' Hp'. destruct (decide (p' = p)) as [->|Hne].
  - rewrite Hp in Hp'. injection Hp' as <-. rewrite lookup_insert. eexists. split; [done|]. simpl. done.
  - assert (e_id e ≠ e_id e'). { intros He. by pose proof (nodup_ids _ _ _ _ _ Hn Hp Hp' He). }
    rewrite lookup_insert_ne by done. by apply Ht.
Qed.

(** * Searching *)
Section walk.
  Context (s : skiplist) (L : list ent) (Hs : str s L).
  Let H := hd_ent :: L.

  Lemma height_le p e : H !! p = Some e → (p = 0%nat ∨ (1 ≤ e_h e ≤ sl_level s)%nat).
  Proof.
    intros Hp. destruct p as [|p]; [by left|]. right. simpl in Hp.
    by apply (Forall_lookup_1 _ _ _ _ (s_height _ _ Hs)) in Hp.
  Qed.
  Lemma height_pos p e : H !! p = Some e → (0 < e_h e)%nat.
  Proof.
    intros Hp. destruct (height_le _ _ Hp) as [->|?]; [|lia]. injection Hp as <-. unfold hd_ent, maxLevel. simpl. lia.
  Qed.

  Lemma at_level p e i : H !! p = Some e → (i < e_h e)%nat → (i < sl_level s)%nat →
    level_at s (e_id e) i = Ok (nxt i (drop p L)).
  Proof.
    intros Hp Hi Hl. destruct (level_at_tab _ _ _ _ _ _ _ _ (s_tab _ _ Hs) Hp Hi) as (lv & E1 & _ & E2).
    rewrite E1, E2 by done. done.
  Qed.
  Lemma at_node p e : H !! p = Some e →
    ∃ nd, node s (e_id e) = Ok nd ∧ n_member nd = e_member e ∧ n_score nd = e_score e ∧ n_back nd = bkof L p.
  Proof. apply (node_tab _ _ _ _ _ _ _ (s_tab _ _ Hs)). Qed.

  (** cond holds exactly of the nodes at positions 1..n *)
  Definition cond_ok (cond : Z → Z → snode → bool) (n : nat) : Prop :=
    ∀ q e nd rank span, L !! q = Some e → rank + span = Z.of_nat (S q) →
      n_score nd = e_score e → n_member nd = e_member e →
      cond rank span nd = bool_decide (q < n)%nat.

  Lemma walk_spec cond n i : cond_ok cond n → (n ≤ length L)%nat → (i < sl_level s)%nat →
    ∀ fuel p e, H !! p = Some e → (i < e_h e)%nat → (p ≤ n)%nat → (n - p < fuel)%nat →
    ∃ p' e', walk fuel s cond i (e_id e) (Z.of_nat p) = Ok (e_id e', Z.of_nat p') ∧ is_lst i (take n L) p' e'.
  Proof.
    intros Hc Hn Hi. induction fuel as [|fuel IH]; intros p e Hp Hh Hpn Hf; [lia|]. simpl.
    rewrite (at_level p e i) by done. simpl.
    assert (Hend : (∀ j e', drop p L !! j = Some e' → (p + j < n)%nat → (e_h e' ≤ i)%nat) → is_lst i (take n L) p e).
    { intros Hlow. split; [|split; [done|]].
      - destruct p as [|p]; [done|]. simpl in *. rewrite lookup_take by lia. done.
      - intros [|q] e' Hq He'; [lia|]. simpl in He'.
        assert (q < n)%nat. { apply lookup_lt_Some in He'. rewrite take_length in He'. lia. }
        rewrite lookup_take in He' by done.
        apply (Hlow (q - p)%nat); [rewrite lookup_drop; rewrite <-He'; f_equal; lia|lia]. }
    destruct (tall_dec i (drop p L)) as [(k & e1 & Hk & Hh1 & Hlow)|Hlow].
    - rewrite (nxt_tall i _ k e1) by done. simpl. rewrite lookup_drop in Hk.
      destruct (at_node (S (p + k)) e1) as (nd & E1 & E2 & E3 & _); [done|]. rewrite E1. simpl.
      rewrite (Hc (p + k)%nat e1) by (try done; lia).
      case_bool_decide as Hlt.
      + replace (Z.of_nat p + (Z.of_nat k + 1)) with (Z.of_nat (S (p + k))) by lia.
        apply IH; [done|done|lia|lia].
      + exists p, e. split; [done|]. apply Hend. intros j e' Hj Hjn. apply (Hlow j e'); [lia|done].
    - rewrite nxt_low by done. simpl. exists p, e. split; [done|]. apply Hend. intros. by eapply Hlow.
  Qed.

  (** what the list of (update, rank) must be *)
  Definition us_ok (A : list ent) (us : list (nat * Z)) (lev : nat) : Prop :=
    ∀ i, (i < lev)%nat → ∃ p e, us !! i = Some (e_id e, Z.of_nat p) ∧ is_lst i A p e.

  Lemma descend_spec cond n : cond_ok cond n → (n ≤ length L)%nat →
    ∀ m p e, (m ≤ sl_level s)%nat → H !! p = Some e → (m ≤ e_h e)%nat → (p ≤ n)%nat →
    ∃ us, descend s cond false m (e_id e) (Z.of_nat p) = Ok us ∧ length us = m ∧ us_ok (take n L) us m.
  Proof.
    intros Hc Hn. induction m as [|m IH]; intros p e Hm Hp Hh Hpn.
    { exists []. split; [done|]. split; [done|]. intros i Hi; lia. }
    pose proof (s_count _ _ Hs).
    destruct (walk_spec cond n m Hc Hn ltac:(lia) (fuel_of s) p e Hp ltac:(lia) Hpn) as (p' & e' & E1 & Hl).
    { unfold fuel_of. lia. }
    cbn [descend]. rewrite E1. cbn [mbind res_bind fst snd].
    assert (Hp' : H !! p' = Some e').
    { destruct Hl as (Hl & _). destruct p' as [|p']; [done|]. simpl in *.
      assert (p' < n)%nat. { apply lookup_lt_Some in Hl. rewrite take_length in Hl. lia. }
      by rewrite lookup_take in Hl. }
    destruct (IH p' e') as (us & E2 & Hlen & Hus); [lia|done|destruct Hl as (_ & ? & _); lia| |].
    { apply is_lst_le in Hl. rewrite take_length in Hl. lia. }
    rewrite E2. simpl. eexists. split; [done|]. split; [rewrite app_length; simpl; lia|].
    intros i Hi. destruct (decide (i = m)) as [->|Hne].
    - exists p', e'. split; [|done]. rewrite lookup_app_r by lia. by rewrite Hlen, Nat.sub_diag.
    - destruct (Hus i ltac:(lia)) as (q & e2 & Hq & Hl2). exists q, e2. split; [|done].
      rewrite lookup_app_l by lia. done.
  Qed.
  Lemma search_spec cond n : cond_ok cond n → (n ≤ length L)%nat →
    ∃ us, search s cond false = Ok us ∧ length us = sl_level s ∧ us_ok (take n L) us (sl_level s).
  Proof.
    intros Hc Hn. pose proof (s_level _ _ Hs).
    destruct (descend_spec cond n Hc Hn (sl_level s) 0 hd_ent) as (us & E & ?); [lia|done|simpl; lia|lia|].
    exists us. done.
  Qed.
End walk.

Lemma us_ok_zero A us lev : (0 < lev)%nat → Forall (λ e, (1 ≤ e_h e)%nat) A → us_ok A us lev →
  ∃ e, us !! 0%nat = Some (e_id e, zlen A) ∧ (hd_ent :: A) !! length A = Some e.
Proof.
  intros Hl HA Hus. destruct (Hus 0%nat Hl) as (p & e & H1 & H2).
  pose proof (is_lst_zero _ _ _ HA H2) as ->. exists e. split; [done|]. by destruct H2.
Qed.

(** * A sorted list splits at a threshold *)
Definition nn (L : list ent) : Prop := Forall (λ e, not_nan (e_score e)) L.

Lemma sorted_split (P : ent → bool) L : nn L → sorted L →
  (∀ a b, not_nan (e_score a) → not_nan (e_score b) → elt (e_key a) (e_key b) = true → P b = true → P a = true) →
  ∃ A Bb, L = A ++ Bb ∧ Forall (λ e, P e = true) A ∧ Forall (λ e, P e = false) Bb.
Proof.
  intros Hnn Hso HP. induction L as [|a L IH].
  { exists [], []. done. }
  apply Forall_cons in Hnn as [Ha Hnn]. apply StronglySorted_inv in Hso as [Hso Hall].
  destruct (IH Hnn Hso) as (A & Bb & -> & HA & HB). destruct (P a) eqn:Ea.
  - exists (a :: A), Bb. split; [done|]. split; [by constructor|done].
  - exists [], (a :: A ++ Bb). split; [done|]. split; [done|]. constructor; [done|].
    apply Forall_app. split; [|done]. apply Forall_forall. intros e He.
    apply not_true_is_false. intros Hp. apply (HP a e) in Hp; [congruence|done| |].
    + eapply Forall_forall in Hnn; [exact Hnn|]. set_solver.
    + eapply Forall_forall in Hall; [exact Hall|]. set_solver.
Qed.

Lemma cond_ok_split (P : ent → bool) (cond : Z → Z → snode → bool) A Bb :
  (∀ e nd rank span, n_score nd = e_score e → n_member nd = e_member e → cond rank span nd = P e) →
  Forall (λ e, P e = true) A → Forall (λ e, P e = false) Bb →
  cond_ok (A ++ Bb) cond (length A).
Proof.
  intros Hc HA HB q e nd rank span Hq _ Hsc Hm. rewrite (Hc e nd rank span Hsc Hm).
  case_bool_decide as Hlt.
  - rewrite lookup_app_l in Hq by done. by apply (Forall_lookup_1 _ _ _ _ HA) in Hq.
  - rewrite lookup_app_r in Hq by lia. by apply (Forall_lookup_1 _ _ _ _ HB) in Hq.
Qed.
