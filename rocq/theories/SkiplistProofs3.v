(** deleteNode preserves the skiplist invariant. *)
From Verif Require Import Base Float SkiplistModel SkiplistProofs SkiplistProofs2.
From Coq Require Import ZifyBool ZifyNat.
Implicit Types A Bb L R H : list ent.

Lemma nxt_in i R y : (nxt i R).1 = Some y → y ∈ e_id <$> R.
Proof.
  induction R as [|a R IH]; simpl; [done|]. case_match; simpl.
  - intros [= <-]. set_solver.
  - intros Hy. apply IH in Hy. set_solver.
Qed.

Definition Vdel A Bb (x : ent) (k p i : nat) : option nat * Z :=
  if decide (i < k ∧ p ≤ length A)%nat then nxt i (drop p (A ++ Bb)) else vof (A ++ x :: Bb) p i.

Lemma Vdel_step A Bb x k p0 e0 v :
  is_lst k A p0 e0 → v = nxt k (drop p0 (A ++ Bb)) →
  ∀ p e i, (hd_ent :: A ++ x :: Bb) !! p = Some e → (i < e_h e)%nat →
    upd2 (Vdel A Bb x k) p0 k v p i = Vdel A Bb x (S k) p i.
Proof.
  intros Hl -> p e i Hp Hi. pose proof (is_lst_le _ _ _ _ Hl).
  unfold upd2. destruct (decide (i = k)) as [->|Hne].
  - destruct (decide (p = p0)) as [->|Hp0].
    + rewrite decide_True by done. unfold Vdel. by rewrite decide_True by lia.
    + rewrite decide_False by naive_solver. unfold Vdel. rewrite decide_False by lia.
      destruct (decide (p ≤ length A)%nat) as [Hle|].
      * rewrite decide_True by lia. unfold vof. eapply nxt_other; [done| |done|done]. by eapply lookup_old_inv.
      * by rewrite decide_False by lia.
  - rewrite decide_False by naive_solver. unfold Vdel.
    destruct (decide (i < k ∧ p ≤ length A)%nat).
    + by rewrite decide_True by lia.
    + by rewrite decide_False by lia.
Qed.

Lemma tab_drop h lev A Bb x : 
  tab h lev (Vdel A Bb x lev) (λ p, if decide (p = S (S (length A))) then bkof (A ++ x :: Bb) (S (length A)) else bkof (A ++ x :: Bb) p)
    (hd_ent :: A ++ x :: Bb) →
  Forall (λ e, (e_h e ≤ lev)%nat) (A ++ x :: Bb) →
  tab h lev (vof (A ++ Bb)) (bkof (A ++ Bb)) (hd_ent :: A ++ Bb).
Proof.
  intros Ht Hh p e Hp. destruct (decide (p ≤ length A)%nat) as [Hle|Hgt].
  - pose proof (lookup_old_inv _ _ _ _ Hle Hp) as Hp1.
    destruct (Ht p e (lookup_old A (x :: Bb) p e Hp1)) as (nd & N1 & N2 & N3 & N4 & N5 & N6).
    exists nd. split_and!; try done.
    { rewrite N4. rewrite decide_False by lia. apply bk_old. lia. }
    intros i Hi. destruct (N6 i Hi) as (lv & M1 & M2 & M3). exists lv. split; [done|].
    unfold Vdel in M2, M3. destruct (decide (i < lev)%nat).
    + rewrite decide_True in M2, M3 by lia. done.
    + rewrite decide_False in M2 by lia. split; [|lia]. rewrite M2.
      assert (p = 0%nat) as ->.
      { destruct p as [|p]; [done|]. simpl in Hp1. apply Forall_app in Hh as [Hh _].
        apply (Forall_lookup_1 _ _ _ _ Hh) in Hp1. simpl in Hp1. lia. }
      unfold vof. rewrite !drop_0. rewrite (nxt_low i (A ++ x :: Bb)).
      2:{ intros j e' Hj. apply (Forall_lookup_1 _ _ _ _ Hh) in Hj. simpl in Hj. lia. }
      rewrite nxt_low; [done|].
      intros j e' Hj. apply Forall_app in Hh as [Hh1 Hh2]. apply Forall_cons in Hh2 as [_ Hh2].
      apply lookup_app_Some in Hj as [Hj|[_ Hj]];
          [apply (Forall_lookup_1 _ _ _ _ Hh1) in Hj|apply (Forall_lookup_1 _ _ _ _ Hh2) in Hj]; simpl in Hj; lia.
  - assert (Hp' : (hd_ent :: A ++ x :: Bb) !! S p = Some e).
    { destruct p as [|p]; [lia|]. simpl in *. rewrite lookup_app_r in Hp |- * by lia.
      by replace (S p - length A)%nat with (S (p - length A)) by lia. }
    destruct (Ht (S p) e Hp') as (nd & N1 & N2 & N3 & N4 & N5 & N6).
    exists nd. split_and!; try done.
    { rewrite N4. destruct (decide (S p = S (S (length A)))) as [Hps|Hps].
      - replace p with (S (length A)) by lia. by apply bk_old.
      - rewrite bk_mid by lia. f_equal. lia. }
    intros i Hi. destruct (N6 i Hi) as (lv & M1 & M2 & M3). exists lv. split; [done|].
    unfold Vdel in M2, M3. rewrite decide_False in M2, M3 by lia.
    unfold vof in *. rewrite drop_mid in M2, M3 by lia. by replace (S p - 1)%nat with p in M2, M3 by lia.
Qed.

Lemma lower_level_spec s V bk L : ∀ lev, tab (sl_heap s) lev V bk (hd_ent :: L) → (∀ i, (V 0%nat i).1 = (nxt i L).1) →
  (1 ≤ lev ≤ maxLevel)%nat → Forall (λ e, (e_h e ≤ lev)%nat) L →
  ∃ l, lower_level lev s = Ok l ∧ (1 ≤ l ≤ lev)%nat ∧ Forall (λ e, (e_h e ≤ l)%nat) L ∧
    (l = 1%nat ∨ ∃ e, e ∈ L ∧ e_h e = l).
Proof.
  induction lev as [|lev IH]; intros Ht HV Hlev Hh; [lia|]. cbn [lower_level]. destruct lev as [|lev'].
  { exists 1%nat. split; [done|]. split; [lia|]. split; [done|by left]. }
  destruct (level_at_tab s _ V bk _ 0 hd_ent (S lev') Ht eq_refl) as (lv & El & Hlv & _); [simpl; lia|].
  change (e_id hd_ent) with HEAD in El. rewrite El. cbn [mbind res_bind]. rewrite Hlv, HV.
  destruct (tall_dec (S lev') L) as [(k & e & K1 & K2 & K3)|Hlow].
  - rewrite (nxt_tall _ _ k e) by done. simpl. exists (S (S lev')). split; [done|]. split; [lia|]. split; [done|].
    right. exists e. split; [by eapply elem_of_list_lookup_2|].
    apply (Forall_lookup_1 _ _ _ _ Hh) in K1. simpl in K1. lia.
  - rewrite nxt_low by done. simpl. destruct IH as (l & E & H1 & H2 & H3).
    + intros p e Hp. destruct (Ht p e Hp) as (nd & N1 & N2 & N3 & N4 & N5 & N6).
      exists nd. split_and!; try done. intros i Hi. destruct (N6 i Hi) as (lv2 & M1 & M2 & M3).
      exists lv2. split_and!; try done. intros. apply M3. lia.
    + done.
    + lia.
    + apply Forall_lookup_2. intros j e Hj. by apply Hlow in Hj.
    + exists l. split; [exact E|]. split; [lia|done].
Qed.

Definition upd_ok A (update : list nat) (lev : nat) : Prop :=
  ∀ i, (i < lev)%nat → ∃ p e, update !! i = Some (e_id e) ∧ is_lst i A p e.
Lemma us_upd_ok A us lev : us_ok A us lev → upd_ok A us.*1 lev.
Proof.
  intros Hus i Hi. destruct (Hus i Hi) as (p & e & H1 & H2). exists p, e. split; [|done].
  by rewrite list_lookup_fmap, H1.
Qed.

Lemma deleteNode_spec s A x Bb update : str s (A ++ x :: Bb) → upd_ok A update (sl_level s) →
  ∃ s', deleteNode s (e_id x) update = Ok s' ∧ str s' (A ++ Bb) ∧ keeps s s' ∧ (sl_level s' ≤ sl_level s)%nat ∧
    sl_next s' = sl_next s.
Proof.
  intros Hs Hup. unfold deleteNode. set (lev := sl_level s) in *.
  pose proof (s_nodup _ _ Hs) as Hnd. pose proof (s_height _ _ Hs) as Hh. pose proof (s_level _ _ Hs) as Hsl.
  assert (Hhx : (1 ≤ e_h x ≤ lev)%nat).
  { pose proof Hh as Hh'. apply Forall_app in Hh' as [_ Hh']. apply Forall_cons in Hh' as [? _]. done. }
  assert (Ht0 : tab (sl_heap s) lev (Vdel A Bb x 0) (bkof (A ++ x :: Bb)) (hd_ent :: A ++ x :: Bb)).
  { eapply tab_ext; [apply (s_tab _ _ Hs)| |done]. intros p e i _ _. unfold Vdel. rewrite decide_False by lia. done. }
  match goal with |- context [for_levels (seq 0 lev) ?b _] => set (body := b) end.
  destruct (for_levels_tab lev (Vdel A Bb x) _ _ body 0 lev s Ht0) as (s1 & E1 & Hf1 & Ht1).
  { intros i t Hi Ht. unfold body. destruct (Hup i ltac:(lia)) as (p & e & Eu & Hl). rewrite Eu.
    cbn [deref mbind res_bind fst snd].
    assert (Hpe : (hd_ent :: A ++ x :: Bb) !! p = Some e) by (apply (lookup_old A (x :: Bb)); apply Hl).
    destruct (level_at_tab t lev _ _ _ p e i Ht Hpe) as (l & El & _ & Hl2); [apply Hl|].
    rewrite El. cbn [mbind res_bind]. rewrite Hl2 by lia. clear l El Hl2.
    assert (Hvd : Vdel A Bb x i p i = nxt i (drop p (A ++ x :: Bb))).
    { unfold Vdel. rewrite decide_False by lia. done. }
    rewrite Hvd, (nxt_at i A (x :: Bb) p e Hl). clear Hvd.
    pose proof (nxt_at i A Bb p e Hl) as Hnew.
    assert (Hgoal : ∀ v, v = nxt i (drop p (A ++ Bb)) → ∃ s', set_level t (e_id e) i v = Ok s' ∧ frame t s' ∧
       tab (sl_heap s') lev (Vdel A Bb x (S i)) (bkof (A ++ x :: Bb)) (hd_ent :: A ++ x :: Bb)).
    { intros v Hv. destruct (set_level_tab t lev _ _ _ p e i v Hnd Ht Hpe) as (t2 & T2 & Hf2 & Ht2'); [apply Hl|].
      exists t2. split; [done|]. split; [done|]. eapply tab_ext; [exact Ht2'| |done].
      intros p1 e1 i1 Hp1 Hi1. rewrite (Vdel_step A Bb x i p e v Hl Hv p1 e1 i1) by done. done. }
    simpl. destruct (Nat.ltb i (e_h x)) eqn:Ei; simpl.
    - rewrite decide_True by done.
      destruct (level_at_tab t lev _ _ _ (S (length A)) x i Ht (lookup_mid A Bb x)) as (l & El & _ & Hl2); [lia|].
      rewrite El. cbn [mbind res_bind]. rewrite Hl2 by lia.
      assert (Hvd : Vdel A Bb x i (S (length A)) i = nxt i Bb).
      { unfold Vdel. rewrite decide_False by lia. unfold vof. by rewrite drop_mid0. }
      rewrite Hvd. apply Hgoal. rewrite Hnew. f_equal. lia.
    - rewrite decide_False.
      + apply Hgoal. rewrite Hnew. f_equal. lia.
      + intros Hin%nxt_in. rewrite fmap_cons, fmap_app, fmap_cons in Hnd.
        apply NoDup_cons in Hnd as [_ Hnd]. apply NoDup_app in Hnd as (_ & _ & Hnd).
        apply NoDup_cons in Hnd as [Hnd _]. done. }
  rewrite E1. cbn [mbind res_bind].
  destruct (level_at_tab s1 lev _ _ _ (S (length A)) x 0 Ht1 (lookup_mid A Bb x)) as (l & El & _ & Hl2); [lia|].
  rewrite El. cbn [mbind res_bind]. rewrite Hl2 by lia. clear l El Hl2.
  unfold Vdel at 1. rewrite decide_False by lia. unfold vof at 1. rewrite drop_mid0.
  destruct (node_tab s1 lev _ _ _ (S (length A)) x Ht1 (lookup_mid A Bb x)) as (nx & En & _ & _ & Hnb).
  rewrite En. cbn [mbind res_bind]. rewrite Hnb.
  assert (Hhd : ∀ i, (Vdel A Bb x lev 0%nat i).1 = (nxt i (A ++ Bb)).1).
  { intros i. unfold Vdel. destruct (decide (i < lev)%nat).
    - rewrite decide_True by lia. by rewrite drop_0.
    - rewrite decide_False by lia. unfold vof. rewrite drop_0. rewrite !nxt_low; [done| |].
      + intros j e' Hj. apply Forall_app in Hh as [Hh1 Hh2]. apply Forall_cons in Hh2 as [_ Hh2].
        apply lookup_app_Some in Hj as [Hj|[_ Hj]];
          [apply (Forall_lookup_1 _ _ _ _ Hh1) in Hj|apply (Forall_lookup_1 _ _ _ _ Hh2) in Hj]; simpl in Hj; lia.
      + intros j e' Hj. apply (Forall_lookup_1 _ _ _ _ Hh) in Hj. simpl in Hj. lia. }
  assert (Hfin : ∀ s2, sl_next s2 = sl_next s → sl_length s2 = sl_length s → sl_level s2 = lev →
     (∀ y, sl_heap s !! y = None → sl_heap s2 !! y = None) → keeps s s2 →
     tab (sl_heap s2) lev (Vdel A Bb x lev) (λ p, if decide (p = S (S (length A))) then bkof (A ++ x :: Bb) (S (length A)) else bkof (A ++ x :: Bb) p)
       (hd_ent :: A ++ x :: Bb) →
     sl_tail s2 = e_id <$> last (A ++ Bb) →
     ∃ s', (l ← lower_level (sl_level s2) s2;
       Ok (MkSl (sl_heap s2) (sl_next s2) (sl_tail s2) (sl_length s2 - 1) l)) = Ok s' ∧
       str s' (A ++ Bb) ∧ keeps s s' ∧ (sl_level s' ≤ lev)%nat ∧ sl_next s' = sl_next s).
  { intros s2 G1 G2 G3 G4 G5 Ht2 Htl. rewrite G3.
    assert (Ht3 : tab (sl_heap s2) lev (vof (A ++ Bb)) (bkof (A ++ Bb)) (hd_ent :: A ++ Bb)).
    { apply (tab_drop _ _ _ _ x); [done|]. eapply Forall_impl; [exact Hh|]. simpl; intros; lia. }
    assert (HhAB : Forall (λ e, (1 ≤ e_h e ≤ lev)%nat) (A ++ Bb)).
    { apply Forall_app in Hh as [Hh1 Hh2]. apply Forall_cons in Hh2 as [_ Hh2]. by apply Forall_app. }
    destruct (lower_level_spec s2 _ _ (A ++ Bb) lev Ht3) as (l & -> & Hl1 & Hl2 & _).
    { intros i. done. }
    { done. }
    { eapply Forall_impl; [exact HhAB|]. simpl; intros; lia. }
    cbn [mbind res_bind]. eexists. split; [done|]. simpl. split_and!; [|exact G5|lia|done].
    split; simpl.
    - intros p e Hp. destruct (Ht3 p e Hp) as (nd & N1 & N2 & N3 & N4 & N5 & N6).
      exists nd. split_and!; try done. intros i Hi. destruct (N6 i Hi) as (lv2 & M1 & M2 & M3).
      exists lv2. split_and!; try done. intros. apply M3. lia.
    - rewrite fmap_cons, fmap_app, fmap_cons in Hnd. rewrite fmap_app.
      apply NoDup_cons in Hnd as [Hn1 Hn2]. apply NoDup_cons. split; [set_solver|].
      apply NoDup_app in Hn2 as (Hn2 & Hn3 & Hn4). apply NoDup_cons in Hn4 as [_ Hn4].
      apply NoDup_app. split_and!; [done| |done]. intros y Hy Hy'. apply (Hn3 y Hy). set_solver.
    - rewrite G1. pose proof (s_fresh _ _ Hs) as Hfs. apply Forall_cons in Hfs as [Hfs1 Hfs2].
      apply Forall_app in Hfs2 as [Hfs2 Hfs3]. apply Forall_cons in Hfs3 as [_ Hfs3].
      constructor; [done|]. by apply Forall_app.
    - rewrite G1. intros y Hy. apply G4. by apply (s_free _ _ Hs).
    - rewrite G1. pose proof (s_count _ _ Hs) as Hcn. rewrite app_length in *. simpl in Hcn. lia.
    - apply Forall_lookup_2. intros j e Hj. pose proof (Forall_lookup_1 _ _ _ _ HhAB Hj).
      pose proof (Forall_lookup_1 _ _ _ _ Hl2 Hj). simpl in *. lia.
    - lia.
    - done.
    - rewrite G2, (s_length _ _ Hs). unfold zlen. rewrite !app_length. simpl. lia. }
  destruct Hf1 as (F1 & F2 & F3 & F4 & F5 & F6).
  destruct Bb as [|b Bb'].
  - cbn [nxt fst mbind res_bind].
    apply (Hfin (MkSl (sl_heap s1) (sl_next s1) (bkof (A ++ [x]) (S (length A))) (sl_length s1) (sl_level s1)));
      cbn [sl_heap sl_next sl_tail sl_length sl_level]; [congruence|congruence|exact F4|done| | |].
    + intros y nd Hy. by apply F6.
    + eapply tab_ext; [exact Ht1|done|]. intros p e Hp. simpl. rewrite decide_False; [done|].
      apply lookup_lt_Some in Hp. simpl in Hp. rewrite app_length in Hp. simpl in Hp. lia.
    + rewrite app_nil_r. destruct A as [|a A' _] using rev_ind; [done|].
      rewrite app_length, last_snoc. simpl. rewrite Nat.add_1_r. simpl. rewrite <-app_assoc.
      rewrite lookup_app_r, Nat.sub_diag by lia. done.
  - assert (0 < e_h b)%nat as Hb.
    { apply Forall_app in Hh as [_ Hh]. apply Forall_cons in Hh as [_ Hh]. apply Forall_cons in Hh as [Hh _]. lia. }
    rewrite nxt_cons by done. cbn [fst].
    assert (Hpb : (hd_ent :: A ++ x :: b :: Bb') !! S (S (length A)) = Some b).
    { simpl. rewrite lookup_app_r by lia. by replace (S (length A) - length A)%nat with 1%nat by lia. }
    destruct (set_back_tab s1 lev _ _ _ (S (S (length A))) b (bkof (A ++ x :: b :: Bb') (S (length A))) Hnd Ht1 Hpb) as (s2 & E2 & Hf2 & Ht2).
    rewrite E2. cbn [mbind res_bind]. destruct Hf2 as (J1 & J2 & J3 & J4 & J5 & J6).
    apply Hfin; [congruence|congruence|by rewrite J4|auto|by eapply keeps_trans|done|].
    rewrite J2, F2, (s_tail _ _ Hs). rewrite !last_snoc_app.
    change (last (x :: b :: Bb')) with (last (b :: Bb')).
    destruct (last (b :: Bb')) eqn:El'; [done|]. by apply last_None in El'.
Qed.
