(** The skiplist operations against the abstract sequence. *)
From Verif Require Import Base Float SkiplistModel SkiplistProofs SkiplistProofs2 SkiplistProofs3.
From Coq Require Import ZifyBool ZifyNat.
Implicit Types A Bb L R H C D : list ent.

(** The full invariant: well-linked, strictly ordered, no NaN *)
Definition sinv (s : skiplist) (L : list ent) : Prop := str s L ∧ sorted L ∧ nn L.

Lemma sinv_new : sinv NewSkiplist [].
Proof.
  split; [|split; constructor]. split; simpl.
  - intros [|p] e Hp; [|done]. injection Hp as <-. eexists. split; [apply lookup_insert|]. simpl. split_and!; try done.
    intros i Hi. exists (None, 0). split; [|done]. apply (lookup_replicate_2 maxLevel). done.
  - apply NoDup_singleton.
  - repeat constructor.
  - intros y Hy. apply lookup_singleton_ne. unfold HEAD. lia.
  - lia.
  - constructor.
  - unfold maxLevel; lia.
  - done.
  - done.
Qed.

Lemma sorted_app L1 L2 : sorted (L1 ++ L2) ↔ sorted L1 ∧ sorted L2 ∧ ∀ a b, a ∈ L1 → b ∈ L2 → elt (e_key a) (e_key b) = true.
Proof.
  induction L1 as [|a L1 IH]; simpl.
  - split; [intros H; split_and!; [constructor|done|set_solver]|tauto].
  - split.
    + intros [H1 H2]%StronglySorted_inv. apply IH in H1 as (H1 & H3 & H4). apply Forall_app in H2 as [H2 H2'].
      split_and!; [by constructor|done|]. intros x y [->|Hx]%elem_of_cons Hy; [|auto].
      eapply Forall_forall in H2'; [exact H2'|done].
    + intros (H1 & H2 & H3). apply StronglySorted_inv in H1 as [H1 H4]. constructor.
      * apply IH. split_and!; [done|done|]. intros. apply H3; set_solver.
      * apply Forall_app. split; [done|]. apply Forall_forall. intros. apply H3; set_solver.
Qed.

Lemma cond_before k A Bb : Forall (λ e, elt (e_key e) k = true) A → Forall (λ e, elt (e_key e) k = false) Bb →
  cond_ok (A ++ Bb) (before k) (length A).
Proof.
  intros HA HB. apply (cond_ok_split (λ e, elt (e_key e) k)); [|done|done].
  intros e nd rk sp Hs Hm. unfold before, n_key, e_key. by rewrite Hs, Hm.
Qed.

Lemma split_before k L : not_nan k.1 → nn L → sorted L →
  ∃ A Bb, L = A ++ Bb ∧ Forall (λ e, elt (e_key e) k = true) A ∧ Forall (λ e, elt (e_key e) k = false) Bb.
Proof.
  intros Hk Hnn Hso. apply sorted_split; [done|done|]. intros a b Ha Hb Hab Hbk. by eapply (elt_trans (e_key a) (e_key b)).
Qed.

Theorem Insert_sinv s L level score member : sinv s L → 1 ≤ level ≤ Z.of_nat maxLevel → not_nan score →
  Forall (λ e, esame (e_key e) (score, member) = false) L →
  ∃ A Bb s', L = A ++ Bb ∧ Insert s level score member = Ok (s', sl_next s) ∧
    sinv s' (A ++ E (sl_next s) (Z.to_nat level) score member :: Bb) ∧ keeps s s'.
Proof.
  intros (Hs & Hso & Hnn) Hlev Hsc Hnew.
  destruct (split_before (score, member) L Hsc Hnn Hso) as (A & Bb & -> & HA & HB).
  destruct (Insert_spec s A Bb level score member Hs Hlev (cond_before _ _ _ HA HB)) as (s' & E1 & Hs' & Hk).
  exists A, Bb, s'. split; [done|]. split; [done|]. split; [|done]. split; [done|].
  apply Forall_app in Hnn as [HnA HnB]. apply Forall_app in Hnew as [_ HnewB].
  apply sorted_app in Hso as (HsA & HsB & HsAB).
  split.
  - apply sorted_app. split_and!; [done| |].
    + constructor; [done|]. apply Forall_forall. intros b Hb.
      eapply Forall_forall in HB; [|exact Hb]. eapply Forall_forall in HnB; [|exact Hb]. eapply Forall_forall in HnewB; [|exact Hb].
      unfold e_key at 1. simpl. destruct (elt (score, member) (e_key b)) eqn:E; [done|].
      pose proof (elt_total (e_key b) (score, member) HnB Hsc HB E). simpl in HnewB. congruence.
    + intros a b Ha [->|Hb]%elem_of_cons; [|auto]. eapply Forall_forall in HA; [|exact Ha]. done.
  - apply Forall_app. split; [done|]. by constructor.
Qed.

Lemma filter_none_true (f : ent → bool) L : Forall (λ e, f e = true) L → filter (λ e, f e = true) L = L.
Proof. induction 1; [done|]. rewrite filter_cons_True by done. by f_equal. Qed.
Lemma filter_none (f : ent → bool) L : Forall (λ e, f e = false) L → filter (λ e, f e = true) L = [].
Proof. induction 1; [done|]. rewrite filter_cons_False by congruence. done. Qed.

Lemma nxt0 L : Forall (λ e, (1 ≤ e_h e)%nat) L → nxt 0 L = match L with [] => (None, 0) | e :: _ => (Some (e_id e), 1) end.
Proof. intros [|e L' He _]; [done|]. apply nxt_cons. lia. Qed.
Lemma heights_pos s L : str s L → Forall (λ e, (1 ≤ e_h e)%nat) L.
Proof. intros Hs. eapply Forall_impl; [apply (s_height _ _ Hs)|]. simpl; intros; lia. Qed.

(** the node after position p *)
Lemma at_level0 s L p e : str s L → (hd_ent :: L) !! p = Some e →
  level_at s (e_id e) 0 = Ok (match drop p L with [] => (None, 0) | e :: _ => (Some (e_id e), 1) end).
Proof.
  intros Hs Hp. pose proof (s_level _ _ Hs). rewrite (at_level s L Hs p e) by (try done; try lia; by eapply height_pos).
  rewrite nxt0; [done|]. apply Forall_drop. by eapply heights_pos.
Qed.

(** the outcome of a search that stops after A *)
Lemma search_at s A Bb cond : str s (A ++ Bb) → cond_ok (A ++ Bb) cond (length A) →
  ∃ us e, search s cond false = Ok us ∧ us_ok A us (sl_level s) ∧ us !! 0%nat = Some (e_id e, zlen A) ∧
    (hd_ent :: A ++ Bb) !! length A = Some e ∧
    level_at s (e_id e) 0 = Ok (match Bb with [] => (None, 0) | e :: _ => (Some (e_id e), 1) end).
Proof.
  intros Hs Hc.
  destruct (search_spec s _ Hs _ _ Hc ltac:(rewrite app_length; lia)) as (us & E1 & Hlen & Hus).
  rewrite take_app in Hus. pose proof (s_level _ _ Hs).
  pose proof (heights_pos _ _ Hs) as Hh. apply Forall_app in Hh as [HhA _].
  destruct (us_ok_zero A us (sl_level s) ltac:(lia) HhA Hus) as (e0 & E0 & Hp0).
  exists us, e0. split_and!; try done.
  - by apply lookup_old.
  - rewrite (at_level0 s (A ++ Bb) (length A)); [|done|by apply lookup_old]. by rewrite drop_app.
Qed.

Theorem SlDelete_sinv s L score member : sinv s L → not_nan score →
  ∃ s' r, SlDelete s score member = Ok (s', r) ∧ keeps s s' ∧
    sinv s' (filter (λ e, negb (esame (e_key e) (score, member)) = true) L) ∧ sl_next s' = sl_next s.
Proof.
  intros (Hs & Hso & Hnn) Hsc. set (k := (score, member)).
  destruct (split_before k L Hsc Hnn Hso) as (A & Bb & -> & HA & HB).
  destruct (search_at s A Bb (before k) Hs (cond_before _ _ _ HA HB)) as (us & e0 & E1 & Hus & E0 & Hp0 & Elv).
  unfold SlDelete. fold k. rewrite E1. cbn [mbind res_bind]. rewrite E0. cbn [deref mbind res_bind fst].
  rewrite Elv. cbn [mbind res_bind].
  pose proof Hnn as Hnn'. apply Forall_app in Hnn' as [HnA HnB].
  assert (HfA : Forall (λ e, negb (esame (e_key e) k) = true) A).
  { apply Forall_forall. intros a Ha. eapply Forall_forall in HA; [|exact Ha]. eapply Forall_forall in HnA; [|exact Ha].
    simpl in HA. destruct (esame (e_key a) k) eqn:E; [|done]. apply esame_elt in E; [|done|done]. congruence. }
  rewrite filter_app, (filter_none_true _ A HfA).
  destruct Bb as [|b Bb']; cbn [fst].
  { exists s, None. split; [done|]. split; [apply keeps_refl|]. rewrite filter_nil. done. }
  assert (Hpb : (hd_ent :: A ++ b :: Bb') !! S (length A) = Some b) by apply lookup_mid.
  destruct (at_node s _ Hs _ _ Hpb) as (nb & -> & Hm & Hsb & _). cbn [mbind res_bind]. rewrite Hm, Hsb.
  apply Forall_cons in HnB as [Hnb HnB]. apply sorted_app in Hso as (HsA & HsB & HsAB).
  apply StronglySorted_inv in HsB as [HsB HsbB].
  assert (HfB : Forall (λ e, negb (esame (e_key e) k) = true) Bb').
  { apply Forall_forall. intros a Ha. apply Forall_cons in HB as [HB _].
    eapply Forall_forall in HsbB; [|exact Ha]. eapply Forall_forall in HnB; [|exact Ha]. simpl in *.
    destruct (esame (e_key a) k) eqn:E; [|done].
    pose proof (esame_elt_r (e_key a) k (e_key b) HnB Hsc Hnb E). congruence. }
  assert (Heq : feq score (e_score b) && bool_decide (member = e_member b) = esame (e_key b) k).
  { rewrite (esame_sym (e_key b) k Hnb Hsc). done. }
  rewrite Heq. destruct (esame (e_key b) k) eqn:Eb.
  - destruct (deleteNode_spec s A b Bb' us.*1 Hs) as (s' & E2 & Hs' & Hk & _ & Hnx); [by apply us_upd_ok|].
    rewrite E2. cbn [mbind res_bind]. exists s', (Some (e_id b)). split; [done|]. split; [done|]. split; [|done].
    rewrite filter_cons_False by (rewrite Eb; done). rewrite (filter_none_true _ Bb' HfB).
    split; [done|]. split.
    + apply sorted_app. split_and!; [done|done|]. intros. apply HsAB; set_solver.
    + by apply Forall_app.
  - exists s, (Some (e_id b)). split; [done|]. split; [apply keeps_refl|]. split; [|done].
    rewrite filter_cons_True by (rewrite Eb; done). rewrite (filter_none_true _ Bb' HfB).
    split; [done|]. split; [|done]. apply sorted_app. split_and!; [done| |done]. by constructor.
Qed.

(** * Deleting a segment *)
Lemma delete_loop_spec update cond A D : ∀ C fuel s i acc,
  str s (A ++ C ++ D) → upd_ok A update (sl_level s) → (length C < fuel)%nat →
  (∀ j e nd, C !! j = Some e → n_score nd = e_score e → cond (i + Z.of_nat j) nd = true) →
  (∀ e nd, head D = Some e → n_score nd = e_score e → cond (i + zlen C) nd = false) →
  ∃ s', delete_loop fuel s update cond i (e_id <$> head (C ++ D)) acc = Ok (s', acc ++ (e_id <$> C)) ∧
    str s' (A ++ D) ∧ keeps s s' ∧ sl_next s' = sl_next s.
Proof.
  induction C as [|c C IH]; intros fuel s i acc Hs Hup Hf HC HD.
  - destruct fuel as [|fuel]; [simpl in Hf; lia|]. simpl. destruct D as [|d D]; simpl.
    + exists s. rewrite app_nil_r. split; [done|]. split; [done|]. split; [apply keeps_refl|done].
    + assert (Hpd : (hd_ent :: A ++ d :: D) !! S (length A) = Some d) by apply lookup_mid.
      destruct (at_node s _ Hs _ _ Hpd) as (nb & -> & Hm & Hsb & _). cbn [mbind res_bind].
      pose proof (HD d nb eq_refl Hsb) as Hc. unfold zlen in Hc. simpl in Hc. rewrite Z.add_0_r in Hc. rewrite Hc.
      exists s. rewrite app_nil_r. split; [done|]. split; [done|]. split; [apply keeps_refl|done].
  - destruct fuel as [|fuel]; [lia|]. simpl. change (A ++ (c :: C) ++ D) with (A ++ c :: C ++ D) in Hs.
    assert (Hpc : (hd_ent :: A ++ c :: C ++ D) !! S (length A) = Some c) by apply lookup_mid.
    destruct (at_node s _ Hs _ _ Hpc) as (nc & En & Hm & Hsc & _). rewrite En. cbn [mbind res_bind].
    pose proof (HC 0%nat c nc eq_refl Hsc) as Hc. simpl in Hc. rewrite Z.add_0_r in Hc. rewrite Hc.
    pose proof (at_level0 s _ _ _ Hs Hpc) as Elv. unfold level_at in Elv. rewrite En in Elv. cbn [mbind res_bind] in Elv.
    rewrite Elv, drop_mid0. cbn [mbind res_bind].
    destruct (deleteNode_spec s A c (C ++ D) update Hs Hup) as (s1 & E1 & Hs1 & Hk1 & Hl1 & Hn1).
    rewrite E1. cbn [mbind res_bind].
    destruct (IH fuel s1 (i + 1) (acc ++ [e_id c])) as (s2 & E2 & Hs2 & Hk2 & Hn2).
    + done.
    + intros j Hj. apply Hup. lia.
    + simpl in Hf. lia.
    + intros j e nd Hj Hnd. replace (i + 1 + Z.of_nat j) with (i + Z.of_nat (S j)) by lia. by apply (HC (S j) e nd).
    + intros e nd Hd Hnd. replace (i + 1 + zlen C) with (i + zlen (c :: C)) by (unfold zlen; simpl; lia). by apply (HD e nd).
    + exists s2. split; [|split; [done|split; [by eapply keeps_trans|congruence]]].
      assert (match C ++ D with [] => (None, 0) | e :: _ => (Some (e_id e), 1) end.1 = e_id <$> head (C ++ D)) as ->.
      { by destruct (C ++ D). }
      rewrite E2. by rewrite <-app_assoc.
Qed.

(** score inside [min,max]; for a NaN min the first test is void, as in Go *)
Definition in_range (mn mx : float) (e : ent) : bool := negb (flt (e_score e) mn) && fle (e_score e) mx.

Lemma split_range mn mx L : nn L → sorted L →
  ∃ A C D, L = A ++ C ++ D ∧ Forall (λ e, flt (e_score e) mn = true) A ∧
    Forall (λ e, flt (e_score e) mn = false) (C ++ D) ∧
    Forall (λ e, fle (e_score e) mx = true) C ∧ Forall (λ e, fle (e_score e) mx = false) D ∧
    filter (λ e, in_range mn mx e = true) L = C ∧ filter (λ e, negb (in_range mn mx e) = true) L = A ++ D.
Proof.
  intros Hnn Hso.
  destruct (sorted_split (λ e, flt (e_score e) mn) L Hnn Hso) as (A & Bb & -> & HA & HB).
  { intros a b Ha Hb Hab Hbm. destruct (is_nan mn) eqn:En; [by rewrite flt_nan_r in Hbm|].
    eapply fle_lt_trans; [exact Ha|exact Hb|done| |done]. by apply (elt_score (e_key a) (e_key b)). }
  apply Forall_app in Hnn as [HnA HnB]. apply sorted_app in Hso as (HsA & HsB & _).
  destruct (sorted_split (λ e, fle (e_score e) mx) Bb HnB HsB) as (C & D & -> & HC & HD).
  { intros a b Ha Hb Hab Hbm. destruct (is_nan mx) eqn:En; [by rewrite fle_nan_r in Hbm|].
    eapply fle_trans; [exact Ha|exact Hb|done| |done]. by apply (elt_score (e_key a) (e_key b)). }
  exists A, C, D. split_and!; try done.
  - rewrite !filter_app. rewrite (filter_none _ A), (filter_none_true _ C), (filter_none _ D); [by rewrite app_nil_r| | |].
    + eapply Forall_impl; [exact HD|]. intros e He. unfold in_range. rewrite He. apply andb_false_r.
    + apply Forall_app in HB as [HB _]. eapply Forall_impl; [exact (proj2 (Forall_and _ _) (conj HB HC))|].
      intros e [H1 H2]. unfold in_range. by rewrite H1, H2.
    + eapply Forall_impl; [exact HA|]. intros e He. unfold in_range. by rewrite He.
  - rewrite !filter_app. rewrite (filter_none_true _ A), (filter_none _ C), (filter_none_true _ D); [done| | |].
    + eapply Forall_impl; [exact HD|]. intros e He. unfold in_range. rewrite He. by rewrite andb_false_r.
    + apply Forall_app in HB as [HB _]. eapply Forall_impl; [exact (proj2 (Forall_and _ _) (conj HB HC))|].
      intros e [H1 H2]. unfold in_range. by rewrite H1, H2.
    + eapply Forall_impl; [exact HA|]. intros e He. unfold in_range. by rewrite He.
Qed.

Lemma sinv_sub s A C D : sorted (A ++ C ++ D) → nn (A ++ C ++ D) → str s (A ++ D) → sinv s (A ++ D).
Proof.
  intros Hso Hnn Hs. split; [done|]. apply sorted_app in Hso as (HsA & HsB & HsAB). apply sorted_app in HsB as (HsC & HsD & HsCD).
  apply Forall_app in Hnn as [HnA HnB]. apply Forall_app in HnB as [HnC HnD]. split.
  - apply sorted_app. split_and!; [done|done|]. intros. apply HsAB; set_solver.
  - by apply Forall_app.
Qed.

Lemma cond_min mn A Bb : Forall (λ e, flt (e_score e) mn = true) A → Forall (λ e, flt (e_score e) mn = false) Bb →
  cond_ok (A ++ Bb) (λ _ _ n, flt (n_score n) mn) (length A).
Proof.
  intros HA HB. apply (cond_ok_split (λ e, flt (e_score e) mn)); [|done|done].
  intros e nd rk sp Hs Hm. by rewrite Hs.
Qed.

Theorem DeleteRangeByScore_sinv s L mn mx : sinv s L →
  ∃ s', DeleteRangeByScore s mn mx = Ok (s', e_id <$> filter (λ e, in_range mn mx e = true) L) ∧
    sinv s' (filter (λ e, negb (in_range mn mx e) = true) L) ∧ keeps s s' ∧ sl_next s' = sl_next s.
Proof.
  intros (Hs & Hso & Hnn).
  destruct (split_range mn mx L Hnn Hso) as (A & C & D & -> & HA & HB & HC & HD & -> & ->).
  destruct (search_at s A (C ++ D) _ Hs (cond_min mn A (C ++ D) HA HB)) as (us & e0 & E1 & Hus & E0 & Hp0 & Elv).
  unfold DeleteRangeByScore. rewrite E1. cbn [mbind res_bind]. rewrite E0. cbn [deref mbind res_bind fst].
  rewrite Elv. cbn [mbind res_bind].
  assert (match C ++ D with [] => (None, 0) | e :: _ => (Some (e_id e), 1) end.1 = e_id <$> head (C ++ D)) as ->.
  { by destruct (C ++ D). }
  destruct (delete_loop_spec us.*1 (λ _ n, fle (n_score n) mx) A D C (fuel_of s) s 0 []) as (s' & E2 & Hs' & Hk & Hn).
  - done.
  - by apply us_upd_ok.
  - pose proof (s_count _ _ Hs) as Hc. rewrite !app_length in Hc. unfold fuel_of. lia.
  - intros j e nd Hj ->. by apply (Forall_lookup_1 _ _ _ _ HC) in Hj.
  - intros e nd Hd ->. destruct D as [|d D']; [done|]. injection Hd as ->. by apply Forall_cons in HD as [? _].
  - exists s'. rewrite E2. split; [done|]. split; [|done]. by eapply sinv_sub.
Qed.

(** * Ranks *)
Lemma cond_rank_le L (f : Z) (n : nat) : n = Z.to_nat f ∨ (length L ≤ n)%nat ∧ (n ≤ Z.to_nat f)%nat →
  0 ≤ f → cond_ok L (λ rank span _, rank + span <=? f) n.
Proof.
  intros Hn Hf q e nd rank span Hq Hr _ _. rewrite Hr. apply lookup_lt_Some in Hq. case_bool_decide; lia.
Qed.

Lemma get_by_rank_spec s L target n : str s L → 0 ≤ target → cond_ok L (λ rank span _, rank + span <=? target) n →
  (n ≤ length L)%nat → (n = Z.to_nat target ∨ (n < Z.to_nat target)%nat) →
  ∀ m p e, (m ≤ sl_level s)%nat → (hd_ent :: L) !! p = Some e → (m ≤ e_h e)%nat → (p ≤ n)%nat →
  (m = 0%nat → p = n) →
  get_by_rank s target m (e_id e) (Z.of_nat p) =
    if decide (m ≠ 0%nat ∧ n = Z.to_nat target) then Ok (e_id <$> (hd_ent :: L) !! n) else Ok None.
Proof.
  intros Hs Ht Hc Hn Hnt. induction m as [|m IH]; intros p e Hm Hp Hh Hpn Hm0.
  { cbn [get_by_rank]. rewrite decide_False by naive_solver. done. }
  pose proof (s_count _ _ Hs). cbn [get_by_rank].
  destruct (walk_spec s L Hs _ n m Hc Hn ltac:(lia) (fuel_of s) p e Hp ltac:(lia) Hpn) as (p' & e' & E1 & Hl).
  { unfold fuel_of. lia. }
  rewrite E1. cbn [mbind res_bind fst snd].
  pose proof (is_lst_le _ _ _ _ Hl) as Hle. rewrite take_length in Hle.
  assert (Hp' : (hd_ent :: L) !! p' = Some e').
  { destruct Hl as (Hl & _). destruct p' as [|p']; [done|]. simpl in *. rewrite lookup_take in Hl by lia. done. }
  destruct (Z.of_nat p' =? target) eqn:Et.
  - assert (p' = Z.to_nat target) by lia. rewrite decide_True by lia. replace n with p' by lia. by rewrite Hp'.
  - assert (m = 0%nat → p' = n).
    { intros ->. apply is_lst_zero in Hl; [rewrite take_length in Hl; lia|]. apply Forall_take. by eapply heights_pos. }
    rewrite IH; [|lia|done|destruct Hl as (_ & ? & _); lia|lia|done].
    destruct m as [|m].
    + rewrite decide_False by naive_solver. rewrite decide_False; [done|]. intros [_ ?]. lia.
    + destruct (decide (n = Z.to_nat target)).
      * rewrite !decide_True by lia. done.
      * rewrite !decide_False by lia. done.
Qed.

Theorem GetElementByRank_spec s L r : str s L →
  GetElementByRank s r = Ok (if decide (0 ≤ r) then e_id <$> (hd_ent :: L) !! Z.to_nat r else None).
Proof.
  intros Hs. unfold GetElementByRank. pose proof (s_level _ _ Hs) as Hlev. destruct (decide (0 ≤ r)) as [Hr|Hr].
  - set (n := min (Z.to_nat r) (length L)).
    change HEAD with (e_id hd_ent). change 0 with (Z.of_nat 0).
    rewrite (get_by_rank_spec s L r n); try done; try lia; try (simpl; lia).
    + destruct (decide (n = Z.to_nat r)) as [Hn|Hn].
      * rewrite decide_True by lia. by rewrite Hn.
      * rewrite decide_False by lia. rewrite (lookup_ge_None_2 _ (Z.to_nat r)); [done|]. simpl. lia.
    + apply cond_rank_le; lia.
  - (* a negative rank: nothing is ever taken *)
    assert (Hgen : ∀ m, (m ≤ sl_level s)%nat → get_by_rank s r m HEAD 0 = Ok None).
    { induction m as [|m IH]; intros Hm; [done|]. cbn [get_by_rank].
      unfold fuel_of. cbn [walk]. change HEAD with (e_id hd_ent).
      rewrite (at_level s L Hs 0 hd_ent) by (try done; simpl; lia). rewrite drop_0. cbn [mbind res_bind].
      destruct (tall_dec m L) as [(k & e1 & Hk & Hh1 & Hlow)|Hlow].
      - rewrite (nxt_tall m _ k e1) by done. cbn [fst snd mbind res_bind].
        destruct (at_node s L Hs (S k) e1) as (nd & E1 & _); [done|]. rewrite E1. cbn [mbind res_bind].
        rewrite (proj2 (Z.leb_gt _ _)) by lia. cbn [mbind res_bind fst snd].
        rewrite (proj2 (Z.eqb_neq _ _)) by lia. apply IH. lia.
      - rewrite nxt_low by done. cbn [fst snd mbind res_bind]. rewrite (proj2 (Z.eqb_neq _ _)) by lia. apply IH. lia. }
    by apply Hgen.
Qed.

(** walking from a position *)
Lemma step_fwd s L p e : str s L → (hd_ent :: L) !! p = Some e → step s false (e_id e) = Ok (e_id <$> L !! p).
Proof.
  intros Hs Hp. unfold step. pose proof (at_level0 s L p e Hs Hp) as El. unfold level_at in El.
  destruct (node s (e_id e)); [|done|done]. cbn [mbind res_bind] in *. rewrite El. cbn [mbind res_bind].
  destruct (drop p L) as [|d D] eqn:Ed.
  - assert (length L ≤ p)%nat by (apply (f_equal length) in Ed; rewrite drop_length in Ed; simpl in Ed; lia).
    by rewrite lookup_ge_None_2.
  - assert (L !! p = Some d) as ->; [|done].
    rewrite <-(Nat.add_0_r p). rewrite <-lookup_drop, Ed. done.
Qed.
Lemma step_bwd s L p e : str s L → (hd_ent :: L) !! p = Some e → step s true (e_id e) = Ok (bkof L p).
Proof.
  intros Hs Hp. unfold step. destruct (at_node s L Hs p e Hp) as (nd & -> & _ & _ & Hb). simpl. by rewrite Hb.
Qed.

Lemma rank_loop_fwd s L : str s L → ∀ fuel p i n acc, (length L - p < fuel)%nat → 0 ≤ n → i ≤ n →
  rank_loop fuel s false i n (e_id <$> L !! p) acc = Ok (acc ++ (e_id <$> take (Z.to_nat (n - i)) (drop p L))).
Proof.
  intros Hs. induction fuel as [|fuel IH]; intros p i n acc Hf Hn Hi; [lia|]. cbn [rank_loop].
  destruct (L !! p) as [e|] eqn:Ep; simpl.
  - rewrite (drop_S _ _ _ Ep). destruct (i <? n) eqn:Ei.
    + rewrite (step_fwd s L (S p) e Hs Ep). cbn [mbind res_bind].
      pose proof (lookup_lt_Some _ _ _ Ep). rewrite IH by lia.
      replace (Z.to_nat (n - i)) with (S (Z.to_nat (n - (i + 1)))) by lia. simpl. by rewrite <-app_assoc.
    + replace (Z.to_nat (n - i)) with 0%nat by lia. simpl. by rewrite app_nil_r.
  - apply lookup_ge_None in Ep. rewrite drop_ge by done. rewrite take_nil. simpl. by rewrite app_nil_r.
Qed.
Lemma rank_loop_bwd s L : str s L → ∀ fuel p i n acc, (p ≤ length L)%nat → (p < fuel)%nat → 0 ≤ n → i ≤ n →
  rank_loop fuel s true i n (match p with O => None | S q => e_id <$> L !! q end) acc =
    Ok (acc ++ (e_id <$> take (Z.to_nat (n - i)) (reverse (take p L)))).
Proof.
  intros Hs. induction fuel as [|fuel IH]; intros p i n acc Hp Hf Hn Hi; [lia|]. cbn [rank_loop].
  destruct p as [|p].
  - rewrite take_0, reverse_nil, take_nil. simpl. by rewrite app_nil_r.
  - destruct (lookup_lt_is_Some_2 L p ltac:(lia)) as [e Ep]. rewrite Ep. simpl.
    rewrite (take_S_r _ _ _ Ep). rewrite reverse_snoc. destruct (i <? n) eqn:Ei.
    + rewrite (step_bwd s L (S p) e Hs Ep). cbn [mbind res_bind].
      assert (bkof L (S p) = match p with O => None | S q => e_id <$> L !! q end) as -> by (by destruct p).
      rewrite IH by lia.
      replace (Z.to_nat (n - i)) with (S (Z.to_nat (n - (i + 1)))) by lia. simpl. by rewrite <-app_assoc.
    + replace (Z.to_nat (n - i)) with 0%nat by lia. simpl. by rewrite app_nil_r.
Qed.

Theorem RangeByRank_fwd s L start end_ : str s L → 1 ≤ start ≤ end_ → make_ok (end_ - start + 1) 8 = true →
  RangeByRank s start end_ false = Ok (e_id <$> take (Z.to_nat (end_ - start + 1)) (drop (Z.to_nat start - 1) L)).
Proof.
  intros Hs Hr Hmk. unfold RangeByRank.
  replace ((start <? 1) || (end_ <? 1) || (end_ <? start)) with false by lia.
  rewrite (GetElementByRank_spec s L) by done. cbn [mbind res_bind]. rewrite decide_True by lia. rewrite Hmk. cbn [negb].
  assert ((hd_ent :: L) !! Z.to_nat start = L !! (Z.to_nat start - 1)%nat) as ->.
  { replace (Z.to_nat start) with (S (Z.to_nat start - 1)) at 1 by lia. done. }
  pose proof (s_count _ _ Hs).
  rewrite (rank_loop_fwd s L Hs (S (fuel_of s)) (Z.to_nat start - 1) 0 (end_ - start + 1) []); [|unfold fuel_of; lia|lia|lia].
  simpl. rewrite Z.sub_0_r. done.
Qed.
Theorem RangeByRank_bwd s L start end_ : str s L → 1 ≤ start ≤ end_ → start ≤ zlen L →
  make_ok (end_ - start + 1) 8 = true →
  RangeByRank s start end_ true = Ok (e_id <$> take (Z.to_nat (end_ - start + 1)) (drop (Z.to_nat start - 1) (reverse L))).
Proof.
  intros Hs Hr Hsl Hmk. unfold RangeByRank.
  replace ((start <? 1) || (end_ <? 1) || (end_ <? start)) with false by lia.
  rewrite (GetElementByRank_spec s L) by done. cbn [mbind res_bind]. rewrite (s_length _ _ Hs).
  unfold zlen in *. rewrite decide_True by lia. rewrite Hmk. cbn [negb].
  pose proof (s_count _ _ Hs).
  set (p := Z.to_nat (Z.of_nat (length L) - start + 1)).
  assert (p = S (length L - Z.to_nat start)) as Hp by lia.
  assert (e_id <$> (hd_ent :: L) !! p = match p with O => None | S q => e_id <$> L !! q end) as ->.
  { rewrite Hp. done. }
  rewrite (rank_loop_bwd s L Hs (S (fuel_of s)) p 0 (end_ - start + 1) []); [|lia|unfold fuel_of; lia|lia|lia].
  simpl. rewrite Z.sub_0_r. do 3 f_equal.
  rewrite <-(take_drop p L) at 2. rewrite reverse_app. rewrite drop_app_alt; [done|].
  rewrite reverse_length, drop_length. lia.
Qed.
