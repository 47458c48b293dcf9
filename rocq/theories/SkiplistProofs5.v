(** GetRank, score queries and DeleteRangeByRank against the abstract sequence. *)
From Verif Require Import Base Float SkiplistModel SkiplistProofs SkiplistProofs2 SkiplistProofs3 SkiplistProofs4.
From Coq Require Import ZifyBool ZifyNat.
Implicit Types A Bb L R H C D : list ent.

Lemma cond_ele k A Bb : Forall (λ e, ele (e_key e) k = true) A → Forall (λ e, ele (e_key e) k = false) Bb →
  cond_ok (A ++ Bb) (λ _ _ nd, ele (n_key nd) k) (length A).
Proof.
  intros HA HB. apply (cond_ok_split (λ e, ele (e_key e) k)); [|done|done].
  intros e nd rk sp Hs Hm. unfold n_key, e_key. by rewrite Hs, Hm.
Qed.
Lemma split_ele k L : not_nan k.1 → nn L → sorted L →
  ∃ A Bb, L = A ++ Bb ∧ Forall (λ e, ele (e_key e) k = true) A ∧ Forall (λ e, ele (e_key e) k = false) Bb.
Proof.
  intros Hk Hnn Hso. apply sorted_split; [done|done|]. intros a b Ha Hb Hab Hbk.
  rewrite ele_elt in Hbk |- * by done.
  destruct (elt k (e_key a)) eqn:E; [|done]. rewrite (elt_trans k (e_key a) (e_key b)) in Hbk by done. done.
Qed.

(** r is the answer when every node carrying the member is at position r *)
Lemma get_rank_spec s A Bb k r : str s (A ++ Bb) → cond_ok (A ++ Bb) (λ _ _ nd, ele (n_key nd) k) (length A) →
  k.2 ≠ [] → (∀ q e, (A ++ Bb) !! q = Some e → e_member e = k.2 → S q = r) →
  (∃ e, r = length A ∧ (A ++ Bb) !! (r - 1)%nat = Some e ∧ e_member e = k.2 ∧ r ≠ 0%nat) ∨
  (r = 0%nat) →
  ∀ m p e, (m ≤ sl_level s)%nat → (hd_ent :: A ++ Bb) !! p = Some e → (m ≤ e_h e)%nat → (p ≤ length A)%nat →
  get_rank s k m (e_id e) (Z.of_nat p) = Ok (if decide (m = 0%nat) then 0 else Z.of_nat r).
Proof.
  intros Hs Hc Hk Huniq Hr. induction m as [|m IH]; intros p e Hm Hp Hh Hpn; [done|].
  pose proof (s_count _ _ Hs). cbn [get_rank].
  destruct (walk_spec s _ Hs _ (length A) m Hc ltac:(rewrite app_length; lia) ltac:(lia) (fuel_of s) p e Hp ltac:(lia) Hpn) as (p' & e' & E1 & Hl).
  { unfold fuel_of. rewrite app_length in *. lia. }
  rewrite take_app in Hl.
  rewrite E1. cbn [mbind res_bind fst snd].
  pose proof (is_lst_le _ _ _ _ Hl) as Hle.
  assert (Hp' : (hd_ent :: A ++ Bb) !! p' = Some e') by (apply lookup_old; apply Hl).
  destruct (at_node s _ Hs p' e' Hp') as (nd & -> & Hmem & _). cbn [mbind res_bind]. rewrite Hmem.
  destruct (decide (k.2 = e_member e')) as [Heq|Hne].
  - destruct p' as [|p']; [simpl in Hp'; injection Hp' as <-; done|]. simpl in Hp'.
    pose proof (Huniq p' e' Hp' (eq_sym Heq)) as <-. done.
  - rewrite IH; [|lia|done|destruct Hl as (_ & ? & _); lia|lia].
    destruct m as [|m]; [|done]. rewrite decide_True, decide_False by done.
    destruct Hr as [(e1 & Hr1 & Hr2 & Hr3 & Hr4)| ->]; [|done].
    exfalso. pose proof (heights_pos _ _ Hs) as Hh1. apply Forall_app in Hh1 as [Hh1 _].
    apply is_lst_zero in Hl; [|done]. subst p'. rewrite <-Hr1 in Hp'.
    destruct r as [|r]; [done|]. simpl in Hp', Hr2. rewrite Nat.sub_0_r in Hr2. rewrite Hp' in Hr2. congruence.
Qed.

Theorem GetRank_present s L score member q e : sinv s L → not_nan score → member ≠ [] →
  L !! q = Some e → esame (e_key e) (score, member) = true →
  (∀ q' e', L !! q' = Some e' → e_member e' = member → q' = q) →
  GetRank s score member = Ok (Z.of_nat q + 1).
Proof.
  intros (Hs & Hso & Hnn) Hsc Hm Hq Hsame Huniq. set (k := (score, member)).
  destruct (split_ele k L Hsc Hnn Hso) as (A & Bb & -> & HA & HB).
  pose proof (s_level _ _ Hs).
  assert (He : not_nan (e_score e)) by (by apply (Forall_lookup_1 _ _ _ _ Hnn) in Hq).
  assert (Hem : e_member e = member).
  { unfold esame in Hsame. apply andb_prop in Hsame as [_ Hsame]. by apply bool_decide_eq_true in Hsame. }
  assert (Hlen : length A = S q).
  { assert (q < length A)%nat.
    { destruct (decide (q < length A)%nat) as [|Hge]; [done|]. rewrite lookup_app_r in Hq by lia.
      apply (Forall_lookup_1 _ _ _ _ HB) in Hq. simpl in Hq. rewrite ele_elt in Hq by done.
      rewrite (esame_sym (e_key e) (score, member) He Hsc) in Hsame. fold k in Hsame.
      rewrite (esame_elt k (e_key e)) in Hq by done. done. }
    destruct (decide (length A = S q)) as [|Hne]; [done|]. exfalso.
    destruct (lookup_lt_is_Some_2 A (S q) ltac:(lia)) as [a Ha].
    assert (elt (e_key e) (e_key a) = true) as Hlt.
    { apply sorted_app in Hso as (Hso & _ & _). rewrite lookup_app_l in Hq by lia.
      rewrite <-(take_drop_middle A q e Hq) in Hso. apply sorted_app in Hso as (_ & Hso & _).
      apply StronglySorted_inv in Hso as [_ Hso]. eapply Forall_forall in Hso; [exact Hso|].
      apply elem_of_list_lookup. exists 0%nat. rewrite lookup_drop. by rewrite Nat.add_0_r. }
    pose proof (Forall_lookup_1 _ _ _ _ HA Ha) as Hle. simpl in Hle.
    assert (not_nan (e_score a)).
    { apply Forall_app in Hnn as [Hnn _]. by apply (Forall_lookup_1 _ _ _ _ Hnn) in Ha. }
    rewrite ele_elt in Hle by done. fold k in Hsame.
    rewrite (esame_elt_l (e_key e) k (e_key a)) in Hlt by done. by rewrite Hlt in Hle. }
  unfold GetRank. change HEAD with (e_id hd_ent). change 0 with (Z.of_nat 0).
  rewrite (get_rank_spec s A Bb k (S q) Hs (cond_ele k A Bb HA HB)).
  - rewrite decide_False by lia. f_equal. lia.
  - done.
  - intros q' e' Hq' He'. f_equal. by eapply Huniq.
  - left. exists e. simpl. rewrite Nat.sub_0_r. done.
  - lia.
  - done.
  - simpl. lia.
  - lia.
Qed.

Theorem GetRank_absent s L score member : sinv s L → not_nan score → member ≠ [] →
  (∀ e', e' ∈ L → e_member e' ≠ member) → GetRank s score member = Ok 0.
Proof.
  intros (Hs & Hso & Hnn) Hsc Hm Hab. set (k := (score, member)).
  destruct (split_ele k L Hsc Hnn Hso) as (A & Bb & -> & HA & HB). pose proof (s_level _ _ Hs).
  unfold GetRank. change HEAD with (e_id hd_ent). change 0 with (Z.of_nat 0).
  rewrite (get_rank_spec s A Bb k 0 Hs (cond_ele k A Bb HA HB)).
  - by rewrite decide_False by lia.
  - done.
  - intros q' e' Hq' He'. exfalso. eapply Hab; [|done]. by eapply elem_of_list_lookup_2.
  - by right.
  - lia.
  - done.
  - simpl. lia.
  - lia.
Qed.

(** * Score ranges *)
Lemma last_lookup_app A e : last (A ++ [e]) = Some e.
Proof. apply last_snoc. Qed.

Lemma HasInScoreRange_spec s L mn mx : str s L →
  HasInScoreRange s mn mx = Ok (match head L, last L with
    | Some f, Some l => negb (flt mx (e_score f)) && negb (flt (e_score l) mn) | _, _ => false end).
Proof.
  intros Hs. unfold HasInScoreRange. change HEAD with (e_id hd_ent). rewrite (at_level0 s L 0 hd_ent Hs eq_refl). rewrite drop_0. cbn [mbind res_bind].
  destruct L as [|f L']; [done|]. cbn [fst head].
  destruct (at_node s _ Hs 1 f eq_refl) as (nf & -> & _ & Hf & _). cbn [mbind res_bind]. rewrite Hf.
  destruct (last (f :: L')) as [l|] eqn:El; [|by apply last_None in El].
  destruct (flt mx (e_score f)); [done|]. rewrite (s_tail _ _ Hs), El. cbn [fmap option_fmap option_map].
  rewrite last_lookup in El.
  destruct (at_node s _ Hs (S (Init.Nat.pred (length (f :: L')))) l El) as (nl & -> & _ & Hl & _).
  cbn [mbind res_bind]. by rewrite Hl.
Qed.

(** no element in range when HasInScoreRange says so *)
Lemma no_range A C D mn mx : nn (A ++ C ++ D) → sorted (A ++ C ++ D) →
  Forall (λ e, flt (e_score e) mn = false) (C ++ D) → Forall (λ e, fle (e_score e) mx = true) C →
  (match head (A ++ C ++ D), last (A ++ C ++ D) with
    | Some f, Some l => negb (flt mx (e_score f)) && negb (flt (e_score l) mn) | _, _ => false end) = false → C = [].
Proof.
  intros Hnn Hso HB HC Hhas. destruct C as [|c C]; [done|]. exfalso.
  set (L := A ++ (c :: C) ++ D) in *.
  assert (HcL : c ∈ L) by set_solver.
  assert (Hc : not_nan (e_score c)) by (eapply Forall_forall in Hnn; [exact Hnn|done]).
  apply Forall_cons in HC as [HC _]. assert (Hcm := HB). apply Forall_cons in Hcm as [Hcm _].
  destruct (is_nan mx) eqn:Enx; [by rewrite fle_nan_r in HC|].
  destruct L as [|f L'] eqn:EL; [set_solver|]. cbn [head] in Hhas.
  destruct (last (f :: L')) as [l|] eqn:El; [|by apply last_None in El].
  assert (Hf : not_nan (e_score f)) by (apply Forall_cons in Hnn as [? _]; done).
  assert (fle (e_score f) (e_score c) = true).
  { apply StronglySorted_inv in Hso as [_ Hso]. apply elem_of_cons in HcL as [->|HcL]; [by apply fle_refl|].
    eapply Forall_forall in Hso; [|exact HcL]. by apply (elt_score (e_key f) (e_key c)). }
  assert (fle (e_score f) mx = true) as Hfm by (by eapply (fle_trans _ (e_score c))).
  rewrite fle_flt in Hfm by done. rewrite Hfm in Hhas. simpl in Hhas.
  assert (fle (e_score c) (e_score l) = true ∧ not_nan (e_score l)) as [Hcl Hl].
  { rewrite last_Some in El. destruct El as [L'' El]. rewrite El in Hnn, Hso, HcL. apply Forall_app in Hnn as [_ Hnl].
    apply Forall_cons in Hnl as [Hnl _]. split; [|done]. apply sorted_app in Hso as (_ & _ & Hso).
    apply elem_of_app in HcL as [HcL|HcL].
    - apply (elt_score (e_key c) (e_key l)); [done|done|]. apply Hso; set_solver.
    - apply elem_of_list_singleton in HcL as ->. by apply fle_refl. }
  destruct (is_nan mn) eqn:Enm; [by rewrite flt_nan_r in Hhas|].
  destruct (flt (e_score l) mn) eqn:Elm; [|done].
  pose proof (fle_lt_trans (e_score c) (e_score l) mn Hc Hl Enm Hcl Elm). congruence.
Qed.

Lemma GetFirst_split s A C D mn mx : sinv s (A ++ C ++ D) →
  Forall (λ e, flt (e_score e) mn = true) A → Forall (λ e, flt (e_score e) mn = false) (C ++ D) →
  Forall (λ e, fle (e_score e) mx = true) C → Forall (λ e, fle (e_score e) mx = false) D →
  GetFirstInScoreRange s mn mx = Ok (e_id <$> head C).
Proof.
  intros (Hs & Hso & Hnn) HA HB HC HD. unfold GetFirstInScoreRange. rewrite (HasInScoreRange_spec s _ mn mx Hs).
  cbn [mbind res_bind].
  match goal with |- context [negb ?b] => destruct b eqn:Eb end; cbn [negb].
  2:{ apply (no_range A C D mn mx) in Eb; try done. by rewrite Eb. }
  destruct (search_at s A (C ++ D) _ Hs (cond_min mn A (C ++ D) HA HB)) as (us & e0 & E1 & Hus & E0 & Hp0 & Elv).
  rewrite E1. cbn [mbind res_bind]. rewrite E0. cbn [deref mbind res_bind fst]. rewrite Elv. cbn [mbind res_bind].
  destruct C as [|c C].
  - simpl. destruct D as [|d D]; [done|]. cbn [fst].
    assert (Hpd : (hd_ent :: A ++ d :: D) !! S (length A) = Some d) by apply lookup_mid.
    destruct (at_node s _ Hs _ _ Hpd) as (nd & -> & _ & Hsd & _). cbn [mbind res_bind]. rewrite Hsd.
    apply Forall_cons in HD as [-> _]. done.
  - simpl. assert (Hpd : (hd_ent :: A ++ c :: C ++ D) !! S (length A) = Some c) by apply lookup_mid.
    destruct (at_node s _ Hs _ _ Hpd) as (nd & -> & _ & Hsd & _). cbn [mbind res_bind]. rewrite Hsd.
    apply Forall_cons in HC as [-> _]. done.
Qed.

Theorem GetFirst_spec s L mn mx : sinv s L →
  GetFirstInScoreRange s mn mx = Ok (e_id <$> head (filter (λ e, in_range mn mx e = true) L)).
Proof.
  intros Hs. destruct (split_range mn mx L) as (A & C & D & HL & HA & HB & HC & HD & -> & _); [apply Hs|apply Hs|].
  rewrite HL in Hs. by eapply GetFirst_split.
Qed.

Lemma split_le mx L : nn L → sorted L →
  ∃ X Y, L = X ++ Y ∧ Forall (λ e, fle (e_score e) mx = true) X ∧ Forall (λ e, fle (e_score e) mx = false) Y.
Proof.
  intros Hnn Hso. apply sorted_split; [done|done|].
  intros a b Ha Hb Hab Hbm. destruct (is_nan mx) eqn:En; [by rewrite fle_nan_r in Hbm|].
  eapply fle_trans; [exact Ha|exact Hb|done| |done]. by apply (elt_score (e_key a) (e_key b)).
Qed.

Theorem GetLast_spec s L mn mx : sinv s L → not_nan mn → not_nan mx →
  GetLastInScoreRange s mn mx = Ok (e_id <$> last (filter (λ e, in_range mn mx e = true) L)).
Proof.
  intros Hsi Hmn Hmx.
  destruct (split_range mn mx L) as (A & C & D & HL & HA & HB & HC & HD & -> & _); [apply Hsi|apply Hsi|].
  pose proof Hsi as (Hs & Hso & Hnn). subst L.
  unfold GetLastInScoreRange. rewrite (HasInScoreRange_spec s _ mn mx Hs).
  cbn [mbind res_bind].
  match goal with |- context [negb ?b] => destruct b eqn:Eb end; cbn [negb].
  2:{ apply (no_range A C D mn mx) in Eb; try done. by rewrite Eb. }
  destruct (split_le mx _ Hnn Hso) as (X & Y & HXY & HX & HY).
  rewrite HXY in Hs.
  assert (Hc : cond_ok (X ++ Y) (λ _ _ n, fle (n_score n) mx) (length X)).
  { apply (cond_ok_split (λ e, fle (e_score e) mx)); [|done|done]. intros e nd rk sp Hs' Hm. by rewrite Hs'. }
  destruct (search_at s X Y _ Hs Hc) as (us & e0 & E1 & Hus & E0 & Hp0 & Elv).
  rewrite E1. cbn [mbind res_bind]. rewrite E0. cbn [deref mbind res_bind fst].
  destruct (at_node s _ Hs _ _ Hp0) as (nd & -> & _ & Hsd & _). cbn [mbind res_bind]. rewrite Hsd.
  (* the first element is <= max, so X is not empty *)
  destruct (A ++ C ++ D) as [|f F'] eqn:EL; [done|]. cbn [head] in Eb.
  destruct (last (f :: F')) as [l|] eqn:El; [|done].
  assert (Hf : not_nan (e_score f)) by (by apply Forall_cons in Hnn as [? _]).
  apply andb_prop in Eb as [Eb1 Eb2].
  assert (fle (e_score f) mx = true) as Hfm by (by rewrite fle_flt).
  destruct X as [|x0 X _] using rev_ind.
  { simpl in HXY. rewrite <-HXY in HY. apply Forall_cons in HY as [HY _]. congruence. }
  clear IHX || idtac.
  assert (e0 = x0) as ->.
  { rewrite app_length in Hp0. simpl in Hp0. rewrite Nat.add_1_r in Hp0. simpl in Hp0.
    rewrite <-app_assoc in Hp0. rewrite lookup_app_r, Nat.sub_diag in Hp0 by lia. by injection Hp0. }
  assert (Hx0n : not_nan (e_score x0)).
  { rewrite HXY in Hnn. apply Forall_app in Hnn as [Hnn _]. apply Forall_app in Hnn as [_ Hnn]. by apply Forall_cons in Hnn as [? _]. }
  assert (Hx0 : x0 ∈ A ++ C ++ D) by (rewrite EL, HXY; set_solver).
  rewrite fle_flt by done.
  destruct C as [|c C' _] using rev_ind.
  - (* empty range: x0 must be below min *)
    simpl. assert (flt (e_score x0) mn = true) as ->; [|done].
    apply elem_of_app in Hx0 as [Hx0|Hx0].
    + eapply Forall_forall in HA; [exact HA|done].
    + simpl in Hx0. eapply Forall_forall in HD; [|exact Hx0]. apply Forall_app in HX as [_ HX]. apply Forall_cons in HX as [HX _].
      simpl in HD. congruence.
  - rewrite last_snoc. simpl.
    (* the last element <= max is c *)
    assert (x0 = c) as ->.
    { rewrite <-EL in HXY. rewrite <-app_assoc in HXY. rewrite app_assoc in HXY.
      assert (Hlen : length (A ++ C') = length X).
      { destruct (Nat.lt_trichotomy (length (A ++ C')) (length X)) as [Hlt|[?|Hlt]]; [|done|].
        - (* c position < length X: then x0 is in D *)
          exfalso. assert (x0 ∈ D).
          { assert (((A ++ C') ++ [c] ++ D) !! length X = Some x0) as Hlk.
            { rewrite HXY. rewrite <-app_assoc. rewrite lookup_app_r, Nat.sub_diag by lia. done. }
            rewrite lookup_app_r in Hlk by lia.
            destruct (length X - length (A ++ C'))%nat as [|j] eqn:Ej; [lia|]. simpl in Hlk. by eapply elem_of_list_lookup_2. }
          eapply Forall_forall in HD; [|exact H]. apply Forall_app in HX as [_ HX]. apply Forall_cons in HX as [HX _].
          simpl in HD. congruence.
        - exfalso. assert (c ∈ Y).
          { assert (((X ++ [x0]) ++ Y) !! length (A ++ C') = Some c) as Hlk.
            { rewrite <-HXY. rewrite lookup_app_r, Nat.sub_diag by lia. done. }
            rewrite lookup_app_r in Hlk by (rewrite app_length; simpl; lia). by eapply elem_of_list_lookup_2. }
          eapply Forall_forall in HY; [|exact H]. apply Forall_app in HC as [_ HC]. apply Forall_cons in HC as [HC _].
          simpl in HY. congruence. }
      rewrite <-(app_assoc X) in HXY. apply app_inj_1 in HXY as [_ HXY]; [|done]. by injection HXY. }
    apply Forall_app in HB as [HB _]. apply Forall_app in HB as [_ HB]. apply Forall_cons in HB as [-> _]. done.
Qed.

Lemma count_loop_spec s mx D : ∀ C A fuel n, str s (A ++ C ++ D) → (length C < fuel)%nat →
  Forall (λ e, fle (e_score e) mx = true) C → (D = [] ∨ Forall (λ e, fle (e_score e) mx = false) D) →
  count_loop fuel s mx (e_id <$> head (C ++ D)) n = Ok (n + zlen C).
Proof.
  induction C as [|c C IH]; intros A fuel n Hs Hf HC HD; (destruct fuel as [|fuel]; [simpl in Hf; lia|]).
  - simpl. replace (n + zlen []) with n by (unfold zlen; simpl; lia).
    destruct D as [|d D]; [done|]. simpl in *.
    assert (Hpd : (hd_ent :: A ++ d :: D) !! S (length A) = Some d) by apply lookup_mid.
    destruct (at_node s _ Hs _ _ Hpd) as (nd & -> & _ & Hsd & _). cbn [mbind res_bind]. rewrite Hsd.
    destruct HD as [?|HD]; [done|]. apply Forall_cons in HD as [-> _]. done.
  - change (A ++ (c :: C) ++ D) with (A ++ c :: C ++ D) in Hs. simpl.
    assert (Hpc : (hd_ent :: A ++ c :: C ++ D) !! S (length A) = Some c) by apply lookup_mid.
    destruct (at_node s _ Hs _ _ Hpc) as (nd & En & _ & Hsd & _). rewrite En. cbn [mbind res_bind]. rewrite Hsd.
    apply Forall_cons in HC as [-> HC].
    pose proof (at_level0 s _ _ _ Hs Hpc) as Elv. unfold level_at in Elv. rewrite En in Elv. cbn [mbind res_bind] in Elv.
    rewrite Elv, drop_mid0. cbn [mbind res_bind].
    assert (match C ++ D with [] => (None, 0) | e :: _ => (Some (e_id e), 1) end.1 = e_id <$> head (C ++ D)) as ->.
    { by destruct (C ++ D). }
    rewrite (IH (A ++ [c])); [|by rewrite <-app_assoc|simpl in Hf; lia|done|done].
    f_equal. unfold zlen. simpl. lia.
Qed.

Theorem Count_spec s L mn mx : sinv s L →
  Count s mn mx = Ok (zlen (filter (λ e, in_range mn mx e = true) L)).
Proof.
  intros Hsi. destruct (split_range mn mx L) as (A & C & D & HL & HA & HB & HC & HD & -> & _); [apply Hsi|apply Hsi|].
  subst L. unfold Count. rewrite (GetFirst_split s A C D mn mx) by done. cbn [mbind res_bind].
  destruct Hsi as (Hs & _). pose proof (s_count _ _ Hs) as Hcn. rewrite !app_length in Hcn.
  destruct C as [|c C]; [done|].
  assert (e_id <$> head (c :: C) = e_id <$> head ((c :: C) ++ D)) as -> by done.
  rewrite (count_loop_spec s mx D (c :: C) A); [done|done|unfold fuel_of; simpl in *; lia|done|by right].
Qed.

(** walking a segment of the range forward *)
Lemma score_loop_fwd s mn mx limit D : ∀ C A fuel i acc, str s (A ++ C ++ D) → (length C < fuel)%nat → 0 ≤ i →
  (limit < 0 ∨ i ≤ limit) →
  Forall (λ e, flt (e_score e) mn || flt mx (e_score e) = false) C →
  (∀ d, head D = Some d → flt (e_score d) mn || flt mx (e_score d) = true) → (C = [] → D = []) →
  score_loop fuel s mn mx limit false i (e_id <$> head (C ++ D)) acc =
    Ok (acc ++ (e_id <$> (if decide (limit < 0) then C else take (Z.to_nat (limit - i)) C))).
Proof.
  induction C as [|c C IH]; intros A fuel i acc Hs Hf Hi Hlim HC HD HCD; (destruct fuel as [|fuel]; [simpl in Hf; lia|]).
  - rewrite (HCD eq_refl). simpl. rewrite take_nil. case_decide; by rewrite app_nil_r.
  - change (A ++ (c :: C) ++ D) with (A ++ c :: C ++ D) in Hs. cbn [score_loop head app fmap option_fmap option_map].
    assert (Hpc : (hd_ent :: A ++ c :: C ++ D) !! S (length A) = Some c) by apply lookup_mid.
    rewrite (step_fwd s _ _ _ Hs Hpc). cbn [mbind res_bind].
    destruct ((limit <? 0) || (i <? limit)) eqn:El.
    2:{ rewrite decide_False by lia. replace (Z.to_nat (limit - i)) with 0%nat by lia. simpl. by rewrite app_nil_r. }
    assert (Hres : (if decide (limit < 0) then c :: C else take (Z.to_nat (limit - i)) (c :: C)) =
                   c :: (if decide (limit < 0) then C else take (Z.to_nat (limit - (i + 1))) C)).
    { destruct (decide (limit < 0)); [done|]. replace (Z.to_nat (limit - i)) with (S (Z.to_nat (limit - (i + 1)))) by lia. done. }
    rewrite Hres.
    assert ((A ++ c :: C ++ D) !! S (length A) = head (C ++ D)) as ->.
    { rewrite lookup_app_r by lia. replace (S (length A) - length A)%nat with 1%nat by lia. simpl. by destruct (C ++ D). }
    apply Forall_cons in HC as [_ HC].
    destruct C as [|c1 C].
    + destruct D as [|d D]; simpl.
      * destruct fuel as [|fuel]; [simpl in Hf; lia|]. simpl. rewrite take_nil. case_decide; done.
      * assert (Hpd : (hd_ent :: A ++ c :: d :: D) !! S (S (length A)) = Some d).
        { simpl. rewrite lookup_app_r by lia. by replace (S (length A) - length A)%nat with 1%nat by lia. }
        destruct (at_node s _ Hs _ _ Hpd) as (nd & -> & _ & Hsd & _). cbn [mbind res_bind]. rewrite Hsd.
        rewrite (HD d eq_refl). rewrite take_nil. case_decide; done.
    + cbn [app head fmap option_fmap option_map].
      assert (Hpd : (hd_ent :: A ++ c :: (c1 :: C) ++ D) !! S (S (length A)) = Some c1).
      { simpl. rewrite lookup_app_r by lia. by replace (S (length A) - length A)%nat with 1%nat by lia. }
      destruct (at_node s _ Hs _ _ Hpd) as (nd & -> & _ & Hsd & _). cbn [mbind res_bind]. rewrite Hsd.
      assert (Hc1 := HC). apply Forall_cons in Hc1 as [-> _].
      pose proof (IH (A ++ [c]) fuel (i + 1) (acc ++ [e_id c])) as IH'. cbn [app head fmap option_fmap option_map] in IH'.
      rewrite IH'; [|by rewrite <-app_assoc|simpl in *; lia|lia|lia|done|done|done].
      by rewrite <-app_assoc.
Qed.

Theorem RangeByScore_fwd s L mn mx limit : sinv s L →
  RangeByScore s mn mx limit false =
    Ok (e_id <$> (let F := filter (λ e, in_range mn mx e = true) L in
                  if decide (limit < 0) then F else take (Z.to_nat limit) F)).
Proof.
  intros Hsi. destruct (split_range mn mx L) as (A & C & D & HL & HA & HB & HC & HD & -> & _); [apply Hsi|apply Hsi|].
  subst L. unfold RangeByScore. rewrite (GetFirst_split s A C D mn mx) by done. cbn [mbind res_bind].
  destruct Hsi as (Hs & Hso & Hnn). pose proof (s_count _ _ Hs) as Hcn. rewrite !app_length in Hcn.
  destruct C as [|c C].
  { simpl. rewrite take_nil. case_decide; done. }
  assert (e_id <$> head (c :: C) = e_id <$> head ((c :: C) ++ D)) as -> by done.
  assert (Hmx : not_nan mx).
  { apply Forall_cons in HC as [HC _]. unfold not_nan. destruct (is_nan mx) eqn:E; [|done]. by rewrite fle_nan_r in HC. }
  apply Forall_app in Hnn as [_ Hnn]. apply Forall_app in Hnn as [HnC HnD]. apply Forall_app in HB as [HBC HBD].
  rewrite (score_loop_fwd s mn mx limit D (c :: C) A).
  - rewrite Z.sub_0_r. done.
  - done.
  - unfold fuel_of. simpl in *. lia.
  - lia.
  - destruct (decide (limit < 0)); lia.
  - apply Forall_forall. intros e He. eapply Forall_forall in HBC; [|exact He]. eapply Forall_forall in HC; [|exact He].
    eapply Forall_forall in HnC; [|exact He]. simpl in *. rewrite HBC. rewrite fle_flt in HC by done. by destruct (flt mx (e_score e)).
  - intros d Hd. destruct D as [|d' D]; [done|]. injection Hd as ->. apply Forall_cons in HD as [HD _].
    apply Forall_cons in HnD as [HnD _]. rewrite fle_flt in HD by done. destruct (flt mx (e_score d)); [|done]. by rewrite orb_true_r.
  - done.
Qed.

(** ... and backward: C reversed *)
Lemma score_loop_bwd s mn mx limit A : ∀ C D fuel i acc, str s (A ++ C ++ D) → (length C < fuel)%nat → 0 ≤ i →
  (limit < 0 ∨ i ≤ limit) →
  Forall (λ e, flt (e_score e) mn || flt mx (e_score e) = false) C →
  (∀ d, last A = Some d → flt (e_score d) mn || flt mx (e_score d) = true) → C ≠ [] →
  score_loop fuel s mn mx limit true i (e_id <$> last C) acc =
    Ok (acc ++ (e_id <$> (if decide (limit < 0) then reverse C else take (Z.to_nat (limit - i)) (reverse C)))).
Proof.
  induction C as [|c C IH] using rev_ind; intros D fuel i acc Hs Hf Hi Hlim HC HA HCne; [done|].
  rewrite app_length in Hf. simpl in Hf. destruct fuel as [|fuel]; [lia|].
  rewrite last_snoc, reverse_snoc. cbn [score_loop fmap option_fmap option_map].
  assert (HLL : A ++ (C ++ [c]) ++ D = (A ++ C) ++ c :: D) by (rewrite <-!app_assoc; done).
  rewrite HLL in Hs.
  assert (Hpc : (hd_ent :: (A ++ C) ++ c :: D) !! S (length (A ++ C)) = Some c) by apply lookup_mid.
  rewrite (step_bwd s _ _ _ Hs Hpc). cbn [mbind res_bind].
  destruct ((limit <? 0) || (i <? limit)) eqn:El.
  2:{ rewrite decide_False by lia. replace (Z.to_nat (limit - i)) with 0%nat by lia. simpl. by rewrite app_nil_r. }
  assert (Hres : (if decide (limit < 0) then c :: reverse C else take (Z.to_nat (limit - i)) (c :: reverse C)) =
                 c :: (if decide (limit < 0) then reverse C else take (Z.to_nat (limit - (i + 1))) (reverse C))).
  { destruct (decide (limit < 0)); [done|]. replace (Z.to_nat (limit - i)) with (S (Z.to_nat (limit - (i + 1)))) by lia. done. }
  rewrite Hres.
  assert (bkof ((A ++ C) ++ c :: D) (S (length (A ++ C))) = e_id <$> last (A ++ C)) as ->.
  { destruct (A ++ C) as [|y Y _] using rev_ind; [done|]. rewrite app_length. simpl. rewrite Nat.add_1_r. simpl.
    rewrite last_snoc. rewrite <-app_assoc. rewrite lookup_app_r, Nat.sub_diag by lia. done. }
  apply Forall_app in HC as [HC _]. clear Hres.
  destruct C as [|c1 C _] using rev_ind.
  - rewrite app_nil_r in *. destruct A as [|a A _] using rev_ind.
    + simpl. destruct fuel as [|fuel]; [lia|]. simpl. change (reverse []) with ([] : list ent). rewrite take_nil. case_decide; done.
    + rewrite last_snoc in HA |- *. cbn [fmap option_fmap option_map].
      assert (Hpa : (hd_ent :: (A ++ [a]) ++ c :: D) !! S (length A) = Some a).
      { simpl. rewrite <-app_assoc. rewrite lookup_app_r, Nat.sub_diag by lia. done. }
      destruct (at_node s _ Hs _ _ Hpa) as (nd & -> & _ & Hsd & _). cbn [mbind res_bind]. rewrite Hsd.
      rewrite (HA a eq_refl). change (reverse []) with ([] : list ent). rewrite take_nil. case_decide; done.
  - rewrite app_assoc, last_snoc. cbn [fmap option_fmap option_map].
    assert (Hpa : (hd_ent :: (A ++ C ++ [c1]) ++ c :: D) !! S (length (A ++ C)) = Some c1).
    { simpl. rewrite (app_assoc A C [c1]), <-(app_assoc (A ++ C)). rewrite lookup_app_r, Nat.sub_diag by lia. done. }
    destruct (at_node s _ Hs _ _ Hpa) as (nd & -> & _ & Hsd & _). cbn [mbind res_bind]. rewrite Hsd.
    assert (Hc1 := HC). apply Forall_app in Hc1 as [_ Hc1]. apply Forall_cons in Hc1 as [-> _].
    pose proof (IH (c :: D) fuel (i + 1) (acc ++ [e_id c])) as IH'. rewrite last_snoc in IH'. cbn [fmap option_fmap option_map] in IH'.
    rewrite IH'; [by rewrite <-app_assoc| |lia|lia|lia|done|done|by intros [? ?]%app_eq_nil].
    by rewrite app_assoc.
Qed.

Theorem RangeByScore_bwd s L mn mx limit : sinv s L → not_nan mn → not_nan mx →
  RangeByScore s mn mx limit true =
    Ok (e_id <$> (let F := reverse (filter (λ e, in_range mn mx e = true) L) in
                  if decide (limit < 0) then F else take (Z.to_nat limit) F)).
Proof.
  intros Hsi Hmn Hmx. unfold RangeByScore. rewrite (GetLast_spec s L mn mx) by done. cbn [mbind res_bind].
  destruct (split_range mn mx L) as (A & C & D & HL & HA & HB & HC & HD & -> & _); [apply Hsi|apply Hsi|].
  subst L. destruct Hsi as (Hs & Hso & Hnn). pose proof (s_count _ _ Hs) as Hcn. rewrite !app_length in Hcn.
  destruct (decide (C = [])) as [->|HCne].
  { simpl. change (reverse []) with ([] : list ent). rewrite take_nil. case_decide; done. }
  apply Forall_app in Hnn as [_ Hnn]. apply Forall_app in Hnn as [HnC HnD]. apply Forall_app in HB as [HBC HBD].
  rewrite (score_loop_bwd s mn mx limit A C D).
  - rewrite Z.sub_0_r. done.
  - done.
  - unfold fuel_of. lia.
  - lia.
  - destruct (decide (limit < 0)); lia.
  - apply Forall_forall. intros e He. eapply Forall_forall in HBC; [|exact He]. eapply Forall_forall in HC; [|exact He].
    eapply Forall_forall in HnC; [|exact He]. simpl in *. rewrite HBC. rewrite fle_flt in HC by done. by destruct (flt mx (e_score e)).
  - intros d Hd. apply last_Some in Hd as [A' ->]. apply Forall_app in HA as [_ HA]. apply Forall_cons in HA as [-> _]. done.
  - done.
Qed.

(** * DeleteRangeByRank, when restarting the rank on every level does no harm *)
(** the elements before [start] have one level each *)
Definition low (start : Z) (L : list ent) : Prop := Forall (λ e, e_h e = 1%nat) (take (Z.to_nat start - 1) L).
Lemma low_simple s L start : str s L → 1 ≤ start → (start = 1 ∨ sl_level s = 1%nat) → low start L.
Proof.
  intros Hs H1 [->|Hl]; [apply Forall_nil_2|]. apply Forall_take. eapply Forall_impl; [exact (s_height _ _ Hs)|]. simpl. intros e He. lia.
Qed.
Lemma walk_stuck s L start i fuel : str s L → low start L → (0 < i < sl_level s)%nat →
  walk (S fuel) s (λ rank span _, rank + span <? start) i HEAD 0 = Ok (HEAD, 0).
Proof.
  intros Hs Hlow Hi. pose proof (s_level _ _ Hs). cbn [walk].
  assert (HE : level_at s HEAD i = Ok (nxt i (drop 0 L))) by (apply (at_level s L Hs 0 hd_ent i); try done; simpl; lia).
  rewrite HE. cbn [mbind res_bind].
  destruct (tall_dec i (drop 0 L)) as [(k & e1 & Hk & Hh1 & Hl)|Hl].
  - rewrite (nxt_tall i _ k e1) by done. cbn [fst snd]. rewrite drop_0 in Hk.
    destruct (at_node s L Hs (S k) e1) as (nd & -> & _); [done|]. cbn [mbind res_bind].
    destruct (Z.ltb_spec (0 + (Z.of_nat k + 1)) start) as [Hlt|]; [exfalso|done].
    assert (e_h e1 = 1%nat); [|lia]. apply (Forall_lookup_1 (λ e, e_h e = 1%nat) _ k e1 Hlow). by rewrite lookup_take by lia.
  - by rewrite nxt_low.
Qed.
Lemma search_reset s L start : str s L → low start L →
  search s (λ rank span _, rank + span <? start) true = search s (λ rank span _, rank + span <? start) false.
Proof.
  intros Hs Hlow. unfold search. pose proof (s_level _ _ Hs) as Hlev.
  assert (Hgen : ∀ m, (m ≤ sl_level s)%nat → descend s (λ rank span _, rank + span <? start) true m HEAD 0 =
    descend s (λ rank span _, rank + span <? start) false m HEAD 0); [|by apply Hgen].
  induction m as [|m IH]; intros Hm; [done|]. cbn [descend]. destruct m as [|m]; [done|].
  unfold fuel_of. rewrite (walk_stuck s L start (S m)) by (try done; lia). cbn [mbind res_bind fst snd]. rewrite IH by lia. done.
Qed.

Theorem DeleteRangeByRank_sinv s L start end_ : sinv s L → 1 ≤ start ≤ end_ → low start L →
  ∃ s', DeleteRangeByRank s start end_ =
      Ok (s', e_id <$> take (Z.to_nat (end_ - start + 1)) (drop (Z.to_nat start - 1) L)) ∧
    sinv s' (take (Z.to_nat start - 1) L ++ drop (Z.to_nat end_) L) ∧ keeps s s' ∧ sl_next s' = sl_next s.
Proof.
  intros (Hs & Hso & Hnn) Hr Hlev. unfold DeleteRangeByRank.
  replace ((start <? 1) || (end_ <? 1) || (end_ <? start)) with false by lia.
  rewrite (search_reset s L start Hs Hlev).
  set (n := (Z.to_nat start - 1)%nat). set (m := Z.to_nat (end_ - start + 1)).
  set (A := take n L). set (C := take m (drop n L)). set (D := drop (Z.to_nat end_) L).
  assert (HL : L = A ++ C ++ D).
  { unfold A, C, D. rewrite <-(take_drop n L) at 1. f_equal. rewrite <-(take_drop m (drop n L)) at 1. f_equal.
    rewrite drop_drop. f_equal. lia. }
  assert (HlA : length A = min n (length L)) by (unfold A; apply take_length).
  rewrite HL in Hs.
  assert (Hc : cond_ok (A ++ C ++ D) (λ rank span _, rank + span <? start) (length A)).
  { rewrite <-HL. intros q e nd rank span Hq Hrs _ _. rewrite Hrs. apply lookup_lt_Some in Hq. case_bool_decide; lia. }
  destruct (search_at s A (C ++ D) _ Hs Hc) as (us & e0 & E1 & Hus & E0 & Hp0 & Elv).
  rewrite E1. cbn [mbind res_bind]. rewrite E0. cbn [deref mbind res_bind fst]. rewrite Elv. cbn [mbind res_bind].
  assert (match C ++ D with [] => (None, 0) | e :: _ => (Some (e_id e), 1) end.1 = e_id <$> head (C ++ D)) as ->.
  { by destruct (C ++ D). }
  assert (HlC : length C = min m (length L - n)) by (unfold C; rewrite take_length, drop_length; done).
  destruct (delete_loop_spec us.*1 (λ i _, i <=? end_) A D C (fuel_of s) s start []) as (s' & E2 & Hs' & Hk & Hn).
  - done.
  - by apply us_upd_ok.
  - pose proof (s_count _ _ Hs) as Hcn. rewrite !app_length in Hcn. unfold fuel_of. lia.
  - intros j e nd Hj _. apply lookup_lt_Some in Hj. lia.
  - intros e nd Hd _.
    assert (D ≠ []) as HDne by (by destruct D).
    assert (length D ≠ 0%nat) by (by destruct D). unfold D in H. rewrite drop_length in H. unfold zlen. lia.
  - exists s'. rewrite E2. split; [done|]. split; [|done]. rewrite HL in Hso, Hnn. by eapply sinv_sub.
Qed.

(** * DeleteRangeByRank in general *)
Lemma walk_gen s L start i : str s L → (i < sl_level s)%nat → ∀ fuel p e acc,
  (hd_ent :: L) !! p = Some e → (i < e_h e)%nat → (length L - p < fuel)%nat →
  ∃ q e', walk fuel s (λ rank span _, rank + span <? start) i (e_id e) acc = Ok (e_id e', acc + Z.of_nat (q - p)) ∧
    (p ≤ q)%nat ∧ (hd_ent :: L) !! q = Some e' ∧ (i < e_h e')%nat ∧
    (∀ k e1, L !! (q + k)%nat = Some e1 → (i < e_h e1)%nat → (∀ j e2, (j < k)%nat → L !! (q + j)%nat = Some e2 → (e_h e2 ≤ i)%nat) →
       start ≤ acc + Z.of_nat (q - p) + Z.of_nat k + 1) ∧
    (q = p ∨ acc + Z.of_nat (q - p) < start).
Proof.
  intros Hs Hi. induction fuel as [|fuel IH]; intros p e acc Hp Hh Hf; [lia|]. cbn [walk].
  rewrite (at_level s L Hs p e i) by done. cbn [mbind res_bind].
  assert (Hstop : (∀ k e1, L !! (p + k)%nat = Some e1 → (i < e_h e1)%nat → (∀ j e2, (j < k)%nat → L !! (p + j)%nat = Some e2 → (e_h e2 ≤ i)%nat) →
       start ≤ acc + Z.of_nat k + 1) → ∃ q e', Ok (e_id e, acc) = Ok (e_id e', acc + Z.of_nat (q - p)) ∧
    (p ≤ q)%nat ∧ (hd_ent :: L) !! q = Some e' ∧ (i < e_h e')%nat ∧
    (∀ k e1, L !! (q + k)%nat = Some e1 → (i < e_h e1)%nat → (∀ j e2, (j < k)%nat → L !! (q + j)%nat = Some e2 → (e_h e2 ≤ i)%nat) →
       start ≤ acc + Z.of_nat (q - p) + Z.of_nat k + 1) ∧ (q = p ∨ acc + Z.of_nat (q - p) < start)).
  { intros H. exists p, e. rewrite Nat.sub_diag. split; [f_equal; f_equal; lia|]. split; [lia|]. split; [done|]. split; [done|].
    split; [|by left]. intros k e1 H1 H2 H3. specialize (H k e1 H1 H2 H3). lia. }
  destruct (tall_dec i (drop p L)) as [(k & e1 & Hk & Hh1 & Hl)|Hl].
  - rewrite (nxt_tall i _ k e1) by done. cbn [fst snd]. rewrite lookup_drop in Hk.
    destruct (at_node s L Hs (S (p + k)) e1) as (nd & -> & _); [done|]. cbn [mbind res_bind].
    destruct (Z.ltb_spec (acc + (Z.of_nat k + 1)) start) as [Hlt|Hge].
    + pose proof (lookup_lt_Some _ _ _ Hk).
      destruct (IH (S (p + k)) e1 (acc + (Z.of_nat k + 1))) as (q & e' & E1 & H1 & H2 & H3 & H4 & H5); [done|done|lia|].
      exists q, e'. rewrite E1. split; [f_equal; f_equal; lia|]. split; [lia|]. split; [done|]. split; [done|]. split; [|right; lia].
      intros k2 e2 G1 G2 G3. specialize (H4 k2 e2 G1 G2 G3). lia.
    + apply Hstop. intros k2 e2 G1 G2 G3. destruct (decide (k2 < k)%nat) as [Hlt|]; [|lia].
      assert (e_h e2 ≤ i)%nat; [|lia]. apply (Hl k2 e2); [done|]. by rewrite lookup_drop.
  - rewrite nxt_low by done. cbn [fst]. apply Hstop. intros k e1 G1 G2 _. assert (e_h e1 ≤ i)%nat; [|lia].
    apply (Hl k e1). by rewrite lookup_drop.
Qed.
Lemma descend_S s cond reset i x rank : descend s cond reset (S i) x rank =
  (r ← walk (fuel_of s) s cond i x (if reset then 0 else rank); rest ← descend s cond reset i r.1 r.2; Ok (rest ++ [r])).
Proof. done. Qed.
Lemma descend_any s cond m x rank : descend s cond true m x rank = descend s cond true m x 0.
Proof. by destruct m. Qed.
(** the position at which the search ends: [start - 1] steps beyond the one reached on the
    higher levels *)
Lemma descend_gen s L start : str s L → 1 ≤ start → ∀ m p e, (hd_ent :: L) !! p = Some e → (S m ≤ e_h e)%nat → (S m ≤ sl_level s)%nat →
  ∃ us rk q q' e', descend s (λ rank span _, rank + span <? start) true (S m) (e_id e) 0 = Ok us ∧ us !! 0%nat = Some (e_id e', rk) ∧
    (p ≤ q)%nat ∧ q' = Nat.min (q + (Z.to_nat start - 1)) (length L) ∧ (hd_ent :: L) !! q' = Some e' ∧
    ((0 < m)%nat → ¬ low start L → (0 < q)%nat).
Proof.
  intros Hs H1. induction m as [|m IH]; intros p e Hp Hh Hm; rewrite descend_S; pose proof (s_count _ _ Hs);
    match goal with |- context [walk _ _ _ ?i _ _] => destruct (walk_gen s L start i Hs ltac:(lia) (fuel_of s) p e 0 Hp ltac:(lia)) as (q & e' & -> & W1 & W2 & W3 & W4 & W5); [unfold fuel_of; lia|] end;
    cbn [mbind res_bind fst snd].
  - cbn [descend mbind res_bind app]. eexists [_], _, p, q, e'. split; [done|]. split; [done|]. split; [done|]. split; [|split; [done|lia]].
    assert (Hq : (q ≤ length L)%nat) by (apply lookup_lt_Some in W2; simpl in W2; lia).
    destruct (decide (q = length L)) as [->|Hne]; [lia|]. destruct (lookup_lt_is_Some_2 L q) as [e1 He1]; [lia|].
    specialize (W4 0%nat e1). rewrite Nat.add_0_r in W4. specialize (W4 He1).
    assert (0 < e_h e1)%nat by (by eapply (height_pos s L Hs (S q))). specialize (W4 ltac:(lia) ltac:(intros; lia)). lia.
  - destruct (IH q e' W2 ltac:(lia) ltac:(lia)) as (us & rk & q1 & q2 & e2 & E2 & U & D1 & D2 & D3 & D4).
    rewrite descend_any, E2. cbn [mbind res_bind]. exists (us ++ [(e_id e', 0 + Z.of_nat (q - p))]), rk, q1, q2, e2. split; [done|]. split; [by apply lookup_app_l_Some|].
    split; [lia|]. split; [done|]. split; [done|]. intros _ Hnl. destruct m as [|m]; [|apply D4; [lia|done]].
    (* level 1 *)
    destruct (decide (q = 0%nat)) as [->|]; [|lia]. exfalso. apply Hnl. apply Forall_lookup. intros r er Hr.
    apply lookup_take_Some in Hr as [Hr Hlt]. pose proof (height_pos s L Hs (S r) er Hr).
    destruct (decide (e_h er = 1%nat)) as [?|Hne]; [done|]. exfalso.
    destruct (tall_dec 1 L) as [(k & e1 & Hk & Hh1 & Hl)|Hl].
    + specialize (W4 k e1 Hk Hh1 Hl). destruct (decide (r < k)%nat) as [Hrk|]; [specialize (Hl r er Hrk Hr); lia|lia].
    + specialize (Hl r er Hr). lia.
Qed.
Lemma delete_loop_acc fuel : ∀ s upd cond i x acc s' ids, delete_loop fuel s upd cond i x acc = Ok (s', ids) → acc `prefix_of` ids.
Proof.
  induction fuel as [|fuel IH]; intros s upd cond i x acc s' ids HE; [done|]. cbn [delete_loop] in HE. destruct x as [x|]; [|by injection HE as _ <-].
  destruct (node s x) as [n| |]; try done. cbn [mbind res_bind] in HE. destruct (cond i n); [|by injection HE as _ <-].
  destruct (level_of n 0) as [lv| |]; try done. cbn [mbind res_bind] in HE. destruct (deleteNode s x upd) as [s1| |]; try done. cbn [mbind res_bind] in HE.
  apply IH in HE. etrans; [|exact HE]. by exists [x].
Qed.
(** the first node removed *)
Lemma DeleteRangeByRank_gen s L start end_ s' ids : str s L → 1 ≤ start ≤ end_ → DeleteRangeByRank s start end_ = Ok (s', ids) →
  ∃ q, head ids = e_id <$> L !! (q + (Z.to_nat start - 1))%nat ∧ (¬ low start L → (0 < q)%nat).
Proof.
  intros Hs Hr HE. unfold DeleteRangeByRank in HE. replace ((start <? 1) || (end_ <? 1) || (end_ <? start)) with false in HE by lia.
  pose proof (s_level _ _ Hs) as Hlev. unfold search in HE. destruct (sl_level s) as [|m] eqn:Hm; [lia|].
  destruct (descend_gen s L start Hs ltac:(lia) m 0 hd_ent eq_refl) as (us & rk & q & q' & e' & E1 & U & D1 & D2 & D3 & D4); [simpl; lia|lia|].
  change (e_id hd_ent) with HEAD in E1. rewrite E1 in HE. cbn [mbind res_bind] in HE. rewrite U in HE. cbn [deref mbind res_bind fst] in HE.
  rewrite (at_level s L Hs q' e' 0) in HE by (try done; try lia; by eapply height_pos). cbn [mbind res_bind] in HE.
  assert (Hnext : (nxt 0 (drop q' L)).1 = e_id <$> L !! (q + (Z.to_nat start - 1))%nat).
  { rewrite nxt0 by (apply Forall_drop; by eapply heights_pos).
    destruct (decide (q + (Z.to_nat start - 1) < length L)%nat) as [Hlt|Hge].
    - rewrite D2, Nat.min_l by lia. destruct (lookup_lt_is_Some_2 L _ Hlt) as [e1 He1]. rewrite He1, (drop_S _ _ _ He1). done.
    - rewrite D2, Nat.min_r, drop_ge, lookup_ge_None_2 by lia. done. }
  rewrite Hnext in HE. exists q. split.
  - unfold fuel_of in HE. cbn [delete_loop] in HE. destruct (L !! (q + (Z.to_nat start - 1))%nat) as [e1|] eqn:He1; cbn [fmap option_fmap option_map] in HE |- *.
    + destruct (at_node s L Hs (S (q + (Z.to_nat start - 1))) e1 He1) as (nd & En & _). rewrite En in HE. cbn [mbind res_bind] in HE.
      rewrite (proj2 (Z.leb_le _ _)) in HE by lia. destruct (level_of nd 0) as [lv| |]; try done. cbn [mbind res_bind] in HE.
      destruct (deleteNode s (e_id e1) us.*1) as [s1| |]; try done. cbn [mbind res_bind] in HE. apply delete_loop_acc in HE as [t ->]. done.
    + by injection HE as _ <-.
  - intros Hnl. destruct m as [|m]; [|apply D4; [lia|done]]. exfalso. apply Hnl. by eapply low_simple; [exact Hs|lia|right].
Qed.
