(** Dict proofs, part 3: each operation refines the finite-map operation. *)
From Verif Require Import Base DictModel DictProofs DictProofs2.
From Coq Require Import ZifyBool ZifyNat.

Section proofs.
  Context {K V : Type} `{Countable K}.
  Variable hash : K → Z.
  Notation dict := (dict K V).
  Notation hashTable := (hashTable K V).
  Implicit Types (d : dict) (h : hashTable) (k : K) (v : V).
  Notation ht_ok := (ht_ok (V:=V) hash).
  Notation dict_ok := (dict_ok (V:=V) hash).
  Notation tables_ok := (tables_ok (V:=V) hash).

  Lemma NewDict_ok : dict_ok NewDict.
  Proof. repeat split; simpl; try done. apply NoDup_nil_2. Qed.
  Lemma NewDict_map : d_map (NewDict (K:=K) (V:=V)) = ∅.
  Proof. done. Qed.

  Lemma table_ht_ok d t h : tables_ok d → d_table d t = Some h → ht_ok h.
  Proof.
    unfold DictProofs.tables_ok, d_table. destruct t; intros Ht E; rewrite E in Ht.
    - destruct (d_ht0 d); tauto.
    - destruct (d_ht1 d); tauto.
  Qed.

  Lemma write_value_spec d l k v v' :
    dict_ok d → loc_ok d l k v →
    ∃ d', write_value d l v' = Ok d' ∧ dict_ok d' ∧ d_map d' = <[k := v']> (d_map d) ∧
          d_iterators d' = d_iterators d ∧ d_ht0 d' ≠ None.
  Proof.
    intros (Htab & Hnd & Hit & Hn) (h & c & Ht & Hb & Hc & Hp). unfold write_value.
    rewrite Ht. simpl.
    assert (Hb' : l_bucket l = Z.of_nat (Z.to_nat (l_bucket l))) by lia.
    rewrite Hb'. rewrite (go_index_lookup _ _ _ Hc). simpl.
    rewrite (go_index_lookup _ _ _ Hp). simpl.
    assert (Hpl : (l_pos l < length c)%nat) by (by eapply lookup_lt_Some).
    assert (Hbl : (Z.to_nat (l_bucket l) < length (ht_tables h))%nat) by (by eapply lookup_lt_Some).
    rewrite go_store_ok by (unfold zlen; lia). simpl.
    rewrite go_store_ok by (unfold zlen; lia). simpl. rewrite !Nat2Z.id.
    destruct (replace_bucket_spec hash d (l_table l) h (Z.to_nat (l_bucket l)) c
                (<[l_pos l := (k, v')]> c) 0) as (Htab' & (rest & Hp1 & Hp2) & Hit' & Hn'); try done.
    { intros e He. apply elem_of_list_lookup in He as (j & Hj).
      destruct (decide (j = l_pos l)) as [->|Hne].
      - rewrite list_lookup_insert in Hj by done. injection Hj as <-. simpl.
        apply elem_of_list_fmap. exists (k, v). split; [done|]. by eapply elem_of_list_lookup_2.
      - rewrite list_lookup_insert_ne in Hj by done.
        apply elem_of_list_fmap. exists e. split; [done|]. by eapply elem_of_list_lookup_2. }
    { unfold zlen. rewrite insert_length. lia. }
    rewrite Z.add_0_r in *. eexists. split; [done|].
    match goal with |- DictProofs.dict_ok _ ?x ∧ _ => set (d' := x) in * end.
    clearbody d'.
    rewrite (list_split_at c _ _ Hp) in Hp1.
    rewrite (list_split_at (<[l_pos l := (k, v')]> c) (l_pos l) (k, v')) in Hp2
      by (by apply list_lookup_insert).
    rewrite take_insert, drop_insert_gt in Hp2 by lia.
    set (A := take (l_pos l) c) in *. set (C := drop (S (l_pos l)) c) in *.
    assert (Hp1' : entries d ≡ₚ (k, v) :: A ++ C ++ rest) by (rewrite Hp1; solve_Permutation).
    assert (Hp2' : entries d' ≡ₚ (k, v') :: A ++ C ++ rest) by (rewrite Hp2; solve_Permutation).
    assert (Hnd' : NoDup (entries d').*1).
    { rewrite Hp2'. rewrite Hp1' in Hnd. done. }
    split; [|split; [|split; [done|done]]].
    - split; [done|]. split; [done|]. rewrite Hit'. split; [done|]. intros E. done.
    - apply map_eq. intros k'. destruct (decide (k = k')) as [<-|Hne].
      + rewrite lookup_insert. apply d_map_Some; [done|]. rewrite Hp2'. left.
      + rewrite lookup_insert_ne by done. apply option_eq. intros w.
        rewrite !d_map_Some by done. rewrite Hp2', Hp1', !elem_of_cons.
        split; intros [[=]|]; try done; by right.
  Qed.

  Definition Find_result d d' k (o : option loc) : Prop :=
    dict_ok d' ∧ d_map d' = d_map d ∧ d_iterators d' = d_iterators d ∧
    (d_ht0 d' = None ↔ d_ht0 d = None) ∧
    match o with
    | Some l => ∃ v, loc_ok d' l k v ∧ d_map d !! k = Some v
    | None => d_map d !! k = None
    end.

  Lemma d_map_uninit d : dict_ok d → d_ht0 d = None → d_map d = ∅.
  Proof.
    intros (Ht & _) E0. unfold d_map, entries. unfold DictProofs.tables_ok in Ht. rewrite E0 in *.
    destruct (d_ht1 d); done.
  Qed.

  Lemma Find_spec d k : dict_ok d → ∃ d' o, Find hash d k = Ok (d', o) ∧ Find_result d d' k o.
  Proof.
    intros Hok. unfold Find. destruct (d_ht0 d) as [h0|] eqn:E0.
    - destruct (maybe_step_spec hash d) as (d' & -> & Hs); [by destruct Hok|]. simpl.
      pose proof (dict_ok_step hash d d' Hok Hs) as Hok'.
      pose proof (d_map_step hash d d' Hok Hs) as Hmap.
      destruct Hs as (Ht' & Hp & Hit & Hn').
      destruct (find_both_spec hash d' k) as (o & i & -> & Ho);
        [done| rewrite Hn', E0; done|].
      simpl. exists d', o. split; [done|]. split; [done|]. split; [done|]. split; [done|]. split; [done|].
      destruct o as [l|].
      + destruct Ho as [v Hv]. exists v. split; [done|]. rewrite <-Hmap.
        apply d_map_Some; [by destruct Hok' as (_ & ? & _)|]. by eapply loc_ok_in.
      + rewrite <-Hmap. apply d_map_None. tauto.
    - exists d, None. split; [done|]. split; [done|]. do 3 (split; [done|]).
      by rewrite (d_map_uninit d).
  Qed.

  Theorem Get_spec d k : dict_ok d →
    ∃ d', Get hash d k = Ok (d', d_map d !! k) ∧ dict_ok d' ∧ d_map d' = d_map d ∧
          d_iterators d' = d_iterators d ∧ (d_ht0 d' = None ↔ d_ht0 d = None).
  Proof.
    intros Hok. destruct (Find_spec d k Hok) as (d' & o & HF & Hok' & Hm & Hit & Hn & Ho).
    unfold Get. rewrite HF. simpl. destruct o as [l|].
    - destruct Ho as (v & Hl & Hv). rewrite (entry_at_loc hash d' l k v) by done. simpl.
      exists d'. by rewrite Hv.
    - exists d'. by rewrite Ho.
  Qed.

  Lemma FindEntry_spec d k : dict_ok d →
    ∃ d', FindEntry hash d k = Ok (d', (λ v, (k, v)) <$> (d_map d !! k)) ∧ dict_ok d' ∧
          d_map d' = d_map d ∧
          d_iterators d' = d_iterators d ∧ (d_ht0 d' = None ↔ d_ht0 d = None).
  Proof.
    intros Hok. destruct (Find_spec d k Hok) as (d' & o & HF & Hok' & Hm & Hit & Hn & Ho).
    unfold FindEntry. rewrite HF. simpl. destruct o as [l|].
    - destruct Ho as (v & Hl & Hv). rewrite (entry_at_loc hash d' l k v) by done. simpl.
      exists d'. by rewrite Hv.
    - exists d'. by rewrite Ho.
  Qed.

  Lemma keyIndex_spec d k : dict_ok d → small (length (entries d)) →
    ∃ d' i, keyIndex hash d k = Ok (d', i) ∧ dict_ok d' ∧ entries d' = entries d ∧
      d_iterators d' = d_iterators d ∧ d_ht0 d' ≠ None ∧
      ((i = -1 ∧ k ∈ (entries d).*1) ∨
       (k ∉ (entries d).*1 ∧ ∃ h, d_table d' (isRehashing d') = Some h ∧ i = bucket_index hash h k)).
  Proof.
    intros (Htab & Hnd & Hit & Hn) Hsm. unfold keyIndex.
    destruct (expandIfNeeded_spec hash d Htab Hsm) as (d' & -> & Htab' & Hn0 & He & Hi & _). simpl.
    destruct (find_both_spec hash d' k Htab' Hn0) as (o & i & -> & Ho). simpl.
    destruct o as [l|].
    - exists d', (-1). split; [done|]. split.
      { split; [done|]. rewrite He. split; [done|]. rewrite Hi. done. }
      do 3 (split; [done|]). left. split; [done|]. destruct Ho as [v Hv].
      apply loc_ok_in in Hv. rewrite He in Hv. apply elem_of_list_fmap. by exists (k, v).
    - destruct Ho as [Hni (h & Ht & ->)].
      exists d', (bucket_index hash h k). split; [done|]. split.
      { split; [done|]. rewrite He. split; [done|]. rewrite Hi. done. }
      do 3 (split; [done|]). right. rewrite He in Hni. eauto.
  Qed.

  (** adding a new entry at the head of its bucket in the insertion table *)
  Lemma insert_new_spec d k v h c :
    dict_ok d → k ∉ (entries d).*1 →
    d_table d (isRehashing d) = Some h →
    ht_tables h !! Z.to_nat (bucket_index hash h k) = Some c →
    let d' := d_set_table d (isRehashing d)
       (HT (<[Z.to_nat (bucket_index hash h k) := (k, v) :: c]> (ht_tables h))
           (ht_size h) (ht_sizeMask h) (ht_used h + 1)) in
    dict_ok d' ∧ d_map d' = <[k := v]> (d_map d) ∧ d_iterators d' = d_iterators d ∧ d_ht0 d' ≠ None.
  Proof.
    intros (Htab & Hnd & Hit & Hn) Hni Ht Hc d'.
    pose proof (isRehashing_spec hash d Htab) as HR.
    assert (Hokh : ht_ok h).
    { by eapply table_ht_ok. }
    destruct (ht_ok_cons hash h k v c Hokh Hc) as [Hokh' Hp].
    assert (Hent : entries d' ≡ₚ (k, v) :: entries d).
    { unfold entries, d'. unfold d_table in Ht. destruct (isRehashing d); simpl; rewrite Ht, Hp.
      - symmetry. apply Permutation_middle.
      - done. }
    assert (Htab' : tables_ok d').
    { unfold d'. unfold d_table in Ht. unfold DictProofs.tables_ok in *.
      destruct (isRehashing d); simpl; rewrite Ht in Htab.
      - destruct (d_ht0 d); tauto.
      - destruct (d_ht1 d); [done|tauto]. }
    assert (Hn0' : d_ht0 d' ≠ None).
    { unfold DictProofs.tables_ok in Htab'. destruct (d_ht0 d') eqn:E; [done|].
      destruct (d_ht1 d') eqn:E1; [done|]. intros _.
      unfold entries in Hent. rewrite E, E1 in Hent. simpl in Hent. by apply Permutation_nil_cons in Hent. }
    assert (Hiters : d_iterators d' = d_iterators d) by (unfold d'; by destruct (isRehashing d)).
    assert (Hnd' : NoDup (entries d').*1).
    { rewrite Hent. simpl. by apply NoDup_cons. }
    split; [|split; [|split; [done|done]]].
    - split; [done|]. split; [done|]. rewrite Hiters. done.
    - unfold d_map. rewrite (list_to_map_proper (entries d') ((k,v) :: entries d)); done.
  Qed.

  Theorem Set_spec d k v : dict_ok d → small (length (entries d)) →
    ∃ d', Set_ hash d k v = Ok (d', bool_decide (d_map d !! k = None)) ∧ dict_ok d' ∧
          d_map d' = <[k := v]> (d_map d) ∧ d_iterators d' = d_iterators d ∧ d_ht0 d' ≠ None.
  Proof.
    intros Hok Hsm. unfold Set_.
    destruct (maybe_step_spec hash d) as (d1 & -> & Hs); [by destruct Hok|]. simpl.
    pose proof (dict_ok_step hash d d1 Hok Hs) as Hok1.
    pose proof (d_map_step hash d d1 Hok Hs) as Hmap1.
    destruct Hs as (Ht1 & Hp1 & Hit1 & Hn1).
    destruct (keyIndex_spec d1 k Hok1) as (d2 & i & -> & Hok2 & He2 & Hi2 & Hn2 & Hi).
    { by rewrite Hp1. }
    simpl.
    assert (Hmap2 : d_map d2 = d_map d1) by (unfold d_map; by rewrite He2).
    destruct Hi as [[-> Hin]|[Hni (h & Hh & ->)]].
    - simpl. destruct (Find_spec d2 k Hok2) as (d3 & o & -> & Hok3 & Hm3 & Hi3 & Hn3 & Ho).
      simpl. assert (HS : d_map d2 !! k ≠ None).
      { rewrite d_map_None, He2. auto. }
      destruct o as [l|]; [|done]. destruct Ho as (v0 & Hl & Hv0). simpl.
      destruct (write_value_spec d3 l k v0 v Hok3 Hl) as (d4 & -> & Hok4 & Hm4 & Hi4 & Hn4).
      simpl. exists d4. rewrite bool_decide_eq_false_2 by (rewrite <-Hmap1, <-Hmap2; done).
      split; [done|]. split; [done|]. split; [by rewrite Hm4, Hm3, Hmap2, Hmap1|].
      split; [congruence|done].
    - assert (Hokh : ht_ok h).
      { destruct Hok2 as (Htab & _). by eapply table_ht_ok. }
      pose proof (bucket_index_range hash h k Hokh) as Hr.
      destruct (Z.eqb_spec (bucket_index hash h k) (-1)); [lia|].
      rewrite Hh. simpl. destruct (go_index_ok (ht_tables h) (bucket_index hash h k) Hr) as (c & Hc & ->).
      simpl. rewrite go_store_ok by done. simpl.
      rewrite <-He2 in Hni.
      destruct (insert_new_spec d2 k v h c Hok2 Hni Hh Hc) as (Hok3 & Hm3 & Hi3 & Hn3).
      eexists. rewrite bool_decide_eq_true_2.
      + split; [done|]. split; [done|]. split; [by rewrite Hm3, Hmap2, Hmap1|]. split; [congruence|done].
      + rewrite <-Hmap1, <-Hmap2. by apply d_map_None.
  Qed.

  Lemma delete_at_spec d l k v :
    dict_ok d → loc_ok d l k v →
    ∃ d', delete_at d l = Ok d' ∧ dict_ok d' ∧ d_map d' = delete k (d_map d) ∧
          d_iterators d' = d_iterators d ∧ d_ht0 d' ≠ None.
  Proof.
    intros (Htab & Hnd & Hit & Hn) (h & c & Ht & Hb & Hc & Hp). unfold delete_at.
    rewrite Ht. simpl.
    assert (Hb' : l_bucket l = Z.of_nat (Z.to_nat (l_bucket l))) by lia.
    rewrite Hb'. rewrite (go_index_lookup _ _ _ Hc). simpl.
    assert (Hpl : (l_pos l < length c)%nat) by (by eapply lookup_lt_Some).
    assert (Hbl : (Z.to_nat (l_bucket l) < length (ht_tables h))%nat) by (by eapply lookup_lt_Some).
    rewrite go_store_ok by (unfold zlen; lia). simpl. rewrite !Nat2Z.id.
    set (A := take (l_pos l) c). set (C := drop (S (l_pos l)) c).
    assert (Hsplit : c = A ++ (k, v) :: C) by (by apply list_split_at).
    destruct (replace_bucket_spec hash d (l_table l) h (Z.to_nat (l_bucket l)) c (A ++ C) (-1))
      as (Htab' & (rest & Hp1 & Hp2) & Hit' & Hn'); try done.
    { intros e He. rewrite Hsplit. rewrite fmap_app, fmap_cons.
      apply elem_of_app in He as [He|He]; rewrite elem_of_app, elem_of_cons.
      - left. apply elem_of_list_fmap. eauto.
      - right; right. apply elem_of_list_fmap. eauto. }
    { unfold zlen. rewrite Hsplit at 1. rewrite !app_length. simpl. lia. }
    eexists. split; [done|].
    match goal with |- DictProofs.dict_ok _ ?x ∧ _ => set (d' := x) in * end.
    change (ht_used h + -1) with (ht_used h - 1) in *.
    fold d' in Hp2, Htab', Hit', Hn'.
    assert (Hp1' : entries d ≡ₚ (k, v) :: entries d').
    { rewrite Hp1, Hp2. rewrite Hsplit. rewrite <-!app_assoc. simpl.
      symmetry. apply Permutation_middle. }
    assert (Hnd' : NoDup (entries d').*1).
    { rewrite Hp1' in Hnd. simpl in Hnd. by apply NoDup_cons in Hnd as [_ ?]. }
    split; [|split; [|split; [done|done]]].
    - split; [done|]. split; [done|]. rewrite Hit'. split; [done|]. intros E. done.
    - assert (Hm : d_map d = list_to_map ((k, v) :: entries d')).
      { unfold d_map. by apply list_to_map_proper. }
      rewrite Hm. simpl. fold (d_map d'). symmetry. apply delete_insert. apply d_map_None.
      rewrite Hp1' in Hnd. simpl in Hnd. by apply NoDup_cons in Hnd as [? _].
  Qed.

  Definition delete_result d k : option dict_err :=
    match d_ht0 d with
    | None => Some ErrNotInitialized
    | Some _ => if d_map d !! k then None else Some ErrKeyNotFound
    end.

  Theorem Delete_spec d k : dict_ok d →
    ∃ d', Delete hash d k = Ok (d', delete_result d k) ∧ dict_ok d' ∧
          d_map d' = delete k (d_map d) ∧ d_iterators d' = d_iterators d ∧
          (d_ht0 d' = None ↔ d_ht0 d = None).
  Proof.
    intros Hok. unfold Delete, delete_result. destruct (d_ht0 d) as [h0|] eqn:E0.
    - destruct (maybe_step_spec hash d) as (d1 & -> & Hs); [by destruct Hok|]. simpl.
      pose proof (dict_ok_step hash d d1 Hok Hs) as Hok1.
      pose proof (d_map_step hash d d1 Hok Hs) as Hmap1.
      destruct Hs as (Ht1 & Hp1 & Hit1 & Hn1).
      destruct (find_both_spec hash d1 k) as (o & i & -> & Ho); [done|rewrite Hn1, E0; done|].
      simpl. destruct o as [l|].
      + destruct Ho as [v Hl].
        assert (Hv : d_map d1 !! k = Some v).
        { apply d_map_Some; [by destruct Hok1 as (_ & ? & _)|]. by eapply loc_ok_in. }
        destruct (delete_at_spec d1 l k v Hok1 Hl) as (d2 & -> & Hok2 & Hm2 & Hi2 & Hn2). simpl.
        exists d2. rewrite <-Hmap1, Hv. split; [done|]. split; [done|]. split; [done|].
        split; [congruence|]. by split; intros.
      + destruct Ho as [Hni _]. apply d_map_None in Hni. rewrite Hmap1 in Hni. rewrite Hni.
        exists d1. split; [done|]. split; [done|]. split; [by rewrite delete_notin|].
        split; [done|]. rewrite Hn1, E0. done.
    - exists d. split; [done|]. split; [done|]. rewrite (d_map_uninit d) by done.
      rewrite delete_empty. done.
  Qed.

  Theorem Size_spec d : dict_ok d → Size d = Ok (Z.of_nat (size (d_map d))).
  Proof.
    intros Hok. pose proof Hok as (Htab & Hnd & _). rewrite d_map_size by done.
    unfold Size. rewrite (isRehashing_spec hash d Htab).
    unfold DictProofs.tables_ok in Htab. unfold entries.
    destruct (d_ht0 d) as [h0|], (d_ht1 d) as [h1|]; simpl; try done.
    - destruct Htab as ((_ & _ & _ & H0 & _) & (_ & _ & _ & H1 & _) & _).
      rewrite H0, H1, app_length. unfold zlen. f_equal. lia.
    - destruct Htab as ((_ & _ & _ & H0 & _) & _). rewrite H0, app_nil_r. done.
  Qed.

  (** * Random selection *)
  Lemma draw_bucket_spec d rs b rs' :
    dict_ok d → draw_bucket d rs = Ok (b, rs') → (∀ e, e ∈ b → e ∈ entries d) ∧ b ≠ [] ∧
    ∃ rs0, rs = rs0 ++ rs'.
  Proof.
    intros Hok. induction rs as [|r rs IH]; simpl; [done|].
    destruct (d_ht0 d) as [h0|] eqn:E0; [|done]. simpl.
    assert (Hsub : ∀ t h i c e, d_table d t = Some h → go_index (ht_tables h) i = Ok c →
                    e ∈ c → e ∈ entries d).
    { intros t h i c e Ht Hc He. apply go_index_inv in Hc as [_ Hc].
      eapply elem_of_entries_table; [done|]. apply elem_of_list_join. exists c.
      split; [done|]. by eapply elem_of_list_lookup_2. }
    match goal with |- mbind _ ?x = _ → _ => destruct x as [c| |] eqn:Hx end; simpl; try done.
    assert (Hc : ∀ e, e ∈ c → e ∈ entries d).
    { destruct (isRehashing d).
      - destruct (d_ht1 d) as [h1|] eqn:E1; simpl in Hx; [|done].
        destruct (_ =? 0); [done|]. destruct (_ <=? _).
        + intros e. by eapply (Hsub true h1).
        + intros e. by eapply (Hsub false h0).
      - destruct (_ =? 0); [done|]. intros e. by eapply (Hsub false h0). }
    destruct c as [|e c].
    - intros Hd. destruct (IH Hd) as (? & ? & rs0 & ->). split; [done|]. split; [done|]. by exists (r :: rs0).
    - intros [= <- <-]. split; [done|]. split; [done|]. by exists [r].
  Qed.

  Lemma draw_bucket_no_panic d rs :
    dict_ok d → d_ht0 d ≠ None → Forall (λ r, 0 ≤ r) rs → draw_bucket d rs ≠ Panic.
  Proof.
    intros Hok Hn Hrs. pose proof Hok as (Htab & _). pose proof (isRehashing_spec hash d Htab) as HR.
    induction Hrs as [|r rs Hr Hrs IH]; simpl; [done|].
    destruct (d_ht0 d) as [h0|] eqn:E0; [|done]. simpl. rewrite HR.
    assert (Hok0 : ht_ok h0).
    { unfold DictProofs.tables_ok in Htab. rewrite E0 in Htab. destruct (d_ht1 d); tauto. }
    pose proof (ht_ok_size_ge hash h0 Hok0) as H4.
    assert (Hlen0 : zlen (ht_tables h0) = ht_size h0) by (by destruct Hok0 as (_ & ? & _)).
    match goal with |- mbind _ ?x ≠ _ => assert (Hx : ∃ c, x = Ok c); [|destruct Hx as [c Hx]; rewrite Hx; by destruct c] end.
    unfold DictProofs.tables_ok in Htab. rewrite E0 in Htab.
    destruct (d_ht1 d) as [h1|] eqn:E1; simpl.
    - destruct Htab as (_ & Hok1 & Hri & _).
      assert (Hlen1 : zlen (ht_tables h1) = ht_size h1) by (by destruct Hok1 as (_ & ? & _)).
      pose proof (ht_ok_size_ge hash h1 Hok1) as H41.
      destruct (Z.eqb_spec (zlen (ht_tables h0) + zlen (ht_tables h1) - d_rehashIndex d) 0); [lia|].
      pose proof (Z.rem_bound_pos r (zlen (ht_tables h0) + zlen (ht_tables h1) - d_rehashIndex d)) as Hrem.
      destruct (Z.leb_spec (zlen (ht_tables h0)) (d_rehashIndex d + Z.rem r (zlen (ht_tables h0) + zlen (ht_tables h1) - d_rehashIndex d))).
      + edestruct (go_index_ok (ht_tables h1)) as (c & _ & ->); [|eauto]. lia.
      + edestruct (go_index_ok (ht_tables h0)) as (c & _ & ->); [|eauto]. lia.
    - destruct (Z.eqb_spec (zlen (ht_tables h0)) 0); [lia|].
      pose proof (Z.rem_bound_pos r (zlen (ht_tables h0))) as Hrem.
      edestruct (go_index_ok (ht_tables h0)) as (c & _ & ->); [|eauto]. lia.
  Qed.

  (** Every possible outcome of GetRandomKey. *)
  Theorem GetRandomKey_spec d rs :
    dict_ok d → Forall (λ r, 0 ≤ r) rs →
    (d_map d = ∅ → GetRandomKey hash d rs = Ok (d, None, rs)) ∧
    (d_map d ≠ ∅ →
       GetRandomKey hash d rs = OutOfFuel ∨
       ∃ d' k v rs', GetRandomKey hash d rs = Ok (d', Some (k, v), rs') ∧
         d_map d !! k = Some v ∧ dict_ok d' ∧ d_map d' = d_map d ∧
         d_iterators d' = d_iterators d ∧ (d_ht0 d' = None ↔ d_ht0 d = None) ∧
         ∃ rs0, rs = rs0 ++ rs').
  Proof.
    intros Hok Hrs. unfold GetRandomKey.
    destruct (d_ht0 d) as [h0|] eqn:E0.
    2:{ rewrite (d_map_uninit d Hok E0). done. }
    rewrite (Size_spec d Hok). simpl. split.
    - intros ->. rewrite map_size_empty. done.
    - intros Hne. destruct (Z.eqb_spec (Z.of_nat (size (d_map d))) 0) as [Hz|_].
      { exfalso. apply Hne, map_size_empty_inv. lia. }
      destruct (maybe_step_spec hash d) as (d1 & -> & Hs); [by destruct Hok|]. simpl.
      pose proof (dict_ok_step hash d d1 Hok Hs) as Hok1.
      pose proof (d_map_step hash d d1 Hok Hs) as Hmap1.
      destruct Hs as (Ht1 & Hp1 & Hit1 & Hn1).
      destruct (draw_bucket d1 rs) as [[b rs']| |] eqn:Hd; simpl; [|exfalso|by left].
      2:{ revert Hd. apply draw_bucket_no_panic; [done| |done]. rewrite Hn1, E0. done. }
      destruct (draw_bucket_spec d1 rs b rs' Hok1 Hd) as (Hb & Hbne & rs0 & ->).
      destruct rs' as [|r rs'']; [by left|]. right.
      apply Forall_app in Hrs as [_ Hrs]. apply Forall_cons in Hrs as [Hr _].
      assert (Hbl : 0 < zlen b) by (destruct b; [done|unfold zlen; simpl; lia]).
      pose proof (Z.rem_bound_pos r (zlen b)) as Hrem.
      destruct (go_index_ok b (Z.rem r (zlen b))) as ([k v] & Hkv & ->); [lia|]. simpl.
      exists d1, k, v, rs''. split; [done|]. split.
      { rewrite <-Hmap1. apply d_map_Some; [by destruct Hok1 as (_ & ? & _)|].
        apply Hb. by eapply elem_of_list_lookup_2. }
      split; [done|]. split; [done|]. split; [done|]. split; [by rewrite Hn1, E0|].
      exists (rs0 ++ [r]). by rewrite <-app_assoc.
  Qed.
End proofs.
