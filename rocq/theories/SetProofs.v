(** Proofs about the Set model: sets of members. *)
From Verif Require Import Base DictModel DictProofs DictProofs2 DictProofs3 DictProofs4 DictRun SetModel.
From Coq Require Import ZifyBool ZifyNat.

Local Arguments for_entries : simpl never.

Section proofs.
  Context {K : Type} `{Countable K}.
  Variable hash : K → Z.
  Notation set := (dict K unit).
  Implicit Types (s other result : set).
  Notation dict_ok := (dict_ok (V:=unit) hash).
  Notation inv := (inv (V:=unit) hash).

  Definition members s : gset K := dom (d_map s).

  Lemma members_size s : size (members s) = size (d_map s).
  Proof. apply size_dom. Qed.
  Lemma members_entries s : dict_ok s → members s = list_to_set (entries s).*1.
  Proof.
    intros (_ & Hnd & _). unfold members, d_map. by rewrite dom_list_to_map_L.
  Qed.
  Lemma entries_length s : dict_ok s → length (entries s) = size (members s).
  Proof. intros (_ & Hnd & _). by rewrite members_size, d_map_size. Qed.

  Lemma Add_spec s m : inv s → small (size (members s)) →
    ∃ s', Add hash s m = Ok (s', bool_decide (m ∉ members s)) ∧ inv s' ∧
          members s' = {[m]} ∪ members s ∧ d_ht0 s' ≠ None.
  Proof.
    intros [Hok Hi] Hsm. destruct (Set_spec hash s m tt Hok) as (s' & HS & Hok' & Hm & Hi' & Hn).
    { by rewrite entries_length. }
    exists s'. unfold Add. rewrite HS. split.
    - f_equal. f_equal. apply bool_decide_ext. unfold members. by rewrite not_elem_of_dom.
    - split; [split; [done|congruence]|]. split; [|done]. unfold members. rewrite Hm.
      apply dom_insert_L.
  Qed.

  Lemma SDelete_spec s m : inv s →
    ∃ s' e, SDelete hash s m = Ok (s', e) ∧ (e = None ↔ m ∈ members s) ∧ inv s' ∧
          members s' = members s ∖ {[m]} ∧ (d_ht0 s' = None ↔ d_ht0 s = None).
  Proof.
    intros [Hok Hi]. destruct (Delete_spec hash s m Hok) as (s' & HS & Hok' & Hm & Hi' & Hn).
    exists s', (delete_result s m). unfold SDelete. rewrite HS. split; [done|]. split.
    - unfold delete_result, members. rewrite elem_of_dom.
      destruct (d_ht0 s) eqn:E0.
      + destruct (d_map s !! m); split; try done; by intros [? ?].
      + rewrite (d_map_uninit hash s) by done. rewrite lookup_empty. split; [done|by intros [? ?]].
    - split; [split; [done|congruence]|]. split; [|done]. unfold members. by rewrite Hm, dom_delete_L.
  Qed.

  Lemma SSize_spec s : inv s → SSize s = Ok (Z.of_nat (size (members s))).
  Proof. intros [Hok _]. unfold SSize. rewrite (Size_spec hash s Hok). by rewrite members_size. Qed.

  Lemma Contains_spec s m : dict_ok s →
    ∃ s', Contains hash s m = Ok (s', bool_decide (m ∈ members s)) ∧ dict_ok s' ∧
          d_map s' = d_map s ∧ d_iterators s' = d_iterators s ∧ (d_ht0 s' = None ↔ d_ht0 s = None) ∧
          (d_iterators s ≠ 0 → s' = s).
  Proof.
    intros Hok. destruct (Find_spec hash s m Hok) as (s' & o & HF & Hok' & Hm & Hi & Hn & Ho).
    unfold Contains. rewrite HF. simpl. exists s'. split.
    - f_equal. f_equal. unfold members. destruct o as [l|].
      + destruct Ho as (v & _ & Hv). rewrite bool_decide_eq_true_2; [done|].
        apply elem_of_dom. eauto.
      + rewrite bool_decide_eq_false_2; [done|]. by apply not_elem_of_dom.
    - do 4 (split; [done|]). intros Hni. unfold Find in HF. destruct (d_ht0 s); [|congruence].
      destruct (maybe_step hash s) as [s2| |] eqn:Hs; simpl in HF; try done.
      apply maybe_step_no_iter in Hs as ->; [|done].
      destruct (find_both hash s m); simpl in HF; congruence.
  Qed.

  Definition same_tables s s' : Prop :=
    d_ht0 s' = d_ht0 s ∧ d_ht1 s' = d_ht1 s ∧ d_rehashIndex s' = d_rehashIndex s.
  Lemma same_tables_eq s s' : same_tables s s' → d_iterators s' = d_iterators s → s' = s.
  Proof. intros (? & ? & ?) ?. destruct s, s'; simpl in *; congruence. Qed.
  Lemma same_tables_refl s : same_tables s s.
  Proof. done. Qed.

  Theorem Range_spec s : dict_ok s →
    ∃ ms, Range s = Ok (s, ms) ∧ NoDup ms ∧ (∀ m, m ∈ ms ↔ m ∈ members s) ∧ ms = (entries s).*1.
  Proof.
    intros Hok. unfold Range.
    destruct (iterate_spec hash (λ d acc e, Ok (d, acc ++ [e.1]))
        (λ d' acc vis, acc = vis.*1 ∧ same_tables s d') s [])
      as (s' & ms & -> & Hok' & Hi & _ & -> & Hs).
    - done.
    - intros d acc e vis rest _ Hokd Hn Hni [-> Hs]. eexists _, _. split; [done|].
      split; [by apply keeps_rest_refl|]. split; [|done]. by rewrite fmap_app.
    - done.
    - done.
    - exists (entries s).*1. split; [by rewrite (same_tables_eq s s')|].
      destruct Hok as (Ht0 & Hnd & Hrest0). split; [done|].
      assert (Hok : dict_ok s) by done.
      split; [|done]. intros m. rewrite members_entries by done. by rewrite elem_of_list_to_set.
  Qed.

  Lemma GetRandom_spec s rs : inv s → Forall (λ r, 0 ≤ r) rs → members s ≠ ∅ →
    GetRandom hash s rs = OutOfFuel ∨
    ∃ s' m rs', GetRandom hash s rs = Ok (s', m, rs') ∧ m ∈ members s ∧ inv s' ∧
       members s' = members s ∧ (d_ht0 s' = None ↔ d_ht0 s = None) ∧ ∃ rs0, rs = rs0 ++ rs'.
  Proof.
    intros [Hok Hi] Hrs Hne. destruct (GetRandomKey_spec hash s rs Hok Hrs) as [_ HG].
    unfold GetRandom. destruct HG as [->|(s' & k & v & rs' & -> & Hk & Hok' & Hm & Hi' & Hn & Hr)].
    - intros E. apply Hne. unfold members. by rewrite E, dom_empty_L.
    - by left.
    - right. simpl. eexists _, _, _. split; [done|]. split; [apply elem_of_dom; eauto|].
      split; [split; [done|congruence]|]. split; [|done]. unfold members. by rewrite Hm.
  Qed.

  (** the loops that add to a result set *)
  Lemma prefix_length {A} (vis rest es : list A) e : vis ++ e :: rest = es → (length vis < length es)%nat.
  Proof. intros <-. rewrite app_length. simpl. lia. Qed.

  Lemma list_to_set_size_le (l : list K) : (size (list_to_set l : gset K) ≤ length l)%nat.
  Proof.
    induction l as [|x l IH]; [done|]. cbn [length]. rewrite list_to_set_cons.
    rewrite size_union_alt, size_singleton.
    assert (size (list_to_set l ∖ {[x]} : gset K) ≤ size (list_to_set l : gset K))%nat
      by (apply subseteq_size; set_solver). lia.
  Qed.

  Lemma add_loop_body s0 r0 es :
    small (size (members r0) + length es) →
    ∀ d (r : set) (e : K * unit) vis rest, vis ++ e :: rest = es → dict_ok d →
      d_ht0 d ≠ None → d_iterators d ≠ 0 →
      (same_tables s0 d ∧ inv r ∧ members r = members r0 ∪ list_to_set vis.*1) →
      ∃ d' r', add_body hash d r e = Ok (d', r') ∧ keeps_rest hash d d' e ∧
        (same_tables s0 d' ∧ inv r' ∧ members r' = members r0 ∪ list_to_set (vis ++ [e]).*1).
  Proof.
    intros Hsm d r e vis rest Hes Hok Hn Hni (Hs & Hinv & Hm).
    destruct (Add_spec r e.1 Hinv) as (r' & HA & Hinv' & Hm' & _).
    { eapply small_le; [|exact Hsm]. apply prefix_length in Hes.
      rewrite Hm. rewrite size_union_alt.
      assert (Hls : (size (list_to_set vis.*1 ∖ members r0 : gset K) ≤ length vis)%nat).
      { trans (size (list_to_set vis.*1 : gset K)); [apply subseteq_size; set_solver|].
        rewrite <-(fmap_length fst vis). apply list_to_set_size_le. }
      lia. }
    unfold add_body. rewrite HA. simpl. eexists _, _. split; [done|].
    split; [by apply keeps_rest_refl|]. split; [done|]. split; [done|].
    rewrite Hm', Hm, fmap_app, list_to_set_app_L. simpl. set_solver.
  Qed.

  Lemma inv_NewSet : inv (NewSet (K:=K)).
  Proof. apply inv_New. Qed.
  Lemma members_NewSet : members (NewSet (K:=K)) = ∅.
  Proof. unfold members, NewSet. rewrite NewDict_map. apply dom_empty_L. Qed.

  Lemma add_iterate s r0 :
    inv s → inv r0 → small (size (members r0) + size (members s)) →
    ∃ r, iterate (add_body hash) s r0 = Ok (s, r) ∧ inv r ∧ members r = members r0 ∪ members s.
  Proof.
    intros [Hok Hi] Hr0 Hsm.
    destruct (iterate_spec hash (add_body hash)
      (λ d r vis, same_tables s d ∧ inv r ∧ members r = members r0 ∪ list_to_set vis.*1) s r0)
      as (s' & r & -> & Hok' & Hi' & _ & Hs & Hinv & Hm).
    - done.
    - apply add_loop_body. rewrite entries_length by done. done.
    - done.
    - split; [done|]. split; [done|]. simpl. set_solver.
    - exists r. rewrite (same_tables_eq s s') by done. split; [done|]. split; [done|].
      by rewrite Hm, (members_entries s).
  Qed.

  Theorem Union_spec s other :
    inv s → inv other → small (size (members s) + size (members other)) →
    ∃ r, Union hash s other = Ok (s, other, r) ∧ inv r ∧ members r = members s ∪ members other.
  Proof.
    intros Hs Ho Hsm. unfold Union.
    destruct (add_iterate s NewSet Hs inv_NewSet) as (r1 & -> & Hr1 & Hm1).
    { rewrite members_NewSet, size_empty. eapply small_le; [|done]. lia. }
    simpl. rewrite members_NewSet in Hm1.
    destruct (add_iterate other r1 Ho Hr1) as (r2 & -> & Hr2 & Hm2).
    { rewrite Hm1. by rewrite (left_id_L ∅ (∪)). }
    simpl. exists r2. split; [done|]. split; [done|]. rewrite Hm2, Hm1. set_solver.
  Qed.

  Theorem Union_self_spec s :
    inv s → small (size (members s) + size (members s)) →
    ∃ r, Union_self hash s = Ok (s, r) ∧ inv r ∧ members r = members s.
  Proof.
    intros [Hok Hi] Hsm. unfold Union_self.
    destruct (loop_spec hash (add_body hash)
      (λ d r vis, same_tables s d ∧ inv r ∧ members r = members NewSet ∪ list_to_set vis.*1) s NewSet)
      as (s1 & it1 & r1 & -> & Hok1 & (Hs1 & Hinv1 & Hm1) & Hcase1).
    - done.
    - apply add_loop_body. rewrite members_NewSet, size_empty, entries_length by done.
      eapply small_le; [|done]. lia.
    - done.
    - split; [done|]. split; [apply inv_NewSet|]. simpl. set_solver.
    - simpl. rewrite <-(members_entries s) in Hm1 by done. rewrite members_NewSet in Hm1.
      assert (He1 : entries s1 = entries s).
      { destruct Hs1 as (E0 & E1 & _). unfold entries. by rewrite E0, E1. }
      assert (Hms1 : members s1 = members s).
      { rewrite (members_entries s), (members_entries s1) by done. by rewrite He1. }
      destruct (loop_spec hash (add_body hash)
        (λ d r vis, same_tables s1 d ∧ inv r ∧ members r = members r1 ∪ list_to_set vis.*1) s1 r1)
        as (s2 & it2 & r2 & -> & Hok2 & (Hs2 & Hinv2 & Hm2) & Hcase2).
      + done.
      + apply add_loop_body. rewrite entries_length by done. rewrite Hms1.
        rewrite Hm1. by rewrite (left_id_L ∅ (∪)).
      + done.
      + split; [done|]. split; [done|]. simpl. set_solver.
      + simpl. exists r2. split; [|split; [done|]].
        2:{ rewrite Hm2, <-(members_entries s1), Hms1, Hm1 by done. set_solver. }
        f_equal. f_equal. apply same_tables_eq.
        * destruct Hs1 as (? & ? & ?), Hs2 as (? & ? & ?).
          unfold Release. split; [|split]; repeat case_match; simpl; congruence.
        * destruct Hcase1 as [(E0 & -> & ->)|(E0 & E0' & Hi1 & Hx1)],
            Hcase2 as [(F0 & -> & ->)|(F0 & F0' & Hi2 & Hx2)]; try done.
          -- by rewrite (Release_new s Hi), (Release_new s Hi).
          -- rewrite Release_loop by done. rewrite Release_loop by done. simpl. lia.
  Qed.

  Definition filtered (keep : bool) (A B : gset K) : gset K := if keep then A ∩ B else A ∖ B.

  Lemma filter_step (keep : bool) (S0 X : gset K) (x : K) (vis : gset K) :
    X = filtered keep vis S0 →
    (if Bool.eqb (bool_decide (x ∈ S0)) keep then {[x]} ∪ X else X) = filtered keep (vis ∪ {[x]}) S0.
  Proof.
    intros ->. unfold filtered. case_bool_decide; destruct keep; simpl; set_solver.
  Qed.

  Lemma filter_iterate keep s other :
    inv s → inv other → small (size (members s)) →
    ∃ other' r, iterate (filter_body hash keep) s (other, NewSet) = Ok (s, (other', r)) ∧ inv r ∧
      members r = filtered keep (members s) (members other) ∧
      inv other' ∧ d_map other' = d_map other ∧ (d_ht0 other' = None ↔ d_ht0 other = None).
  Proof.
    intros [Hok Hi] [Hoko Hio] Hsm.
    destruct (iterate_spec hash (filter_body hash keep)
      (λ d (st : set * set) vis, same_tables s d ∧ inv st.2 ∧
          members st.2 = filtered keep (list_to_set vis.*1) (members other) ∧
          inv st.1 ∧ d_map st.1 = d_map other ∧ (d_ht0 st.1 = None ↔ d_ht0 other = None))
      s (other, NewSet)) as (s' & [o' r] & -> & Hok' & Hi' & _ & Hs & Hinv & Hm & Ho).
    - done.
    - intros d [o r] e vis rest Hes Hokd Hn Hni (Hs & Hr & Hm & [Hoo Hoi] & Hom & Hon). simpl in *.
      destruct (Contains_spec o e.1 Hoo) as (o' & -> & Hoo' & Hom' & Hoi' & Hon' & _). simpl.
      assert (Hmo : members o = members other) by (unfold members; by rewrite Hom).
      rewrite Hmo.
      assert (Hfin : ∀ r', inv r' → members r' = (if Bool.eqb (bool_decide (e.1 ∈ members other)) keep
                            then {[e.1]} ∪ members r else members r) →
        same_tables s d ∧ inv r' ∧ members r' = filtered keep (list_to_set (vis ++ [e]).*1) (members other) ∧
        inv o' ∧ d_map o' = d_map other ∧ (d_ht0 o' = None ↔ d_ht0 other = None)).
      { intros r' Hinv' Hm'. split; [done|]. split; [done|]. split.
        - rewrite Hm'. rewrite fmap_app, list_to_set_app_L. simpl. rewrite (right_id_L ∅ (∪)).
          by apply filter_step.
        - split; [split; [done|congruence]|]. split; [congruence|]. by rewrite Hon'. }
      destruct (Bool.eqb (bool_decide (e.1 ∈ members other)) keep) eqn:Eb.
      + destruct (Add_spec r e.1 Hr) as (r' & -> & Hr' & Hm' & _).
        { eapply small_le; [|exact Hsm]. rewrite <-(entries_length s) by done.
          apply prefix_length in Hes. rewrite Hm.
          trans (size (list_to_set vis.*1 : gset K)).
          - apply subseteq_size. unfold filtered. destruct keep; set_solver.
          - pose proof (list_to_set_size_le vis.*1) as HL. rewrite fmap_length in HL. lia. }
        simpl. eexists d, (o', r'). split; [done|]. split; [by apply keeps_rest_refl|]. by apply Hfin.
      + eexists d, (o', r). split; [done|]. split; [by apply keeps_rest_refl|]. by apply Hfin.
    - done.
    - split; [done|]. split; [apply inv_NewSet|]. simpl. split.
      + rewrite members_NewSet. unfold filtered. destruct keep; set_solver.
      + done.
    - exists o', r. rewrite (same_tables_eq s s') by done. split; [done|]. split; [done|].
      split; [|done]. simpl in Hm. by rewrite Hm, (members_entries s).
  Qed.

  Lemma filter_iterate_self keep s :
    inv s → small (size (members s)) →
    ∃ r, iterate (filter_body_self hash keep) s NewSet = Ok (s, r) ∧ inv r ∧
      members r = filtered keep (members s) (members s).
  Proof.
    intros [Hok Hi] Hsm.
    destruct (iterate_spec hash (filter_body_self hash keep)
      (λ d (r : set) vis, same_tables s d ∧ inv r ∧
          members r = filtered keep (list_to_set vis.*1) (members s))
      s NewSet) as (s' & r & -> & Hok' & Hi' & _ & Hs & Hinv & Hm).
    - done.
    - intros d r e vis rest Hes Hokd Hn Hni (Hs & Hr & Hm).
      unfold filter_body_self.
      destruct (Contains_spec d e.1 Hokd) as (d' & -> & Hokd' & _ & _ & _ & Hsame).
      rewrite (Hsame Hni) in *. simpl.
      assert (Hmd : members d = members s).
      { rewrite (members_entries s), (members_entries d) by done. destruct Hs as (E0 & E1 & _). unfold entries. by rewrite E0, E1. }
      rewrite Hmd.
      assert (Hfin : ∀ r', inv r' → members r' = (if Bool.eqb (bool_decide (e.1 ∈ members s)) keep
                            then {[e.1]} ∪ members r else members r) →
        same_tables s d ∧ inv r' ∧ members r' = filtered keep (list_to_set (vis ++ [e]).*1) (members s)).
      { intros r' Hinv' Hm'. split; [done|]. split; [done|].
        rewrite Hm'. rewrite fmap_app, list_to_set_app_L. simpl. rewrite (right_id_L ∅ (∪)).
        by apply filter_step. }
      destruct (Bool.eqb (bool_decide (e.1 ∈ members s)) keep) eqn:Eb.
      + destruct (Add_spec r e.1 Hr) as (r' & -> & Hr' & Hm' & _).
        { eapply small_le; [|exact Hsm]. rewrite <-(entries_length s) by done.
          apply prefix_length in Hes. rewrite Hm.
          trans (size (list_to_set vis.*1 : gset K)).
          - apply subseteq_size. unfold filtered. destruct keep; set_solver.
          - pose proof (list_to_set_size_le vis.*1) as HL. rewrite fmap_length in HL. lia. }
        simpl. eexists _, _. split; [done|]. split; [by apply keeps_rest_refl|]. by apply Hfin.
      + eexists _, _. split; [done|]. split; [by apply keeps_rest_refl|]. by apply Hfin.
    - done.
    - split; [done|]. split; [apply inv_NewSet|]. simpl.
      rewrite members_NewSet. unfold filtered. destruct keep; set_solver.
    - exists r. rewrite (same_tables_eq s s') by done. split; [done|]. split; [done|].
      by rewrite Hm, (members_entries s).
  Qed.

  Theorem Intersect_spec s other :
    inv s → inv other → small (size (members s)) →
    ∃ o' r, Intersect hash s other = Ok (s, o', r) ∧ inv r ∧ members r = members s ∩ members other ∧
       inv o' ∧ d_map o' = d_map other ∧ (d_ht0 o' = None ↔ d_ht0 other = None).
  Proof.
    intros Hs Ho Hsm. unfold Intersect.
    destruct (filter_iterate true s other Hs Ho Hsm) as (o' & r & -> & Hr & Hm & Ho').
    simpl. exists o', r. done.
  Qed.
  Theorem Intersect_self_spec s :
    inv s → small (size (members s)) →
    ∃ r, Intersect_self hash s = Ok (s, r) ∧ inv r ∧ members r = members s.
  Proof.
    intros Hs Hsm. destruct (filter_iterate_self true s Hs Hsm) as (r & HR & Hr & Hm).
    exists r. split; [done|]. split; [done|]. rewrite Hm. simpl. set_solver.
  Qed.
  Theorem Difference_spec s other :
    inv s → inv other → small (size (members s)) →
    ∃ o' r, Difference hash s other = Ok (s, o', r) ∧ inv r ∧ members r = members s ∖ members other ∧
       inv o' ∧ d_map o' = d_map other ∧ (d_ht0 o' = None ↔ d_ht0 other = None).
  Proof.
    intros Hs Ho Hsm. unfold Difference.
    destruct (filter_iterate false s other Hs Ho Hsm) as (o' & r & -> & Hr & Hm & Ho').
    simpl. exists o', r. done.
  Qed.
  Theorem Difference_self_spec s :
    inv s → small (size (members s)) →
    ∃ r, Difference_self hash s = Ok (s, r) ∧ inv r ∧ members r = ∅.
  Proof.
    intros Hs Hsm. destruct (filter_iterate_self false s Hs Hsm) as (r & HR & Hr & Hm).
    exists r. split; [done|]. split; [done|]. rewrite Hm. simpl. set_solver.
  Qed.
End proofs.
