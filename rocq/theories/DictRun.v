(** Running operation sequences on the dict model, and the refinement proof. *)
From Verif Require Import Base DictModel DictSpec DictProofs DictProofs2 DictProofs3 DictProofs4.
From Coq Require Import ZifyBool ZifyNat.

Lemma go_index_inv2 {A} (l : list A) i x :
  go_index l i = Ok x → 0 ≤ i < zlen l ∧ l !! Z.to_nat i = Some x.
Proof.
  intros Hg. apply go_index_inv in Hg as [Hi Hl]. split; [|done].
  pose proof (lookup_lt_Some _ _ _ Hl). unfold zlen. lia.
Qed.

Section run.
  Context {K V : Type} `{Countable K}.
  Variable hash : K → Z.
  Notation dict := (dict K V).
  Notation hashTable := (hashTable K V).
  Implicit Types (d : dict) (h : hashTable) (k : K) (v : V).
  Notation dict_ok := (dict_ok (V:=V) hash).
  Notation tables_ok := (tables_ok (V:=V) hash).

  Definition err_out (e : option dict_err) : option spec_err :=
    match e with
    | None => None
    | Some ErrNotInitialized => Some EUninitialized
    | Some _ => Some ENotFound
    end.

  (** one public operation on the model *)
  Definition run_op d (op : dict_op K V) : res (dict * dict_out K V) :=
    match op with
    | OpSet k v => r ← Set_ hash d k v; Ok (r.1, OutAdded r.2)
    | OpGet k => r ← Get hash d k; Ok (r.1, OutValue r.2)
    | OpFind k => r ← FindEntry hash d k; Ok (r.1, OutEntry r.2)
    | OpDelete k => r ← Delete hash d k; Ok (r.1, OutDeleted (err_out r.2))
    | OpSize => n ← Size d; Ok (d, OutSize n)
    | OpRandom rs => r ← GetRandomKey hash d rs; Ok (r.1.1, OutEntry r.1.2)
    | OpIterate del =>
        r ← iterate (λ d acc e,
              if del e then r ← Delete hash d e.1; Ok (r.1, acc ++ [e])
              else Ok (d, acc ++ [e])) d [];
        Ok (r.1, OutSeq r.2)
    end.
  Fixpoint run d (ops : list (dict_op K V)) : res (dict * list (dict_out K V)) :=
    match ops with
    | [] => Ok (d, [])
    | op :: ops' => r ← run_op d op; r' ← run r.1 ops'; Ok (r'.1, r.2 :: r'.2)
    end.

  Definition abs d : option (gmap K V) :=
    match d_ht0 d with None => None | Some _ => Some (d_map d) end.

  Definition inv d : Prop := dict_ok d ∧ d_iterators d = 0.

  Lemma contents_abs d : dict_ok d → contents (abs d) = d_map d.
  Proof.
    intros Hok. unfold abs, contents. destruct (d_ht0 d) eqn:E0; [done|].
    by rewrite (d_map_uninit hash d Hok E0).
  Qed.
  Lemma abs_init d : d_ht0 d ≠ None → abs d = Some (d_map d).
  Proof. unfold abs. by destruct (d_ht0 d). Qed.
  Lemma abs_same d d' :
    d_map d' = d_map d → (d_ht0 d' = None ↔ d_ht0 d = None) → abs d' = abs d.
  Proof. unfold abs. intros -> Hn. destruct (d_ht0 d), (d_ht0 d'); naive_solver. Qed.

  (** the map after deleting, among the visited entries, those selected *)
  Definition drop_visited (del : K * V → bool) (m : gmap K V) (vis : list (K * V)) : gmap K V :=
    foldl (λ m e, if del e then delete e.1 m else m) m vis.
  Lemma drop_visited_lookup del vis : ∀ m k v,
    drop_visited del m vis !! k = Some v ↔
    m !! k = Some v ∧ ∀ e, e ∈ vis → del e = true → e.1 ≠ k.
  Proof.
    induction vis as [|e vis IH]; intros m k v; simpl.
    - split; [|tauto]. intros ?. split; [done|]. intros e He. by apply elem_of_nil in He.
    - rewrite IH. destruct (del e) eqn:Ed.
      + rewrite lookup_delete_Some. split.
        * intros [[Hne Hm] Hall]. split; [done|]. intros e' He' Hd.
          apply elem_of_cons in He' as [->|He']; [done|by apply Hall].
        * intros [Hm Hall]. split; [split; [|done]|].
          -- apply Hall; [left|done].
          -- intros e' He'. apply Hall. by right.
      + split.
        * intros [Hm Hall]. split; [done|]. intros e' He' Hd.
          apply elem_of_cons in He' as [->|He']; [congruence|by apply Hall].
        * intros [Hm Hall]. split; [done|]. intros e' He'. apply Hall. by right.
  Qed.

  Lemma iterate_delete_spec d (del : K * V → bool) :
    dict_ok d →
    ∃ d', iterate (λ d acc e,
              if del e then r ← Delete hash d e.1; Ok (r.1, acc ++ [e])
              else Ok (d, acc ++ [e])) d [] = Ok (d', entries d) ∧
      dict_ok d' ∧ d_iterators d' = d_iterators d ∧ (d_ht0 d' = None ↔ d_ht0 d = None) ∧
      d_map d' = filter (λ kv, del kv = false) (d_map d).
  Proof.
    intros Hok.
    destruct (iterate_spec hash (λ d acc e,
              if del e then r ← Delete hash d e.1; Ok (r.1, acc ++ [e])
              else Ok (d, acc ++ [e]))
              (λ d' acc vis, acc = vis ∧ d_map d' = drop_visited del (d_map d) vis) d [])
      as (d' & s' & -> & Hok' & Hi & Hn & -> & Hm); try done.
    - intros d1 s e vis rest _ Hok1 Hn1 Hi1 [-> Hm]. destruct (del e) eqn:Ed.
      + destruct (Delete_spec hash d1 e.1 Hok1) as (d2 & HD & Hok2 & Hm2 & Hi2 & Hn2).
        rewrite HD. simpl. eexists _, _. split; [done|]. split.
        * destruct e as [k v]. by eapply Delete_keeps_rest.
        * split; [done|]. rewrite Hm2, Hm. unfold drop_visited. rewrite foldl_app. simpl.
          by rewrite Ed.
      + eexists _, _. split; [done|]. split; [by apply keeps_rest_refl|].
        split; [done|]. rewrite Hm. unfold drop_visited. rewrite foldl_app. simpl. by rewrite Ed.
    - exists d'. split; [done|]. split; [done|]. split; [done|]. split; [done|].
      destruct Hok as (_ & Hnd & _).
      apply map_eq. intros k. apply option_eq. intros v.
      rewrite Hm, drop_visited_lookup, map_filter_lookup_Some. split.
      + intros [Hk Hall]. split; [done|]. destruct (del (k, v)) eqn:Ed; [|done].
        exfalso. apply (Hall (k, v)); [|done|done]. by apply d_map_Some in Hk.
      + intros [Hk Hd]. split; [done|]. intros [k' v'] He Hde <-. simpl in *.
        apply d_map_Some in He; [|done]. congruence.
  Qed.

  Lemma entries_perm_map d : NoDup (entries d).*1 → entries d ≡ₚ map_to_list (d_map d).
  Proof. intros Hnd. unfold d_map. symmetry. by apply map_to_list_to_map. Qed.

  Lemma run_op_spec d op :
    inv d → op_ok op → small (size (d_map d)) →
    (is_random op = true ∧ run_op d op = OutOfFuel) ∨
    ∃ d' out, run_op d op = Ok (d', out) ∧ inv d' ∧ dict_spec (abs d) op out (abs d') ∧
              (size (d_map d') ≤ S (size (d_map d)))%nat.
  Proof.
    intros [Hok Hi] Hop Hsm. pose proof Hok as (_ & Hnd & _).
    pose proof (contents_abs d Hok) as Hc.
    destruct op as [k v|k|k|k| |rs|del]; simpl.
    - right. destruct (Set_spec hash d k v Hok) as (d' & -> & Hok' & Hm & Hi' & Hn).
      { rewrite d_map_size in Hsm by done. done. }
      simpl. eexists _, _. split; [done|]. split; [split; [done|congruence]|]. split.
      + rewrite (abs_init d') by done. rewrite Hm, <-Hc. constructor.
      + rewrite Hm. rewrite map_size_insert. destruct (d_map d !! k); simpl; lia.
    - right. destruct (Get_spec hash d k Hok) as (d' & -> & Hok' & Hm & Hi' & Hn).
      simpl. eexists _, _. split; [done|]. split; [split; [done|congruence]|]. split.
      + rewrite (abs_same d d') by done. rewrite <-Hc. constructor.
      + rewrite Hm. lia.
    - right. destruct (FindEntry_spec hash d k Hok) as (d' & -> & Hok' & Hm & Hi' & Hn).
      simpl. eexists _, _. split; [done|]. split; [split; [done|congruence]|]. split.
      + rewrite (abs_same d d') by done. rewrite <-Hc. constructor.
      + rewrite Hm. lia.
    - right. destruct (Delete_spec hash d k Hok) as (d' & -> & Hok' & Hm & Hi' & Hn).
      simpl. eexists _, _. split; [done|]. split; [split; [done|congruence]|]. split.
      + unfold delete_result. destruct (d_ht0 d) eqn:E0.
        * assert (Ha : abs d = Some (d_map d)) by (unfold abs; by rewrite E0).
          assert (Ha' : abs d' = Some (d_map d')).
          { apply abs_init. rewrite Hn. done. }
          rewrite Ha, Ha', Hm. destruct (d_map d !! k) eqn:Ek; simpl.
          -- apply spec_Delete; [done|]. by rewrite Ek.
          -- rewrite delete_notin by done. by eapply spec_Delete_missing.
        * assert (Ha : abs d = None) by (unfold abs; by rewrite E0).
          assert (Ha' : abs d' = None) by (unfold abs; assert (d_ht0 d' = None) as -> by (by apply Hn); done).
          rewrite Ha, Ha'. simpl. by apply spec_Delete_uninit.
      + rewrite Hm. rewrite map_size_delete. destruct (d_map d !! k); simpl; lia.
    - right. rewrite (Size_spec hash d Hok). simpl. eexists _, _. split; [done|].
      split; [done|]. split; [|lia]. rewrite <-Hc at 1. constructor.
    - destruct (GetRandomKey_spec hash d rs Hok Hop) as [He Hne].
      destruct (decide (d_map d = ∅)) as [E|E].
      + right. rewrite He by done. simpl. eexists _, _. split; [done|]. split; [done|]. split; [|lia].
        constructor. by rewrite Hc.
      + destruct (Hne E) as [HF|(d' & k & v & rs' & -> & Hkv & Hok' & Hm & Hi' & Hn & _)].
        * left. by rewrite HF.
        * right. simpl. eexists _, _. split; [done|]. split; [split; [done|congruence]|]. split.
          -- rewrite (abs_same d d') by done. constructor. by rewrite Hc.
          -- rewrite Hm. lia.
    - right. destruct (iterate_delete_spec d del Hok) as (d' & -> & Hok' & Hi' & Hn & Hm).
      simpl. eexists _, _. split; [done|]. split; [split; [done|congruence]|]. split.
      + constructor.
        * rewrite Hc. by apply entries_perm_map.
        * unfold abs. destruct (d_ht0 d), (d_ht0 d'); naive_solver.
        * rewrite Hc, contents_abs by done. done.
      + rewrite Hm.
        assert (map_to_list (filter (λ kv, del kv = false) (d_map d)) ⊆+ map_to_list (d_map d)) as Hs.
        { apply NoDup_submseteq; [apply NoDup_map_to_list|]. intros [k v].
          rewrite !elem_of_map_to_list, map_filter_lookup_Some. tauto. }
        apply submseteq_length in Hs. unfold size, map_size. lia.
  Qed.

  Lemma run_spec ops : ∀ d,
    inv d → Forall op_ok ops → Z.of_nat (size (d_map d) + length ops) < max_entries →
    (existsb is_random ops = true ∧ run d ops = OutOfFuel) ∨
    ∃ d' outs, run d ops = Ok (d', outs) ∧ inv d' ∧ dict_spec_run (abs d) ops outs (abs d') ∧
               (size (d_map d') ≤ size (d_map d) + length ops)%nat.
  Proof.
    induction ops as [|op ops IH]; intros d Hinv Hops Hsm; simpl.
    - right. exists d, []. split; [done|]. split; [done|]. split; [constructor|lia].
    - apply Forall_cons in Hops as [Hop Hops]. simpl in Hsm.
      destruct (run_op_spec d op Hinv Hop) as [[Hr ->]|(d1 & out & -> & Hinv1 & Hs1 & Hsz1)].
      { unfold small. lia. }
      { left. by rewrite Hr. }
      simpl. destruct (IH d1 Hinv1 Hops) as [[Hr ->]|(d2 & outs & -> & Hinv2 & Hs2 & Hsz2)].
      { lia. }
      { left. by rewrite Hr, orb_true_r. }
      right. simpl. eexists _, _. split; [done|]. split; [done|]. split.
      + by econstructor.
      + lia.
  Qed.

  Lemma inv_New : inv NewDict.
  Proof. split; [apply NewDict_ok|done]. Qed.

  (** a dict reached by some sequence of operations from an empty one *)
  Definition reachable d : Prop :=
    ∃ ops outs, run NewDict ops = Ok (d, outs) ∧ Forall op_ok ops ∧
                Z.of_nat (length ops) < max_entries.

  Lemma reachable_inv d : reachable d → inv d.
  Proof.
    intros (ops & outs & Hr & Hops & Hlen).
    destruct (run_spec ops NewDict inv_New Hops) as [[_ Hr']|(d' & outs' & Hr' & Hi & _)].
    - rewrite NewDict_map, map_size_empty. lia.
    - congruence.
    - rewrite Hr in Hr'. by injection Hr' as <- <-.
  Qed.

  (** * Where an entry sits *)
  Definition sits d (t : bool) (i : nat) k : Prop :=
    ∃ h c, d_table d t = Some h ∧ ht_tables h !! i = Some c ∧ k ∈ c.*1.

  Lemma sits_set_table d t h i c c' x k (sz msk us : Z) :
    d_table d t = Some h → ht_tables h !! i = Some c →
    (x ≠ k → x ∈ c.*1 → x ∈ c'.*1) → x ≠ k → ∀ t' i',
    sits d t' i' x →
    sits (d_set_table d t (HT (<[i := c']> (ht_tables h)) sz msk us)) t' i' x.
  Proof.
    intros Ht Hc Hkeep Hne t' i' (h' & c0 & Ht' & Hc0 & Hx).
    assert (Hi : (i < length (ht_tables h))%nat) by (by eapply lookup_lt_Some).
    unfold sits. destruct (decide (t' = t)) as [->|Htt].
    - rewrite Ht in Ht'. injection Ht' as <-.
      destruct (decide (i' = i)) as [->|Hii].
      + rewrite Hc in Hc0. injection Hc0 as <-. eexists _, c'. split; [by destruct t|].
        simpl. rewrite list_lookup_insert by done. auto.
      + eexists _, c0. split; [by destruct t|]. simpl. rewrite list_lookup_insert_ne by done. done.
    - exists h', c0. split; [|done]. destruct t, t'; simpl in *; congruence.
  Qed.

  (** with an iterator open, an operation on key [k] moves no other key *)
  Lemma access_no_move d op d' out :
    dict_ok d → small (size (d_map d)) → d_iterators d ≠ 0 → is_access op = true →
    run_op d op = Ok (d', out) →
    ∀ t i x, sits d t i x →
      match op with OpSet k _ | OpDelete k => x ≠ k | _ => True end →
      sits d' t i x.
  Proof.
    intros Hok Hsm Hi Hacc Hr t i x Hx. pose proof Hok as (Htab & Hnd & _).
    assert (HF : ∀ d k d1 o, d_iterators d ≠ 0 → Find hash d k = Ok (d1, o) → d1 = d).
    { clear. intros d k d1 o Hi. unfold Find. destruct (d_ht0 d); [|congruence].
      destruct (maybe_step hash d) as [d2| |] eqn:Hs; simpl; try done.
      apply maybe_step_no_iter in Hs as ->; [|done].
      destruct (find_both hash d k); simpl; congruence. }
    destruct op as [k v|k|k|k| | |]; try done; simpl in Hr.
    - intros Hne. unfold Set_ in Hr.
      destruct (maybe_step hash d) as [d1| |] eqn:Hs; simpl in Hr; try done.
      apply maybe_step_no_iter in Hs as ->; [|done].
      destruct (keyIndex_spec hash d k Hok) as (d2 & j & HK & Hok2 & He2 & Hi2 & Hn2 & Hj).
      { rewrite d_map_size in Hsm by done. done. }
      assert (Hx2 : sits d2 t i x).
      { unfold keyIndex in HK.
        destruct (expandIfNeeded_spec hash d Htab) as (d3 & HE & _ & _ & _ & _ & Hsame).
        { rewrite d_map_size in Hsm by done. done. }
        rewrite HE in HK. simpl in HK.
        assert (d3 = d2) as ->.
        { destruct (find_both hash d3 k) as [[? []]| |]; simpl in HK; congruence. }
        destruct Hx as (h & c & Ht & Hc & Hkx). destruct t; simpl in Ht.
        - rewrite Hsame by (by rewrite Ht). exists h, c. done.
        - exists h, c. split; [|done]. simpl.
          unfold expandIfNeeded, expand in HE.
          rewrite Ht in HE. repeat (match type of HE with context [if ?b then _ else _] => destruct b end); try done;
            injection HE as <-; done. }
      rewrite HK in Hr. simpl in Hr. destruct (Z.eqb_spec j (-1)) as [Hj1|Hj1].
      + destruct (Find hash d2 k) as [[d3 o]| |] eqn:HFd; simpl in Hr; try done.
        apply HF in HFd as ->; [|by rewrite Hi2].
        destruct o as [l|]; simpl in Hr; [|done]. unfold write_value in Hr.
        destruct (d_table d2 (l_table l)) as [h|] eqn:Ht; simpl in Hr; [|done].
        destruct (go_index (ht_tables h) (l_bucket l)) as [c| |] eqn:Hgi; simpl in Hr; try done.
        destruct (go_index c (Z.of_nat (l_pos l))) as [e0| |] eqn:Hge; simpl in Hr; try done.
        apply go_index_inv2 in Hgi as [Hb Hgi]. apply go_index_inv2 in Hge as [Hp Hge].
        rewrite Nat2Z.id in Hge.
        rewrite go_store_ok in Hr by done. simpl in Hr.
        rewrite go_store_ok in Hr by done. simpl in Hr. injection Hr as <- <-.
        eapply (sits_set_table _ _ _ _ c _ _ k); try done.
        intros _ Hin. apply elem_of_list_fmap in Hin as (e' & -> & He').
        apply elem_of_list_lookup in He' as (q & Hq). rewrite Nat2Z.id.
        destruct (decide (q = l_pos l)) as [->|Hqn].
        * apply elem_of_list_fmap. exists (e0.1, v). split; [simpl; congruence|].
          apply elem_of_list_lookup. exists (l_pos l). apply list_lookup_insert.
          by eapply lookup_lt_Some.
        * apply elem_of_list_fmap. exists e'. split; [done|].
          apply elem_of_list_lookup. exists q. by rewrite list_lookup_insert_ne.
      + destruct (d_table d2 (isRehashing d2)) as [h|] eqn:Ht; simpl in Hr; [|done].
        destruct (go_index (ht_tables h) j) as [c| |] eqn:Hgi; simpl in Hr; try done.
        apply go_index_inv2 in Hgi as [Hb Hgi].
        rewrite go_store_ok in Hr by done. simpl in Hr. injection Hr as <- <-.
        eapply (sits_set_table _ _ _ _ c _ _ k); try done.
        intros _ Hin. simpl. by right.
    - unfold Get in Hr. destruct (Find hash d k) as [[d1 o]| |] eqn:HFd; simpl in Hr; try done.
      apply HF in HFd as ->; [|done].
      destruct o; simpl in Hr; [destruct (entry_at d l); simpl in Hr; try done|];
        injection Hr as <- <-; done.
    - unfold FindEntry in Hr. destruct (Find hash d k) as [[d1 o]| |] eqn:HFd; simpl in Hr; try done.
      apply HF in HFd as ->; [|done].
      destruct o; simpl in Hr; [destruct (entry_at d l); simpl in Hr; try done|];
        injection Hr as <- <-; done.
    - intros Hne. unfold Delete in Hr. destruct (d_ht0 d) as [h00|] eqn:E0; simpl in Hr; [|by injection Hr as <- <-].
      destruct (maybe_step hash d) as [d1| |] eqn:Hs; simpl in Hr; try done.
      apply maybe_step_no_iter in Hs as ->; [|done].
      destruct (find_both_spec hash d k Htab) as (ol & j & Hf & Hol); [by rewrite E0|].
      rewrite Hf in Hr. simpl in Hr.
      destruct ol as [l|]; simpl in Hr; [|by injection Hr as <- <-].
      destruct Hol as (v' & h & c & Ht & Hb & Hc & Hp).
      unfold delete_at in Hr. rewrite Ht in Hr. simpl in Hr.
      destruct (go_index (ht_tables h) (l_bucket l)) as [c'| |] eqn:Hgi; simpl in Hr; try done.
      apply go_index_inv2 in Hgi as [Hb' Hgi].
      rewrite go_store_ok in Hr by done. simpl in Hr. injection Hr as <- <-.
      eapply (sits_set_table _ _ _ _ c' _ _ k); try done.
      intros _ Hin. assert (c' = c) as -> by congruence.
      rewrite (list_split_at c _ _ Hp) in Hin. rewrite fmap_app, fmap_cons in Hin.
      rewrite fmap_app. rewrite elem_of_app, elem_of_cons in Hin. simpl in Hin.
      rewrite elem_of_app. naive_solver.
  Qed.

  (** * Progress of the rehash *)
  Definition size0 d : Z := match d_ht0 d with Some h => ht_size h | None => 0 end.
  Definition le_prog d d' : Prop :=
    size0 d < size0 d' ∨
    (size0 d = size0 d' ∧ (d_ht1 d ≠ None → d_ht1 d' ≠ None ∧
       (nonempty_buckets (d_ht0 d') ≤ nonempty_buckets (d_ht0 d))%nat)).
  Definition lt_prog d d' : Prop :=
    size0 d < size0 d' ∨
    (size0 d = size0 d' ∧ d_ht1 d' ≠ None ∧
       (nonempty_buckets (d_ht0 d') < nonempty_buckets (d_ht0 d))%nat).
  Lemma le_prog_refl d : le_prog d d.
  Proof. right. done. Qed.
  Lemma lt_le_prog d1 d2 d3 : lt_prog d1 d2 → le_prog d2 d3 → lt_prog d1 d3.
  Proof.
    intros [H1|(H1 & H1' & H1'')] [H2|(H2 & H2')]; try (left; lia).
    right. destruct (H2' H1'). split; [lia|]. split; [done|lia].
  Qed.
  Lemma le_le_prog d1 d2 d3 : le_prog d1 d2 → le_prog d2 d3 → le_prog d1 d3.
  Proof.
    intros [H1|(H1 & H1')] [H2|(H2 & H2')]; try (left; lia).
    right. split; [lia|]. intros Hn. destruct (H1' Hn) as [Hn2 ?]. destruct (H2' Hn2). split; [done|lia].
  Qed.

  Lemma maybe_step_lt d h1 d' :
    tables_ok d → d_ht1 d = Some h1 → d_iterators d = 0 →
    maybe_step hash d = Ok d' → lt_prog d d'.
  Proof.
    intros Htab E1 Hi Hs. destruct (maybe_step_progress hash d h1 Htab E1 Hi) as (d2 & Hs2 & Hp).
    rewrite Hs in Hs2. injection Hs2 as <-.
    assert (Hsz : size0 d < ht_size h1).
    { unfold size0. unfold DictProofs.tables_ok in Htab. rewrite E1 in Htab.
      destruct (d_ht0 d) as [h0|] eqn:E0; [|done].
      pose proof (ht_ok_size_ge hash h0). destruct Htab as (Hok & _ & [_ ?] & _).
      specialize (H0 Hok). lia. }
    destruct Hp as [[_ E0']|(h0' & h1' & E0' & E1' & _ & Hn)].
    - left. unfold size0 at 2. by rewrite E0'.
    - destruct (decide (size0 d = size0 d')) as [|Hne].
      + right. split; [done|]. rewrite E1'. split; [done|lia].
      + destruct (d_ht0 d) as [h0|] eqn:E0.
        2:{ unfold DictProofs.tables_ok in Htab. by rewrite E0, E1 in Htab. }
        destruct (rehash_one hash d h0 h1 Htab E0 E1) as (d3 & Hr & _ & _ & _ & _ & Hd).
        assert (d3 = d') as ->.
        { unfold maybe_step, rehashStep in Hs. rewrite (isRehashing_spec hash d Htab), E1, Hi in Hs.
          change (0 =? 0) with true in Hs. unfold rehashStepCount in Hs. congruence. }
        destruct Hd as [[? ?]|(h0'' & h1'' & E0'' & _ & _ & Hs0 & _)]; [congruence|].
        exfalso. apply Hne. unfold size0. by rewrite E0, E0''.
  Qed.
  Lemma maybe_step_le d d' :
    tables_ok d → maybe_step hash d = Ok d' → le_prog d d'.
  Proof.
    intros Htab Hs. destruct (decide (d_iterators d = 0)) as [Hi|Hi].
    2:{ apply maybe_step_no_iter in Hs as ->; [apply le_prog_refl|done]. }
    destruct (d_ht1 d) as [h1|] eqn:E1.
    - pose proof (maybe_step_lt d h1 d' Htab E1 Hi Hs) as [?|(? & ? & ?)]; [by left|].
      right. split; [done|]. intros _. split; [done|lia].
    - unfold maybe_step in Hs. rewrite (isRehashing_spec hash d Htab), E1 in Hs.
      injection Hs as <-. apply le_prog_refl.
  Qed.

  Lemma nonempty_insert_le (l : list (list (K * V))) i c c' :
    l !! i = Some c → (c = [] → c' = []) →
    (length (filter (λ c, c ≠ []) (<[i := c']> l)) ≤ length (filter (λ c, c ≠ []) l))%nat.
  Proof.
    intros Hl Hc. rewrite <-(take_drop_middle l i c Hl) at 2.
    rewrite insert_take_drop by (by eapply lookup_lt_Some).
    rewrite !filter_app, !app_length, !filter_cons.
    destruct (decide (c' ≠ [])), (decide (c ≠ [])); simpl; try lia.
    exfalso. destruct c; naive_solver.
  Qed.

  Lemma set_table_le d t h i c c' us :
    d_table d t = Some h → ht_tables h !! i = Some c → (t = false → c = [] → c' = []) →
    le_prog d (d_set_table d t (HT (<[i := c']> (ht_tables h)) (ht_size h) (ht_sizeMask h) us)).
  Proof.
    intros Ht Hc Hcc. right. unfold d_table in Ht. unfold size0.
    destruct t; simpl; rewrite Ht; simpl.
    - done.
    - split; [done|]. intros Hn. split; [done|]. apply (nonempty_insert_le _ _ c); auto.
  Qed.

  Lemma access_progress d op d' out h1 :
    dict_ok d → d_iterators d = 0 → small (size (d_map d)) → is_access op = true →
    d_ht1 d = Some h1 → run_op d op = Ok (d', out) → lt_prog d d'.
  Proof.
    intros Hok Hi Hsm Hacc E1 Hr. pose proof Hok as (Htab & Hnd & _).
    destruct (maybe_step_spec hash d Htab) as (d1 & Hs & Hres).
    pose proof (maybe_step_lt d h1 d1 Htab E1 Hi Hs) as Hlt.
    pose proof (dict_ok_step hash d d1 Hok Hres) as Hok1.
    pose proof (d_map_step hash d d1 Hok Hres) as Hm1.
    destruct (d_ht0 d) as [h0|] eqn:E0.
    2:{ unfold DictProofs.tables_ok in Htab. by rewrite E0, E1 in Htab. }
    assert (HF : ∀ k d2 o, Find hash d k = Ok (d2, o) → d2 = d1).
    { intros k d2 o. unfold Find. rewrite E0, Hs. simpl. destruct (find_both hash d1 k); simpl; congruence. }
    assert (HFle : ∀ d k d2 o, dict_ok d → Find hash d k = Ok (d2, o) → le_prog d d2).
    { clear. intros d k d2 o Hok. unfold Find. destruct (d_ht0 d).
      - destruct (maybe_step hash d) as [d3| |] eqn:Hs; simpl; try done.
        destruct (find_both hash d3 k); simpl; try done. intros [= <- <-].
        apply maybe_step_le; [by destruct Hok|done].
      - intros [= <- <-]. apply le_prog_refl. }
    destruct op as [k v|k|k|k| | |]; try done; simpl in Hr.
    - unfold Set_ in Hr. rewrite Hs in Hr. simpl in Hr.
      assert (Hsm1 : small (length (entries d1))).
      { rewrite <-d_map_size, Hm1 by (by destruct Hok1 as (_ & ? & _)). done. }
      destruct (keyIndex_spec hash d1 k Hok1 Hsm1) as (d2 & j & HK & Hok2 & He2 & Hi2 & Hn2 & Hj).
      assert (Hle2 : le_prog d1 d2).
      { unfold keyIndex in HK.
        destruct (expandIfNeeded_spec hash d1) as (d3 & HE & _ & _ & _ & _ & Hsame);
          [by destruct Hok1|done|].
        rewrite HE in HK. simpl in HK.
        assert (d3 = d2) as ->.
        { destruct (find_both hash d3 k) as [[? []]| |]; simpl in HK; congruence. }
        destruct (d_ht1 d1) eqn:E11; [rewrite Hsame by done; apply le_prog_refl|].
        unfold expandIfNeeded, expand in HE.
        assert (size0 d1 = size0 d2).
        { unfold size0. destruct (d_ht0 d1) eqn:E01.
          - repeat (match type of HE with context [if ?b then _ else _] => destruct b end); try done;
              injection HE as <-; simpl; try rewrite E01; done.
          - destruct Hres as (_ & _ & _ & Hn). rewrite E0 in Hn. naive_solver. }
        right. done. }
      eapply lt_le_prog; [done|]. eapply le_le_prog; [done|].
      rewrite HK in Hr. simpl in Hr. destruct (Z.eqb_spec j (-1)) as [Hj1|Hj1].
      + destruct (Find hash d2 k) as [[d3 o]| |] eqn:HFd; simpl in Hr; try done.
        eapply le_le_prog; [by eapply HFle|].
        destruct o as [l|]; simpl in Hr; [|done]. unfold write_value in Hr.
        destruct (d_table d3 (l_table l)) as [h|] eqn:Ht; simpl in Hr; [|done].
        destruct (go_index (ht_tables h) (l_bucket l)) as [c| |] eqn:Hgi; simpl in Hr; try done.
        destruct (go_index c (Z.of_nat (l_pos l))) as [e| |] eqn:Hge; simpl in Hr; try done.
        apply go_index_inv2 in Hgi as [Hb Hgi]. apply go_index_inv2 in Hge as [Hp Hge].
        rewrite go_store_ok in Hr by done. simpl in Hr.
        rewrite go_store_ok in Hr by done. simpl in Hr. injection Hr as <- <-.
        eapply set_table_le; [done|done|]. intros _ ->. done.
      + destruct (d_table d2 (isRehashing d2)) as [h|] eqn:Ht; simpl in Hr; [|done].
        destruct (go_index (ht_tables h) j) as [c| |] eqn:Hgi; simpl in Hr; try done.
        apply go_index_inv2 in Hgi as [Hb Hgi].
        rewrite go_store_ok in Hr by done. simpl in Hr. injection Hr as <- <-.
        destruct (isRehashing d2) eqn:HR.
        * by eapply set_table_le.
        * right. simpl in *. unfold size0. simpl. rewrite Ht. split; [done|].
          rewrite (isRehashing_spec hash d2) in HR by (by destruct Hok2).
          destruct (d_ht1 d2); done.
    - unfold Get in Hr. destruct (Find hash d k) as [[d2 o]| |] eqn:HFd; simpl in Hr; try done.
      apply HF in HFd as ->.
      destruct o; simpl in Hr; [destruct (entry_at d1 l); simpl in Hr; try done|];
        injection Hr as <- <-; done.
    - unfold FindEntry in Hr. destruct (Find hash d k) as [[d2 o]| |] eqn:HFd; simpl in Hr; try done.
      apply HF in HFd as ->.
      destruct o; simpl in Hr; [destruct (entry_at d1 l); simpl in Hr; try done|];
        injection Hr as <- <-; done.
    - unfold Delete in Hr. rewrite E0, Hs in Hr. simpl in Hr.
      destruct (find_both hash d1 k) as [[j o]| |] eqn:HFd; simpl in Hr; try done.
      destruct o as [l|]; simpl in Hr; [|by injection Hr as <- <-].
      eapply lt_le_prog; [done|].
      unfold delete_at in Hr.
      destruct (d_table d1 (l_table l)) as [h|] eqn:Ht; simpl in Hr; [|done].
      destruct (go_index (ht_tables h) (l_bucket l)) as [c| |] eqn:Hgi; simpl in Hr; try done.
      apply go_index_inv2 in Hgi as [Hb Hgi].
      rewrite go_store_ok in Hr by done. simpl in Hr. injection Hr as <- <-.
      eapply set_table_le; [done|done|]. intros _ ->. by rewrite drop_nil, take_nil.
  Qed.

  (** after enough accesses the old table has been replaced *)
  Lemma rehash_ends ops : ∀ d h0 h1,
    inv d → d_ht0 d = Some h0 → d_ht1 d = Some h1 →
    forallb is_access ops = true → Z.of_nat (size (d_map d) + length ops) < max_entries →
    (nonempty_buckets (d_ht0 d) < length ops)%nat →
    ∃ ops1 ops2 d' outs, ops = ops1 ++ ops2 ∧ (length ops1 ≤ S (nonempty_buckets (d_ht0 d)))%nat ∧
      run d ops1 = Ok (d', outs) ∧ ht_size h0 < size0 d'.
  Proof.
    induction ops as [|op ops IH]; intros d h0 h1 Hinv E0 E1 Hacc Hsm Hlen; simpl in *; [lia|].
    apply andb_true_iff in Hacc as [Hop Hacc].
    assert (Hopok : op_ok op) by (by destruct op).
    destruct (run_op_spec d op Hinv Hopok) as [[Hr _]|(d1 & out & Hr & Hinv1 & _ & Hsz1)].
    { unfold small. lia. } { by destruct op. }
    pose proof (access_progress d op d1 out h1) as Hlt.
    destruct Hinv as [Hok Hi]. specialize (Hlt Hok Hi).
    destruct Hlt as [Hlt|(Heq & Hn1 & Hlt)]; [unfold small; lia|done|done|done| |].
    - exists [op], ops, d1, [out]. split; [done|]. split; [simpl; lia|]. simpl. rewrite Hr. simpl.
      split; [done|]. unfold size0 in Hlt at 1. by rewrite E0 in Hlt.
    - destruct (d_ht1 d1) as [h1'|] eqn:E1'; [|done].
      destruct (d_ht0 d1) as [h0'|] eqn:E0'.
      2:{ destruct Hinv1 as [(Ht & _) _]. unfold DictProofs.tables_ok in Ht. by rewrite E0', E1' in Ht. }
      destruct (IH d1 h0' h1') as (ops1 & ops2 & d' & outs & -> & Hl1 & Hr1 & Hs1); try done; try lia.
      { rewrite E0'. lia. }
      exists (op :: ops1), ops2, d', (out :: outs). split; [done|].
      rewrite E0' in Hl1. simpl. split; [lia|]. rewrite Hr. simpl. rewrite Hr1. simpl. split; [done|].
      unfold size0 in Heq. rewrite E0, E0' in Heq. lia.
  Qed.

  (** * Lemmas behind the property theorems *)
  Lemma C01_lemma ops :
    Forall op_ok ops → Z.of_nat (length ops) < max_entries →
    (∃ d outs, run NewDict ops = Ok (d, outs) ∧ dict_spec_run None ops outs (abs d)) ∨
    (existsb is_random ops = true ∧ run NewDict ops = OutOfFuel).
  Proof.
    intros Hops Hlen. destruct (run_spec ops NewDict inv_New Hops) as [?|(d & outs & Hr & _ & Hs & _)].
    - rewrite NewDict_map, map_size_empty. lia.
    - by right.
    - left. eauto.
  Qed.

  Lemma reachable_contents d : reachable d → contents (abs d) = d_map d.
  Proof. intros Hr. apply contents_abs. by apply reachable_inv in Hr as [? _]. Qed.

  Lemma C02_lemma d : reachable d → Size d = Ok (Z.of_nat (size (contents (abs d)))).
  Proof.
    intros Hr. rewrite reachable_contents by done. apply reachable_inv in Hr as [? _].
    by eapply Size_spec.
  Qed.

  Lemma C03_lemma d del : reachable d →
    ∃ d' es, run_op d (OpIterate del) = Ok (d', OutSeq es) ∧
      es ≡ₚ map_to_list (contents (abs d)) ∧ NoDup es ∧
      contents (abs d') = filter (λ kv, del kv = false) (contents (abs d)) ∧
      d_iterators d' = d_iterators d.
  Proof.
    intros Hr. rewrite reachable_contents by done. apply reachable_inv in Hr as [Hok Hi].
    destruct (iterate_delete_spec d del Hok) as (d' & He & Hok' & Hi' & Hn & Hm).
    simpl. rewrite He. simpl. eexists _, _. split; [done|].
    assert (Hp : entries d ≡ₚ map_to_list (d_map d)).
    { apply entries_perm_map. by destruct Hok as (_ & ? & _). }
    split; [done|]. split; [rewrite Hp; apply NoDup_map_to_list|].
    split; [|done]. by rewrite contents_abs.
  Qed.

  Lemma C57_lemma d : reachable d → Z.of_nat (size (contents (abs d))) < max_entries →
    ∃ c, DeepCopy hash d = Ok (d, c) ∧ contents (abs c) = contents (abs d) ∧
      ∀ ops, Forall op_ok ops → Z.of_nat (size (contents (abs d)) + length ops) < max_entries →
        (∃ c' outs, run c ops = Ok (c', outs) ∧ dict_spec_run (abs c) ops outs (abs c')) ∨
        (existsb is_random ops = true ∧ run c ops = OutOfFuel).
  Proof.
    intros Hr Hsm. rewrite reachable_contents in * by done. apply reachable_inv in Hr as [Hok Hi].
    assert (Hp : entries d ≡ₚ map_to_list (d_map d)).
    { apply entries_perm_map. by destruct Hok as (_ & ? & _). }
    destruct (DeepCopy_spec hash d Hok) as (c & -> & Hokc & Hmc & Hic).
    { unfold small. rewrite Hp. exact Hsm. }
    exists c. split; [done|]. split; [by rewrite contents_abs|]. intros ops Hops Hlen.
    destruct (run_spec ops c (conj Hokc Hic) Hops) as [?|(c' & outs & Hr & _ & Hs & _)]; [by rewrite Hmc|by right|]. left. eauto.
  Qed.

  Lemma C03_no_move_lemma d n op d' out :
    reachable d → 0 < n → Z.of_nat (size (contents (abs d))) < max_entries →
    is_access op = true → run_op (set_iterators d n) op = Ok (d', out) →
    ∀ t i x, sits d t i x →
      match op with OpSet k _ | OpDelete k => x ≠ k | _ => True end → sits d' t i x.
  Proof.
    intros Hr Hn Hsm Hacc Hrun t i x Hx.
    rewrite reachable_contents in Hsm by done. apply reachable_inv in Hr as [Hok Hi].
    destruct (d_ht0 d) as [h|] eqn:E0.
    - eapply (access_no_move (set_iterators d n)); try done.
      + destruct Hok as (? & ? & ? & ?). split; [done|]. split; [done|]. simpl. split; [lia|].
        by rewrite E0.
      + simpl. lia.
    - destruct Hx as (h & c & Ht & _). destruct Hok as (Htab & _).
      unfold DictProofs.tables_ok in Htab. rewrite E0 in Htab.
      destruct t; simpl in Ht; [rewrite Ht in Htab; done|congruence].
  Qed.

  Lemma C04_sound_lemma d rs d' o rs' :
    reachable d → Forall (λ r, 0 ≤ r) rs → GetRandomKey hash d rs = Ok (d', o, rs') →
    match o with
    | Some (k, v) => contents (abs d) !! k = Some v
    | None => contents (abs d) = ∅
    end.
  Proof.
    intros Hr Hrs HG. rewrite reachable_contents by done. apply reachable_inv in Hr as [Hok _].
    destruct (GetRandomKey_spec hash d rs Hok Hrs) as [He Hne].
    destruct (decide (d_map d = ∅)) as [E|E].
    - rewrite He in HG by done. by injection HG as <- <- <-.
    - destruct (Hne E) as [HF|(d2 & k & v & rs2 & HG' & Hkv & _)]; [congruence|].
      rewrite HG in HG'. by injection HG' as <- -> <-.
  Qed.
  Lemma C04_no_panic_lemma d rs :
    reachable d → Forall (λ r, 0 ≤ r) rs → GetRandomKey hash d rs ≠ Panic.
  Proof.
    intros Hr Hrs. apply reachable_inv in Hr as [Hok _].
    destruct (GetRandomKey_spec hash d rs Hok Hrs) as [He Hne].
    destruct (decide (d_map d = ∅)) as [E|E]; [by rewrite He|].
    destruct (Hne E) as [->|(d2 & k & v & rs2 & -> & _)]; done.
  Qed.
  Lemma C04_complete_lemma d k v :
    reachable d → contents (abs d) !! k = Some v →
    ∃ r1 r2 d', 0 ≤ r1 ∧ 0 ≤ r2 ∧
      ∀ rs, GetRandomKey hash d (r1 :: r2 :: rs) = Ok (d', Some (k, v), rs).
  Proof.
    intros Hr Hkv. rewrite reachable_contents in Hkv by done. apply reachable_inv in Hr as [Hok _].
    by apply GetRandomKey_complete.
  Qed.

  Lemma C05_tables_lemma d t h :
    reachable d → d_table d t = Some h →
    ∃ e, 2 ≤ e ∧ Z.of_nat (length (ht_tables h)) = 2 ^ e ∧ ht_size h = 2 ^ e ∧
         ∀ hv : Z, 0 ≤ Z.land hv (ht_sizeMask h) < Z.of_nat (length (ht_tables h)).
  Proof.
    intros Hr Ht. apply reachable_inv in Hr as [(Htab & _) _].
    destruct (table_ht_ok hash d t h Htab Ht) as ((e & He & Hs) & Hl & Hm & _).
    exists e. unfold zlen in Hl. rewrite Hl. split; [done|]. split; [done|]. split; [done|].
    intros hv. rewrite Hm, Hs. change (2 ^ e - 1) with (Z.pred (2 ^ e)).
    rewrite <-Z.ones_equiv, Z.land_ones by lia. apply Z.mod_pos_bound.
    apply Z.pow_pos_nonneg; lia.
  Qed.

  Lemma C06_progress_lemma d h0 h1 op d' out :
    reachable d → d_ht0 d = Some h0 → d_ht1 d = Some h1 →
    Z.of_nat (size (contents (abs d))) < max_entries →
    is_access op = true → run_op d op = Ok (d', out) →
    (∃ h, d_ht0 d' = Some h ∧ ht_size h0 < ht_size h) ∨
    (∃ h0' h1', d_ht0 d' = Some h0' ∧ d_ht1 d' = Some h1' ∧ ht_size h0' = ht_size h0 ∧
       (length (filter (λ c, c ≠ []) (ht_tables h0')) <
        length (filter (λ c, c ≠ []) (ht_tables h0)))%nat).
  Proof.
    intros Hr E0 E1 Hsm Hacc Hrun. rewrite reachable_contents in Hsm by done.
    apply reachable_inv in Hr as [Hok Hi].
    assert (Hop : op_ok op) by (by destruct op).
    destruct (run_op_spec d op (conj Hok Hi) Hop Hsm) as [[_ ?]|(d2 & o2 & Hr2 & [(Htab' & _) _] & _)];
      [congruence|].
    rewrite Hrun in Hr2. injection Hr2 as <- <-.
    pose proof (access_progress d op d' out h1 Hok Hi Hsm Hacc E1 Hrun) as HP.
    assert (H4 : 4 ≤ ht_size h0).
    { apply (ht_ok_size_ge hash). destruct Hok as (Htab & _). by eapply (table_ht_ok hash d false). }
    unfold lt_prog, size0 in HP. rewrite E0 in HP.
    destruct (d_ht0 d') as [h0'|]; [|lia].
    destruct HP as [?|(? & Hn & ?)]; [left; eauto|].
    right. destruct (d_ht1 d') as [h1'|]; [|done]. exists h0', h1'.
    split; [done|]. split; [done|]. split; [done|]. done.
  Qed.

  Lemma C06_terminates_lemma d h0 h1 ops :
    reachable d → d_ht0 d = Some h0 → d_ht1 d = Some h1 →
    forallb is_access ops = true →
    Z.of_nat (size (contents (abs d)) + length ops) < max_entries →
    ht_size h0 < Z.of_nat (length ops) →
    ∃ ops1 ops2 d' outs h, ops = ops1 ++ ops2 ∧ Z.of_nat (length ops1) ≤ ht_size h0 + 1 ∧
      run d ops1 = Ok (d', outs) ∧ d_ht0 d' = Some h ∧ ht_size h0 < ht_size h.
  Proof.
    intros Hr E0 E1 Hacc Hsm Hlen. rewrite reachable_contents in Hsm by done.
    apply reachable_inv in Hr as Hinv.
    assert (Hne : Z.of_nat (nonempty_buckets (d_ht0 d)) ≤ ht_size h0).
    { destruct Hinv as [(Htab & _) _].
      destruct (table_ht_ok hash d false h0 Htab E0) as (_ & Hl & _).
      rewrite <-Hl, E0. unfold zlen. simpl. apply inj_le. apply filter_length. }
    destruct (rehash_ends ops d h0 h1) as (ops1 & ops2 & d' & outs & -> & Hl1 & Hr1 & Hs); try done.
    { lia. }
    assert (H4 : 4 ≤ ht_size h0).
    { apply (ht_ok_size_ge hash). destruct Hinv as [(Htab & _) _]. by eapply (table_ht_ok hash d false). }
    unfold size0 in Hs. destruct (d_ht0 d') as [h|] eqn:E0'; [|lia].
    exists ops1, ops2, d', outs, h. split; [done|]. split; [lia|]. done.
  Qed.
End run.

Lemma C05_pow_lemma (size : Z) :
    size ≤ 2 ^ 62 →
    ∃ e, 2 ≤ e ∧ GetNextPower size = 2 ^ e ∧ Z.max size 4 ≤ 2 ^ e ∧
         ∀ e', 0 ≤ e' → Z.max size 4 ≤ 2 ^ e' → e ≤ e'.
Proof.
  intros Hs. destruct (decide (size ≤ 4)) as [H4|H4].
  - exists 2. rewrite GetNextPower_small by done. split; [lia|]. split; [done|].
    split; [lia|]. intros e' He' Hm. apply (Z.pow_le_mono_r_iff 2); lia.
  - assert (He : ∃ e, 3 ≤ e ≤ 62 ∧ 2 ^ (e - 1) < size ≤ 2 ^ e).
    { exists (Z.log2_up size). assert (1 < size) by lia.
      pose proof (Z.log2_up_spec size H) as [Hlo Hhi].
      change (Z.pred (Z.log2_up size)) with (Z.log2_up size - 1) in Hlo. split; [|done]. split.
      - destruct (decide (Z.log2_up size < 3)); [|lia].
        assert (2 ^ Z.log2_up size ≤ 2 ^ 2) by (apply Z.pow_le_mono_r; lia). lia.
      - apply Z.log2_up_le_pow2; lia. }
    destruct He as (e & He & Hlo & Hhi). exists e. split; [lia|].
    rewrite (GetNextPower_pow size e) by (done || lia). split; [done|]. split; [lia|].
    intros e' He' Hm. destruct (decide (e ≤ e')); [done|].
    assert (2 ^ e' ≤ 2 ^ (e - 1)) by (apply Z.pow_le_mono_r; lia). lia.
Qed.
