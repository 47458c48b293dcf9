(** Proofs about the dict model: invariant, refinement to finite maps. *)
From Verif Require Import Base DictModel.
From Coq Require Import ZifyBool ZifyNat.

Lemma go_index_lookup {A} (l : list A) (n : nat) x :
  l !! n = Some x → go_index l (Z.of_nat n) = Ok x.
Proof.
  intros Hl. unfold go_index. rewrite Nat2Z.id, Hl.
  destruct (Z.ltb_spec (Z.of_nat n) 0); [lia|done].
Qed.
Lemma go_index_ok {A} (l : list A) (i : Z) :
  0 ≤ i < zlen l → ∃ x, l !! Z.to_nat i = Some x ∧ go_index l i = Ok x.
Proof.
  unfold zlen. intros Hi. destruct (lookup_lt_is_Some_2 l (Z.to_nat i)) as [x Hx]; [lia|].
  exists x. split; [done|]. unfold go_index. rewrite Hx.
  destruct (Z.ltb_spec i 0); [lia|done].
Qed.
Lemma go_store_ok {A} (l : list A) (i : Z) x :
  0 ≤ i < zlen l → go_store l i x = Ok (<[Z.to_nat i := x]> l).
Proof.
  unfold zlen, go_store. intros Hi.
  destruct (Z.ltb_spec i 0); [lia|].
  destruct (Z.leb_spec (Z.of_nat (length l)) i); [lia|done].
Qed.
Lemma go_index_inv {A} (l : list A) i x :
  go_index l i = Ok x → 0 ≤ i ∧ l !! Z.to_nat i = Some x.
Proof.
  unfold go_index. destruct (Z.ltb_spec i 0); [done|].
  destruct (l !! Z.to_nat i) eqn:E; [|done]. intros [= ->]. done.
Qed.

(** mjoin and single-bucket updates *)
Lemma join_app {A} (l l' : list (list A)) : mjoin (l ++ l') = mjoin l ++ mjoin l'.
Proof. induction l as [|c l IH]; simpl; [done|]. by rewrite IH, app_assoc. Qed.
Lemma mjoin_split {A} (l : list (list A)) i c :
  l !! i = Some c → mjoin l = mjoin (take i l) ++ c ++ mjoin (drop (S i) l).
Proof.
  intros Hl. rewrite <-(take_drop_middle l i c Hl) at 1.
  rewrite join_app. done.
Qed.
Lemma mjoin_insert {A} (l : list (list A)) i c :
  (i < length l)%nat →
  mjoin (<[i:=c]> l) = mjoin (take i l) ++ c ++ mjoin (drop (S i) l).
Proof.
  intros Hl.
  rewrite (mjoin_split (<[i:=c]> l) i c) by (by apply list_lookup_insert).
  rewrite take_insert by lia. by rewrite drop_insert_gt by lia.
Qed.

Section proofs.
  Context {K V : Type} `{Countable K}.
  Variable hash : K → Z.
  Notation dict := (dict K V).
  Notation hashTable := (hashTable K V).
  Implicit Types (d : dict) (h : hashTable) (k : K) (v : V).

  (** * Invariant *)
  Definition ht_ok h : Prop :=
    (∃ n, 2 ≤ n ∧ ht_size h = 2 ^ n) ∧
    zlen (ht_tables h) = ht_size h ∧
    ht_sizeMask h = ht_size h - 1 ∧
    ht_used h = zlen (mjoin (ht_tables h)) ∧
    ∀ i c e, ht_tables h !! i = Some c → e ∈ c → bucket_index hash h e.1 = Z.of_nat i.

  Definition ht_entries (o : option hashTable) : list (K * V) :=
    match o with Some h => mjoin (ht_tables h) | None => [] end.
  Definition entries d : list (K * V) := ht_entries (d_ht0 d) ++ ht_entries (d_ht1 d).
  Definition d_map d : gmap K V := list_to_map (entries d).

  Definition tables_ok d : Prop :=
    match d_ht0 d, d_ht1 d with
    | None, None => d_rehashIndex d = -1
    | Some h0, None => ht_ok h0 ∧ d_rehashIndex d = -1
    | Some h0, Some h1 =>
        ht_ok h0 ∧ ht_ok h1 ∧
        (0 ≤ d_rehashIndex d ≤ ht_size h0 ∧ ht_size h1 = 2 * ht_size h0) ∧
        ∀ i c, (Z.of_nat i < d_rehashIndex d) → ht_tables h0 !! i = Some c → c = []
    | None, Some _ => False
    end.
  Definition dict_ok d : Prop :=
    tables_ok d ∧ NoDup (entries d).*1 ∧ 0 ≤ d_iterators d ∧
    (d_ht0 d = None → d_iterators d = 0).

  Lemma bucket_index_range h k : ht_ok h → 0 ≤ bucket_index hash h k < zlen (ht_tables h).
  Proof.
    intros ((n & Hn & Hs) & Hl & Hm & _). rewrite Hl. unfold bucket_index. rewrite Hm, Hs.
    replace (2 ^ n - 1) with (Z.ones n) by (rewrite Z.ones_equiv; lia).
    rewrite Z.land_ones by lia. apply Z.mod_pos_bound. lia.
  Qed.

  Lemma ht_ok_size_ge h : ht_ok h → 4 ≤ ht_size h.
  Proof.
    intros ((n & Hn & Hs) & _). rewrite Hs.
    change 4 with (2^2). apply Z.pow_le_mono_r; lia.
  Qed.

  Lemma chain_find_Some k (c : list (K * V)) p :
    chain_find k c = Some p → ∃ v, c !! p = Some (k, v).
  Proof.
    revert p. induction c as [|[k' v'] c IH]; simpl; intros p; [done|].
    destruct (decide (k = k')) as [->|Hne].
    - intros [= <-]. by exists v'.
    - destruct (chain_find k c) as [q|]; simpl; [|done]. intros [= <-]. by apply IH.
  Qed.
  Lemma chain_find_None k (c : list (K * V)) : chain_find k c = None → k ∉ c.*1.
  Proof.
    induction c as [|[k' v'] c IH]; simpl; [intros _; apply not_elem_of_nil|].
    destruct (decide (k = k')) as [->|Hne]; [done|].
    destruct (chain_find k c); simpl; [done|]. intros _. apply not_elem_of_cons. eauto.
  Qed.

  (** A key of a well-formed table can only be in its own bucket. *)
  Lemma ht_key_bucket h k v :
    ht_ok h → (k, v) ∈ mjoin (ht_tables h) →
    ∃ c, ht_tables h !! Z.to_nat (bucket_index hash h k) = Some c ∧ (k, v) ∈ c.
  Proof.
    intros Hok Hin. apply elem_of_list_join in Hin as (c & Hc & Hl).
    apply elem_of_list_lookup in Hl as (i & Hi).
    destruct Hok as (_ & _ & _ & _ & Hb). specialize (Hb i c _ Hi Hc). simpl in Hb.
    exists c. rewrite Hb, Nat2Z.id. done.
  Qed.

  (** What [find_in] computes. *)
  Definition loc_ok d (l : loc) k v : Prop :=
    ∃ h c, d_table d (l_table l) = Some h ∧ 0 ≤ l_bucket l ∧
           ht_tables h !! Z.to_nat (l_bucket l) = Some c ∧ c !! l_pos l = Some (k, v).

  Lemma find_in_spec d t k h :
    d_table d t = Some h → ht_ok h →
    ∃ o, find_in hash d t k = Ok (bucket_index hash h k, o) ∧
         match o with
         | Some l => l_table l = t ∧ ∃ v, loc_ok d l k v
         | None => k ∉ (mjoin (ht_tables h)).*1
         end.
  Proof.
    intros Ht Hok. unfold find_in. rewrite Ht; simpl.
    destruct (go_index_ok (ht_tables h) (bucket_index hash h k)) as (c & Hc & ->);
      [by apply bucket_index_range|]. simpl.
    eexists; split; [done|].
    destruct (chain_find k c) as [p|] eqn:Hf; simpl.
    - split; [done|]. apply chain_find_Some in Hf as [v Hv].
      exists v, h, c. simpl. repeat split; try done.
      by apply bucket_index_range.
    - intros Hin. apply elem_of_list_fmap in Hin as ([k' v'] & Heq & Hin); simpl in Heq; subst k'.
      apply (ht_key_bucket h k v' Hok) in Hin as (c' & Hc' & Hin').
      rewrite Hc in Hc'. injection Hc' as <-.
      apply chain_find_None in Hf. apply Hf. apply elem_of_list_fmap. by exists (k, v').
  Qed.

  Lemma isRehashing_spec d : tables_ok d →
    isRehashing d = match d_ht1 d with Some _ => true | None => false end.
  Proof.
    unfold tables_ok, isRehashing.
    destruct (d_ht0 d), (d_ht1 d); intros; destruct_and?; try done; lia.
  Qed.

  Lemma elem_of_entries_table d t h e :
    d_table d t = Some h → e ∈ mjoin (ht_tables h) → e ∈ entries d.
  Proof.
    unfold entries, d_table. destruct t; intros ->; simpl; rewrite elem_of_app; auto.
  Qed.

  Lemma loc_ok_in d l k v : loc_ok d l k v → (k, v) ∈ entries d.
  Proof.
    intros (h & c & Ht & _ & Hc & Hp). eapply elem_of_entries_table; [done|].
    apply elem_of_list_join. exists c. split.
    - by eapply elem_of_list_lookup_2.
    - by eapply elem_of_list_lookup_2.
  Qed.

  Lemma find_both_spec d k :
    tables_ok d → d_ht0 d ≠ None →
    ∃ o i, find_both hash d k = Ok (i, o) ∧
           match o with
           | Some l => ∃ v, loc_ok d l k v
           | None => k ∉ (entries d).*1 ∧
               ∃ h, d_table d (isRehashing d) = Some h ∧ i = bucket_index hash h k
           end.
  Proof.
    intros Hok Hn. pose proof (isRehashing_spec d Hok) as HR.
    unfold find_both.
    destruct (d_ht0 d) as [h0|] eqn:E0; [|done].
    assert (Hok0 : ht_ok h0).
    { unfold tables_ok in Hok. rewrite E0 in Hok. destruct (d_ht1 d); tauto. }
    destruct (find_in_spec d false k h0) as (o0 & -> & Ho0); [done|done|]. simpl.
    destruct o0 as [l|].
    { exists (Some l). eexists. split; [done|]. tauto. }
    rewrite HR. destruct (d_ht1 d) as [h1|] eqn:E1; simpl.
    - assert (Hok1 : ht_ok h1).
      { unfold tables_ok in Hok. rewrite E0, E1 in Hok. tauto. }
      destruct (find_in_spec d true k h1) as (o1 & -> & Ho1); [done|done|].
      exists o1, (bucket_index hash h1 k). split; [done|].
      destruct o1 as [l|]; [tauto|]. split.
      + unfold entries. rewrite E0, E1. simpl. rewrite fmap_app, elem_of_app. tauto.
      + eauto.
    - exists None, (bucket_index hash h0 k). split; [done|]. split.
      + unfold entries. rewrite E0, E1. simpl. rewrite app_nil_r. done.
      + eauto.
  Qed.

  (** * Map view *)
  Lemma d_map_Some d k v : NoDup (entries d).*1 → d_map d !! k = Some v ↔ (k, v) ∈ entries d.
  Proof. intros. unfold d_map. symmetry. by apply elem_of_list_to_map. Qed.
  Lemma d_map_None d k : d_map d !! k = None ↔ k ∉ (entries d).*1.
  Proof. unfold d_map. split; [apply not_elem_of_list_to_map_2|apply not_elem_of_list_to_map_1]. Qed.

  Lemma d_map_perm d d' : NoDup (entries d).*1 → entries d ≡ₚ entries d' → d_map d = d_map d'.
  Proof. intros. unfold d_map. by apply list_to_map_proper. Qed.

  Lemma NoDup_keys_perm (l l' : list (K * V)) : l ≡ₚ l' → NoDup l.*1 → NoDup l'.*1.
  Proof. intros Hp. by rewrite Hp. Qed.

  Lemma d_map_size d : NoDup (entries d).*1 → size (d_map d) = length (entries d).
  Proof.
    intros Hnd. unfold d_map. remember (entries d) as l eqn:E. clear E.
    induction l as [|[k v] l IH]; simpl in *; [by rewrite map_size_empty|].
    apply NoDup_cons in Hnd as [Hni Hnd].
    rewrite map_size_insert_None by (by apply not_elem_of_list_to_map_1).
    by rewrite IH.
  Qed.

  (** * Rehash *)
  Lemma ht_ok_cons h k v c :
    ht_ok h → ht_tables h !! Z.to_nat (bucket_index hash h k) = Some c →
    let i := Z.to_nat (bucket_index hash h k) in
    ht_ok (HT (<[i := (k, v) :: c]> (ht_tables h)) (ht_size h) (ht_sizeMask h) (ht_used h + 1)) ∧
    mjoin (<[i := (k, v) :: c]> (ht_tables h)) ≡ₚ (k, v) :: mjoin (ht_tables h).
  Proof.
    intros Hok Hc i. pose proof (bucket_index_range h k Hok) as Hr. unfold zlen in Hr.
    assert (Hi : (i < length (ht_tables h))%nat) by lia.
    assert (HP : mjoin (<[i := (k, v) :: c]> (ht_tables h)) ≡ₚ (k, v) :: mjoin (ht_tables h)).
    { rewrite mjoin_insert by done. rewrite (mjoin_split (ht_tables h) i c) by done.
      simpl. symmetry. apply Permutation_middle. }
    split; [|done].
    destruct Hok as (Hp & Hl & Hm & Hu & Hb).
    split; [done|]. simpl. split; [unfold zlen in *; by rewrite insert_length|].
    split; [done|]. split.
    - unfold zlen in *. rewrite HP. simpl. lia.
    - intros j c' e Hj He. unfold bucket_index in *; simpl in *.
      destruct (decide (i = j)) as [<-|Hne].
      + rewrite list_lookup_insert in Hj by done. injection Hj as <-.
        apply elem_of_cons in He as [->|He]; simpl.
        * lia.
        * by apply (Hb i c).
      + rewrite list_lookup_insert_ne in Hj by done. by apply (Hb j c').
  Qed.

  Lemma move_chain_spec c h0 h1 :
    ht_ok h1 →
    ∃ h1', move_chain hash c h0 h1 =
             Ok (HT (ht_tables h0) (ht_size h0) (ht_sizeMask h0) (ht_used h0 - zlen c), h1') ∧
           ht_ok h1' ∧ mjoin (ht_tables h1') ≡ₚ mjoin (ht_tables h1) ++ c ∧
           ht_size h1' = ht_size h1.
  Proof.
    revert h0 h1. induction c as [|[k v] c IH]; intros h0 h1 Hok; simpl.
    - exists h1. unfold zlen; simpl. rewrite Z.sub_0_r, app_nil_r. by destruct h0.
    - destruct (go_index_ok (ht_tables h1) (bucket_index hash h1 k)) as (b & Hb & ->);
        [by apply bucket_index_range|]. simpl.
      rewrite go_store_ok by (by apply bucket_index_range). simpl.
      destruct (ht_ok_cons h1 k v b Hok Hb) as [Hok' Hp].
      edestruct (IH (HT (ht_tables h0) (ht_size h0) (ht_sizeMask h0) (ht_used h0 - 1)))
        as (h1' & -> & Hok1' & Hp' & Hs'); [exact Hok'|].
      exists h1'. split; [|split; [done|split; [|done]]].
      + simpl. do 3 f_equal. unfold zlen. simpl. lia.
      + rewrite Hp'. cbn [ht_tables]. rewrite Hp. simpl. by rewrite <-Permutation_middle.
  Qed.

  Lemma skip_empty_spec (l : list (list (K * V))) (i : Z) :
    mjoin l ≠ [] →
    ∃ j c, skip_empty l i = Ok (i + Z.of_nat j) ∧ l !! j = Some c ∧ c ≠ [] ∧
           ∀ j' c', (j' < j)%nat → l !! j' = Some c' → c' = [].
  Proof.
    revert i. induction l as [|c l IH]; intros i Hne; simpl; [done|].
    destruct c as [|e c]; simpl in *.
    - destruct (IH (i + 1) Hne) as (j & c & -> & Hl & Hc & Hlt).
      exists (S j), c. split; [f_equal; lia|]. split; [done|]. split; [done|].
      intros [|j'] c' Hj' Hl'; simpl in *; [by injection Hl' as <-|].
      apply (Hlt j'); [lia|done].
    - exists 0%nat, (e :: c). split; [f_equal; lia|]. split; [done|]. split; [done|].
      intros; lia.
  Qed.

  Lemma ht_ok_clear h i c :
    ht_ok h → ht_tables h !! i = Some c →
    ht_ok (HT (<[i := []]> (ht_tables h)) (ht_size h) (ht_sizeMask h) (ht_used h - zlen c)) ∧
    mjoin (ht_tables h) ≡ₚ c ++ mjoin (<[i := []]> (ht_tables h)).
  Proof.
    intros (Hp & Hl & Hm & Hu & Hb) Hc.
    assert (Hi : (i < length (ht_tables h))%nat) by (by eapply lookup_lt_Some).
    assert (HP : mjoin (ht_tables h) ≡ₚ c ++ mjoin (<[i := []]> (ht_tables h))).
    { rewrite mjoin_insert by done. rewrite (mjoin_split (ht_tables h) i c) by done.
      simpl. rewrite !app_assoc. by rewrite (Permutation_app_comm c). }
    split; [|done]. split; [done|]. simpl.
    split; [unfold zlen in *; by rewrite insert_length|]. split; [done|]. split.
    - unfold zlen in *. rewrite HP in Hu. rewrite app_length in Hu. lia.
    - intros j c' e Hj He. unfold bucket_index in *; simpl in *.
      destruct (decide (i = j)) as [<-|Hne].
      + rewrite list_lookup_insert in Hj by done. injection Hj as <-. by apply elem_of_nil in He.
      + rewrite list_lookup_insert_ne in Hj by done. by apply (Hb j c').
  Qed.

  (** number of non-empty buckets left in table 0: the termination measure *)
  Definition nonempty_buckets (o : option hashTable) : nat :=
    match o with Some h => length (filter (λ c, c ≠ []) (ht_tables h)) | None => 0 end.

  Lemma filter_insert_nil (l : list (list (K * V))) i c :
    l !! i = Some c → c ≠ [] →
    length (filter (λ c, c ≠ []) l) = S (length (filter (λ c, c ≠ []) (<[i:=[]]> l))).
  Proof.
    intros Hl Hc. rewrite <-(take_drop_middle l i c Hl).
    assert (Hi : (i < length l)%nat) by (by eapply lookup_lt_Some).
    rewrite insert_app_r_alt by (rewrite take_length; lia).
    rewrite take_length. replace (i - i `min` length l)%nat with 0%nat by lia. simpl.
    rewrite !filter_app, !app_length, !filter_cons.
    destruct (decide (c ≠ [])); [|done].
    destruct (decide (@nil (K * V) ≠ [])); [done|]. simpl. lia.
  Qed.

  Lemma rehash_one d h0 h1 :
    tables_ok d → d_ht0 d = Some h0 → d_ht1 d = Some h1 →
    ∃ d', rehash hash 1 d = Ok d' ∧ tables_ok d' ∧ entries d' ≡ₚ entries d ∧
          d_iterators d' = d_iterators d ∧ d_ht0 d' ≠ None ∧
          ((d_ht1 d' = None ∧ d_ht0 d' = Some h1) ∨
           (∃ h0' h1', d_ht0 d' = Some h0' ∧ d_ht1 d' = Some h1' ∧ ht_size h1' = ht_size h1 ∧
                   ht_size h0' = ht_size h0 ∧
                   S (nonempty_buckets (d_ht0 d')) = nonempty_buckets (d_ht0 d))).
  Proof.
    intros Hok E0 E1. unfold tables_ok in Hok. rewrite E0, E1 in Hok.
    destruct Hok as (Hok0 & Hok1 & Hri & Hempty).
    unfold rehash. rewrite E0; simpl.
    destruct (Z.eqb_spec (ht_used h0) 0) as [Hu|Hu].
    - eexists; split; [done|]. unfold tables_ok, entries; simpl. rewrite E1, E0; simpl.
      destruct Hok0 as (_ & _ & _ & Hused & _). rewrite Hu in Hused. unfold zlen in Hused.
      destruct (mjoin (ht_tables h0)); [|simpl in Hused; lia]. rewrite app_nil_r.
      split; [done|]. split; [done|]. split; [done|]. split; [done|]. by left.
    - destruct (Z.ltb_spec (d_rehashIndex d) 0); [lia|].
      assert (Hne : mjoin (drop (Z.to_nat (d_rehashIndex d)) (ht_tables h0)) ≠ []).
      { intros Hnil. destruct Hok0 as (_ & _ & _ & Hused & _).
        rewrite <-(take_drop (Z.to_nat (d_rehashIndex d)) (ht_tables h0)) in Hused.
        rewrite join_app, Hnil, app_nil_r in Hused.
        assert (mjoin (take (Z.to_nat (d_rehashIndex d)) (ht_tables h0)) = []) as Ht.
        { apply join_nil. apply Forall_lookup. intros i c Hl.
          apply lookup_take_Some in Hl as [Hl Hlt]. apply (Hempty i); [lia|done]. }
        rewrite Ht in Hused. unfold zlen in Hused. simpl in Hused. lia. }
      destruct (skip_empty_spec _ (d_rehashIndex d) Hne) as (j & c & -> & Hj & Hc & Hlt). simpl.
      rewrite lookup_drop in Hj.
      set (ri := d_rehashIndex d + Z.of_nat j).
      replace (Z.to_nat (d_rehashIndex d) + j)%nat with (Z.to_nat ri) in Hj by (unfold ri; lia).
      assert (Hri' : 0 ≤ ri < zlen (ht_tables h0)).
      { apply lookup_lt_Some in Hj. unfold zlen, ri in *. lia. }
      destruct (go_index_ok (ht_tables h0) ri Hri') as (c' & Hc' & ->).
      rewrite Hj in Hc'. injection Hc' as <-. simpl. rewrite E1; simpl.
      destruct (move_chain_spec c h0 h1 Hok1) as (h1' & -> & Hok1' & Hp1 & Hs1). simpl.
      rewrite go_store_ok by done. simpl.
      destruct (ht_ok_clear h0 (Z.to_nat ri) c Hok0 Hj) as [Hok0' Hp0].
      eexists; split; [done|]. split; [|split; [|split; [done|split; [done|]]]].
      + unfold tables_ok; simpl. split; [done|]. split; [done|]. split.
        * destruct Hok0 as (_ & Hl & _). rewrite <-Hl. lia.
        * intros i c' Hi Hl. destruct (decide (i = Z.to_nat ri)) as [->|Hne'].
          -- rewrite list_lookup_insert in Hl by (unfold zlen in Hri'; lia). by injection Hl as <-.
          -- rewrite list_lookup_insert_ne in Hl by done.
             destruct (decide (Z.of_nat i < d_rehashIndex d)) as [Hlo|Hhi].
             ++ by apply (Hempty i).
             ++ apply (Hlt (i - Z.to_nat (d_rehashIndex d))%nat); [unfold ri in *; lia|].
                rewrite lookup_drop. rewrite <-Hl. f_equal. lia.
      + unfold entries; simpl. rewrite E0, E1; simpl. rewrite Hp1, Hp0.
        rewrite (Permutation_app_comm (mjoin (ht_tables h1)) c). rewrite !app_assoc.
        by rewrite (Permutation_app_comm c).
      + right. do 2 eexists. split; [done|]. split; [done|]. split; [done|]. split; [done|]. simpl.
        symmetry. by apply (filter_insert_nil _ _ c).
  Qed.

  Definition maybe_step_result d d' : Prop :=
    tables_ok d' ∧ entries d' ≡ₚ entries d ∧ d_iterators d' = d_iterators d ∧
    (d_ht0 d' = None ↔ d_ht0 d = None).

  Lemma maybe_step_spec d :
    tables_ok d → ∃ d', maybe_step hash d = Ok d' ∧ maybe_step_result d d'.
  Proof.
    intros Hok. unfold maybe_step. rewrite (isRehashing_spec d Hok).
    destruct (d_ht1 d) as [h1|] eqn:E1; [|exists d; by repeat split].
    unfold rehashStep. destruct (Z.eqb_spec (d_iterators d) 0); [|exists d; by repeat split].
    destruct (d_ht0 d) as [h0|] eqn:E0.
    - destruct (rehash_one d h0 h1 Hok E0 E1) as (d' & Hr & Hok' & Hp & Hit & Hn & _).
      exists d'. split; [done|]. repeat split; try done. by rewrite E0.
    - unfold tables_ok in Hok. by rewrite E0, E1 in Hok.
  Qed.

  Lemma maybe_step_no_iter d d' :
    d_iterators d ≠ 0 → maybe_step hash d = Ok d' → d' = d.
  Proof.
    intros Hi. unfold maybe_step, rehashStep. destruct (isRehashing d); [|congruence].
    destruct (Z.eqb_spec (d_iterators d) 0); [done|congruence].
  Qed.

  Lemma dict_ok_step d d' : dict_ok d → maybe_step_result d d' → dict_ok d'.
  Proof.
    intros (Ht & Hnd & Hit & Hn) (Ht' & Hp & Hit' & Hn'). split; [done|]. split.
    - by rewrite Hp.
    - rewrite Hit'. split; [done|]. intros. apply Hn. by apply Hn'.
  Qed.
  Lemma d_map_step d d' : dict_ok d → maybe_step_result d d' → d_map d' = d_map d.
  Proof.
    intros (Ht & Hnd & Hit & Hn) (Ht' & Hp & Hit' & Hn').
    symmetry. apply d_map_perm; [done|]. by symmetry.
  Qed.
End proofs.
