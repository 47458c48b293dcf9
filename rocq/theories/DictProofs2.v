(** Dict proofs, part 2: GetNextPower, every operation refines a finite map. *)
From Verif Require Import Base DictModel DictProofs.
From Coq Require Import ZifyBool ZifyNat.

(** * GetNextPower *)
Definition top_bits (r k w : Z) : Prop :=
  0 ≤ r ∧ (∀ j, k ≤ j → Z.testbit r j = false) ∧
  (∀ j, 0 ≤ j → k - w ≤ j < k → Z.testbit r j = true).

Lemma smear_top r k w : 0 < w → top_bits r k w → top_bits (smear r w) k (2 * w).
Proof.
  intros Hw (Hr & Hhi & Hlo). unfold smear. split; [|split].
  - apply Z.lor_nonneg. split; [done|]. by apply Z.shiftr_nonneg.
  - intros j Hj. destruct (decide (0 ≤ j)) as [Hj0|Hj0].
    + rewrite Z.lor_spec, Z.shiftr_spec by done. rewrite !Hhi by lia. done.
    + apply Z.testbit_neg_r. lia.
  - intros j Hj0 Hj. rewrite Z.lor_spec, Z.shiftr_spec by done.
    destruct (decide (k - w ≤ j)).
    + rewrite Hlo by lia. done.
    + rewrite (Hlo (j + w)) by lia. apply orb_true_r.
Qed.

Lemma top_bits_full r k w : 0 ≤ k ≤ w → top_bits r k w → r = 2 ^ k - 1.
Proof.
  intros Hk (Hr & Hhi & Hlo). replace (2 ^ k - 1) with (Z.ones k) by (rewrite Z.ones_equiv; lia).
  apply Z.bits_inj'. intros j Hj. rewrite Z.testbit_ones_nonneg by lia.
  destruct (Z.ltb_spec j k); [apply Hlo; lia|apply Hhi; lia].
Qed.

Lemma top_bits_start r k : 0 < k → 2 ^ (k - 1) ≤ r < 2 ^ k → top_bits r k 1.
Proof.
  intros Hk Hr. assert (Hlog : Z.log2 r = k - 1).
  { apply Z.log2_unique; [lia|]. replace (Z.succ (k - 1)) with k by lia. lia. }
  assert (0 < r) by (pose proof (Z.pow_pos_nonneg 2 (k-1)); lia).
  split; [lia|]. split.
  - intros j Hj. apply Z.bits_above_log2; lia.
  - intros j _ Hj. replace j with (Z.log2 r) by lia. by apply Z.bit_log2.
Qed.

Lemma smear_all r k : 0 < k ≤ 64 → 2 ^ (k - 1) ≤ r < 2 ^ k →
  foldl smear r [1; 2; 4; 8; 16; 32; 64] = 2 ^ k - 1.
Proof.
  intros Hk Hr. apply (top_bits_full _ k 128); [lia|]. cbn [foldl].
  do 7 (match goal with |- top_bits _ _ ?n => change n with (2 * (n / 2)); apply smear_top; [lia|] end).
  apply top_bits_start; lia.
Qed.

Lemma GetNextPower_small size : size ≤ 4 → GetNextPower size = 4.
Proof. intros. unfold GetNextPower, tableInitialSize. destruct (Z.leb_spec size 4); [done|lia]. Qed.

Lemma GetNextPower_pow size k :
  4 < size → 2 ^ (k - 1) < size ≤ 2 ^ k → k ≤ 62 → GetNextPower size = 2 ^ k.
Proof.
  intros Hs Hk Hk62. unfold GetNextPower, tableInitialSize.
  destruct (Z.leb_spec size 4); [lia|].
  assert (0 < k).
  { destruct (decide (0 < k)); [done|]. exfalso.
    assert (2 ^ k ≤ 1); [|lia]. destruct (decide (k = 0)) as [->|]; [done|].
    rewrite Z.pow_neg_r; lia. }
  rewrite (smear_all _ k) by lia.
  assert (2 ^ k ≤ 2 ^ 62) by (apply Z.pow_le_mono_r; lia).
  assert (0 < 2 ^ k) by (apply Z.pow_pos_nonneg; lia).
  unfold maxInt64.
  destruct (Z.ltb_spec (2 ^ k - 1) 0); [lia|].
  destruct (Z.eqb_spec (2 ^ k - 1) (2 ^ 63 - 1)); [|simpl; lia].
  change (2^63) with (2 * 2^62) in *. lia.
Qed.

Lemma GetNextPower_huge size : 2 ^ 62 < size ≤ maxInt64 → GetNextPower size = maxInt64.
Proof.
  intros Hs. unfold GetNextPower, tableInitialSize.
  assert (4 < 2^62) by (apply (Z.pow_lt_mono_r 2 2 62); lia).
  destruct (Z.leb_spec size 4); [lia|].
  unfold maxInt64 in *.
  rewrite (smear_all _ 63) by (change (63 - 1) with 62; lia).
  rewrite Z.eqb_refl, orb_true_r. done.
Qed.

Section proofs.
  Context {K V : Type} `{Countable K}.
  Variable hash : K → Z.
  Notation dict := (dict K V).
  Notation hashTable := (hashTable K V).
  Implicit Types (d : dict) (h : hashTable) (k : K) (v : V).
  Notation ht_ok := (ht_ok (V:=V) hash).
  Notation dict_ok := (dict_ok (V:=V) hash).
  Notation tables_ok := (tables_ok (V:=V) hash).

  Lemma mjoin_replicate_nil {A} n : mjoin (replicate n (@nil A)) = [].
  Proof. induction n; simpl; done. Qed.

  Lemma ht_ok_empty (n : Z) : 2 ≤ n →
    ht_ok (HT (replicate (Z.to_nat (2 ^ n)) []) (2 ^ n) (2 ^ n - 1) 0).
  Proof.
    intros Hn. split; [by exists n|]. simpl. split.
    - unfold zlen. rewrite replicate_length. rewrite Z2Nat.id; [done|].
      apply Z.pow_nonneg. lia.
    - split; [done|]. rewrite mjoin_replicate_nil. split; [done|].
      intros i c e Hc He. apply lookup_replicate in Hc as [-> _]. by apply elem_of_nil in He.
  Qed.

  (** the bound on the number of live entries under which allocation succeeds *)
  Definition max_entries : Z := 2 ^ 44.
  Definition small (n : nat) : Prop := Z.of_nat n < max_entries.

  Lemma entries_ht0_le d h0 : d_ht0 d = Some h0 → (length (mjoin (ht_tables h0)) ≤ length (entries d))%nat.
  Proof. intros E. unfold entries. rewrite E. simpl. rewrite app_length. lia. Qed.

  Lemma expandIfNeeded_spec d :
    tables_ok d → small (length (entries d)) →
    ∃ d', expandIfNeeded d = Ok (inl d') ∧ tables_ok d' ∧ d_ht0 d' ≠ None ∧
          entries d' = entries d ∧ d_iterators d' = d_iterators d ∧
          (d_ht1 d ≠ None → d' = d).
  Proof.
    intros Hok Hsm. unfold expandIfNeeded. rewrite (isRehashing_spec hash d Hok).
    destruct (d_ht1 d) as [h1|] eqn:E1.
    - exists d. repeat split; try done.
      intros E0. unfold DictProofs.tables_ok in Hok. by rewrite E0, E1 in Hok.
    - assert (HR : isRehashing d = false).
      { rewrite (isRehashing_spec hash d Hok), E1. done. }
      destruct (d_ht0 d) as [h0|] eqn:E0.
      + pose proof Hok as Hok2. unfold DictProofs.tables_ok in Hok2. rewrite E0, E1 in Hok2.
        destruct Hok2 as [Hok0 Hri].
        pose proof (ht_ok_size_ge hash h0 Hok0) as H4.
        destruct (Z.eqb_spec (ht_size h0) 0) as [|_]; [lia|].
        unfold forceResizeRatio. destruct (Z.ltb_spec 1 (Z.quot (ht_used h0) (ht_size h0))) as [Hq|Hq].
        * (* expansion *)
          pose proof (entries_ht0_le d h0 E0) as Hle.
          destruct Hok0 as ((n & Hn & Hs) & Hl & Hm & Hu & Hb).
          assert (Hused : ht_size h0 * 2 ≤ ht_used h0).
          { assert (0 ≤ ht_used h0) by (rewrite Hu; unfold zlen; lia).
            rewrite Z.quot_div_nonneg in Hq by lia.
            assert (2 ≤ ht_used h0 / ht_size h0) by lia.
            transitivity (ht_size h0 * (ht_used h0 / ht_size h0)); [nia|].
            apply Z.mul_div_le. lia. }
          unfold small, max_entries in Hsm.
          assert (Hbound : 2 ^ (n + 1) < 2 ^ 44).
          { rewrite Z.pow_add_r by lia. change (2^1) with 2. rewrite <-Hs.
            unfold zlen in Hu. lia. }
          assert (Hn44 : n + 1 < 44) by (apply (Z.pow_lt_mono_r_iff 2); lia).
          unfold expand. unfold resizeRatio.
          assert (HG : GetNextPower (ht_size h0 * 2) = 2 ^ (n + 1)).
          { apply GetNextPower_pow; [lia| |lia].
            rewrite Hs. replace (n + 1 - 1) with n by lia. rewrite Z.pow_add_r by lia.
            change (2 ^ 1) with 2. pose proof (Z.pow_pos_nonneg 2 n). lia. }
          rewrite HG, HR, E0. simpl.
          destruct (Z.leb_spec (2 ^ (n + 1)) (ht_size h0)) as [Hbad|_].
          { rewrite Hs, Z.pow_add_r in Hbad by lia. change (2^1) with 2 in Hbad.
            pose proof (Z.pow_pos_nonneg 2 n). lia. }
          unfold make_ok, maxAlloc.
          destruct (Z.leb_spec 0 (2 ^ (n + 1))); [|pose proof (Z.pow_nonneg 2 (n+1)); lia].
          destruct (Z.leb_spec (2 ^ (n + 1) * 8) (2 ^ 48)) as [_|Hbad].
          2:{ exfalso. change (2^48) with (2^44 * 16) in Hbad. lia. }
          simpl. eexists. split; [done|].
          unfold DictProofs.tables_ok, entries; simpl. rewrite E0, E1. simpl.
          rewrite mjoin_replicate_nil. split; [|split; [done|split; [done|split; [done|done]]]].
          split; [by repeat split; eauto|]. split; [apply ht_ok_empty; lia|].
          split; [split; [lia|]; simpl; rewrite Hs, Z.pow_add_r by lia; lia|]. intros; lia.
        * exists d. repeat split; try done. by rewrite E0.
      + unfold expand. rewrite HR, E0. simpl.
        rewrite GetNextPower_small by (unfold tableInitialSize; lia).
        simpl. eexists. split; [done|]. unfold DictProofs.tables_ok, entries; simpl.
        rewrite E1. simpl. rewrite E0. simpl.
        pose proof Hok as Hok2. unfold DictProofs.tables_ok in Hok2. rewrite E0, E1 in Hok2.
        split; [split; [apply (ht_ok_empty 2); lia|done]|]. repeat split; done.
  Qed.

  Lemma entry_at_loc d l k v : loc_ok d l k v → entry_at d l = Ok (k, v).
  Proof.
    intros (h & c & Ht & Hb & Hc & Hp). unfold entry_at. rewrite Ht. simpl.
    replace (l_bucket l) with (Z.of_nat (Z.to_nat (l_bucket l))) by lia.
    rewrite (go_index_lookup _ _ _ Hc). simpl. by apply go_index_lookup.
  Qed.

  (** single-position updates of the entry list *)
  Lemma list_split_at {A} (l : list A) p x : l !! p = Some x → l = take p l ++ x :: drop (S p) l.
  Proof. intros. by rewrite take_drop_middle. Qed.

  Lemma ht_ok_replace h i c c' (n : Z) :
    ht_ok h → ht_tables h !! i = Some c →
    (∀ e, e ∈ c' → e.1 ∈ c.*1) → zlen c' = zlen c + n →
    ht_ok (HT (<[i := c']> (ht_tables h)) (ht_size h) (ht_sizeMask h) (ht_used h + n)).
  Proof.
    intros (Hp & Hl & Hm & Hu & Hb) Hc Hsub Hlen.
    assert (Hi : (i < length (ht_tables h))%nat) by (by eapply lookup_lt_Some).
    split; [done|]. simpl. split; [unfold zlen in *; by rewrite insert_length|].
    split; [done|]. split.
    - unfold zlen in *. rewrite mjoin_insert by done.
      rewrite (mjoin_split (ht_tables h) i c) in Hu by done.
      rewrite !app_length in *. lia.
    - intros j c2 e Hj He. unfold bucket_index in *; simpl in *.
      destruct (decide (i = j)) as [<-|Hne].
      + rewrite list_lookup_insert in Hj by done. injection Hj as <-.
        apply Hsub in He. apply elem_of_list_fmap in He as (e' & -> & He').
        by apply (Hb i c).
      + rewrite list_lookup_insert_ne in Hj by done. by apply (Hb j c2).
  Qed.

  (** replacing the content of one bucket of one table *)
  Lemma replace_bucket_spec d t h i c c' n :
    tables_ok d → d_table d t = Some h → ht_tables h !! i = Some c →
    (∀ e, e ∈ c' → e.1 ∈ c.*1) → zlen c' = zlen c + n →
    let d' := d_set_table d t (HT (<[i := c']> (ht_tables h)) (ht_size h) (ht_sizeMask h) (ht_used h + n)) in
    tables_ok d' ∧ (∃ rest, entries d ≡ₚ c ++ rest ∧ entries d' ≡ₚ c' ++ rest) ∧
    d_iterators d' = d_iterators d ∧ d_ht0 d' ≠ None.
  Proof.
    intros Hok Ht Hc Hsub Hlen d'.
    assert (Hi : (i < length (ht_tables h))%nat) by (by eapply lookup_lt_Some).
    assert (Hnil : c = [] → c' = []).
    { intros ->. destruct c' as [|e c']; [done|].
      specialize (Hsub e). simpl in Hsub. exfalso.
      apply (not_elem_of_nil e.1), Hsub. left. }
    unfold DictProofs.tables_ok in *.
    destruct t; simpl in *.
    - destruct (d_ht0 d) as [h0|] eqn:E0; rewrite Ht in Hok; [|done].
      destruct Hok as (Hok0 & Hok1 & Hri & He).
      unfold d'; simpl. split; [|split; [|split; [done|done]]].
      all: try rewrite E0.
      + split; [done|]. split; [by apply (ht_ok_replace h i c)|]. done.
      + exists (mjoin (ht_tables h0) ++ mjoin (take i (ht_tables h)) ++ mjoin (drop (S i) (ht_tables h))).
        unfold entries; simpl. rewrite E0, Ht; simpl.
        rewrite (mjoin_split (ht_tables h) i c Hc), mjoin_insert by done.
        split; solve_Permutation.
    - unfold d'; simpl. destruct (d_ht1 d) as [h1|] eqn:E1; rewrite Ht in Hok.
      + destruct Hok as (Hok0 & Hok1 & Hri & He). split; [|split; [|done]].
        * split; [by apply (ht_ok_replace h i c)|]. split; [done|]. split; [done|]. simpl.
          intros j c2 Hj Hl. destruct (decide (i = j)) as [<-|Hne].
          -- rewrite list_lookup_insert in Hl by done. injection Hl as <-. apply Hnil. by apply (He i).
          -- rewrite list_lookup_insert_ne in Hl by done. by apply (He j).
        * exists (mjoin (take i (ht_tables h)) ++ mjoin (drop (S i) (ht_tables h)) ++ mjoin (ht_tables h1)).
          unfold entries; simpl. rewrite E1, Ht; simpl.
          rewrite (mjoin_split (ht_tables h) i c Hc), mjoin_insert by done.
          split; solve_Permutation.
      + destruct Hok as (Hok0 & Hri). split; [|split; [|done]].
        * split; [by apply (ht_ok_replace h i c)|]. done.
        * exists (mjoin (take i (ht_tables h)) ++ mjoin (drop (S i) (ht_tables h))).
          unfold entries; simpl. rewrite E1, Ht; simpl.
          rewrite (mjoin_split (ht_tables h) i c Hc), mjoin_insert by done.
          split; solve_Permutation.
  Qed.
End proofs.
