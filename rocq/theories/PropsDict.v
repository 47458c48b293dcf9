(** Property theorems C01-C06: datastruct.Dict.

    [run hash NewDict ops] runs the operations [ops] on the model of the Go code,
    starting from a new dict; [dict_spec_run] (DictSpec.v) is the specification.
    The bound [max_entries] = 2^44 on the number of operations only excludes
    tables whose allocation would exceed Go's address space. *)
From Verif Require Import Base DictModel DatabaseModel DictSpec DictProofs DictProofs2 DictProofs3
  DictProofs4 DictRun.

(** the FNV-hashed dict of the server after 20 SETs: a rehash is under way *)
Definition demo_key (i : nat) : bytes := [ascii_of_nat (48 + i)].
Definition demo_ops : list (dict_op bytes Z) :=
  (λ i, OpSet (demo_key i) (Z.of_nat i)) <$> seq 0 20.
Definition demo_dict : dict bytes Z :=
  match run Hash NewDict demo_ops with Ok (d, _) => d | _ => NewDict end.
Example demo_run : ∃ outs, run Hash NewDict demo_ops = Ok (demo_dict, outs).
Proof. eexists. vm_compute. reflexivity. Qed.
Example demo_rehashing : d_ht1 demo_dict ≠ None ∧ d_rehashIndex demo_dict = 3.
Proof. vm_compute. split; [discriminate|reflexivity]. Qed.

Section props.
  Context {K V : Type} `{Countable K}.

  (** C01: every sequence of operations, with every hash function, behaves as on
      a finite map, and never panics ([OutOfFuel] only stands for GetRandomKey
      being given a too short list of random draws). *)
  Theorem C01_dict_is_a_map (hash : K → Z) (ops : list (dict_op K V)) :
    Forall op_ok ops → Z.of_nat (length ops) < max_entries →
    (∃ d outs, run hash NewDict ops = Ok (d, outs) ∧ dict_spec_run None ops outs (abs d)) ∨
    (existsb is_random ops = true ∧ run hash NewDict ops = OutOfFuel).
  Proof. exact (C01_lemma hash ops). Qed.

  (** C02 *)
  Theorem C02_size (hash : K → Z) (d : dict K V) :
    reachable hash d → Size d = Ok (Z.of_nat (size (contents (abs d)))).
  Proof. exact (C02_lemma hash d). Qed.

  (** C03: iteration, with deletion of any of the entries just returned, visits
      every entry once, whatever the rehash state; and leaves no iterator open *)
  Theorem C03_iteration (hash : K → Z) (d : dict K V) (del : K * V → bool) :
    reachable hash d →
    ∃ d' es, run_op hash d (OpIterate del) = Ok (d', OutSeq es) ∧
      es ≡ₚ map_to_list (contents (abs d)) ∧ NoDup es ∧
      contents (abs d') = filter (λ kv, del kv = false) (contents (abs d)) ∧
      d_iterators d' = d_iterators d.
  Proof. exact (C03_lemma hash d del). Qed.

  (** while iterators are open (count n > 0) no key moves, except that a deleted key goes *)
  Theorem C03_no_move_while_iterating (hash : K → Z) (d : dict K V) (n : Z) op d' out :
    reachable hash d → 0 < n → Z.of_nat (size (contents (abs d))) < max_entries →
    is_access op = true → run_op hash (set_iterators d n) op = Ok (d', out) →
    ∀ t i x, sits d t i x →
      match op with OpSet k _ | OpDelete k => x ≠ k | _ => True end → sits d' t i x.
  Proof. exact (C03_no_move_lemma hash d n op d' out). Qed.

  (** C04 *)
  Theorem C04_random_sound (hash : K → Z) (d : dict K V) rs d' o rs' :
    reachable hash d → Forall (λ r, 0 ≤ r) rs →
    GetRandomKey hash d rs = Ok (d', o, rs') →
    match o with
    | Some (k, v) => contents (abs d) !! k = Some v
    | None => contents (abs d) = ∅
    end.
  Proof. exact (C04_sound_lemma hash d rs d' o rs'). Qed.
  Theorem C04_random_no_panic (hash : K → Z) (d : dict K V) rs :
    reachable hash d → Forall (λ r, 0 ≤ r) rs → GetRandomKey hash d rs ≠ Panic.
  Proof. exact (C04_no_panic_lemma hash d rs). Qed.
  Theorem C04_random_complete (hash : K → Z) (d : dict K V) k v :
    reachable hash d → contents (abs d) !! k = Some v →
    ∃ r1 r2 d', 0 ≤ r1 ∧ 0 ≤ r2 ∧
      ∀ rs, GetRandomKey hash d (r1 :: r2 :: rs) = Ok (d', Some (k, v), rs).
  Proof. exact (C04_complete_lemma hash d k v). Qed.

  (** C05 *)
  Theorem C05_GetNextPower (size : Z) :
    size ≤ 2 ^ 62 →
    ∃ e, 2 ≤ e ∧ GetNextPower size = 2 ^ e ∧ Z.max size 4 ≤ 2 ^ e ∧
         ∀ e', 0 ≤ e' → Z.max size 4 ≤ 2 ^ e' → e ≤ e'.
  Proof. exact (C05_pow_lemma size). Qed.
  Theorem C05_GetNextPower_huge (size : Z) :
    2 ^ 62 < size ≤ 2 ^ 63 - 1 → GetNextPower size = 2 ^ 63 - 1.
  Proof. exact (GetNextPower_huge size). Qed.
  Theorem C05_tables (hash : K → Z) (d : dict K V) t h :
    reachable hash d → d_table d t = Some h →
    ∃ e, 2 ≤ e ∧ Z.of_nat (length (ht_tables h)) = 2 ^ e ∧ ht_size h = 2 ^ e ∧
         ∀ hv : Z, 0 ≤ Z.land hv (ht_sizeMask h) < Z.of_nat (length (ht_tables h)).
  Proof. exact (C05_tables_lemma hash d t h). Qed.

  (** C06: each access during a rehash empties at least one more bucket of the old
      table or puts the larger table in its place ... *)
  Theorem C06_progress (hash : K → Z) (d : dict K V) h0 h1 op d' out :
    reachable hash d → d_ht0 d = Some h0 → d_ht1 d = Some h1 →
    Z.of_nat (size (contents (abs d))) < max_entries →
    is_access op = true → run_op hash d op = Ok (d', out) →
    (∃ h, d_ht0 d' = Some h ∧ ht_size h0 < ht_size h) ∨
    (∃ h0' h1', d_ht0 d' = Some h0' ∧ d_ht1 d' = Some h1' ∧ ht_size h0' = ht_size h0 ∧
       (length (filter (λ c, c ≠ []) (ht_tables h0')) <
        length (filter (λ c, c ≠ []) (ht_tables h0)))%nat).
  Proof. exact (C06_progress_lemma hash d h0 h1 op d' out). Qed.
  (** ... and after at most (old size + 1) accesses the larger table is in place *)
  Theorem C06_terminates (hash : K → Z) (d : dict K V) h0 h1 ops :
    reachable hash d → d_ht0 d = Some h0 → d_ht1 d = Some h1 →
    forallb is_access ops = true →
    Z.of_nat (size (contents (abs d)) + length ops) < max_entries →
    ht_size h0 < Z.of_nat (length ops) →
    ∃ ops1 ops2 d' outs h, ops = ops1 ++ ops2 ∧ Z.of_nat (length ops1) ≤ ht_size h0 + 1 ∧
      run hash d ops1 = Ok (d', outs) ∧ d_ht0 d' = Some h ∧ ht_size h0 < ht_size h.
  Proof. exact (C06_terminates_lemma hash d h0 h1 ops). Qed.

  (** C57: a copy has the same entries, the dict that is copied does not change (not even
      its rehash state), and the copy is a dict like any other *)
  Theorem C57_copy (hash : K → Z) (d : dict K V) : reachable hash d → Z.of_nat (size (contents (abs d))) < max_entries →
    ∃ c, DeepCopy hash d = Ok (d, c) ∧ contents (abs c) = contents (abs d) ∧
      ∀ ops, Forall op_ok ops → Z.of_nat (size (contents (abs d)) + length ops) < max_entries →
        (∃ c' outs, run hash c ops = Ok (c', outs) ∧ dict_spec_run (abs c) ops outs (abs c')) ∨
        (existsb is_random ops = true ∧ run hash c ops = OutOfFuel).
  Proof. exact (C57_lemma hash d). Qed.
End props.

Print Assumptions C01_dict_is_a_map.
Print Assumptions C02_size.
Print Assumptions C03_iteration.
Print Assumptions C03_no_move_while_iterating.
Print Assumptions C04_random_sound.
Print Assumptions C04_random_no_panic.
Print Assumptions C04_random_complete.
Print Assumptions C05_GetNextPower.
Print Assumptions C05_GetNextPower_huge.
Print Assumptions C05_tables.
Print Assumptions C06_progress.
Print Assumptions C06_terminates.
Print Assumptions C57_copy.

(** the hypotheses are met by a dict in the middle of a rehash *)
Example C_reachable_nonvacuous : reachable Hash demo_dict.
Proof.
  destruct demo_run as [outs Hr]. exists demo_ops, outs. split; [exact Hr|]. split.
  - unfold demo_ops. apply Forall_fmap, Forall_true. done.
  - vm_compute. reflexivity.
Qed.
Example C06_nonvacuous :
  match d_ht0 demo_dict, d_ht1 demo_dict with
  | Some h0, Some h1 =>
      ht_size h0 < Z.of_nat (length (replicate 40 (OpGet (V:=Z) (demo_key 3)))) ∧ ht_size h0 = 8
  | _, _ => False
  end.
Proof. vm_compute. done. Qed.
(** the dict in the middle of a rehash, copied *)
Example C57_nonvacuous :
  match DeepCopy Hash demo_dict with
  | Ok (d, c) => isRehashing d = true ∧ map_to_list (contents (abs c)) = map_to_list (contents (abs d)) ∧
      length (map_to_list (contents (abs d))) = 20%nat
  | _ => False
  end.
Proof. vm_compute. repeat (split; [reflexivity|]). reflexivity. Qed.
