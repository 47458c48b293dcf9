(** Specification of a dictionary, independent of the hash-table model: the
    abstract state is a finite map, [None] standing for a dictionary that was
    never written. *)
From Verif Require Import Base.

Section spec.
  Context {K V : Type} `{Countable K}.

  (** the public operations of datastruct.Dict.  [OpRandom rs] is GetRandomKey
      with the outcomes [rs] of the random source; [OpIterate del] walks the
      dictionary with an iterator, deleting each entry [e] with [del e = true]
      right after the iterator returned it. *)
  Inductive dict_op :=
  | OpSet (k : K) (v : V)
  | OpGet (k : K)
  | OpFind (k : K)
  | OpDelete (k : K)
  | OpSize
  | OpRandom (rs : list Z)
  | OpIterate (del : K * V → bool).

  Inductive spec_err := EUninitialized | ENotFound.

  Inductive dict_out :=
  | OutAdded (b : bool)
  | OutValue (o : option V)
  | OutEntry (o : option (K * V))
  | OutDeleted (e : option spec_err)      (* None: success *)
  | OutSize (n : Z)
  | OutSeq (es : list (K * V)).

  Definition contents (s : option (gmap K V)) : gmap K V := default ∅ s.

  (** [dict_spec s op out s']: in abstract state [s], [op] may answer [out] and
      lead to [s'] *)
  Inductive dict_spec (s : option (gmap K V)) : dict_op → dict_out → option (gmap K V) → Prop :=
  | spec_Set k v :
      dict_spec s (OpSet k v) (OutAdded (bool_decide (contents s !! k = None)))
                (Some (<[k := v]> (contents s)))
  | spec_Get k : dict_spec s (OpGet k) (OutValue (contents s !! k)) s
  | spec_Find k :
      dict_spec s (OpFind k) (OutEntry ((λ v, (k, v)) <$> contents s !! k)) s
  | spec_Delete_uninit k :
      s = None → dict_spec s (OpDelete k) (OutDeleted (Some EUninitialized)) s
  | spec_Delete_missing k m :
      s = Some m → m !! k = None → dict_spec s (OpDelete k) (OutDeleted (Some ENotFound)) s
  | spec_Delete k m :
      s = Some m → m !! k ≠ None → dict_spec s (OpDelete k) (OutDeleted None) (Some (delete k m))
  | spec_Size : dict_spec s OpSize (OutSize (Z.of_nat (size (contents s)))) s
  | spec_Random_empty rs : contents s = ∅ → dict_spec s (OpRandom rs) (OutEntry None) s
  | spec_Random rs k v :
      contents s !! k = Some v → dict_spec s (OpRandom rs) (OutEntry (Some (k, v))) s
  | spec_Iterate del es s' :
      es ≡ₚ map_to_list (contents s) →
      (s' = None ↔ s = None) →
      contents s' = filter (λ kv, del kv = false) (contents s) →
      dict_spec s (OpIterate del) (OutSeq es) s'.

  Inductive dict_spec_run : option (gmap K V) → list dict_op → list dict_out →
                            option (gmap K V) → Prop :=
  | spec_run_nil s : dict_spec_run s [] [] s
  | spec_run_cons s op out s1 ops outs s2 :
      dict_spec s op out s1 → dict_spec_run s1 ops outs s2 →
      dict_spec_run s (op :: ops) (out :: outs) s2.
End spec.
Global Arguments dict_op : clear implicits.
Global Arguments dict_out : clear implicits.

(** the random source returns non-negative integers (rand.Int63, rand.Intn) *)
Definition op_ok {K V} (op : dict_op K V) : Prop :=
  match op with OpRandom rs => Forall (λ r, 0 ≤ r) rs | _ => True end.
Definition is_random {K V} (op : dict_op K V) : bool :=
  match op with OpRandom _ => true | _ => false end.
(** the operations that advance a rehash *)
Definition is_access {K V} (op : dict_op K V) : bool :=
  match op with OpSet _ _ | OpGet _ | OpFind _ | OpDelete _ => true | _ => false end.
