(** Go semantics used by every model file: results with panics, slice indexing,
    64-bit wrap-around, byte strings. *)
From Coq Require Export ZArith Lia Ascii String.

From stdpp Require Export prelude list gmap fin_maps fin_map_dom sorting.
From Coq Require Import ZifyBool ZifyNat ZifyN.
Global Open Scope Z_scope.

(** Outcome of running Go code.
    [Ok x]      : normal return;
    [Panic]     : run-time panic (index/slice out of range, nil dereference,
                  makeslice), log.Panic or log.Fatal: the process dies;
    [OutOfFuel] : the modelled loop has not finished within the steps / random
                  numbers given; never a normal result, excluded by theorems. *)
Inductive res (A : Type) : Type :=
| Ok (a : A)
| Panic
| OutOfFuel.
Global Arguments Ok {A} _.
Global Arguments Panic {A}.
Global Arguments OutOfFuel {A}.

Global Instance res_ret : MRet res := λ A x, Ok x.
Global Instance res_bind : MBind res := λ A B f m,
  match m with Ok a => f a | Panic => Panic | OutOfFuel => OutOfFuel end.
Global Instance res_fmap : FMap res := λ A B f m,
  match m with Ok a => Ok (f a) | Panic => Panic | OutOfFuel => OutOfFuel end.

Lemma res_bind_ok {A B} (f : A → res B) a : mbind f (Ok a) = f a.
Proof. done. Qed.

(** s[i] on a Go slice/array: panics when i is outside [0,len). *)
Definition go_index {A} (l : list A) (i : Z) : res A :=
  if i <? 0 then Panic
  else match l !! Z.to_nat i with Some x => Ok x | None => Panic end.

(** s[i] = x *)
Definition go_store {A} (l : list A) (i : Z) (x : A) : res (list A) :=
  if i <? 0 then Panic
  else if Z.of_nat (length l) <=? i then Panic
  else Ok (<[Z.to_nat i := x]> l).

(** p.f through a possibly nil pointer *)
Definition deref {A} (p : option A) : res A :=
  match p with Some x => Ok x | None => Panic end.

Definition zlen {A} (l : list A) : Z := Z.of_nat (length l).

(** two's complement wrap of int64 arithmetic *)
Definition maxInt64 : Z := 2^63 - 1.
Definition minInt64 : Z := - 2^63.
Definition wrap64 (z : Z) : Z := (z + 2^63) mod 2^64 - 2^63.
Definition in_int64 (z : Z) : Prop := minInt64 ≤ z ≤ maxInt64.

(** uint arithmetic (uint is 64 bits wide on the supported platforms) *)
Definition wrapU64 (z : Z) : Z := z mod 2^64.

(** runtime.makeslice panics when the requested size exceeds the address space
    (maxAlloc = 2^48 bytes on amd64/arm64) or is negative. *)
Definition maxAlloc : Z := 2^48.
Definition make_ok (n elemsize : Z) : bool := (0 <=? n) && (n * elemsize <=? maxAlloc).

(** Byte strings (Go strings and []byte). *)
Definition bytes := list ascii.
Definition B (s : String.string) : bytes := String.list_ascii_of_string s.
Global Arguments B s%string.
Definition CR : ascii := "013"%char.
Definition LF : ascii := "010"%char.
Definition CRLF : bytes := [CR; LF].
Definition NUL : ascii := "000"%char.

Global Instance ascii_countable : Countable ascii.
Proof.
  apply (inj_countable' (λ a, N_of_ascii a) (λ n, ascii_of_N n)).
  intros a. apply ascii_N_embedding.
Defined.

Global Instance bytes_eq_dec : EqDecision bytes := _.
Global Instance bytes_countable : Countable bytes := _.
