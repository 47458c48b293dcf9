(** Model of datastruct/set.go.  A Set is a Dict whose values are nil ([unit]).

    Pointer aliasing: the receiver and the argument of Union, Intersect and
    Difference may be the same object.  Each function exists in a version for two
    distinct objects and in a version ([_self]) for one object used twice; the
    command model picks the version by comparing object identities. *)
From Verif Require Import Base DictModel.

Section set.
  Context {K : Type} `{EqDecision K}.
  Variable hash : K → Z.
  Notation set := (dict K unit).

  (* set.go:7-9 *)
  Definition NewSet : set := NewDict.
  (* set.go:11-13 *)
  Definition Add (s : set) (m : K) : res (set * bool) := Set_ hash s m tt.
  (* set.go:15-17 *)
  Definition SDelete (s : set) (m : K) : res (set * option dict_err) := Delete hash s m.
  (* set.go:19-21 *)
  Definition SSize (s : set) : res Z := Size s.
  (* set.go:23-33; the capacity hint s.Size() is non-negative and small *)
  Definition Range (s : set) : res (set * list K) :=
    iterate (λ d acc e, Ok (d, acc ++ [e.1])) s [].
  (* set.go:35-37: GetRandomKey() is nil on an empty set, .Key then panics *)
  Definition GetRandom (s : set) (rs : list Z) : res (set * K * list Z) :=
    r ← GetRandomKey hash s rs;
    let '(s', o, rs') := r in
    e ← deref o; Ok (s', e.1, rs').
  (* set.go:39-41 *)
  Definition Contains (s : set) (m : K) : res (set * bool) :=
    r ← Find hash s m; Ok (r.1, match r.2 with Some _ => true | None => false end).

  (* result.Add(entry.Key) as a loop body over a dict that is not the result *)
  Definition add_body (d : set) (result : set) (e : K * unit) : res (set * set) :=
    r ← Add result e.1; Ok (d, r.1).

  (* set.go:43-60, receiver and argument distinct: (receiver, argument, result) *)
  Definition Union (s other : set) : res (set * set * set) :=
    r1 ← iterate add_body s NewSet;
    r2 ← iterate add_body other r1.2;
    Ok (r1.1, r2.1, r2.2).
  (* the same, one object: the first iterator is still open during the second
     loop; deferred calls run last-in first-out *)
  Definition Union_self (s : set) : res (set * set) :=
    r1 ← for_entries (Datatypes.S (d_total s)) add_body s NewDictIterator NewSet;
    let '(s1, it1, result1) := r1 in
    r2 ← for_entries (Datatypes.S (d_total s1)) add_body s1 NewDictIterator result1;
    let '(s2, it2, result2) := r2 in
    Ok (Release (Release s2 it2) it1, result2).

  (* if other.Contains(entry.Key) = keep { result.Add(entry.Key) } *)
  Definition filter_body (keep : bool) (d : set) (st : set * set) (e : K * unit)
    : res (set * (set * set)) :=
    let '(other, result) := st in
    c ← Contains other e.1;
    if Bool.eqb c.2 keep
    then r ← Add result e.1; Ok (d, (c.1, r.1))
    else Ok (d, (c.1, result)).
  Definition filter_body_self (keep : bool) (d : set) (result : set) (e : K * unit)
    : res (set * set) :=
    c ← Contains d e.1;
    if Bool.eqb c.2 keep
    then r ← Add result e.1; Ok (c.1, r.1)
    else Ok (c.1, result).

  (* set.go:62-74 *)
  Definition Intersect (s other : set) : res (set * set * set) :=
    r ← iterate (filter_body true) s (other, NewSet);
    Ok (r.1, r.2.1, r.2.2).
  Definition Intersect_self (s : set) : res (set * set) :=
    iterate (filter_body_self true) s NewSet.
  (* set.go:76-88 *)
  Definition Difference (s other : set) : res (set * set * set) :=
    r ← iterate (filter_body false) s (other, NewSet);
    Ok (r.1, r.2.1, r.2.2).
  Definition Difference_self (s : set) : res (set * set) :=
    iterate (filter_body_self false) s NewSet.
End set.
