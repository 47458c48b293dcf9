(** Model of datastruct/dict.go: the incrementally rehashed hash table.

    The model is parametric in the key type and in the hash function
    (DictType.Hash, dict.go:24-27); DictType.Equal is Go's [==] on keys
    (database/dict.go:18-20), i.e. equality.

    A chain of *DictEntry linked by [next] is a list of (key, value) pairs, head
    first.  A *DictEntry pointer held only to read or overwrite [Value] is a
    location [loc] = (table number, bucket index, position in the chain). *)
From Verif Require Import Base.

(* dict.go:12-17 *)
Definition tableInitialSize : Z := 4.
Definition forceResizeRatio : Z := 1.
Definition resizeRatio : Z := 2.
Definition rehashStepCount : nat := 1.

(* dict.go:19-22; the third error is the anonymous one of dict.go:334 *)
Inductive dict_err := ErrNotInitialized | ErrKeyNotFound | ErrResize.

(* dict.go:402-417.  for i := 1; i <= 64; i *= 2 { res |= res >> i } is unrolled
   (i = 1,2,4,8,16,32,64).  [size] is an int64; [res] never leaves int64 because
   or/shift of a 63-bit value stay below 2^63. *)
Definition smear (r : Z) (i : Z) : Z := Z.lor r (Z.shiftr r i).
Definition GetNextPower (size : Z) : Z :=
  if size <=? tableInitialSize then tableInitialSize
  else
    let r := foldl smear (size - 1) [1; 2; 4; 8; 16; 32; 64] in
    if (r <? 0) || (r =? maxInt64) then maxInt64 else r + 1.

(* dict.go:35-40 *)
Record hashTable (K V : Type) := HT {
  ht_tables : list (list (K * V));
  ht_size : Z;
  ht_sizeMask : Z;
  ht_used : Z
}.
Global Arguments HT {K V} _ _ _ _.
Global Arguments ht_tables {K V} _.
Global Arguments ht_size {K V} _.
Global Arguments ht_sizeMask {K V} _.
Global Arguments ht_used {K V} _.

(* dict.go:42-47; hashTables[0], hashTables[1]: None is the nil pointer *)
Record dict (K V : Type) := MkDict {
  d_ht0 : option (hashTable K V);
  d_ht1 : option (hashTable K V);
  d_rehashIndex : Z;
  d_iterators : Z
}.
Global Arguments MkDict {K V} _ _ _ _.
Global Arguments d_ht0 {K V} _.
Global Arguments d_ht1 {K V} _.
Global Arguments d_rehashIndex {K V} _.
Global Arguments d_iterators {K V} _.

(* dict.go:49-55.  [it_entry]/[it_next]: a *DictEntry together with the chain
   reachable from it; [] is nil.  Simplification: the chain behind the pointer
   is remembered by value; the iterating code in /repo never changes entries
   behind the current one during an iteration. *)
Record dictIter (K V : Type) := MkIter {
  it_table : Z;
  it_index : Z;
  it_entry : list (K * V);
  it_next : list (K * V)
}.
Global Arguments MkIter {K V} _ _ _ _.
Global Arguments it_table {K V} _.
Global Arguments it_index {K V} _.
Global Arguments it_entry {K V} _.
Global Arguments it_next {K V} _.

(* a *DictEntry: table number (false = 0, true = 1), bucket, position *)
Record loc := MkLoc { l_table : bool; l_bucket : Z; l_pos : nat }.

Section dict.
  Context {K V : Type} `{EqDecision K}.
  Variable hash : K → Z.

  Notation dict := (dict K V).
  Notation hashTable := (hashTable K V).

  (* dict.go:107-112 *)
  Definition NewDict : dict := MkDict None None (-1) 0.

  (* dict.go:398-400 *)
  Definition isRehashing (d : dict) : bool := negb (d_rehashIndex d =? -1).

  (* d.hashTables[t] *)
  Definition d_table (d : dict) (t : bool) : option hashTable :=
    if t then d_ht1 d else d_ht0 d.
  Definition d_set_table (d : dict) (t : bool) (h : hashTable) : dict :=
    if t then MkDict (d_ht0 d) (Some h) (d_rehashIndex d) (d_iterators d)
    else MkDict (Some h) (d_ht1 d) (d_rehashIndex d) (d_iterators d).

  (* dict.go:206, 243, 297, 385: d.Hash(key) & sizeMask *)
  Definition bucket_index (h : hashTable) (k : K) : Z :=
    Z.land (hash k) (ht_sizeMask h).

  (* the loops "for entry != nil { if Equal ... entry = entry.next }"
     (dict.go:209-223, 245-251, 299-305): position of the first equal key *)
  Fixpoint chain_find (k : K) (c : list (K * V)) : option nat :=
    match c with
    | [] => None
    | (k', _) :: c' =>
        if decide (k = k') then Some 0%nat else S <$> chain_find k c'
    end.

  (* one round of the "for table := 0; table <= 1" loops: the bucket index in
     table [t] and the location of the key there, if any *)
  Definition find_in (d : dict) (t : bool) (k : K) : res (Z * option loc) :=
    h ← deref (d_table d t);
    let index := bucket_index h k in
    c ← go_index (ht_tables h) index;
    mret (index, MkLoc t index <$> chain_find k c).

  (* dict.go:242-258 and 296-312: search table 0, then table 1 if rehashing.
     Returns the last index computed and the location found. *)
  Definition find_both (d : dict) (k : K) : res (Z * option loc) :=
    r0 ← find_in d false k;
    match r0 with
    | (i0, Some l) => mret (i0, Some l)
    | (i0, None) => if isRehashing d then find_in d true k else mret (i0, None)
    end.

  (* dict.go:382-391: moving one chain into the new table, entry by entry *)
  Fixpoint move_chain (c : list (K * V)) (t0 t1 : hashTable)
    : res (hashTable * hashTable) :=
    match c with
    | [] => Ok (t0, t1)
    | e :: c' =>
        let index := bucket_index t1 e.1 in
        b ← go_index (ht_tables t1) index;
        tbl ← go_store (ht_tables t1) index (e :: b);
        move_chain c'
          (HT (ht_tables t0) (ht_size t0) (ht_sizeMask t0) (ht_used t0 - 1))
          (HT tbl (ht_size t1) (ht_sizeMask t1) (ht_used t1 + 1))
    end.

  (* dict.go:376-378: for tables[rehashIndex] == nil { rehashIndex++ } *)
  Fixpoint skip_empty (l : list (list (K * V))) (i : Z) : res Z :=
    match l with
    | [] => Panic  (* index out of range *)
    | [] :: l' => skip_empty l' (i + 1)
    | _ :: _ => Ok i
    end.

  (* dict.go:364-396 *)
  Fixpoint rehash (step : nat) (d : dict) : res dict :=
    match step with
    | O => Ok d
    | S step' =>
        t0 ← deref (d_ht0 d);
        if ht_used t0 =? 0 then
          Ok (MkDict (d_ht1 d) None (-1) (d_iterators d))
        else if d_rehashIndex d <? 0 then Panic
        else
          ri ← skip_empty (drop (Z.to_nat (d_rehashIndex d)) (ht_tables t0)) (d_rehashIndex d);
          c ← go_index (ht_tables t0) ri;
          t1 ← deref (d_ht1 d);
          ts ← move_chain c t0 t1;
          tbl0 ← go_store (ht_tables ts.1) ri [];
          rehash step'
            (MkDict (Some (HT tbl0 (ht_size ts.1) (ht_sizeMask ts.1) (ht_used ts.1)))
                    (Some ts.2) (ri + 1) (d_iterators d))
    end.

  (* dict.go:358-362 *)
  Definition rehashStep (d : dict) : res dict :=
    if d_iterators d =? 0 then rehash rehashStepCount d else Ok d.

  (* "if d.isRehashing() { d.rehashStep() }" *)
  Definition maybe_step (d : dict) : res dict :=
    if isRehashing d then rehashStep d else Ok d.

  (* dict.go:331-356.  inr = error value *)
  Definition expand (d : dict) (size : Z) : res (dict + dict_err) :=
    let realSize := GetNextPower size in
    if isRehashing d || match d_ht0 d with Some h => realSize <=? ht_size h | None => false end
    then Ok (inr ErrResize)
    else if negb (make_ok realSize 8) then Panic
    else
      let t := HT (replicate (Z.to_nat realSize) []) realSize (realSize - 1) 0 in
      match d_ht0 d with
      | None => Ok (inl (MkDict (Some t) (d_ht1 d) (d_rehashIndex d) (d_iterators d)))
      | Some _ => Ok (inl (MkDict (d_ht0 d) (Some t) 0 (d_iterators d)))
      end.

  (* dict.go:315-329; Go's integer division truncates *)
  Definition expandIfNeeded (d : dict) : res (dict + dict_err) :=
    if isRehashing d then Ok (inl d)
    else match d_ht0 d with
         | None => expand d tableInitialSize
         | Some h =>
             if ht_size h =? 0 then Panic (* division by zero *)
             else if forceResizeRatio <? Z.quot (ht_used h) (ht_size h)
             then expand d (ht_size h * resizeRatio)
             else Ok (inl d)
         end.

  (* dict.go:288-313 *)
  Definition keyIndex (d : dict) (k : K) : res (dict * Z) :=
    r ← expandIfNeeded d;
    match r with
    | inr _ => Ok (d, -1)
    | inl d' =>
        f ← find_both d' k;
        match f with
        | (_, Some _) => Ok (d', -1)
        | (i, None) => Ok (d', i)
        end
    end.

  (* dict.go:233-259: the entry found, as a location *)
  Definition Find (d : dict) (k : K) : res (dict * option loc) :=
    match d_ht0 d with
    | None => Ok (d, None)
    | Some _ =>
        d' ← maybe_step d;
        f ← find_both d' k;
        Ok (d', f.2)
    end.

  (* reading entry.Key/entry.Value through the pointer *)
  Definition entry_at (d : dict) (l : loc) : res (K * V) :=
    h ← deref (d_table d (l_table l));
    c ← go_index (ht_tables h) (l_bucket l);
    go_index c (Z.of_nat (l_pos l)).

  (* entry.Value = v *)
  Definition write_value (d : dict) (l : loc) (v : V) : res dict :=
    h ← deref (d_table d (l_table l));
    c ← go_index (ht_tables h) (l_bucket l);
    e ← go_index c (Z.of_nat (l_pos l));
    c' ← go_store c (Z.of_nat (l_pos l)) (e.1, v);
    tbl ← go_store (ht_tables h) (l_bucket l) c';
    Ok (d_set_table d (l_table l) (HT tbl (ht_size h) (ht_sizeMask h) (ht_used h))).

  (* dict.go:116-143 *)
  Definition Set_ (d : dict) (k : K) (v : V) : res (dict * bool) :=
    d1 ← maybe_step d;
    ki ← keyIndex d1 k;
    let '(d2, index) := ki in
    if index =? -1 then
      f ← Find d2 k;
      let '(d3, ol) := f in
      l ← deref ol;
      d4 ← write_value d3 l v;
      Ok (d4, false)
    else
      let t := isRehashing d2 in
      h ← deref (d_table d2 t);
      c ← go_index (ht_tables h) index;
      tbl ← go_store (ht_tables h) index ((k, v) :: c);
      Ok (d_set_table d2 t (HT tbl (ht_size h) (ht_sizeMask h) (ht_used h + 1)), true).

  (* dict.go:145-152; None models the nil interface *)
  Definition Get (d : dict) (k : K) : res (dict * option V) :=
    f ← Find d k;
    match f with
    | (d', None) => Ok (d', None)
    | (d', Some l) => e ← entry_at d' l; Ok (d', Some e.2)
    end.

  (* Find followed by reading the entry (used by callers that look at entry.Value) *)
  Definition FindEntry (d : dict) (k : K) : res (dict * option (K * V)) :=
    f ← Find d k;
    match f with
    | (d', None) => Ok (d', None)
    | (d', Some l) => e ← entry_at d' l; Ok (d', Some e)
    end.

  (* dict.go:205-230: removal of the first equal key from its chain *)
  Definition delete_at (d : dict) (l : loc) : res dict :=
    h ← deref (d_table d (l_table l));
    c ← go_index (ht_tables h) (l_bucket l);
    tbl ← go_store (ht_tables h) (l_bucket l) (take (l_pos l) c ++ drop (S (l_pos l)) c);
    Ok (d_set_table d (l_table l) (HT tbl (ht_size h) (ht_sizeMask h) (ht_used h - 1))).

  (* dict.go:196-231; None = nil error *)
  Definition Delete (d : dict) (k : K) : res (dict * option dict_err) :=
    match d_ht0 d with
    | None => Ok (d, Some ErrNotInitialized)
    | Some _ =>
        d' ← maybe_step d;
        f ← find_both d' k;
        match f.2 with
        | Some l => d'' ← delete_at d' l; Ok (d'', None)
        | None => Ok (d', Some ErrKeyNotFound)
        end
    end.

  (* dict.go:261-271 *)
  Definition Size (d : dict) : res Z :=
    match d_ht0 d with
    | None => Ok 0
    | Some h0 =>
        if isRehashing d then h1 ← deref (d_ht1 d); Ok (ht_used h0 + ht_used h1)
        else Ok (ht_used h0)
    end.

  (* dict.go:166-181: draw buckets until one is non-empty.  [rs] is the stream
     of values returned by rand.Int63(), all >= 0. *)
  Fixpoint draw_bucket (d : dict) (rs : list Z) : res (list (K * V) * list Z) :=
    match rs with
    | [] => OutOfFuel
    | r :: rs' =>
        h0 ← deref (d_ht0 d);
        let b0 := zlen (ht_tables h0) in
        b ← (if isRehashing d then
               h1 ← deref (d_ht1 d);
               let b1 := zlen (ht_tables h1) in
               if b0 + b1 - d_rehashIndex d =? 0 then Panic else
               let ri := d_rehashIndex d + Z.rem r (b0 + b1 - d_rehashIndex d) in
               if b0 <=? ri then go_index (ht_tables h1) (ri - b0)
               else go_index (ht_tables h0) ri
             else
               if b0 =? 0 then Panic else
               go_index (ht_tables h0) (Z.rem r b0));
        match b with
        | [] => draw_bucket d rs'
        | _ :: _ => Ok (b, rs')
        end
    end.

  (* dict.go:155-194.  rand.Intn(n) is modelled as the next value of the stream
     modulo n (any value in [0,n) is possible). *)
  Definition GetRandomKey (d : dict) (rs : list Z)
    : res (dict * option (K * V) * list Z) :=
    match d_ht0 d with
    | None => Ok (d, None, rs)
    | Some _ =>
        n ← Size d;
        if n =? 0 then Ok (d, None, rs)
        else
          d' ← maybe_step d;
          br ← draw_bucket d' rs;
          match br.2 with
          | [] => OutOfFuel
          | r :: rs' => e ← go_index br.1 (Z.rem r (zlen br.1)); Ok (d', Some e, rs')
          end
    end.

  (* dict.go:57-63 *)
  Definition NewDictIterator : dictIter K V := MkIter 0 (-1) [] [].

  Definition set_iterators (d : dict) (n : Z) : dict :=
    MkDict (d_ht0 d) (d_ht1 d) (d_rehashIndex d) n.

  (* dict.go:65-69 *)
  Definition Release (d : dict) (it : dictIter K V) : dict :=
    if negb (it_index it =? -1) || negb (d_iterators d =? 0)
    then set_iterators d (d_iterators d - 1) else d.

  (* dict.go:76-102, one call of the loop body per unit of fuel *)
  Fixpoint next_loop (fuel : nat) (d : dict) (it : dictIter K V)
    : res (dict * dictIter K V * option (K * V)) :=
    match fuel with
    | O => OutOfFuel
    | S fuel' =>
        match it_entry it with
        | [] =>
            let d1 := if (it_index it =? -1) && (it_table it =? 0)
                      then set_iterators d (d_iterators d + 1) else d in
            let index := it_index it + 1 in
            h ← deref (d_table d1 (it_table it =? 1));
            (* inl () = break *)
            if ht_size h <=? index then
              if isRehashing d1 && (it_table it =? 0) then
                h1 ← deref (d_table d1 true);
                c ← go_index (ht_tables h1) 0;
                match c with
                | [] => next_loop fuel' d1 (MkIter 1 0 [] (it_next it))
                | e :: c' => Ok (d1, MkIter 1 0 c c', Some e)
                end
              else Ok (d1, MkIter (it_table it) index [] (it_next it), None)
            else
              c ← go_index (ht_tables h) index;
              match c with
              | [] => next_loop fuel' d1 (MkIter (it_table it) index [] (it_next it))
              | e :: c' => Ok (d1, MkIter (it_table it) index c c', Some e)
              end
        | _ :: _ =>
            match it_next it with
            | [] => next_loop fuel' d (MkIter (it_table it) (it_index it) [] [])
            | e :: c' => Ok (d, MkIter (it_table it) (it_index it) (it_next it) c', Some e)
            end
        end
    end.

  (* enough loop rounds for both tables *)
  Definition next_fuel (d : dict) : nat :=
    (match d_ht0 d with Some h => length (ht_tables h) | None => 0 end +
     match d_ht1 d with Some h => length (ht_tables h) | None => 0 end + 3)%nat.

  (* dict.go:71-105 *)
  Definition Next (d : dict) (it : dictIter K V)
    : res (dict * dictIter K V * option (K * V)) :=
    match d_ht0 d with
    | None => Ok (d, it, None)
    | Some _ => next_loop (next_fuel d) d it
    end.

  (* for entry := iter.Next(); entry != nil; entry = iter.Next() { body }, where
     the body may act on the iterated dict (as KEYS does).  [fuel] bounds the
     number of rounds. *)
  Fixpoint for_entries {S} (fuel : nat) (body : dict → S → K * V → res (dict * S))
    (d : dict) (it : dictIter K V) (s : S) : res (dict * dictIter K V * S) :=
    match fuel with
    | O => OutOfFuel
    | Datatypes.S fuel' =>
        r ← Next d it;
        match r with
        | (d1, it1, None) => Ok (d1, it1, s)
        | (d1, it1, Some e) =>
            r2 ← body d1 s e;
            for_entries fuel' body r2.1 it1 r2.2
        end
    end.

  Definition d_total (d : dict) : nat :=
    (match d_ht0 d with Some h => length (mjoin (ht_tables h)) | None => 0 end +
     match d_ht1 d with Some h => length (mjoin (ht_tables h)) | None => 0 end)%nat.

  (* NewDictIterator; loop; deferred Release: the dict afterwards and the result *)
  Definition iterate {S} (body : dict → S → K * V → res (dict * S)) (d : dict) (s : S)
    : res (dict * S) :=
    r ← for_entries (Datatypes.S (d_total d)) body d NewDictIterator s;
    let '(d1, it1, s1) := r in
    Ok (Release d1 it1, s1).

  (* the entries seen by an iteration whose body does not touch the dict *)
  Definition Entries (d : dict) : res (dict * list (K * V)) :=
    iterate (λ d acc e, Ok (d, acc ++ [e])) d [].

  (* dict.go:273-283.  The copy's Sets do not touch [d]; they are done after the
     iteration instead of interleaved with it. *)
  Fixpoint set_all (d : dict) (es : list (K * V)) : res dict :=
    match es with
    | [] => Ok d
    | e :: es' => r ← Set_ d e.1 e.2; set_all r.1 es'
    end.
  Definition DeepCopy (d : dict) : res (dict * dict) :=
    r ← Entries d;
    c ← set_all NewDict r.2;
    Ok (r.1, c).
End dict.
