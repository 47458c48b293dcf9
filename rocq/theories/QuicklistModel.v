(** Model of datastruct/quicklist.go.

    [q_pages] is the container/list of pages from front to back; a *list.Element
    is the position of its page ([qi_node], [None] for nil), which is stable
    because no element is inserted or removed while an iterator is in use.
    Every page is allocated by make(quicklistPage, 0, pageSize) and is never
    appended to when it holds pageSize elements, so its capacity is always
    pageSize; slicing bounds below use that.  Elements are never nil (the server
    stores strings), so [Next() == nil] is [None]. *)
From Verif Require Import Base.

Section quicklist.
  Context {A : Type} `{EqDecision A}.

  (* quicklist.go:7 *)
  Definition pageSize : Z := 1024.

  (* quicklist.go:15-18 *)
  Record quicklist := MkQuicklist { q_pages : list (list A); q_length : Z }.
  (* quicklist.go:20-24 *)
  Record qiter := MkQIter { qi_node : option nat; qi_offset : Z }.

  (* quicklist.go:76-81 *)
  Definition NewQuicklist : quicklist := MkQuicklist [] 0.
  (* quicklist.go:26-32 *)
  Definition NewQuicklistIterator : qiter := MkQIter None 0.

  (* quicklist.go:68-70: nil node dereference panics *)
  Definition it_page (q : quicklist) (it : qiter) : res (list A) :=
    i ← deref (qi_node it); deref (q_pages q !! i).
  (* quicklist.go:72-74 *)
  Definition it_value (q : quicklist) (it : qiter) : res A :=
    p ← it_page q it; go_index p (qi_offset it).

  (* element i's Next() / Prev() in the container/list *)
  Definition node_next (q : quicklist) (i : nat) : option nat :=
    if decide (S i < length (q_pages q))%nat then Some (S i) else None.
  Definition node_prev (i : nat) : option nat :=
    match i with O => None | S j => Some j end.
  Definition list_front (q : quicklist) : option nat :=
    match q_pages q with [] => None | _ => Some 0%nat end.

  (* quicklist.go:34-54 *)
  Definition Next (q : quicklist) (it : qiter) : res (qiter * option A) :=
    if q_length q =? 0 then Ok (it, None) else
    match qi_node it with
    | None =>
        let it := MkQIter (list_front q) (qi_offset it) in
        v ← it_value q it; Ok (it, Some v)
    | Some i =>
        let it := MkQIter (Some i) (qi_offset it + 1) in
        p ← it_page q it;
        if zlen p <=? qi_offset it then
          match node_next q i with
          | None => Ok (MkQIter None (qi_offset it), None)
          | Some j => let it := MkQIter (Some j) 0 in v ← it_value q it; Ok (it, Some v)
          end
        else v ← it_value q it; Ok (it, Some v)
    end.

  (* quicklist.go:56-66 *)
  Definition Prev (q : quicklist) (it : qiter) : res (qiter * option A) :=
    let off := qi_offset it - 1 in
    if off <? 0 then
      i ← deref (qi_node it);
      match node_prev i with
      | None => Ok (MkQIter None off, None)
      | Some j =>
          p ← deref (q_pages q !! j);
          let it := MkQIter (Some j) (zlen p - 1) in
          v ← it_value q it; Ok (it, Some v)
      end
    else
      let it := MkQIter (qi_node it) off in
      v ← it_value q it; Ok (it, Some v).

  (* quicklist.go:83-97 *)
  Definition PushBack (q : quicklist) (v : A) : quicklist :=
    let len := q_length q + 1 in
    match last (q_pages q) with
    | None => MkQuicklist [[v]] len
    | Some p =>
        if zlen p =? pageSize then MkQuicklist (q_pages q ++ [[v]]) len
        else MkQuicklist (<[pred (length (q_pages q)) := p ++ [v]]> (q_pages q)) len
    end.

  (* quicklist.go:247-254: the first page whose end lies beyond index, with the
     number of elements before it *)
  Fixpoint front_scan (ps : list (list A)) (i : nat) (pageIndex index : Z) : option nat * Z :=
    match ps with
    | [] => (None, pageIndex)
    | p :: ps' =>
        if index <? pageIndex + zlen p then (Some i, pageIndex)
        else front_scan ps' (S i) (pageIndex + zlen p) index
    end.
  (* quicklist.go:257-262, over the pages from back to front *)
  Fixpoint back_scan (rps : list (list A)) (pageIndex index : Z) : option nat :=
    match rps with
    | [] => None
    | p :: rps' =>
        let pageIndex := pageIndex - zlen p in
        if pageIndex <=? index then Some (length rps') else back_scan rps' pageIndex index
    end.

  (* quicklist.go:238-270.  In the else branch a new variable pageIndex shadows
     the outer one (line 256), so the offset computed at line 267 is index - 0. *)
  Definition get (q : quicklist) (index : Z) : option qiter :=
    if (index <? 0) || (q_length q <=? index) then None else
    if index <? q_length q / 2 then
      let '(node, pageIndex) := front_scan (q_pages q) 0 0 index in
      Some (MkQIter node (index - pageIndex))
    else
      let node := back_scan (reverse (q_pages q)) (q_length q) index in
      Some (MkQIter node (index - 0)).

  (* page = append(page[:off+1], page[off:]...); page[off] = v
     quicklist.go:127-128, 140-141, 144-145 *)
  Definition page_insert (page : list A) (off : Z) (v : A) : res (list A) :=
    if (off <? 0) || (zlen page <? off) || (pageSize <? off + 1) then Panic
    else Ok (take (Z.to_nat off) page ++ v :: drop (Z.to_nat off) page).

  (* quicklist.go:111-153 *)
  Definition Insert (q : quicklist) (index : Z) (v : A) : res (quicklist * bool) :=
    if (index <? 0) || (q_length q <? index) then Ok (q, false) else
    if index =? q_length q then Ok (PushBack q v, true) else
    let q := MkQuicklist (q_pages q) (q_length q + 1) in
    it ← deref (get q index);
    page ← it_page q it;
    i ← deref (qi_node it);
    let off := qi_offset it in
    if zlen page <? pageSize then
      page ← page_insert page off v;
      Ok (MkQuicklist (<[i := page]> (q_pages q)) (q_length q), true)
    else
      let half := Z.to_nat (pageSize / 2) in
      let nextPage := drop half page in
      let page := take half page in
      pn ← (if off <? zlen page
            then page ← page_insert page off v; Ok (page, nextPage)
            else nextPage ← page_insert nextPage (off - pageSize / 2) v; Ok (page, nextPage));
      Ok (MkQuicklist (take i (q_pages q) ++ pn.1 :: pn.2 :: drop (S i) (q_pages q)) (q_length q), true).

  (* quicklist.go:155-173 *)
  Definition Remove (q : quicklist) (index : Z) : res (quicklist * option A) :=
    match get q index with
    | None => Ok (q, None)
    | Some it =>
        page ← it_page q it;
        i ← deref (qi_node it);
        v ← go_index page (qi_offset it);
        let off := Z.to_nat (qi_offset it) in
        let page := take off page ++ drop (S off) page in
        let pages := match page with
                     | [] => take i (q_pages q) ++ drop (S i) (q_pages q)
                     | _ => <[i := page]> (q_pages q)
                     end in
        Ok (MkQuicklist pages (q_length q - 1), Some v)
    end.

  (* quicklist.go:99-101 *)
  Definition PushFront (q : quicklist) (v : A) : res quicklist :=
    r ← Insert q 0 v; Ok r.1.
  (* quicklist.go:103-105 *)
  Definition PopFront (q : quicklist) : res (quicklist * option A) := Remove q 0.
  (* quicklist.go:107-109 *)
  Definition PopBack (q : quicklist) : res (quicklist * option A) := Remove q (q_length q - 1).

  (* quicklist.go:179-183 *)
  Fixpoint page_find (page : list A) (i : Z) (v : A) : option Z :=
    match page with
    | [] => None
    | x :: page' => if decide (x = v) then Some i else page_find page' (i + 1) v
    end.
  (* quicklist.go:175-189 *)
  Fixpoint pages_find (ps : list (list A)) (pageIndex : Z) (v : A) : Z :=
    match ps with
    | [] => -1
    | p :: ps' =>
        match page_find p 0 v with
        | Some i => pageIndex + i
        | None => pages_find ps' (pageIndex + zlen p) v
        end
    end.
  Definition QFind (q : quicklist) (v : A) : Z := pages_find (q_pages q) 0 v.

  (* quicklist.go:210-216; [fuel] bounds the number of iterations *)
  Fixpoint range_loop (fuel : nat) (q : quicklist) (it : qiter) (i stop : Z) (acc : list A)
    : res (list A) :=
    match fuel with
    | O => OutOfFuel
    | S fuel =>
        if stop <? i then Ok acc else
        v ← it_value q it;
        r ← Next q it;
        match r.2 with
        | None => Ok (acc ++ [v])
        | Some _ => range_loop fuel q r.1 (i + 1) stop (acc ++ [v])
        end
    end.
  (* an interface value takes 16 bytes *)
  Definition any_size : Z := 16.
  (* quicklist.go:191-219; the result None is the nil slice.  The fuel is enough:
     each iteration but the last moves the iterator to another element. *)
  Definition QRange (q : quicklist) (start stop : Z) : res (option (list A)) :=
    let start := if start <? 0 then q_length q + start else start in
    let stop := if stop <? 0 then q_length q + stop else stop in
    if (start <? 0) || (stop <? 0) || (stop <? start) || (q_length q <=? start) then Ok None else
    match get q start with
    | None => Ok None
    | Some it =>
        if negb (make_ok (wrap64 (stop - start + 1)) any_size) then Panic else
        vs ← range_loop (2 + Z.to_nat (q_length q)) q it start stop [];
        Ok (Some vs)
    end.

  (* for v := iter.Next(); v != nil; v = iter.Next(): server/aof.go:297-300 *)
  Fixpoint q_walk (fuel : nat) (q : quicklist) (it : qiter) (acc : list A) : res (list A) :=
    match fuel with
    | O => OutOfFuel
    | S fuel =>
        r ← Next q it;
        match r.2 with
        | None => Ok acc
        | Some v => q_walk fuel q r.1 (acc ++ [v])
        end
    end.
  Definition q_items (q : quicklist) : res (list A) :=
    q_walk (2 + Z.to_nat (q_length q)) q NewQuicklistIterator [].

  (* quicklist.go:221-228 *)
  Definition QGet (q : quicklist) (index : Z) : res (option A) :=
    match get q index with
    | None => Ok None
    | Some it => v ← it_value q it; Ok (Some v)
    end.

  (* quicklist.go:230-232 *)
  Definition Len (q : quicklist) : Z := q_length q.
  (* quicklist.go:234-236 *)
  Definition QSize (q : quicklist) : Z := zlen (q_pages q).
End quicklist.
Global Arguments quicklist : clear implicits.
Global Arguments MkQuicklist {A} _ _.
