(** Model of datastruct/zset.go.

    A *ZsetElement stored in the dict is the pair of its key (Member, never
    modified) and the stored Score; assigning element.Score is [write_value] at
    the location that Find returned.  Element slices hold [None] for nil. *)
From Verif Require Import Base Float DictModel SkiplistModel.

(* zset.go:12-15 *)
Record zset := MkZset { z_dict : dict bytes float; z_sl : skiplist }.

Section zset.
  Variable hash : bytes → Z.

  (* zset.go:17-22 *)
  Definition NewZset : zset := MkZset NewDict NewSkiplist.

  (* zset.go:45-52 *)
  Definition ZGet (z : zset) (member : bytes) : res (zset * option (bytes * float)) :=
    r ← FindEntry hash (z_dict z) member;
    Ok (MkZset r.1 (z_sl z), r.2).

  (* zset.go:26-42; [rs] feeds randomLevel inside Insert (skiplist.go:61) *)
  Definition sl_add (s : skiplist) (score : float) (member : bytes) (rs : list Z)
    : res (skiplist * list Z) :=
    lv ← randomLevel rs;
    r ← Insert s lv.1 score member;
    Ok (r.1, lv.2).
  Definition ZAdd (z : zset) (score : float) (member : bytes) (rs : list Z)
    : res (zset * bool * list Z) :=
    f ← Find hash (z_dict z) member;
    let '(d, o) := f in
    match o with
    | Some l =>
        e ← entry_at d l;
        if negb (feq score e.2) then
          d' ← write_value d l score;
          r ← SlDelete (z_sl z) score e.1;
          i ← sl_add r.1 score member rs;
          Ok (MkZset d' i.1, false, i.2)
        else Ok (MkZset d (z_sl z), false, rs)
    | None =>
        r ← Set_ hash d member score;
        i ← sl_add (z_sl z) score member rs;
        Ok (MkZset r.1 i.1, true, i.2)
    end.

  (* zset.go:55-65 *)
  Definition ZDelete (z : zset) (member : bytes) : res (zset * bool) :=
    g ← ZGet z member;
    let '(z1, o) := g in
    match o with
    | None => Ok (z1, false)
    | Some e =>
        d ← Delete hash (z_dict z1) member;
        r ← SlDelete (z_sl z1) e.2 member;
        Ok (MkZset d.1 r.1, true)
    end.

  (* for i, node := range nodes { elements[i] = z.Get(node.Member) } *)
  Fixpoint elements (z : zset) (ids : list nat) : res (zset * list (option (bytes * float))) :=
    match ids with
    | [] => Ok (z, [])
    | x :: ids =>
        n ← node (z_sl z) x;
        g ← ZGet z (n_member n);
        r ← elements g.1 ids;
        Ok (r.1, g.2 :: r.2)
    end.
  (* the same with z.dict.Delete(node.Member) *)
  Fixpoint elements_delete (z : zset) (ids : list nat) : res (zset * list (option (bytes * float))) :=
    match ids with
    | [] => Ok (z, [])
    | x :: ids =>
        n ← node (z_sl z) x;
        g ← ZGet z (n_member n);
        d ← Delete hash (z_dict g.1) (n_member n);
        r ← elements_delete (MkZset d.1 (z_sl g.1)) ids;
        Ok (r.1, g.2 :: r.2)
    end.

  (* zset.go:69-83; start+1 and end+1 wrap *)
  Definition last_rank (z : zset) (end_ : Z) : Z :=
    if end_ =? maxInt64 then sl_length (z_sl z) - 1 else end_.
  Definition ZDeleteRangeByRank (z : zset) (start end_ : Z) : res (zset * list (option (bytes * float))) :=
    r ← DeleteRangeByRank (z_sl z) (wrap64 (start + 1)) (wrap64 (last_rank z end_ + 1));
    elements_delete (MkZset (z_dict z) r.1) r.2.
  (* zset.go:86-96 *)
  Definition ZDeleteRangeByScore (z : zset) (min max : float) : res (zset * list (option (bytes * float))) :=
    r ← DeleteRangeByScore (z_sl z) min max;
    elements_delete (MkZset (z_dict z) r.1) r.2.

  (* zset.go:101-113 *)
  Definition ZGetRank (z : zset) (member : bytes) (reverse : bool) : res (zset * Z) :=
    g ← ZGet z member;
    let '(z1, o) := g in
    match o with
    | None => Ok (z1, -1)
    | Some e =>
        rank ← GetRank (z_sl z1) e.2 member;
        Ok (z1, if reverse then sl_length (z_sl z1) - rank else rank - 1)
    end.

  (* zset.go:117-129 *)
  Definition ZRangeByRank (z : zset) (start end_ : Z) (reverse : bool)
    : res (zset * list (option (bytes * float))) :=
    ids ← RangeByRank (z_sl z) (wrap64 (start + 1)) (wrap64 (last_rank z end_ + 1)) reverse;
    elements z ids.
  (* zset.go:132-140 *)
  Definition ZRangeByScore (z : zset) (min max : float) (limit : Z) (reverse : bool)
    : res (zset * list (option (bytes * float))) :=
    ids ← RangeByScore (z_sl z) min max limit reverse;
    elements z ids.

  (* zset.go:143-145 *)
  Definition ZSize (z : zset) : Z := sl_length (z_sl z).
  (* zset.go:148-150 *)
  Definition ZCount (z : zset) (min max : float) : res Z := Count (z_sl z) min max.
End zset.
