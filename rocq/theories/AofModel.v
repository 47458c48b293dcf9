(** Rewriting the append only file: server/aof.go:215-412 (loading: LoadModel.v and
    SystemModel.v).

    Simplifications.
    - The rewriting goroutine runs beside the main one.  The databases handed to it
      are its own copies, but their containers are shared with the running server (the
      copy is shallow), so it matters when it reads them: [rd id k] is the containers
      at the time when it comes to the key [k] of the database [id] (it comes to every
      key once).  One container is read in one step.  The result is the text of the
      temporary file.  See PropsAof.v.
    - Creating, writing and moving files succeeds (otherwise the process exits). *)
From Verif Require Import Base Float DictModel DatabaseModel SetModel QuicklistModel SkiplistModel ZsetModel
  Strconv RespSpec ServerModel CommandModel SystemModel.
From Verif Require Export LoadModel.

(** * Rewriting *)
(* aof.go:25 *)
Definition AofRewriteItemsPerCommand : nat := 64.
(* lo.Chunk *)
Fixpoint chunk_ {A} (fuel n : nat) (l : list A) : list (list A) :=
  match fuel, l with
  | O, _ | _, [] => []
  | S fuel, _ => take n l :: chunk_ fuel n (drop n l)
  end.
Definition Chunk {A} (n : nat) (l : list A) : list (list A) := chunk_ (length l) n l.

Section rewrite.
  Variable E : env.
  Notation cat := catAppendOnlyGenericCommand.
  (** one command per chunk of the items *)
  Definition rewrite_items (name key : bytes) (n : nat) (items : list bytes) : bytes :=
    concat (map (λ chunk, cat (name :: key :: chunk)) (Chunk n items)).
  (* aof.go:286-293 *)
  Definition rewriteStringObject (key value : bytes) : bytes := cat [B "set"; key; value].
  (* aof.go:295-312 *)
  Definition rewriteListObject (key : bytes) (q : quicklist bytes) : res bytes :=
    items ← q_items q; Ok (rewrite_items (B "lpush") key AofRewriteItemsPerCommand items).
  (* aof.go:314-332 *)
  Definition rewriteHashObject (key : bytes) (h : dict bytes bytes) : res bytes :=
    r ← iterate (λ d acc e, Ok (d, acc ++ [e.1; e.2])) h [];
    Ok (rewrite_items (B "hset") key (AofRewriteItemsPerCommand * 2) r.2).
  (* aof.go:334-348 *)
  Definition rewriteSetObject (key : bytes) (s : dict bytes unit) : res bytes :=
    r ← Range s; Ok (rewrite_items (B "sadd") key AofRewriteItemsPerCommand r.2).
  (* aof.go:353-355; item.Member panics on nil *)
  Fixpoint zset_items (es : list (option (bytes * float))) : res (list bytes) :=
    match es with
    | [] => Ok []
    | None :: _ => Panic
    | Some (m, sc) :: es => l ← zset_items es; Ok (m :: lib_format_float (e_lib E) sc :: l)
    end.
  (* aof.go:350-366: the member before the score *)
  Definition rewriteZsetObject (key : bytes) (z : zset) : res bytes :=
    r ← ZRangeByRank Hash z 0 (ZSize z - 1) false;
    items ← zset_items r.2;
    Ok (rewrite_items (B "zadd") key (AofRewriteItemsPerCommand * 2) items).
  (* aof.go:252-265 *)
  Definition rewrite_value (heap : list obj) (key : bytes) (v : value) : res bytes :=
    match v with
    | VStr s => Ok (rewriteStringObject key s)
    | VObj o =>
        x ← deref (heap !! o);
        match x with
        | OHash d => rewriteHashObject key d
        | OList q => rewriteListObject key q
        | OSet s => rewriteSetObject key s
        | OZset z => rewriteZsetObject key z
        end
    end.
  (* aof.go:250-277: the loop body; the state is (db.Expire, text); / truncates
     towards zero *)
  Definition rewrite_entry (rd : bytes → list obj) (d : dict bytes value) (st : dict bytes Z * bytes) (e : bytes * value)
      : res (dict bytes value * (dict bytes Z * bytes)) :=
    t ← rewrite_value (rd e.1) e.1 e.2;
    f ← FindEntry Hash st.1 e.1;
    Ok (d, (f.1, st.2 ++ t ++ match f.2 with
                              | Some (_, when) => cat [B "expireat"; e.1; itoa (Z.quot when 1000)]
                              | None => []
                              end)).
  (* aof.go:238-279: one database *)
  Definition rewrite_db (rd : bytes → list obj) (id : nat) (db : database) : res bytes :=
    n ← Size (db_dict db);
    if n =? 0 then Ok [] else
    r ← iterate (rewrite_entry rd) (db_dict db) (db_expire db, cat [B "select"; itoa (Z.of_nat id)]);
    Ok r.2.2.
  (* aof.go:231-283: the text of the temporary file *)
  Fixpoint rewrite_dbs (rd : nat → bytes → list obj) (id : nat) (dbs : list database) : res bytes :=
    match dbs with
    | [] => Ok []
    | db :: dbs => t ← rewrite_db (rd id) id db; u ← rewrite_dbs rd (S id) dbs; Ok (t ++ u)
    end.
  Definition rewriteAppendOnlyFile (rd : nat → bytes → list obj) (dbs : list database) : res bytes := rewrite_dbs rd 0 dbs.
End rewrite.

(** the contents of the log file at the possible crash points of
    aofRewriteDoneCallback (aof.go:369-412): before mv; while mv copies (the comment
    at aof.go:378 says that the files are on different devices); after mv, when [n]
    bytes of aofRewriteBuf have been appended *)
Inductive done_disk (old dump rw : bytes) : bytes → Prop :=
| dd_before : done_disk old dump rw old
| dd_copy n : done_disk old dump rw (take n dump)
| dd_append n : done_disk old dump rw (dump ++ take n rw).
