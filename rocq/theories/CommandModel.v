(** Model of the commands: server/command.go and server/command{connection,server,
    key,string,hash,list,set,zset}.go, and of the feeding of the log
    (server/aof.go:29-92).

    A command is a function of the environment and of client.args.  All commands
    return nil as error, because addReply does not fail in this model. *)
From Verif Require Import Base Float DictModel DatabaseModel SetModel QuicklistModel SkiplistModel ZsetModel
  Strconv RespSpec ServerModel.

Section commands.
  Variable E : env.
  Notation num_error := (lib_num_error (e_lib E)).
  Notation parse_float := (lib_parse_float (e_lib E)).

  (* the format "invalid <what>: %s, error: %v" *)
  Definition invalid (what : bytes) (a err : bytes) : bytes :=
    B "invalid " ++ what ++ B ": " ++ a ++ B ", error: " ++ err.

  (** * Connection *)
  (* commandconnection.go:5-7 *)
  Definition pingCommand (args : list bytes) : M unit := addReplySimpleString (B "PONG").
  (* commandconnection.go:9-22; a negative index panics *)
  Definition selectCommand (args : list bytes) : M unit :=
    a ← arg args 1;
    match Atoi a with
    | None => addReplyError (num_error (B "Atoi") a)
    | Some dbIndex =>
        s ← get_srv;
        if zlen (s_dbs s) <=? dbIndex then addReplyError (B "invalid db index")
        else if dbIndex <? 0 then panic
        else
          c ← get_cl;
          _ ← put_cl (Cl (Z.to_nat dbIndex) (c_auth c) (c_out c));
          addReplyOK
    end.
  (* commandconnection.go:24-33 *)
  Definition authCommand (args : list bytes) : M unit :=
    a ← arg args 1;
    c ← get_cl;
    if decide (e_password E = [] ∨ e_password E = a)
    then _ ← put_cl (Cl (c_db c) true (c_out c)); addReplyOK
    else _ ← put_cl (Cl (c_db c) false (c_out c)); addReplyError (B "invalid password").

  (** * Server *)
  (* database/database.go:21-27 *)
  Definition db_DeepCopy (db : database) : res (database * database) :=
    r1 ← DeepCopy Hash (db_dict db);
    r2 ← DeepCopy Hash (db_expire db);
    Ok (DB r1.1 r2.1, DB r1.2 r2.2).
  Fixpoint copy_dbs (dbs : list database) : res (list database * list database) :=
    match dbs with
    | [] => Ok ([], [])
    | db :: dbs =>
        r ← db_DeepCopy db;
        rs ← copy_dbs dbs;
        Ok (r.1 :: rs.1, r.2 :: rs.2)
    end.
  (* aof.go:218-229: the goroutine gets the copies *)
  Definition rewriteAppendOnlyFileBackground (s : server) : res server :=
    if s_task s then Ok s else
    r ← copy_dbs (s_dbs s);
    Ok (set_task (set_dbs s r.1) true (Some r.2)).
  (* commandserver.go:3-13 *)
  Definition bgRewriteAofCommand (args : list bytes) : M unit :=
    s ← get_srv;
    if s_task s then addReplySimpleString (B "Background append only file rewriting scheduled") else
    s ← lift (rewriteAppendOnlyFileBackground s);
    _ ← put_srv s;
    addReplySimpleString (B "Background append only file rewriting started").

  (** * Keys *)
  (* commandkey.go:11-24 *)
  Definition expireCommand (args : list bytes) : M unit :=
    key ← arg args 1;
    a ← arg args 2;
    match Atoi a with
    | None => addReplyError (invalid (B "expire") a (num_error (B "ParseInt") a))
    | Some expireInt =>
        _ ← on_expire (λ d, Set_ Hash d key (wrap64 (e_now E + wrap64 (expireInt * 1000))));
        _ ← add_dirty 1;
        addReplyOK
    end.
  (* commandkey.go:26-38 *)
  Definition expireAtCommand (args : list bytes) : M unit :=
    key ← arg args 1;
    a ← arg args 2;
    match Atoi a with
    | None => addReplyError (invalid (B "expire") a (num_error (B "ParseInt") a))
    | Some expireInt =>
        _ ← on_expire (λ d, Set_ Hash d key (wrap64 (expireInt * 1000)));
        _ ← add_dirty 1;
        addReplyOK
    end.
  (* commandkey.go:40-60; / truncates towards zero *)
  Definition ttlCommand (args : list bytes) : M unit :=
    key ← arg args 1;
    v ← on_dict (λ d, FindEntry Hash d key);
    match v with
    | None => addReplyInt (-2)
    | Some _ =>
        w ← on_expire (λ d, FindEntry Hash d key);
        match w with
        | None => addReplyInt (-1)
        | Some (_, when) => addReplyInt (Z.quot (wrap64 (when - e_now E)) 1000)
        end
    end.
  (* commandkey.go:69-94 with a usable pattern.  The body acts on Dict (the
     iterated dict) and on Expire; the state is (Expire, keys). *)
  Definition keys_body (f : bytes → bool) (d : dict bytes value) (st : dict bytes Z * list bytes)
      (e : bytes * value) : res (dict bytes value * (dict bytes Z * list bytes)) :=
    let '(x, keys) := st in
    if f e.1 then
      r ← FindEntry Hash x e.1;
      match r.2 with
      | Some (_, when) =>
          if when <? e_now E then
            d' ← Delete Hash d e.1;
            x' ← Delete Hash r.1 e.1;
            Ok (d'.1, (x'.1, keys))
          else Ok (d, (r.1, keys ++ [e.1]))
      | None => Ok (d, (r.1, keys ++ [e.1]))
      end
    else Ok (d, st).
  (* commandkey.go:62-97.  The pattern is compiled for each key: an invalid one
     ends the loop at the first key, and is not noticed on an empty dict. *)
  Definition keysCommand (args : list bytes) : M unit :=
    pattern ← arg args 1;
    _ ← on_dict (λ d, n ← Size d; Ok (d, n));
    match (if decide (pattern = B "*") then Some (λ _, true) else lib_regexp (e_lib E) pattern) with
    | Some f =>
        db ← get_db;
        r ← lift (iterate (keys_body f) (db_dict db) (db_expire db, []));
        _ ← put_db (DB r.1 r.2.1);
        addReplyArrays r.2.2
    | None =>
        e ← on_dict (λ d, r ← DictModel.Next d NewDictIterator;
                          let '(d', it, e) := r in Ok (Release d' it, e));
        match e with
        | Some _ => addReplyError (invalid (B "pattern") pattern (lib_regexp_error (e_lib E) pattern))
        | None => addReplyArrays []
        end
    end.

  (** * Strings *)
  (* commandstring.go:10-17 *)
  Definition setCommand (args : list bytes) : M unit :=
    key ← arg args 1;
    value ← arg args 2;
    _ ← on_expire (λ d, Delete Hash d key);
    _ ← on_dict (λ d, Set_ Hash d key (VStr value));
    _ ← add_dirty 1;
    addReplyOK.
  (* commandstring.go:19-32 *)
  Definition setExCommand (args : list bytes) : M unit :=
    key ← arg args 1;
    value ← arg args 3;
    a ← arg args 2;
    match Atoi a with
    | None => addReplyError (invalid (B "expire") a (num_error (B "ParseInt") a))
    | Some expireInt =>
        _ ← on_expire (λ d, Set_ Hash d key (wrap64 (e_now E + wrap64 (expireInt * 1000))));
        _ ← on_dict (λ d, Set_ Hash d key (VStr value));
        _ ← add_dirty 1;
        addReplyOK
    end.
  (* commandstring.go:34-53 *)
  Definition getCommand (args : list bytes) : M unit :=
    key ← arg args 1;
    _ ← expireIfNeeded E key;
    v ← on_dict (λ d, Get Hash d key);
    match v with
    | None => addReplyNull
    | Some (VStr s) => addReplyBulkString s
    | Some (VObj _) => addReplyError (B "value is not a string")
    end.
  (* commandstring.go:55-80; each round draws random numbers, [fuel] bounds the
     number of rounds *)
  Fixpoint random_loop (fuel : nat) : M unit :=
    match fuel with
    | O => lift OutOfFuel
    | S fuel =>
        db ← get_db;
        r ← with_rnd (λ rs, r ← GetRandomKey Hash (db_dict db) rs; Ok (r.1.1, r.1.2, r.2));
        _ ← put_db (DB r.1 (db_expire db));
        match r.2 with
        | None => addReplyNull
        | Some e =>
            expired ← expireIfNeeded E e.1;
            if expired : bool then random_loop fuel else addReplyBulkString e.1
        end
    end.
  Definition randomGetCommand (args : list bytes) : M unit := λ w, random_loop (S (length (w_rnd w))) w.

  (** * Hashes *)
  (* commandhash.go:22-27 *)
  Fixpoint hset_loop (o : nat) (l : list bytes) (created : Z) : M Z :=
    match l with
    | [] => ret created
    | [_] => panic
    | f :: v :: l =>
        new ← on_obj KHash o (λ h, Set_ Hash h f v);
        _ ← add_dirty 1;
        hset_loop o l (if new : bool then created + 1 else created)
    end.
  (* commandhash.go:9-30 *)
  Definition hSetCommand (args : list bytes) : M unit :=
    if negb (zlen args mod 2 =? 0)
    then addReplyError (B "wrong number of arguments for 'hset' command") else
    key ← arg args 1;
    h ← get_or_new KHash ErrWrongType key;
    match h with
    | inr e => addReplyError (err_text e)
    | inl o => created ← hset_loop o (drop 2 args) 0; addReplyInt created
    end.
  (* commandhash.go:32-50 *)
  Definition hGetCommand (args : list bytes) : M unit :=
    key ← arg args 1;
    field ← arg args 2;
    h ← get_if_exist E KHash key;
    match h with
    | inr ErrNotExist => addReplyNull
    | inr e => addReplyError (err_text e)
    | inl o =>
        v ← on_obj KHash o (λ h, Get Hash h field);
        match v with None => addReplyNull | Some v => addReplyBulkString v end
    end.
  (* commandhash.go:64-70 *)
  Fixpoint hdel_loop (o : nat) (l : list bytes) (deleted : Z) : M Z :=
    match l with
    | [] => ret deleted
    | f :: l =>
        e ← on_obj KHash o (λ h, Delete Hash h f);
        match e with
        | None => _ ← add_dirty 1; hdel_loop o l (deleted + 1)
        | Some _ => hdel_loop o l deleted
        end
    end.
  (* commandhash.go:52-73; args[2:] needs len(args) >= 2, as args[1] does *)
  Definition hDelCommand (args : list bytes) : M unit :=
    key ← arg args 1;
    h ← get_if_exist E KHash key;
    match h with
    | inr ErrNotExist => addReplyInt 0
    | inr e => addReplyError (err_text e)
    | inl o => deleted ← hdel_loop o (drop 2 args) 0; addReplyInt deleted
    end.
  (* commandhash.go:75-92 *)
  Definition hExistsCommand (args : list bytes) : M unit :=
    key ← arg args 1;
    field ← arg args 2;
    h ← get_if_exist E KHash key;
    match h with
    | inr ErrNotExist => addReplyInt 0
    | inr e => addReplyError (err_text e)
    | inl o =>
        v ← on_obj KHash o (λ h, Find Hash h field);
        match v with None => addReplyInt 0 | Some _ => addReplyInt 1 end
    end.
  (* commandhash.go:94-115 *)
  Definition hKeysCommand (args : list bytes) : M unit :=
    key ← arg args 1;
    h ← get_if_exist E KHash key;
    match h with
    | inr ErrNotExist => addReplyEmpty
    | inr e => addReplyError (err_text e)
    | inl o =>
        _ ← on_obj KHash o (λ h, n ← Size h; Ok (h, n));
        keys ← on_obj KHash o (λ h, iterate (λ d acc e, Ok (d, acc ++ [e.1])) h []);
        addReplyArrays keys
    end.
  (* commandhash.go:117-130 *)
  Definition hLenCommand (args : list bytes) : M unit :=
    key ← arg args 1;
    h ← get_if_exist E KHash key;
    match h with
    | inr ErrNotExist => addReplyInt 0
    | inr e => addReplyError (err_text e)
    | inl o => n ← on_obj KHash o (λ h, n ← Size h; Ok (h, n)); addReplyInt n
    end.

  (** * Lists *)
  (* commandlist.go:18-21 *)
  Fixpoint lpush_loop (o : nat) (l : list bytes) : M unit :=
    match l with
    | [] => ret tt
    | x :: l =>
        _ ← on_obj KList o (λ q, q' ← PushFront q x; Ok (q', tt));
        _ ← add_dirty 1;
        lpush_loop o l
    end.
  (* commandlist.go:10-24 *)
  Definition lPushCommand (args : list bytes) : M unit :=
    key ← arg args 1;
    l ← get_or_new KList ErrNotExist key;
    match l with
    | inr e => addReplyError (err_text e)
    | inl o =>
        _ ← lpush_loop o (drop 2 args);
        n ← on_obj KList o (λ q, Ok (q, Len q));
        addReplyInt n
    end.
  (* commandlist.go:34-37 *)
  Fixpoint rpush_loop (o : nat) (l : list bytes) : M unit :=
    match l with
    | [] => ret tt
    | x :: l =>
        _ ← on_obj KList o (λ q, Ok (PushBack q x, tt));
        _ ← add_dirty 1;
        rpush_loop o l
    end.
  (* commandlist.go:26-40 *)
  Definition rPushCommand (args : list bytes) : M unit :=
    key ← arg args 1;
    l ← get_or_new KList ErrNotExist key;
    match l with
    | inr e => addReplyError (err_text e)
    | inl o =>
        _ ← rpush_loop o (drop 2 args);
        n ← on_obj KList o (λ q, Ok (q, Len q));
        addReplyInt n
    end.
  (* commandlist.go:42-61; nil.(string) panics *)
  Definition lPopCommand (args : list bytes) : M unit :=
    key ← arg args 1;
    l ← get_if_exist E KList key;
    match l with
    | inr ErrNotExist => addReplyNull
    | inr e => addReplyError (err_text e)
    | inl o =>
        n ← on_obj KList o (λ q, Ok (q, Len q));
        if n =? 0 then addReplyNull else
        _ ← add_dirty 1;
        v ← on_obj KList o PopFront;
        v ← lift (deref v);
        addReplyBulkString v
    end.
  (* commandlist.go:63-82 *)
  Definition rPopCommand (args : list bytes) : M unit :=
    key ← arg args 1;
    l ← get_if_exist E KList key;
    match l with
    | inr ErrNotExist => addReplyNull
    | inr e => addReplyError (err_text e)
    | inl o =>
        n ← on_obj KList o (λ q, Ok (q, Len q));
        if n =? 0 then addReplyNull else
        _ ← add_dirty 1;
        v ← on_obj KList o PopBack;
        v ← lift (deref v);
        addReplyBulkString v
    end.
  (* commandlist.go:84-97 *)
  Definition lLenCommand (args : list bytes) : M unit :=
    key ← arg args 1;
    l ← get_if_exist E KList key;
    match l with
    | inr ErrNotExist => addReplyInt 0
    | inr e => addReplyError (err_text e)
    | inl o => n ← on_obj KList o (λ q, Ok (q, Len q)); addReplyInt n
    end.
  (* commandlist.go:99-122 *)
  Definition lIndexCommand (args : list bytes) : M unit :=
    key ← arg args 1;
    l ← get_if_exist E KList key;
    match l with
    | inr ErrNotExist => addReplyNull
    | inr e => addReplyError (err_text e)
    | inl o =>
        a ← arg args 2;
        match Atoi a with
        | None => addReplyError (invalid (B "index") a (num_error (B "Atoi") a))
        | Some index =>
            v ← on_obj KList o (λ q, v ← QGet q index; Ok (q, v));
            match v with None => addReplyNull | Some v => addReplyBulkString v end
        end
    end.
  (* commandlist.go:124-157 *)
  Definition lRangeCommand (args : list bytes) : M unit :=
    key ← arg args 1;
    l ← get_if_exist E KList key;
    match l with
    | inr ErrNotExist => addReplyEmpty
    | inr e => addReplyError (err_text e)
    | inl o =>
        a ← arg args 2;
        match Atoi a with
        | None => addReplyError (invalid (B "start") a (num_error (B "Atoi") a))
        | Some start =>
            b ← arg args 3;
            match Atoi b with
            | None => addReplyError (invalid (B "stop") b (num_error (B "Atoi") b))
            | Some stop =>
                vs ← on_obj KList o (λ q, vs ← QRange q start stop; Ok (q, vs));
                match vs with None => addReplyNull | Some vs => addReplyArrays vs end
            end
        end
    end.

  (** * Sets *)
  (* commandset.go:18-24 *)
  Fixpoint sadd_loop (o : nat) (l : list bytes) (created : Z) : M Z :=
    match l with
    | [] => ret created
    | m :: l =>
        new ← on_obj KSet o (λ s, Add Hash s m);
        _ ← add_dirty 1;
        sadd_loop o l (if new : bool then created + 1 else created)
    end.
  (* commandset.go:9-27 *)
  Definition sAddCommand (args : list bytes) : M unit :=
    key ← arg args 1;
    s ← get_or_new KSet ErrWrongType key;
    match s with
    | inr e => addReplyError (err_text e)
    | inl o => created ← sadd_loop o (drop 2 args) 0; addReplyInt created
    end.
  (* commandset.go:42-47 *)
  Fixpoint srem_loop (o : nat) (l : list bytes) (deleted : Z) : M Z :=
    match l with
    | [] => ret deleted
    | m :: l =>
        e ← on_obj KSet o (λ s, SDelete Hash s m);
        match e with
        | None => _ ← add_dirty 1; srem_loop o l (deleted + 1)
        | Some _ => srem_loop o l deleted
        end
    end.
  (* commandset.go:29-50 *)
  Definition sRemCommand (args : list bytes) : M unit :=
    key ← arg args 1;
    s ← get_if_exist E KSet key;
    match s with
    | inr ErrNotExist => addReplyInt 0
    | inr e => addReplyError (err_text e)
    | inl o => deleted ← srem_loop o (drop 2 args) 0; addReplyInt deleted
    end.
  (* commandset.go:52-76 *)
  Definition dict_err_text (e : dict_err) : bytes :=
    match e with
    | ErrNotInitialized => B "dict not initialized"
    | ErrKeyNotFound => B "key not found"
    | ErrResize => B "dict is rehashing or size is invalid"
    end.
  Definition sPopCommand (args : list bytes) : M unit :=
    key ← arg args 1;
    s ← get_if_exist E KSet key;
    match s with
    | inr ErrNotExist => addReplyNull
    | inr e => addReplyError (err_text e)
    | inl o =>
        n ← on_obj KSet o (λ s, n ← SSize s; Ok (s, n));
        if n =? 0 then addReplyNull else
        m ← on_obj_rnd KSet o (GetRandom Hash);
        e ← on_obj KSet o (λ s, SDelete Hash s m);
        match e with
        | Some ErrNotInitialized | Some ErrResize =>
            addReplyError (B "delete random member error: " ++
                           match e with Some e => dict_err_text e | None => [] end)
        | _ => _ ← add_dirty 1; addReplyBulkString m
        end
    end.
  (* commandset.go:78-91 *)
  Definition sCardCommand (args : list bytes) : M unit :=
    key ← arg args 1;
    s ← get_if_exist E KSet key;
    match s with
    | inr ErrNotExist => addReplyInt 0
    | inr e => addReplyError (err_text e)
    | inl o => n ← on_obj KSet o (λ s, n ← SSize s; Ok (s, n)); addReplyInt n
    end.
  (* commandset.go:93-110 *)
  Definition sIsMemberCommand (args : list bytes) : M unit :=
    key ← arg args 1;
    s ← get_if_exist E KSet key;
    match s with
    | inr ErrNotExist => addReplyInt 0
    | inr e => addReplyError (err_text e)
    | inl o =>
        m ← arg args 2;
        b ← on_obj KSet o (λ s, Contains Hash s m);
        addReplyInt (if b : bool then 1 else 0)
    end.

  (** The variable [set] of SDIFF, SINTER and SUNION holds a set of the database or
      a set made by the operations. *)
  Inductive sref := SHeap (o : nat) | SLocal (s : dict bytes unit).
  Definition with_set {A} (s : sref) (f : dict bytes unit → res (dict bytes unit * A)) : M (sref * A) :=
    match s with
    | SHeap o => a ← on_obj KSet o f; ret (SHeap o, a)
    | SLocal d => r ← lift (f d); ret (SLocal r.1, r.2)
    end.
  (* set.Op(set2) where set2 is the set [o2] of the database *)
  Definition set_op (op : dict bytes unit → dict bytes unit → res (dict bytes unit * dict bytes unit * dict bytes unit))
      (op_self : dict bytes unit → res (dict bytes unit * dict bytes unit)) (s : sref) (o2 : nat) : M sref :=
    match s with
    | SHeap o =>
        if decide (o = o2) then r ← on_obj KSet o op_self; ret (SLocal r)
        else
          x ← load o;
          d ← lift (deref (k_out KSet x));
          r ← on_obj KSet o2 (λ d2, r ← op d d2; let '(d', d2', res) := r in Ok (d2', (d', res)));
          _ ← store o (OSet r.1);
          ret (SLocal r.2)
    | SLocal d =>
        r ← on_obj KSet o2 (λ d2, r ← op d d2; let '(d', d2', res) := r in Ok (d2', res));
        ret (SLocal r)
    end.
  (* client.go:166-178 *)
  Definition addReplySet (s : sref) : M unit :=
    n ← with_set s (λ d, n ← SSize d; Ok (d, n));
    _ ← addReplyHeader n.2;
    ms ← with_set n.1 Range;
    addReplyBulks ms.2.
  (* commandset.go:112-125 *)
  Definition sMembersCommand (args : list bytes) : M unit :=
    key ← arg args 1;
    s ← get_if_exist E KSet key;
    match s with
    | inr ErrNotExist => addReplyEmpty
    | inr e => addReplyError (err_text e)
    | inl o => addReplySet (SHeap o)
    end.
  (* commandset.go:127-151 and 179-203: SDIFF and SUNION differ in the operation *)
  Fixpoint set_loop op op_self (s : sref) (keys : list bytes) : M (sref + cmd_err) :=
    match keys with
    | [] => ret (inl s)
    | key :: keys =>
        r ← get_if_exist E KSet key;
        match r with
        | inr ErrNotExist => set_loop op op_self s keys
        | inr e => ret (inr e)
        | inl o2 => s ← set_op op op_self s o2; set_loop op op_self s keys
        end
    end.
  Definition set_command op op_self (args : list bytes) : M unit :=
    key ← arg args 1;
    s ← get_if_exist E KSet key;
    match s with
    | inr ErrNotExist => addReplyEmpty
    | inr e => addReplyError (err_text e)
    | inl o =>
        r ← set_loop op op_self (SHeap o) (drop 2 args);
        match r with
        | inl s => addReplySet s
        | inr e => addReplyError (err_text e)
        end
    end.
  Definition sDiffCommand : list bytes → M unit := set_command (Difference Hash) (Difference_self Hash).
  Definition sUnionCommand : list bytes → M unit := set_command (Union Hash) (Union_self Hash).
  (* commandset.go:153-177; None: a missing key, the reply is the empty array *)
  Fixpoint inter_loop (s : sref) (keys : list bytes) : M (sref + option cmd_err) :=
    match keys with
    | [] => ret (inl s)
    | key :: keys =>
        r ← get_if_exist E KSet key;
        match r with
        | inr ErrNotExist => ret (inr None)
        | inr e => ret (inr (Some e))
        | inl o2 => s ← set_op (Intersect Hash) (Intersect_self Hash) s o2; inter_loop s keys
        end
    end.
  Definition sInterCommand (args : list bytes) : M unit :=
    key ← arg args 1;
    s ← get_if_exist E KSet key;
    match s with
    | inr ErrNotExist => addReplyEmpty
    | inr e => addReplyError (err_text e)
    | inl o =>
        r ← inter_loop (SHeap o) (drop 2 args);
        match r with
        | inl s => addReplySet s
        | inr None => addReplyEmpty
        | inr (Some e) => addReplyError (err_text e)
        end
    end.

  (** * Sorted sets *)
  (* commandzset.go:24-36; inr: the score that does not parse *)
  Fixpoint zadd_loop (o : nat) (l : list bytes) (created : Z) : M (Z + bytes) :=
    match l with
    | [] => ret (inl created)
    | a :: l =>
        match parse_float a with
        | None => ret (inr a)
        | Some score =>
            match l with
            | [] => panic
            | member :: l =>
                new ← on_obj_rnd KZset o (λ z, ZAdd Hash z score member);
                _ ← add_dirty 1;
                zadd_loop o l (if new : bool then created + 1 else created)
            end
        end
    end.
  (* commandzset.go:11-39 *)
  Definition zAddCommand (args : list bytes) : M unit :=
    if negb (zlen args mod 2 =? 0)
    then addReplyError (B "wrong number of arguments for 'zadd' command") else
    key ← arg args 1;
    z ← get_or_new KZset ErrWrongType key;
    match z with
    | inr e => addReplyError (err_text e)
    | inl o =>
        r ← zadd_loop o (drop 2 args) 0;
        match r with
        | inl created => addReplyInt created
        | inr a => addReplyError (invalid (B "score") a (num_error (B "ParseFloat") a))
        end
    end.
  (* commandzset.go:41-54 *)
  Definition zCardCommand (args : list bytes) : M unit :=
    key ← arg args 1;
    z ← get_if_exist E KZset key;
    match z with
    | inr ErrNotExist => addReplyInt 0
    | inr e => addReplyError (err_text e)
    | inl o => n ← on_obj KZset o (λ z, Ok (z, ZSize z)); addReplyInt n
    end.
  (* commandzset.go:56-77 *)
  Definition zScoreCommand (args : list bytes) : M unit :=
    key ← arg args 1;
    z ← get_if_exist E KZset key;
    match z with
    | inr ErrNotExist => addReplyNull
    | inr e => addReplyError (err_text e)
    | inl o =>
        member ← arg args 2;
        e ← on_obj KZset o (λ z, ZGet Hash z member);
        match e with
        | None => addReplyNull
        | Some (_, sc) => addReplySimpleString (lib_format_float (e_lib E) sc)
        end
    end.
  (** args[2] and args[3] as floats: the commands below give up at the first that
      does not parse.  [w1], [w2]: the words of the error texts. *)
  Definition two_floats (args : list bytes) (w1 w2 : bytes) (k : float → float → M unit) : M unit :=
    a ← arg args 2;
    match parse_float a with
    | None => addReplyError (invalid w1 a (num_error (B "ParseFloat") a))
    | Some min =>
        b ← arg args 3;
        match parse_float b with
        | None => addReplyError (invalid w2 b (num_error (B "ParseFloat") b))
        | Some max => k min max
        end
    end.
  Definition two_ints (args : list bytes) (w1 w2 : bytes) (k : Z → Z → M unit) : M unit :=
    a ← arg args 2;
    match Atoi a with
    | None => addReplyError (invalid w1 a (num_error (B "ParseInt") a))
    | Some start =>
        b ← arg args 3;
        match Atoi b with
        | None => addReplyError (invalid w2 b (num_error (B "ParseInt") b))
        | Some stop => k start stop
        end
    end.
  (* commandzset.go:79-104 *)
  Definition zCountCommand (args : list bytes) : M unit :=
    key ← arg args 1;
    two_floats args (B "min") (B "max") (λ min max,
      z ← get_if_exist E KZset key;
      match z with
      | inr ErrNotExist => addReplyInt 0
      | inr e => addReplyError (err_text e)
      | inl o => n ← on_obj KZset o (λ z, n ← ZCount z min max; Ok (z, n)); addReplyInt n
      end).
  (* commandzset.go:106-131 *)
  Definition zRangeCommand (args : list bytes) : M unit :=
    key ← arg args 1;
    two_ints args (B "start") (B "stop") (λ start stop,
      z ← get_if_exist E KZset key;
      match z with
      | inr ErrNotExist => addReplyNull
      | inr e => addReplyError (err_text e)
      | inl o =>
          es ← on_obj KZset o (λ z, ZRangeByRank Hash z start stop false);
          addReplyZsetElements E args es 4
      end).
  (* commandzset.go:133-158 *)
  Definition zRangeByScoreCommand (args : list bytes) : M unit :=
    key ← arg args 1;
    two_floats args (B "start") (B "start") (λ min max,
      z ← get_if_exist E KZset key;
      match z with
      | inr ErrNotExist => addReplyNull
      | inr e => addReplyError (err_text e)
      | inl o =>
          es ← on_obj KZset o (λ z, ZRangeByScore Hash z min max (-1) false);
          addReplyZsetElements E args es 4
      end).
  (* commandzset.go:173-178 *)
  Fixpoint zrem_loop (o : nat) (l : list bytes) (deleted : Z) : M Z :=
    match l with
    | [] => ret deleted
    | m :: l =>
        b ← on_obj KZset o (λ z, ZDelete Hash z m);
        if b : bool then _ ← add_dirty 1; zrem_loop o l (deleted + 1)
        else zrem_loop o l deleted
    end.
  (* commandzset.go:160-181 *)
  Definition zRemCommand (args : list bytes) : M unit :=
    key ← arg args 1;
    z ← get_if_exist E KZset key;
    match z with
    | inr ErrNotExist => addReplyInt 0
    | inr e => addReplyError (err_text e)
    | inl o => deleted ← zrem_loop o (drop 2 args) 0; addReplyInt deleted
    end.
  (* commandzset.go:183-209 *)
  Definition zRemRangeByRankCommand (args : list bytes) : M unit :=
    key ← arg args 1;
    two_ints args (B "start") (B "start") (λ start stop,
      z ← get_if_exist E KZset key;
      match z with
      | inr ErrNotExist => addReplyInt 0
      | inr e => addReplyError (err_text e)
      | inl o =>
          es ← on_obj KZset o (λ z, ZDeleteRangeByRank Hash z start stop);
          _ ← add_dirty (zlen es);
          addReplyInt (zlen es)
      end).
  (* commandzset.go:211-237 *)
  Definition zRemRangeByScoreCommand (args : list bytes) : M unit :=
    key ← arg args 1;
    two_floats args (B "start") (B "start") (λ min max,
      z ← get_if_exist E KZset key;
      match z with
      | inr ErrNotExist => addReplyInt 0
      | inr e => addReplyError (err_text e)
      | inl o =>
          es ← on_obj KZset o (λ z, ZDeleteRangeByScore Hash z min max);
          _ ← add_dirty (zlen es);
          addReplyInt (zlen es)
      end).

  (** * The table *)
  (* command.go:15-19 *)
  Record command := Cmd { cmd_name : bytes; cmd_proc : list bytes → M unit; cmd_arity : Z }.
  (* command.go:21-74 *)
  Definition commandTable : list command := [
    Cmd (B "ping") pingCommand 1;
    Cmd (B "select") selectCommand 2;
    Cmd (B "auth") authCommand 2;
    Cmd (B "bgrewriteaof") bgRewriteAofCommand 1;
    Cmd (B "expire") expireCommand 3;
    Cmd (B "expireat") expireAtCommand 3;
    Cmd (B "ttl") ttlCommand 2;
    Cmd (B "keys") keysCommand 2;
    Cmd (B "set") setCommand (-3);
    Cmd (B "setex") setExCommand 4;
    Cmd (B "get") getCommand 2;
    Cmd (B "randomget") randomGetCommand 1;
    Cmd (B "hset") hSetCommand (-4);
    Cmd (B "hget") hGetCommand 3;
    Cmd (B "hdel") hDelCommand (-3);
    Cmd (B "hexists") hExistsCommand 3;
    Cmd (B "hkeys") hKeysCommand 2;
    Cmd (B "hlen") hLenCommand 2;
    Cmd (B "lpush") lPushCommand (-3);
    Cmd (B "rpush") rPushCommand (-3);
    Cmd (B "lpop") lPopCommand 2;
    Cmd (B "rpop") rPopCommand 2;
    Cmd (B "llen") lLenCommand 2;
    Cmd (B "lindex") lIndexCommand 3;
    Cmd (B "lrange") lRangeCommand (-4);
    Cmd (B "sadd") sAddCommand (-3);
    Cmd (B "srem") sRemCommand (-3);
    Cmd (B "spop") sPopCommand 2;
    Cmd (B "scard") sCardCommand 2;
    Cmd (B "sismember") sIsMemberCommand 3;
    Cmd (B "smembers") sMembersCommand 2;
    Cmd (B "sdiff") sDiffCommand (-3);
    Cmd (B "sinter") sInterCommand (-3);
    Cmd (B "sunion") sUnionCommand (-3);
    Cmd (B "zadd") zAddCommand (-4);
    Cmd (B "zrange") zRangeCommand (-4);
    Cmd (B "zrangebyscore") zRangeByScoreCommand (-4);
    Cmd (B "zrem") zRemCommand (-3);
    Cmd (B "zremrangebyrank") zRemRangeByRankCommand (-4);
    Cmd (B "zremrangebyscore") zRemRangeByScoreCommand (-4);
    Cmd (B "zcard") zCardCommand 2;
    Cmd (B "zcount") zCountCommand 4;
    Cmd (B "zscore") zScoreCommand 3
  ].
  (* command.go:95-103 *)
  Definition lookupCommand (name : bytes) : option command :=
    snd <$> list_find (λ c, cmd_name c = name) commandTable.

  (** * The log *)
  (* aof.go:76-92 *)
  Definition catAppendOnlyGenericCommand (args : list bytes) : bytes :=
    "*"%char :: itoa (zlen args) ++ CRLF ++
    concat (map (λ a, "$"%char :: itoa (zlen a) ++ CRLF ++ a ++ CRLF) args).
  (* aof.go:61-73: log.Fatal when args[2] is no number; args[0] and args[2] are
     replaced *)
  Definition catAppendOnlyExpireCommand (args : list bytes) : res bytes :=
    a ← deref (args !! 2%nat);
    expireInt ← deref (Atoi a);
    Ok (catAppendOnlyGenericCommand
          (<[2%nat := itoa (wrap64 (e_unix E + expireInt))]> (<[0%nat := B "expireat"]> args))).
  (* aof.go:29-57 *)
  Definition feedAppendOnlyFile (s : server) (name : bytes) (dbID : Z) (args : list bytes) : res server :=
    let pre := if s_select s =? dbID then []
               else catAppendOnlyGenericCommand [B "select"; itoa dbID] in
    body ← (if decide (name = B "expire") then catAppendOnlyExpireCommand args
            else if decide (name = B "setex") then
              k ← deref (args !! 1%nat); n ← deref (args !! 2%nat); v ← deref (args !! 3%nat);
              x ← catAppendOnlyExpireCommand [B "expireat"; k; n];
              Ok (catAppendOnlyGenericCommand [B "set"; k; v] ++ x)
            else Ok (catAppendOnlyGenericCommand args));
    let aofStr := pre ++ body in
    Ok (set_log s dbID (s_aofbuf s ++ aofStr)
                (if s_task s then s_rwbuf s ++ aofStr else s_rwbuf s)).

  (** * Execution *)
  (* command.go:130-142 *)
  Definition call (cmd : command) (args : list bytes) : M unit :=
    s ← get_srv;
    let dirty := s_dirty s in
    _ ← cmd_proc cmd args;
    s ← get_srv;
    if e_aof E && negb (s_dirty s - dirty =? 0) then
      c ← get_cl;
      s ← lift (feedAppendOnlyFile s (cmd_name cmd) (Z.of_nat (c_db c)) args);
      put_srv s
    else ret tt.
  Definition bad_arity (arity : Z) (args : list bytes) : bool :=
    ((0 <? arity) && negb (zlen args =? arity)) || (zlen args <? - arity).
  (* command.go:105-127; client.reset() belongs to the request parser *)
  Definition processCommand (args : list bytes) : M unit :=
    a ← arg args 0;
    let cmdName := lib_lower (e_lib E) a in
    match lookupCommand cmdName with
    | None => addReplyError (B "unknown command")
    | Some cmd =>
        if bad_arity (cmd_arity cmd) args then addReplyError (B "wrong number of arguments") else
        c ← get_cl;
        if negb (bool_decide (e_password E = [])) && negb (c_auth c) && negb (bool_decide (cmdName = B "auth"))
        then addReplyError (B "operation not permitted")
        else call cmd args
    end.

  (** * Background expiry *)
  (* server.go:277-294, [n] rounds on one database *)
  Fixpoint expire_rounds (n : nat) (db : database) (rs : list Z) : res (database * list Z) :=
    match n with
    | O => Ok (db, rs)
    | S n =>
        r ← GetRandomKey Hash (db_expire db) rs;
        let '(x, o, rs) := r in
        match o with
        | None => Ok (DB (db_dict db) x, rs)
        | Some (key, when) =>
            if when <? e_now E then
              d' ← Delete Hash (db_dict db) key;
              x' ← Delete Hash x key;
              expire_rounds n (DB d'.1 x'.1) rs
            else expire_rounds n (DB (db_dict db) x) rs
        end
    end.
  (* server.go:21-26 *)
  Definition checkExpireEntryCount : nat := 100.
  (* server.go:274-296 *)
  Fixpoint databasesCron (dbs : list database) (rs : list Z) : res (list database * list Z) :=
    match dbs with
    | [] => Ok ([], rs)
    | db :: dbs =>
        r ← expire_rounds checkExpireEntryCount db rs;
        r' ← databasesCron dbs r.2;
        Ok (r.1 :: r'.1, r'.2)
    end.
End commands.
