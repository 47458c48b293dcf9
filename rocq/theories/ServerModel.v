(** State of the server and of one client connection, and the building blocks of
    the commands: server/server.go, server/client.go (replies), server/command.go
    (expireIfNeeded), database/database.go, the get…/get…IfExist helpers.

    Values of a database are strings or pointers to containers.  A container is
    an object of a store [s_heap], its identity is the position in the store; so
    two holders of one pointer see each other's changes.  Nothing is collected.

    Simplifications.
    - One command reads the clock once ([e_now], milliseconds); the conversion of
      EXPIRE for the log reads it again ([e_unix], seconds).
    - Type assertions that cannot fail by typing are absent (Expire holds int64,
      hash values are strings): the errors "expire value is not an integer" and
      the panics of entry.Key.(string) do not occur.
    - addReply does not fail (epoll_ctl succeeds); the registration of the
      writable event is modelled in EventModel.v.
    - The counter dirty is an unbounded integer.
    - Library functions on text that the model does not define are parameters
      ([lib]): lower-casing of the command name, comparison with WITHSCORES,
      float parsing and printing, regular expressions, error texts. *)
From Verif Require Import Base Float DictModel DatabaseModel SetModel QuicklistModel SkiplistModel ZsetModel
  Strconv RespSpec.

(** Go library functions *)
Record lib := Lib {
  lib_lower : bytes → bytes;                       (* strings.ToLower *)
  lib_withscores : bytes → bool;                   (* strings.EqualFold(_, "WITHSCORES") *)
  lib_parse_float : bytes → option float;          (* strconv.ParseFloat(_, 64), None = error *)
  lib_format_float : float → bytes;                (* strconv.FormatFloat(_, 'f', -1, 64) *)
  lib_num_error : bytes → bytes → bytes;           (* NumError.Error() of strconv by function and input *)
  lib_regexp : bytes → option (bytes → bool);      (* regexp.Compile and MatchString *)
  lib_regexp_error : bytes → bytes                 (* text of the error of Compile *)
}.

(** what one command sees from outside: the clock, the library, the configuration
    (server.go:36-63, requirePassword and aofEnable never change) *)
Record env := Env {
  e_lib : lib;
  e_now : Z;        (* time.Now().UnixMilli() *)
  e_unix : Z;       (* time.Now().Unix() in catAppendOnlyExpireCommand *)
  e_password : bytes;
  e_aof : bool
}.

Inductive value := VStr (s : bytes) | VObj (o : nat).
Inductive obj :=
| OHash (d : dict bytes bytes)
| OList (q : quicklist bytes)
| OSet (s : dict bytes unit)
| OZset (z : zset).

(* database/database.go:7-11; the ID is the position in srv.dbs *)
Record database := DB { db_dict : dict bytes value; db_expire : dict bytes Z }.
(* database/database.go:13-19 *)
Definition NewDatabase : database := DB NewDict NewDict.

(* server.go:36-63.  [s_task]: backgroundTaskTypeAtomic = TypeBackgroundTaskAOFRewrite
   (TypeBackgroundTaskRDB is never stored).  [s_snap]: the databases handed to the
   rewriting goroutine. *)
Record server := Srv {
  s_dbs : list database;
  s_heap : list obj;
  s_dirty : Z;
  s_select : Z;             (* aofSelectDBID *)
  s_aofbuf : bytes;
  s_rwbuf : bytes;          (* aofRewriteBuf *)
  s_task : bool;
  s_snap : option (list database)
}.
(* client.go:27-40, the fields used by commands; [c_db] is the ID of client.db;
   [c_out] is replayHead, front first *)
Record client := Cl { c_db : nat; c_auth : bool; c_out : list bytes }.
Record world := W { w_srv : server; w_cl : client; w_rnd : list Z }.

(* server.go:65-107 with dbNum databases *)
Definition NewServer (dbNum : nat) : server :=
  Srv (replicate dbNum NewDatabase) [] 0 0 [] [] false None.
(* client.go:42-50 *)
Definition NewClient : client := Cl 0 false [].

(** * State and panics *)
Definition M (A : Type) : Type := world → res (world * A).
Global Instance M_ret : MRet M := λ A x w, Ok (w, x).
Global Instance M_bind : MBind M := λ A B f m w,
  match m w with Ok (w', a) => f a w' | Panic => Panic | OutOfFuel => OutOfFuel end.
Definition lift {A} (r : res A) : M A := λ w,
  match r with Ok a => Ok (w, a) | Panic => Panic | OutOfFuel => OutOfFuel end.
Definition panic {A} : M A := λ _, Panic.
Definition ret {A} (a : A) : M A := mret a.

Definition get_srv : M server := λ w, Ok (w, w_srv w).
Definition put_srv (s : server) : M unit := λ w, Ok (W s (w_cl w) (w_rnd w), tt).
Definition get_cl : M client := λ w, Ok (w, w_cl w).
Definition put_cl (c : client) : M unit := λ w, Ok (W (w_srv w) c (w_rnd w), tt).
Definition with_rnd {A} (f : list Z → res (A * list Z)) : M A := λ w,
  match f (w_rnd w) with
  | Ok (a, rs) => Ok (W (w_srv w) (w_cl w) rs, a)
  | Panic => Panic
  | OutOfFuel => OutOfFuel
  end.

Definition set_dbs (s : server) (dbs : list database) : server :=
  Srv dbs (s_heap s) (s_dirty s) (s_select s) (s_aofbuf s) (s_rwbuf s) (s_task s) (s_snap s).
Definition set_heap (s : server) (h : list obj) : server :=
  Srv (s_dbs s) h (s_dirty s) (s_select s) (s_aofbuf s) (s_rwbuf s) (s_task s) (s_snap s).
Definition set_dirty (s : server) (n : Z) : server :=
  Srv (s_dbs s) (s_heap s) n (s_select s) (s_aofbuf s) (s_rwbuf s) (s_task s) (s_snap s).
Definition set_log (s : server) (sel : Z) (buf rw : bytes) : server :=
  Srv (s_dbs s) (s_heap s) (s_dirty s) sel buf rw (s_task s) (s_snap s).
Definition set_task (s : server) (t : bool) (sn : option (list database)) : server :=
  Srv (s_dbs s) (s_heap s) (s_dirty s) (s_select s) (s_aofbuf s) (s_rwbuf s) t sn.

(** client.db *)
Definition get_db : M database :=
  c ← get_cl; s ← get_srv; lift (deref (s_dbs s !! c_db c)).
Definition put_db (db : database) : M unit :=
  c ← get_cl; s ← get_srv; put_srv (set_dbs s (<[c_db c := db]> (s_dbs s))).
(** client.db.Dict.F(...) and client.db.Expire.F(...) *)
Definition on_dict {A} (f : dict bytes value → res (dict bytes value * A)) : M A :=
  db ← get_db; r ← lift (f (db_dict db)); _ ← put_db (DB r.1 (db_expire db)); ret r.2.
Definition on_expire {A} (f : dict bytes Z → res (dict bytes Z * A)) : M A :=
  db ← get_db; r ← lift (f (db_expire db)); _ ← put_db (DB (db_dict db) r.1); ret r.2.

(* client.srv.dirty += n *)
Definition add_dirty (n : Z) : M unit := s ← get_srv; put_srv (set_dirty s (s_dirty s + n)).

(* client.args[i] *)
Definition arg (args : list bytes) (i : nat) : M bytes := lift (deref (args !! i)).

(** * Replies *)
(* client.go:65-75 *)
Definition addReply (str : bytes) : M unit :=
  c ← get_cl; put_cl (Cl (c_db c) (c_auth c) (c_out c ++ [str])).
(* client.go:85-87 *)
Definition addReplySimpleString (str : bytes) : M unit := addReply ("+"%char :: str ++ CRLF).
(* client.go:89-91 *)
Definition addReplyBulkString (str : bytes) : M unit :=
  addReply ("$"%char :: itoa (zlen str) ++ CRLF ++ str ++ CRLF).
(* client.go:93-95 *)
Definition addReplyInt (n : Z) : M unit := addReply (":"%char :: itoa n ++ CRLF).
(* client.go:97-103 *)
Definition addReplyError (text : bytes) : M unit := addReply (B "-ERR " ++ text ++ CRLF).
(* client.go:105-107 *)
Definition addReplyOK : M unit := addReply (B "+OK" ++ CRLF).
(* client.go:109-111 *)
Definition addReplyNull : M unit := addReply (B "$-1" ++ CRLF).
(* the header of client.go:118, 148 and 169 *)
Definition addReplyHeader (n : Z) : M unit := addReply ("*"%char :: itoa n ++ CRLF).
Fixpoint addReplyBulks (strs : list bytes) : M unit :=
  match strs with
  | [] => ret tt
  | str :: strs => _ ← addReplyBulkString str; addReplyBulks strs
  end.
(* client.go:117-129 *)
Definition addReplyArrays (strs : list bytes) : M unit :=
  _ ← addReplyHeader (zlen strs); addReplyBulks strs.
(* client.go:113-115 *)
Definition addReplyEmpty : M unit := addReplyArrays [].

(* client.go:152-163; element.Member panics on nil *)
Fixpoint addReplyElements (E : env) (withScore : bool) (es : list (option (bytes * float))) : M unit :=
  match es with
  | [] => ret tt
  | None :: _ => panic
  | Some (m, sc) :: es =>
      _ ← addReplyBulkString m;
      _ ← (if withScore then addReplyBulkString (lib_format_float (e_lib E) sc) else ret tt);
      addReplyElements E withScore es
  end.
(* client.go:131-166; the format verb is part of the text *)
Definition addReplyZsetElements (E : env) (args : list bytes) (es : list (option (bytes * float)))
    (withScoreIndex : nat) : M unit :=
  match args !! withScoreIndex with
  | Some a =>
      if lib_withscores (e_lib E) a then
        _ ← addReplyHeader (zlen es * 2); addReplyElements E true es
      else addReplyError (B "invalid option: %s" ++ a)
  | None => _ ← addReplyHeader (zlen es); addReplyElements E false es
  end.

(** * Keys *)
(* command.go:76-93 *)
Definition expireIfNeeded (E : env) (key : bytes) : M bool :=
  o ← on_expire (λ d, FindEntry Hash d key);
  match o with
  | None => ret false
  | Some (_, when) =>
      if when <? e_now E then
        _ ← on_dict (λ d, Delete Hash d key);
        _ ← on_expire (λ d, Delete Hash d key);
        ret true
      else ret false
  end.

(* commandxxx.go: errNotExist, errWrongType (command.go:10-13) *)
Inductive cmd_err := ErrNotExist | ErrWrongType.
Definition err_text (e : cmd_err) : bytes :=
  match e with ErrNotExist => B "not exist" | ErrWrongType => B "wrong type" end.

(** one container type: constructor, type assertion, new object *)
Record kind (X : Type) := Kind { k_in : X → obj; k_out : obj → option X; k_new : X }.
Global Arguments Kind {X}. Global Arguments k_in {X}. Global Arguments k_out {X}. Global Arguments k_new {X}.
Definition KHash : kind (dict bytes bytes) :=
  Kind OHash (λ o, match o with OHash d => Some d | _ => None end) NewDict.
Definition KList : kind (quicklist bytes) :=
  Kind OList (λ o, match o with OList d => Some d | _ => None end) NewQuicklist.
Definition KSet : kind (dict bytes unit) :=
  Kind OSet (λ o, match o with OSet d => Some d | _ => None end) NewSet.
Definition KZset : kind zset :=
  Kind OZset (λ o, match o with OZset d => Some d | _ => None end) NewZset.

Definition alloc (x : obj) : M nat :=
  s ← get_srv; _ ← put_srv (set_heap s (s_heap s ++ [x])); ret (length (s_heap s)).
Definition load (o : nat) : M obj := s ← get_srv; lift (deref (s_heap s !! o)).
Definition store (o : nat) (x : obj) : M unit :=
  s ← get_srv; put_srv (set_heap s (<[o := x]> (s_heap s))).

(** the assertion that a value of Dict points to a container of one type: the pointer, or failure *)
Definition as_kind {X} (k : kind X) (v : value) : M (option nat) :=
  match v with
  | VStr _ => ret None
  | VObj o => x ← load o; ret (match k_out k x with Some _ => Some o | None => None end)
  end.

(* getHash commandhash.go:132-146, getSet commandset.go:205-219, getZset
   commandzset.go:239-253, getQuickList commandlist.go:159-173.  They differ in
   the container and in the error [wrong] of a failed assertion: getQuickList
   returns errNotExist, the others errWrongType. *)
Definition get_or_new {X} (k : kind X) (wrong : cmd_err) (key : bytes) : M (nat + cmd_err) :=
  v ← on_dict (λ d, Get Hash d key);
  match v with
  | Some v => o ← as_kind k v; ret (match o with Some o => inl o | None => inr wrong end)
  | None =>
      o ← alloc (k_in k (k_new k));
      _ ← on_dict (λ d, Set_ Hash d key (VObj o));
      ret (inl o)
  end.
(* getHashIfExist commandhash.go:148-166, getQuickListIfExist commandlist.go:175-193,
   getSetIfExist commandset.go:221-239, getZsetIfExist commandzset.go:255-273 *)
Definition get_if_exist {X} (E : env) (k : kind X) (key : bytes) : M (nat + cmd_err) :=
  _ ← expireIfNeeded E key;
  v ← on_dict (λ d, Get Hash d key);
  match v with
  | Some v => o ← as_kind k v; ret (match o with Some o => inl o | None => inr ErrWrongType end)
  | None => ret (inr ErrNotExist)
  end.

(** a method call on a container *)
Definition on_obj {X A} (k : kind X) (o : nat) (f : X → res (X * A)) : M A :=
  x ← load o;
  x ← lift (deref (k_out k x));
  r ← lift (f x);
  _ ← store o (k_in k r.1);
  ret r.2.
(** a method call on a container that draws random numbers *)
Definition on_obj_rnd {X A} (k : kind X) (o : nat) (f : X → list Z → res (X * A * list Z)) : M A :=
  x ← load o;
  x ← lift (deref (k_out k x));
  r ← with_rnd (f x);
  _ ← store o (k_in k r.1);
  ret r.2.
