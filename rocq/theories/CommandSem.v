(** Commands on abstract databases.

    A database is a map from keys to values and a map from keys to deadlines;
    hashes are finite maps, sets finite sets.  Lists and sorted sets keep the part
    of their representation that determines the replies of the code (the pages of
    a quicklist, the skiplist of a sorted set), because positional commands do not
    depend on the sequence alone (see C09, C11, C17).  [sem name] relates a
    database to the possible outcomes of a command on it; CommandProofs*.v show
    that the model of the code refines it, and the properties are then proved from
    [sem]. *)
From Verif Require Import Base Float DictModel DatabaseModel SetModel QuicklistModel SkiplistModel ZsetModel
  Strconv RespSpec ServerModel CommandModel.

(** * Replies *)
Inductive reply :=
| RSimple (s : bytes) | RError (s : bytes) | RInt (n : Z) | RBulk (s : bytes) | RNull | RArray (l : list bytes).
Definition enc (r : reply) : bytes :=
  match r with
  | RSimple s => "+"%char :: s ++ CRLF
  | RError s => B "-ERR " ++ s ++ CRLF
  | RInt n => ":"%char :: itoa n ++ CRLF
  | RBulk s => bulk s
  | RNull => B "$-1" ++ CRLF
  | RArray l => encode l
  end.
Definition ROK : reply := RSimple (B "OK").

(** * Values and databases *)
Inductive aval :=
| AStr (s : bytes)
| AHash (h : gmap bytes bytes)
| AList (q : quicklist bytes)
| ASet (s : gset bytes)
| AZset (m : gmap bytes float) (s : skiplist).
Record adb := ADB { a_keys : gmap bytes aval; a_ttl : gmap bytes Z }.
Definition empty_db : adb := ADB ∅ ∅.

(** [Out D r n]: the new database, the reply, the number of changes counted *)
Inductive outcome := Out (D : adb) (r : reply) (n : Z).

Definition expired (E : env) (D : adb) (key : bytes) : Prop :=
  ∃ when, a_ttl D !! key = Some when ∧ when < e_now E.
Global Instance expired_dec E D key : Decision (expired E D key).
Proof.
  unfold expired. destruct (a_ttl D !! key) as [w|] eqn:H.
  - destruct (decide (w < e_now E)); [left; eauto|right; intros (? & [= <-] & ?); lia].
  - right. by intros (? & ? & _).
Defined.
(** the database without the keys X *)
Definition drop_keys (X : gset bytes) (D : adb) : adb :=
  ADB (filter (λ p, p.1 ∉ X) (a_keys D)) (filter (λ p, p.1 ∉ X) (a_ttl D)).
Definition remove_key (key : bytes) (D : adb) : adb := ADB (delete key (a_keys D)) (delete key (a_ttl D)).
(** lazy expiry *)
Definition purge (E : env) (key : bytes) (D : adb) : adb :=
  if decide (expired E D key) then remove_key key D else D.
Definition put_val (key : bytes) (v : aval) (D : adb) : adb := ADB (<[key := v]> (a_keys D)) (a_ttl D).

(** * Containers *)
Record akind (X : Type) := AKind { ak_in : X → aval; ak_out : aval → option X; ak_new : X }.
Global Arguments AKind {X}. Global Arguments ak_in {X}. Global Arguments ak_out {X}. Global Arguments ak_new {X}.
Definition AKHash : akind (gmap bytes bytes) :=
  AKind AHash (λ v, match v with AHash h => Some h | _ => None end) ∅.
Definition AKList : akind (quicklist bytes) :=
  AKind AList (λ v, match v with AList h => Some h | _ => None end) NewQuicklist.
Definition AKSet : akind (gset bytes) :=
  AKind ASet (λ v, match v with ASet h => Some h | _ => None end) ∅.
Definition AKZset : akind (gmap bytes float * skiplist) :=
  AKind (λ p, AZset p.1 p.2) (λ v, match v with AZset m s => Some (m, s) | _ => None end) (∅, NewSkiplist).

Definition RWrong : reply := RError (B "wrong type").

(** a command on an existing container: the key expires first; [none] is the reply
    when the key is missing *)
Definition on_existing {X} (k : akind X) (E : env) (key : bytes) (none : reply)
    (f : X → res (X * reply * Z)) (D : adb) : res outcome :=
  let D1 := purge E key D in
  match a_keys D1 !! key with
  | None => Ok (Out D1 none 0)
  | Some v =>
      match ak_out k v with
      | None => Ok (Out D1 RWrong 0)
      | Some x => y ← f x; let '(x', r, n) := y in Ok (Out (put_val key (ak_in k x') D1) r n)
      end
  end.
(** a command that creates the container; the key does not expire *)
Definition on_new {X} (k : akind X) (wrong : reply) (key : bytes)
    (f : X → res (X * reply * Z)) (D : adb) : res outcome :=
  match a_keys D !! key with
  | None => y ← f (ak_new k); let '(x', r, n) := y in Ok (Out (put_val key (ak_in k x') D) r n)
  | Some v =>
      match ak_out k v with
      | None => Ok (Out D wrong 0)
      | Some x => y ← f x; let '(x', r, n) := y in Ok (Out (put_val key (ak_in k x') D) r n)
      end
  end.
(** a reading command *)
Definition reading {X} (f : X → res reply) (x : X) : res (X * reply * Z) := r ← f x; Ok (x, r, 0).

(** * Hashes *)
Fixpoint hset_all (l : list bytes) (h : gmap bytes bytes) : gmap bytes bytes :=
  match l with
  | f :: v :: l => hset_all l (<[f := v]> h)
  | _ => h
  end.
Definition hdel_all (l : list bytes) (h : gmap bytes bytes) : gmap bytes bytes := foldl (λ h f, delete f h) h l.
Definition grown {A} `{base.Size A} (x y : A) : Z := Z.of_nat (size y) - Z.of_nat (size x).

(** * Sets *)
Definition sadd_all (l : list bytes) (s : gset bytes) : gset bytes := list_to_set l ∪ s.
Definition srem_all (l : list bytes) (s : gset bytes) : gset bytes := s ∖ list_to_set l.

(** * Lists *)
Fixpoint lpush_all (l : list bytes) (q : quicklist bytes) : res (quicklist bytes) :=
  match l with [] => Ok q | x :: l => q' ← PushFront q x; lpush_all l q' end.
Definition rpush_all (l : list bytes) (q : quicklist bytes) : quicklist bytes := foldl PushBack q l.

(** * Sorted sets *)
Notation azset := (gmap bytes float * skiplist)%type.
Definition zadd1 (z : azset) (sc : float) (m : bytes) (rs : list Z) : res (azset * bool * list Z) :=
  match z.1 !! m with
  | Some sc0 =>
      if negb (feq sc sc0) then
        r ← SlDelete z.2 sc m;
        i ← sl_add r.1 sc m rs;
        Ok ((<[m := sc]> z.1, i.1), false, i.2)
      else Ok (z, false, rs)
  | None => i ← sl_add z.2 sc m rs; Ok ((<[m := sc]> z.1, i.1), true, i.2)
  end.
(** ZADD: the pairs up to the first score that does not parse are added *)
Fixpoint zadd_all (E : env) (l : list bytes) (z : azset) (created n : Z) (rs : list Z) : res (azset * reply * Z) :=
  match l with
  | [] => Ok (z, RInt created, n)
  | a :: l =>
      match lib_parse_float (e_lib E) a with
      | None => Ok (z, RError (invalid (B "score") a (lib_num_error (e_lib E) (B "ParseFloat") a)), n)
      | Some sc =>
          match l with
          | [] => Panic
          | m :: l =>
              r ← zadd1 z sc m rs;
              let '(z, new, rs) := r in
              zadd_all E l z (if new : bool then created + 1 else created) (n + 1) rs
          end
      end
  end.
Definition zdel1 (z : azset) (m : bytes) : res (azset * bool) :=
  match z.1 !! m with
  | None => Ok (z, false)
  | Some sc => r ← SlDelete z.2 sc m; Ok ((delete m z.1, r.1), true)
  end.
Fixpoint zrem_all (l : list bytes) (z : azset) (n : Z) : res (azset * Z) :=
  match l with
  | [] => Ok (z, n)
  | m :: l => r ← zdel1 z m; zrem_all l r.1 (if r.2 : bool then n + 1 else n)
  end.
Fixpoint zelems (m : gmap bytes float) (s : skiplist) (ids : list nat) : res (list (option (bytes * float))) :=
  match ids with
  | [] => Ok []
  | x :: ids =>
      nd ← node s x;
      r ← zelems m s ids;
      Ok (((λ sc, (n_member nd, sc)) <$> m !! n_member nd) :: r)
  end.
Fixpoint zelems_delete (m : gmap bytes float) (s : skiplist) (ids : list nat)
    : res (gmap bytes float * list (option (bytes * float))) :=
  match ids with
  | [] => Ok (m, [])
  | x :: ids =>
      nd ← node s x;
      r ← zelems_delete (delete (n_member nd) m) s ids;
      Ok (r.1, ((λ sc, (n_member nd, sc)) <$> m !! n_member nd) :: r.2)
  end.
(** the array of a range reply; a nil element panics *)
Fixpoint zarray (E : env) (withScore : bool) (es : list (option (bytes * float))) : res (list bytes) :=
  match es with
  | [] => Ok []
  | None :: _ => Panic
  | Some (m, sc) :: es =>
      l ← zarray E withScore es;
      Ok (if withScore then m :: lib_format_float (e_lib E) sc :: l else m :: l)
  end.
Definition zreply (E : env) (args : list bytes) (es : list (option (bytes * float))) : res reply :=
  match args !! 4%nat with
  | None => l ← zarray E false es; Ok (RArray l)
  | Some a =>
      if lib_withscores (e_lib E) a then l ← zarray E true es; Ok (RArray l)
      else Ok (RError (B "invalid option: %s" ++ a))
  end.
Definition zrange (z : azset) (start stop : Z) : res (list (option (bytes * float))) :=
  ids ← RangeByRank z.2 (wrap64 (start + 1)) (wrap64 (last_rank (MkZset NewDict z.2) stop + 1)) false;
  zelems z.1 z.2 ids.
Definition zrangebyscore (z : azset) (min max : float) : res (list (option (bytes * float))) :=
  ids ← RangeByScore z.2 min max (-1) false; zelems z.1 z.2 ids.
Definition zremrange (del : skiplist → res (skiplist * list nat)) (z : azset) : res (azset * reply * Z) :=
  r ← del z.2;
  e ← zelems_delete z.1 r.1 r.2;
  Ok ((e.1, r.1), RInt (zlen e.2), zlen e.2).

(** * Set algebra over keys: the set at a key after expiry, None if missing *)
Definition set_at (D : adb) (key : bytes) : option (gset bytes + unit) :=
  match a_keys D !! key with
  | None => None
  | Some (ASet s) => Some (inl s)
  | Some _ => Some (inr tt)
  end.
(** SDIFF and SUNION: (database, inl result or inr error) *)
Fixpoint set_fold (op : gset bytes → gset bytes → gset bytes) (E : env) (s : gset bytes) (keys : list bytes) (D : adb)
    : adb * (gset bytes + reply) :=
  match keys with
  | [] => (D, inl s)
  | key :: keys =>
      let D1 := purge E key D in
      match set_at D1 key with
      | None => set_fold op E s keys D1
      | Some (inl s2) => set_fold op E (op s s2) keys D1
      | Some (inr _) => (D1, inr RWrong)
      end
  end.
Fixpoint inter_fold (E : env) (s : gset bytes) (keys : list bytes) (D : adb) : adb * (gset bytes + reply) :=
  match keys with
  | [] => (D, inl s)
  | key :: keys =>
      let D1 := purge E key D in
      match set_at D1 key with
      | None => (D1, inr (RArray []))
      | Some (inl s2) => inter_fold E (s ∩ s2) keys D1
      | Some (inr _) => (D1, inr RWrong)
      end
  end.
(** a reply with the members of a set, in some order *)
Definition members_reply (s : gset bytes) (r : reply) : Prop := ∃ l, r = RArray l ∧ l ≡ₚ base.elements s.
Definition set_algebra (fold : env → gset bytes → list bytes → adb → adb * (gset bytes + reply))
    (E : env) (key : bytes) (keys : list bytes) (D : adb) (o : res outcome) : Prop :=
  let D1 := purge E key D in
  match set_at D1 key with
  | None => o = Ok (Out D1 (RArray []) 0)
  | Some (inr _) => o = Ok (Out D1 RWrong 0)
  | Some (inl s) =>
      let y := fold E s keys D1 in
      match y.2 with
      | inl s => ∃ r, members_reply s r ∧ o = Ok (Out y.1 r 0)
      | inr r => o = Ok (Out y.1 r 0)
      end
  end.

(** * Numbers among the arguments *)
Definition num_err (E : env) (what f a : bytes) : reply :=
  RError (invalid what a (lib_num_error (e_lib E) f a)).
Definition ms (n : Z) : Z := wrap64 (n * 1000).

Definition ints (E : env) (a b w1 w2 : bytes) (D : adb) (k : Z → Z → res outcome) : res outcome :=
  match Atoi a with
  | None => Ok (Out D (num_err E w1 (B "ParseInt") a) 0)
  | Some x => match Atoi b with
              | None => Ok (Out D (num_err E w2 (B "ParseInt") b) 0)
              | Some y => k x y
              end
  end.
Definition floats (E : env) (a b w1 w2 : bytes) (D : adb) (k : float → float → res outcome) : res outcome :=
  match lib_parse_float (e_lib E) a with
  | None => Ok (Out D (num_err E w1 (B "ParseFloat") a) 0)
  | Some x => match lib_parse_float (e_lib E) b with
              | None => Ok (Out D (num_err E w2 (B "ParseFloat") b) 0)
              | Some y => k x y
              end
  end.

(** * The commands *)
Section sem.
  Variable E : env.
  Notation args_rel := (list bytes → adb → res outcome → Prop).
  Definition fn (f : list bytes → adb → option (res outcome)) : args_rel := λ args D o, f args D = Some o.

  Definition sem_expire (at_ : Z → Z) : args_rel := fn (λ args D,
    match args with
    | _ :: key :: a :: _ => Some (Ok
        match Atoi a with
        | None => Out D (num_err E (B "expire") (B "ParseInt") a) 0
        | Some n => Out (ADB (a_keys D) (<[key := at_ n]> (a_ttl D))) ROK 1
        end)
    | _ => None
    end).
  Definition sem_ttl : args_rel := fn (λ args D,
    match args with
    | _ :: key :: _ => Some (Ok (Out D (RInt
        match a_keys D !! key, a_ttl D !! key with
        | None, _ => -2
        | _, None => -1
        | _, Some when => Z.quot (wrap64 (when - e_now E)) 1000
        end) 0))
    | _ => None
    end).
  Definition pattern_of (p : bytes) : option (bytes → bool) :=
    if decide (p = B "*") then Some (λ _, true) else lib_regexp (e_lib E) p.
  Definition sem_keys : args_rel := λ args D o,
    match args with
    | _ :: p :: _ =>
        match pattern_of p with
        | None =>
            o = Ok (Out D (if decide (a_keys D = ∅) then RArray []
                           else RError (invalid (B "pattern") p (lib_regexp_error (e_lib E) p))) 0)
        | Some f =>
            ∃ l, NoDup l ∧ (∀ k, k ∈ l ↔ is_Some (a_keys D !! k) ∧ f k = true ∧ ¬ expired E D k) ∧
              o = Ok (Out (drop_keys (filter (λ k, f k = true ∧ expired E D k) (dom (a_keys D))) D) (RArray l) 0)
        end
    | _ => False
    end.
  Definition sem_set : args_rel := fn (λ args D,
    match args with
    | _ :: key :: v :: _ => Some (Ok (Out (ADB (<[key := AStr v]> (a_keys D)) (delete key (a_ttl D))) ROK 1))
    | _ => None
    end).
  Definition sem_setex : args_rel := fn (λ args D,
    match args with
    | _ :: key :: a :: v :: _ => Some (Ok
        match Atoi a with
        | None => Out D (num_err E (B "expire") (B "ParseInt") a) 0
        | Some n => Out (ADB (<[key := AStr v]> (a_keys D)) (<[key := wrap64 (e_now E + ms n)]> (a_ttl D))) ROK 1
        end)
    | _ => None
    end).
  Definition sem_get : args_rel := fn (λ args D,
    match args with
    | _ :: key :: _ =>
        let D1 := purge E key D in
        Some (Ok (Out D1 match a_keys D1 !! key with
                         | None => RNull
                         | Some (AStr s) => RBulk s
                         | Some _ => RError (B "value is not a string")
                         end 0))
    | _ => None
    end).
  (** some expired keys are removed on the way *)
  Definition sem_randomget : args_rel := λ args D o,
    o = OutOfFuel ∨
    ∃ X, (∀ k, k ∈ X → expired E D k) ∧
      let D1 := drop_keys X D in
      (a_keys D1 = ∅ ∧ o = Ok (Out D1 RNull 0) ∨
       ∃ k, is_Some (a_keys D1 !! k) ∧ ¬ expired E D1 k ∧ o = Ok (Out D1 (RBulk k) 0)).

  Definition sem_hset : args_rel := fn (λ args D,
    match args with
    | _ :: key :: l =>
        Some (if negb (zlen args mod 2 =? 0)
              then Ok (Out D (RError (B "wrong number of arguments for 'hset' command")) 0)
              else on_new AKHash RWrong key
                     (λ h, Ok (hset_all l h, RInt (grown h (hset_all l h)), zlen l / 2)) D)
    | _ => None
    end).
  Definition sem_hget : args_rel := fn (λ args D,
    match args with
    | _ :: key :: f :: _ => Some (on_existing AKHash E key RNull
        (reading (λ h, Ok match h !! f with None => RNull | Some v => RBulk v end)) D)
    | _ => None
    end).
  Definition sem_hdel : args_rel := fn (λ args D,
    match args with
    | _ :: key :: l => Some (on_existing AKHash E key (RInt 0)
        (λ h, let n := grown (hdel_all l h) h in Ok (hdel_all l h, RInt n, n)) D)
    | _ => None
    end).
  Definition sem_hexists : args_rel := fn (λ args D,
    match args with
    | _ :: key :: f :: _ => Some (on_existing AKHash E key (RInt 0)
        (reading (λ h, Ok (RInt match h !! f with None => 0 | Some _ => 1 end))) D)
    | _ => None
    end).
  Definition sem_hkeys : args_rel := λ args D o,
    match args with
    | _ :: key :: _ =>
        let D1 := purge E key D in
        match a_keys D1 !! key with
        | None => o = Ok (Out D1 (RArray []) 0)
        | Some (AHash h) => ∃ r, members_reply (dom h) r ∧ o = Ok (Out D1 r 0)
        | Some _ => o = Ok (Out D1 RWrong 0)
        end
    | _ => False
    end.
  Definition sem_hlen : args_rel := fn (λ args D,
    match args with
    | _ :: key :: _ => Some (on_existing AKHash E key (RInt 0)
        (reading (λ h, Ok (RInt (Z.of_nat (size h))))) D)
    | _ => None
    end).

  Definition sem_push (all : list bytes → quicklist bytes → res (quicklist bytes)) : args_rel := fn (λ args D,
    match args with
    | _ :: key :: l => Some (on_new AKList (RError (B "not exist")) key
        (λ q, q' ← all l q; Ok (q', RInt (Len q'), zlen l)) D)
    | _ => None
    end).
  Definition sem_pop (pop : quicklist bytes → res (quicklist bytes * option bytes)) : args_rel := fn (λ args D,
    match args with
    | _ :: key :: _ => Some (on_existing AKList E key RNull
        (λ q, if Len q =? 0 then Ok (q, RNull, 0) else
              r ← pop q; v ← deref r.2; Ok (r.1, RBulk v, 1)) D)
    | _ => None
    end).
  Definition sem_llen : args_rel := fn (λ args D,
    match args with
    | _ :: key :: _ => Some (on_existing AKList E key (RInt 0) (reading (λ q, Ok (RInt (Len q)))) D)
    | _ => None
    end).
  Definition sem_lindex : args_rel := fn (λ args D,
    match args with
    | _ :: key :: a :: _ => Some (on_existing AKList E key RNull
        (reading (λ q,
          match Atoi a with
          | None => Ok (num_err E (B "index") (B "Atoi") a)
          | Some i => v ← QGet q i; Ok match v with None => RNull | Some v => RBulk v end
          end)) D)
    | _ => None
    end).
  Definition sem_lrange : args_rel := fn (λ args D,
    match args with
    | _ :: key :: a :: b :: _ => Some (on_existing AKList E key (RArray [])
        (reading (λ q,
          match Atoi a with
          | None => Ok (num_err E (B "start") (B "Atoi") a)
          | Some i =>
              match Atoi b with
              | None => Ok (num_err E (B "stop") (B "Atoi") b)
              | Some j => vs ← QRange q i j; Ok match vs with None => RNull | Some vs => RArray vs end
              end
          end)) D)
    | _ => None
    end).

  Definition sem_sadd : args_rel := fn (λ args D,
    match args with
    | _ :: key :: l => Some (on_new AKSet RWrong key
        (λ s, Ok (sadd_all l s, RInt (grown s (sadd_all l s)), zlen l)) D)
    | _ => None
    end).
  Definition sem_srem : args_rel := fn (λ args D,
    match args with
    | _ :: key :: l => Some (on_existing AKSet E key (RInt 0)
        (λ s, let n := grown (srem_all l s) s in Ok (srem_all l s, RInt n, n)) D)
    | _ => None
    end).
  Definition sem_spop : args_rel := λ args D o,
    match args with
    | _ :: key :: _ =>
        let D1 := purge E key D in
        match set_at D1 key with
        | None => o = Ok (Out D1 RNull 0)
        | Some (inr _) => o = Ok (Out D1 RWrong 0)
        | Some (inl s) =>
            s = ∅ ∧ o = Ok (Out D1 RNull 0) ∨
            s ≠ ∅ ∧ (o = OutOfFuel ∨
                     ∃ m, m ∈ s ∧ o = Ok (Out (put_val key (ASet (s ∖ {[m]})) D1) (RBulk m) 1))
        end
    | _ => False
    end.
  Definition sem_scard : args_rel := fn (λ args D,
    match args with
    | _ :: key :: _ => Some (on_existing AKSet E key (RInt 0)
        (reading (λ s, Ok (RInt (Z.of_nat (size s))))) D)
    | _ => None
    end).
  Definition sem_sismember : args_rel := fn (λ args D,
    match args with
    | _ :: key :: m :: _ => Some (on_existing AKSet E key (RInt 0)
        (reading (λ s, Ok (RInt (if decide (m ∈ s) then 1 else 0)))) D)
    | _ => None
    end).
  Definition sem_algebra fold : args_rel := λ args D o,
    match args with _ :: key :: keys => set_algebra fold E key keys D o | _ => False end.
  Definition sem_smembers : args_rel := λ args D o,
    match args with _ :: key :: _ => set_algebra (λ _ s _ D, (D, inl s)) E key [] D o | _ => False end.

  Definition sem_zadd : args_rel := λ args D o,
    match args with
    | _ :: key :: l =>
        if negb (zlen args mod 2 =? 0)
        then o = Ok (Out D (RError (B "wrong number of arguments for 'zadd' command")) 0)
        else ∃ rs, Forall (λ r, 0 ≤ r) rs ∧ o = on_new AKZset RWrong key (λ z, zadd_all E l z 0 0 rs) D
    | _ => False
    end.
  Definition sem_zcard : args_rel := fn (λ args D,
    match args with
    | _ :: key :: _ => Some (on_existing AKZset E key (RInt 0) (reading (λ z, Ok (RInt (sl_length z.2)))) D)
    | _ => None
    end).
  Definition sem_zscore : args_rel := fn (λ args D,
    match args with
    | _ :: key :: m :: _ => Some (on_existing AKZset E key RNull
        (reading (λ z, Ok match z.1 !! m with
                          | None => RNull
                          | Some sc => RSimple (lib_format_float (e_lib E) sc)
                          end)) D)
    | _ => None
    end).
  Definition sem_zcount : args_rel := fn (λ args D,
    match args with
    | _ :: key :: a :: b :: _ => Some (floats E a b (B "min") (B "max") D (λ min max,
        on_existing AKZset E key (RInt 0) (reading (λ z, n ← Count z.2 min max; Ok (RInt n))) D))
    | _ => None
    end).
  Definition sem_zrange : args_rel := fn (λ args D,
    match args with
    | _ :: key :: a :: b :: _ => Some (ints E a b (B "start") (B "stop") D (λ start stop,
        on_existing AKZset E key RNull (reading (λ z, es ← zrange z start stop; zreply E args es)) D))
    | _ => None
    end).
  Definition sem_zrangebyscore : args_rel := fn (λ args D,
    match args with
    | _ :: key :: a :: b :: _ => Some (floats E a b (B "start") (B "start") D (λ min max,
        on_existing AKZset E key RNull (reading (λ z, es ← zrangebyscore z min max; zreply E args es)) D))
    | _ => None
    end).
  Definition sem_zrem : args_rel := fn (λ args D,
    match args with
    | _ :: key :: l => Some (on_existing AKZset E key (RInt 0)
        (λ z, r ← zrem_all l z 0; Ok (r.1, RInt r.2, r.2)) D)
    | _ => None
    end).
  Definition sem_zremrangebyrank : args_rel := fn (λ args D,
    match args with
    | _ :: key :: a :: b :: _ => Some (ints E a b (B "start") (B "start") D (λ start stop,
        on_existing AKZset E key (RInt 0) (λ z, zremrange (λ s,
          DeleteRangeByRank s (wrap64 (start + 1)) (wrap64 (last_rank (MkZset NewDict s) stop + 1))) z) D))
    | _ => None
    end).
  Definition sem_zremrangebyscore : args_rel := fn (λ args D,
    match args with
    | _ :: key :: a :: b :: _ => Some (floats E a b (B "start") (B "start") D (λ min max,
        on_existing AKZset E key (RInt 0) (λ z, zremrange (λ s, DeleteRangeByScore s min max) z) D))
    | _ => None
    end).

  (** the commands that act on the selected database *)
  Definition semTable : list (bytes * args_rel) := [
    (B "ping", λ args D o, o = Ok (Out D (RSimple (B "PONG")) 0));
    (B "expire", sem_expire (λ n, wrap64 (e_now E + ms n)));
    (B "expireat", sem_expire ms);
    (B "ttl", sem_ttl);
    (B "keys", sem_keys);
    (B "set", sem_set);
    (B "setex", sem_setex);
    (B "get", sem_get);
    (B "randomget", sem_randomget);
    (B "hset", sem_hset);
    (B "hget", sem_hget);
    (B "hdel", sem_hdel);
    (B "hexists", sem_hexists);
    (B "hkeys", sem_hkeys);
    (B "hlen", sem_hlen);
    (B "lpush", sem_push lpush_all);
    (B "rpush", sem_push (λ l q, Ok (rpush_all l q)));
    (B "lpop", sem_pop PopFront);
    (B "rpop", sem_pop PopBack);
    (B "llen", sem_llen);
    (B "lindex", sem_lindex);
    (B "lrange", sem_lrange);
    (B "sadd", sem_sadd);
    (B "srem", sem_srem);
    (B "spop", sem_spop);
    (B "scard", sem_scard);
    (B "sismember", sem_sismember);
    (B "smembers", sem_smembers);
    (B "sdiff", sem_algebra (set_fold (∖)));
    (B "sinter", sem_algebra inter_fold);
    (B "sunion", sem_algebra (set_fold (∪)));
    (B "zadd", sem_zadd);
    (B "zrange", sem_zrange);
    (B "zrangebyscore", sem_zrangebyscore);
    (B "zrem", sem_zrem);
    (B "zremrangebyrank", sem_zremrangebyrank);
    (B "zremrangebyscore", sem_zremrangebyscore);
    (B "zcard", sem_zcard);
    (B "zcount", sem_zcount);
    (B "zscore", sem_zscore)
  ].
  Definition sem (name : bytes) (args : list bytes) (D : adb) (o : res outcome) : Prop :=
    ∃ R, (name, R) ∈ semTable ∧ R args D o.
End sem.
