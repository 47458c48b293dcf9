(** The start of the server: socket/socket.go, server/tcp.go, server/server.go.

    Simplifications.
    - net.ParseIP (Go 1.20, net/ip.go) is transcribed for texts in which the first of
      '.' and ':' is '.'; for the others (IPv6) it is a parameter [ip6].
    - The kernel is a table of open sockets; whether a system call succeeds, and the
      descriptor socket(2) returns, is an answer of the environment.  bind(2) gives the
      socket the address passed, listen(2) makes it accept connections.
    - NewEventLoop, AddFileEvent and the loading of the log are in LoopModel.v
      ([linit]); epoll_create1 succeeds. *)
From Verif Require Import Base Strconv SystemModel LoopModel.

(** * net.ParseIP *)
(* net/parse.go dtoi: the digits at the start of the text; None: no digit or too big *)
Fixpoint dtoi_loop (n : Z) (i : nat) (s : bytes) : option (Z * nat) :=
  match s with
  | c :: s' => match digit_val c with
               | Some d => let n' := n * 10 + d in if 16777215 <=? n' then None else dtoi_loop n' (S i) s'
               | None => Some (n, i)
               end
  | [] => Some (n, i)
  end.
Definition dtoi (s : bytes) : option (Z * nat) :=
  match dtoi_loop 0 0 s with Some (n, S i) => Some (n, S i) | _ => None end.
(* net/ip.go parseIPv4, the loop; [first] is i = 0, [todo] is IPv4len - i *)
Fixpoint parse4 (first : bool) (todo : nat) (s : bytes) : option (list Z) :=
  match todo with
  | O => match s with [] => Some [] | _ => None end
  | S todo =>
    match (match s with
           | [] => None
           | c :: s' => if first then Some s else if (c =? ".")%char then Some s' else None
           end) with
    | None => None
    | Some s =>
      match dtoi s with
      | None => None
      | Some (n, c) =>
        if 255 <? n then None else
        if (1 <? c)%nat && match s with x :: _ => (x =? "0")%char | [] => false end then None else
        match parse4 false todo (drop c s) with Some p => Some (n :: p) | None => None end
      end
    end
  end.
(* net/ip.go IPv4: sixteen bytes, the address in the last four *)
Definition v4InV6Prefix : list Z := replicate 10 0 ++ [255; 255].
Definition parseIPv4 (s : bytes) : option (list Z) :=
  match parse4 true 4 s with Some p => Some (v4InV6Prefix ++ p) | None => None end.
(* net/ip.go ParseIP *)
Fixpoint ip_kind (s : bytes) : option bool :=
  match s with
  | [] => None
  | c :: s' => if (c =? ".")%char then Some true else if (c =? ":")%char then Some false else ip_kind s'
  end.
Definition ParseIP (ip6 : bytes → option (list Z)) (s : bytes) : option (list Z) :=
  match ip_kind s with Some true => parseIPv4 s | Some false => ip6 s | None => None end.

(** * Sockets *)
Record sock := Sock { so_reuse : bool; so_addr : option (list Z * Z); so_backlog : option Z }.
Notation sockets := (gmap Z sock).
(** the answers of the environment: the descriptor of socket(2), and which of
    setsockopt, bind and listen succeed *)
Record answers := Ans { an_socket : option Z; an_opt : bool; an_bind : bool; an_listen : bool }.
Definition SOMAXCONN : Z := 128.
(* copy(addr.Addr[:], ipAddr): addr.Addr is [4]byte *)
Definition copy4 (l : list Z) : list Z := take 4 l ++ replicate (4 - length l) 0.

(* socket.go:12-19; a descriptor that is open is not returned again *)
Definition Socket (an : answers) (k : sockets) : sockets * option Z :=
  match an_socket an with
  | Some fd => match k !! fd with
               | None => (<[fd := Sock false None None]> k, Some fd)
               | Some _ => (k, None)
               end
  | None => (k, None)
  end.
(* socket.go:21-27 *)
Definition Close (fd : Z) (k : sockets) : sockets := delete fd k.
(* socket.go:94-100, with SO_REUSEADDR = 1 *)
Definition SetSockOpt (an : answers) (fd : Z) (k : sockets) : sockets * bool :=
  if an_opt an then (alter (λ s, Sock true (so_addr s) (so_backlog s)) fd k, true) else (k, false).
(* socket.go:44-57 *)
Definition Bind (ip6 : bytes → option (list Z)) (an : answers) (fd : Z) (ip : bytes) (port : Z) (k : sockets) : sockets * bool :=
  match ParseIP ip6 ip with
  | None => (k, false)
  | Some ipAddr =>
    if an_bind an then (alter (λ s, Sock (so_reuse s) (Some (copy4 ipAddr, port)) (so_backlog s)) fd k, true) else (k, false)
  end.
(* socket.go:59-65 *)
Definition Listen (an : answers) (fd : Z) (backlog : Z) (k : sockets) : sockets * bool :=
  if an_listen an then (alter (λ s, Sock (so_reuse s) (so_addr s) (Some backlog)) fd k, true) else (k, false).
(* tcp.go:9-34 *)
Definition CreateTCPServer (ip6 : bytes → option (list Z)) (an : answers) (ip : bytes) (port : Z) (k : sockets) : sockets * option Z :=
  match Socket an k with
  | (k, None) => (k, None)
  | (k, Some fd) =>
    let '(k, ok) := SetSockOpt an fd k in
    if negb ok then (Close fd k, None) else
    let '(k, ok) := Bind ip6 an fd ip port k in
    if negb ok then (Close fd k, None) else
    let '(k, ok) := Listen an fd SOMAXCONN k in
    if negb ok then (Close fd k, None) else
    (k, Some fd)
  end.

(** * NewServer and Run *)
(** the fields of config.Config that matter here *)
Record settings := Settings { st_host : bytes; st_port : Z; st_databases : Z; st_loop : lconfig }.
(* server.go:22, 66-69 *)
Definition defaultDBNum : nat := 16.
Definition db_num (st : settings) : nat :=
  if 0 <? st_databases st then Z.to_nat (st_databases st) else defaultDBNum.
Definition with_dbs (n : nat) (cf : lconfig) : lconfig :=
  LCfg (Cfg (cf_lib (lc_sys cf)) (cf_password (lc_sys cf)) (cf_aof (lc_sys cf)) n)
    (lc_always cf) (lc_percent cf) (lc_min cf) (lc_log cf).
(* server.go:65-149: None: the process exits *)
Definition Start (ip6 : bytes → option (list Z)) (an : answers) (st : settings) (now : Z) (k : sockets) : sockets * option (lconfig * Z * lstate) :=
  match CreateTCPServer ip6 an (st_host st) (st_port st) k with
  | (k, None) => (k, None)
  | (k, Some fd) => let cf := with_dbs (db_num st) (st_loop st) in (k, Some (cf, fd, linit cf fd now))
  end.
