(** The running server: the event loop (ae.Main), the connections and their
    handlers: server/server.go, server/client.go, the part of server/aof.go that
    runs in the main goroutine.

    A history is a list of actions ([act]).  One action is one piece of work of the
    main goroutine (flush, wait, one time event, one file event), or one step of a
    background goroutine, and carries what the environment answers: the clock, the
    ready descriptors, the results of accept, read and write, the random numbers.
    [lstep] is [OutOfFuel] for an action that cannot happen in the state.

    Ghost components: [l_hist], the same history in terms of SystemModel.v;
    [l_trace], what happened, for the specification; [l_bg]; [l_synced].

    Simplifications.
    - addReply registers the writable event when the first reply is queued; the
      model does it when the command is over (nothing reads the table before).  If
      the registration failed the command would fail; then [OStuck] is recorded
      (PropsLoop.v proves that this does not occur).
    - A descriptor that is not open is not opened by another goroutine between two
      handlers: read and write on it fail.
    - fsync and write on the log file do not fail (the process would exit).
    - appendfsync everysec and no: fsync happens at arbitrary moments ([ASync]).
    - [ADone dump]: rewriteAppendOnlyFile has written [dump] to its temporary file. *)
From Verif Require Import Base Float DictModel DatabaseModel SetModel QuicklistModel SkiplistModel ZsetModel
  Strconv RespSpec RespModel ServerModel CommandModel SystemModel EventModel.

(** configuration: config.go:36-45 *)
Record lconfig := LCfg {
  lc_sys : SystemModel.config;
  lc_always : bool;          (* appendfsync always *)
  lc_percent : Z;            (* auto-aof-rewrite-percentage *)
  lc_min : Z;                (* auto-aof-rewrite-min-size *)
  (* the log found at the start, the clock while it is loaded, the random numbers *)
  lc_log : option (bytes * (nat → Z) * list Z)
}.

(** what the rest of a connection consists of (client.go:28-41); db, authenticated
    and replayHead are in [y_cls], at the same position *)
Record net := Net { n_fd : Z; n_parser : pclient; n_sent : Z (* sentLen *) }.

(** what happened, seen from outside *)
Inductive obs :=
| OConnect (i : nat) (fd : Z)
| OCmd (i : nat) (args : list bytes) (queued logged : bytes)   (* bytes added to the reply queue and to aofBuf *)
| OWrite (i : nat) (b : bytes)                                 (* bytes accepted by write(2) *)
| OFree (i : nat)
| OWait
| OFlush (file : bytes) (synced : Z)                            (* beforeSleep is over: the log file, and how much of it is on disk *)
| ORewrite                                                     (* the rewriting goroutine was started *)
| OBoot (file : bytes)                                         (* the server was started from this log *)
| OReplace (file : bytes)                                      (* the log was replaced by this file *)
| OStuck (i : nat).

(** position of the main goroutine in ae.Main (ae.go:164-181) *)
Inductive pc := PSleep | PWait | PRun (tes : list tevent) (fes : list fevent).

Record lstate := L {
  l_sys : sys;
  l_net : list net;
  l_clients : gmap Z nat;    (* srv.clients: descriptor -> position *)
  l_loop : loop;
  l_kernel : kernel;
  l_pc : pc;
  l_cur : Z;                 (* aofCurrentSize *)
  l_base : Z;                (* aofRewriteBaseSize *)
  l_done : list bytes;       (* aofRewriteDoneCh: the file, by its contents *)
  l_bg : nat;                (* ghost: rewriting goroutines at work *)
  l_synced : Z;              (* ghost: bytes of the log file known to be on disk *)
  l_hist : list event;       (* ghost *)
  l_trace : list obs         (* ghost, oldest first *)
}.
Definition set_sys (l : lstate) (y : sys) (h : list event) : lstate :=
  L y (l_net l) (l_clients l) (l_loop l) (l_kernel l) (l_pc l) (l_cur l) (l_base l) (l_done l) (l_bg l) (l_synced l) (l_hist l ++ h) (l_trace l).
Definition set_net (l : lstate) (i : nat) (n : net) : lstate :=
  L (l_sys l) (<[i := n]> (l_net l)) (l_clients l) (l_loop l) (l_kernel l) (l_pc l) (l_cur l) (l_base l) (l_done l) (l_bg l) (l_synced l) (l_hist l) (l_trace l).
Definition set_clients (l : lstate) (cs : gmap Z nat) : lstate :=
  L (l_sys l) (l_net l) cs (l_loop l) (l_kernel l) (l_pc l) (l_cur l) (l_base l) (l_done l) (l_bg l) (l_synced l) (l_hist l) (l_trace l).
Definition set_loop (l : lstate) (el : loop) (k : kernel) : lstate :=
  L (l_sys l) (l_net l) (l_clients l) el k (l_pc l) (l_cur l) (l_base l) (l_done l) (l_bg l) (l_synced l) (l_hist l) (l_trace l).
Definition set_pc (l : lstate) (p : pc) : lstate :=
  L (l_sys l) (l_net l) (l_clients l) (l_loop l) (l_kernel l) p (l_cur l) (l_base l) (l_done l) (l_bg l) (l_synced l) (l_hist l) (l_trace l).
Definition set_sizes (l : lstate) (cur base synced : Z) : lstate :=
  L (l_sys l) (l_net l) (l_clients l) (l_loop l) (l_kernel l) (l_pc l) cur base (l_done l) (l_bg l) synced (l_hist l) (l_trace l).
Definition set_bg (l : lstate) (done : list bytes) (n : nat) : lstate :=
  L (l_sys l) (l_net l) (l_clients l) (l_loop l) (l_kernel l) (l_pc l) (l_cur l) (l_base l) done n (l_synced l) (l_hist l) (l_trace l).
Definition see (l : lstate) (o : obs) : lstate :=
  L (l_sys l) (l_net l) (l_clients l) (l_loop l) (l_kernel l) (l_pc l) (l_cur l) (l_base l) (l_done l) (l_bg l) (l_synced l) (l_hist l) (l_trace l ++ [o]).

(** handlers by number: acceptTCPHandler, and the two handlers of a client *)
Inductive handler := HAccept | HRead (i : nat) | HSend (i : nat).
Definition h_accept : nat := 0.
Definition h_read (i : nat) : nat := S (2 * i).
Definition h_send (i : nat) : nat := S (S (2 * i)).
Definition handler_of (n : nat) : handler :=
  match n with
  | O => HAccept
  | S n => if Nat.even n then HRead (Nat.div2 n) else HSend (Nat.div2 n)
  end.

(** what happens before Main is entered: the log is loaded (server.go:85-98, 134-136) *)
Definition born (cf : lconfig) : list event :=
  match lc_log cf with
  | Some (file, clock, rs) => if cf_aof (lc_sys cf) then [EvBoot file clock rs] else []
  | None => []
  end.
Definition born_obs (e : event) : obs := match e with EvBoot file _ _ => OBoot file | _ => OWait end.
(* server.go:65-138: the state in which Main is entered; if the log cannot be loaded
   the process has ended (see [lreach]).  The log is on disk; aofRewriteBaseSize is 0.
   BGREWRITEAOF in the log starts a rewrite. *)
Definition linit (cf : lconfig) (lfd now : Z) : lstate :=
  let '(el, k, _) := AddFileEvent lfd TypeFileEventReadable h_accept NewEventLoop (K {[lfd]} ∅) in
  let y := match run (lc_sys cf) (born cf) (init_sys (lc_sys cf)) with Ok y => y | _ => init_sys (lc_sys cf) end in
  let task := s_task (y_srv y) in
  L y [] ∅ (AddTimeEvent false 1 now el) k PSleep (zlen (y_file y)) 0 [] (if task then 1 else 0) (zlen (y_file y))
    (born cf) ((born_obs <$> born cf) ++ if task then [ORewrite] else []).

(** a step of SystemModel.v *)
Definition do_sys (cf : lconfig) (e : event) (l : lstate) : res lstate :=
  y ← step (lc_sys cf) e (l_sys l); Ok (set_sys l y [e]).

(* client.go:182-196 *)
Definition free (i : nat) (fd : Z) (l : lstate) : lstate :=
  let '(el, k, _) := RemoveFileEvent fd TypeFileEventReadable (l_loop l) (l_kernel l) in
  let '(el, k, _) := RemoveFileEvent fd TypeFileEventWritable el k in
  see (set_loop (set_clients l (delete fd (l_clients l))) el (k_close fd k)) (OFree i).

(** result of accept and SetNonBlock *)
Inductive accept_result := AcFail | AcBlock (fd : Z) | AcOk (fd : Z).
(* server.go:151-177; a new descriptor is not open *)
Definition acceptTCPHandler (cf : lconfig) (a : accept_result) (l : lstate) : res lstate :=
  match a with
  | AcFail => Ok l
  | AcBlock fd => if decide (fd ∈ k_open (l_kernel l)) then OutOfFuel else Ok l
  | AcOk fd =>
      if decide (fd ∈ k_open (l_kernel l)) then OutOfFuel else
      let i := length (l_net l) in
      l ← do_sys cf EvConnect l;
      let l := L (l_sys l) (l_net l ++ [Net fd RespModel.NewClient 0]) (l_clients l) (l_loop l) (EventModel.k_new fd (l_kernel l)) (l_pc l)
                 (l_cur l) (l_base l) (l_done l) (l_bg l) (l_synced l) (l_hist l) (l_trace l ++ [OConnect i fd]) in
      let '(el, k, ok) := AddFileEvent fd TypeFileEventReadable (h_read i) (l_loop l) (l_kernel l) in
      let l := set_loop l el k in
      if ok then Ok (set_clients l (<[fd := i]> (l_clients l))) else Ok (free i fd l)
  end.

(** the step from [l] to [l'] may have started the rewriting goroutine *)
Definition note_rewrite (l l' : lstate) : lstate :=
  if negb (s_task (y_srv (l_sys l))) && s_task (y_srv (l_sys l')) then see (set_bg l' (l_done l') (S (l_bg l'))) ORewrite else l'.
(** the bytes in the reply queue of a client, and the log buffer *)
Definition queue_of (l : lstate) (i : nat) : list bytes := from_option c_out [] (y_cls (l_sys l) !! i).
Definition log_of (l : lstate) : bytes := s_aofbuf (y_srv (l_sys l)).
(* processCommand (command.go:105-127), and addReply (client.go:65-75) as far as it
   concerns the event loop; the result says whether it failed *)
Definition exec_command (cf : lconfig) (i : nat) (now unix : Z) (rs : list Z) (l : lstate) (args : list bytes) : res (lstate * bool) :=
  match l_net l !! i with
  | None => OutOfFuel
  | Some n =>
      l' ← do_sys cf (EvCommand i args now unix rs) l;
      let l' := note_rewrite l l' in      (* BGREWRITEAOF *)
      let l' := see l' (OCmd i args (drop (length (mjoin (queue_of l i))) (mjoin (queue_of l' i))) (drop (length (log_of l)) (log_of l'))) in
      if bool_decide (queue_of l i = []) && negb (bool_decide (queue_of l' i = [])) then
        let '(el, k, ok) := AddFileEvent (n_fd n) TypeFileEventWritable (h_send i) (l_loop l') (l_kernel l') in
        if ok then Ok (set_loop l' el k, false) else Ok (see l' (OStuck i), true)
      else Ok (l', false)
  end.
(* server.go:179-212 *)
Definition readHandler (cf : lconfig) (i : nat) (r : read_result) (now unix : Z) (rs : list Z) (l : lstate) : res lstate :=
  match l_net l !! i with
  | None => OutOfFuel
  | Some n =>
      let r := if decide (n_fd n ∈ k_open (l_kernel l)) then r else RFail in
      x ← readQueryFromClient (exec_command cf i now unix rs) (n_parser n) r l;
      match x.1 with
      | Closed => Ok (free i (n_fd n) x.2)
      | Open p => Ok (set_net x.2 i (Net (n_fd n) p (n_sent n)))
      end
  end.

(** result of write(2) *)
Inductive write_result := WOk (n : Z) | WRetry | WError.
(* server.go:214-249: one entry of [ws] per call of write.  A reply that is empty
   would keep the loop busy for ever: [OutOfFuel] *)
Fixpoint sendHandler (cf : lconfig) (i : nat) (ws : list write_result) (l : lstate) : res lstate :=
  match l_net l !! i with
  | None => OutOfFuel
  | Some n =>
      match queue_of l i with
      | [] =>
          let '(el, k, _) := RemoveFileEvent (n_fd n) TypeFileEventWritable (l_loop l) (l_kernel l) in
          Ok (set_loop l el k)
      | buf :: _ =>
          if n_sent n <? zlen buf then
            match ws with
            | [] => OutOfFuel
            | w :: ws =>
                match (if decide (n_fd n ∈ k_open (l_kernel l)) then w else WError) with
                | WRetry => Ok l
                | WError => Ok (free i (n_fd n) l)
                | WOk m =>
                    if (0 <=? m) && (m <=? zlen buf - n_sent n) then
                      let l := see l (OWrite i (take (Z.to_nat m) (drop (Z.to_nat (n_sent n)) buf))) in
                      let sent := n_sent n + m in
                      if sent =? zlen buf then
                        l ← do_sys cf (EvSent i 1) (set_net l i (Net (n_fd n) (n_parser n) 0));
                        sendHandler cf i ws l
                      else Ok (set_net l i (Net (n_fd n) (n_parser n) sent))
                    else OutOfFuel
                end
            end
          else OutOfFuel
      end
  end.

Definition wrapu64 (z : Z) : Z := z mod 2 ^ 64.
(* rewriteAppendOnlyFileBackground (aof.go:218-229) *)
Definition start_rewrite (cf : lconfig) (l : lstate) : res lstate :=
  l' ← do_sys cf EvRewrite l;
  Ok (note_rewrite l l').
(* server.go:256-267 *)
Definition growth_check (cf : lconfig) (l : lstate) : bool :=
  negb (s_task (y_srv (l_sys l))) && (lc_percent cf >? 0) && (l_cur l >? lc_min cf) &&
  let base := if l_base l =? 0 then 1 else l_base l in
  let growth := wrapu64 (wrapu64 (l_cur l * 100) / base - 100) in
  growth >=? lc_percent cf.
(* aofRewriteDoneCallback (aof.go:369-412) *)
Definition done_callback (cf : lconfig) (l : lstate) : res lstate :=
  match l_done l with
  | [] => Ok l
  | dump :: rest =>
      l ← do_sys cf (EvDone dump) l;
      let size := zlen (y_file (l_sys l)) in
      Ok (see (set_sizes (set_bg l rest (l_bg l)) size size (if lc_always cf then size else 0)) (OReplace (y_file (l_sys l))))
  end.
(* server.go:251-272 *)
Definition serverCron (cf : lconfig) (now : Z) (rs : list Z) (l : lstate) : res lstate :=
  l ← do_sys cf (EvCron now rs) l;
  l ← (if growth_check cf l then start_rewrite cf l else Ok l);
  done_callback cf l.
(* aof.go:95-111 *)
Definition flush (cf : lconfig) (l : lstate) : res lstate :=
  let b := log_of l in
  if bool_decide (b = []) then Ok l else
  l ← do_sys cf EvFlush l;
  let cur := l_cur l + zlen b in
  Ok (set_sizes l cur (l_base l) (if lc_always cf then zlen (y_file (l_sys l)) else l_synced l)).

Inductive fact :=
| FAccept (a : accept_result)
| FRead (r : read_result) (now unix : Z) (rs : list Z)
| FSend (ws : list write_result).
Inductive act :=
| AFlush                                       (* beforeSleep *)
| AWait (now : Z) (reported : list (Z * Z))    (* epoll_wait returns *)
| AIntr                                        (* epoll_wait fails *)
| ACron (now : Z) (rs : list Z) (after : Z)
| AFile (f : fact)
| ANext                                        (* all events are processed *)
| ADone (dump : bytes)                         (* rewriting goroutine *)
| ASync.                                       (* syncing goroutine *)

Definition lstep (cf : lconfig) (a : act) (l : lstate) : res lstate :=
  match a, l_pc l with
  (* ae.go:165-168, server.go:298-303 *)
  | AFlush, PSleep => l ← flush cf l; Ok (see (set_pc l PWait) (OFlush (y_file (l_sys l)) (l_synced l)))
  (* ae.go:170, 210-249; every descriptor is reported once *)
  | AWait now reported, PWait =>
      if bool_decide (NoDup reported.*1) then
        Ok (see (set_pc l (PRun (timeEvents now (l_loop l)) (fileEvents (l_loop l) reported))) OWait)
      else OutOfFuel
  | AIntr, PWait => Ok (see (set_pc l (PRun [] [])) OWait)
  (* ae.go:190-200; the only time event is serverCron, it does not touch the time
     events *)
  | ACron now rs after, PRun (te :: tes) fes =>
      l ← serverCron cf now rs l;
      if te_once te then
        let '(el, ok) := RemoveTimeEvent (te_id te) (l_loop l) in
        Ok (set_pc (set_loop l el (l_kernel l)) (if ok then PRun tes fes else PSleep))
      else Ok (set_pc (set_loop l (set_when (te_id te) (after + te_interval te) (l_loop l)) (l_kernel l)) (PRun tes fes))
  (* ae.go:202-204 *)
  | AFile f, PRun [] (fe :: fes) =>
      let l := set_pc l (PRun [] fes) in
      match f, handler_of (fe_data fe) with
      | FAccept a, HAccept => acceptTCPHandler cf a l
      | FRead r now unix rs, HRead i => readHandler cf i r now unix rs l
      | FSend ws, HSend i => sendHandler cf i ws l
      | _, _ => OutOfFuel
      end
  | ANext, PRun [] [] => Ok (set_pc l PSleep)
  (* aof.go:282 *)
  | ADone dump, _ =>
      match l_bg l, l_done l with
      | S n, [] => Ok (set_bg l [dump] n)
      | _, _ => OutOfFuel
      end
  | ASync, _ => Ok (set_sizes l (l_cur l) (l_base l) (zlen (y_file (l_sys l))))
  | _, _ => OutOfFuel
  end.
Fixpoint lrun (cf : lconfig) (acts : list act) (l : lstate) : res lstate :=
  match acts with
  | [] => Ok l
  | a :: acts => l ← lstep cf a l; lrun cf acts l
  end.
(** random numbers are not negative *)
Definition act_ok (a : act) : Prop :=
  match a with
  | ACron _ rs _ | AFile (FRead _ _ _ rs) => Forall (λ r, 0 ≤ r) rs
  | _ => True
  end.
(** the log found at the start, if there is one, can be loaded *)
Definition boots (cf : lconfig) : Prop :=
  Forall (event_ok (lc_sys cf)) (born cf) ∧ ∃ y, run (lc_sys cf) (born cf) (init_sys (lc_sys cf)) = Ok y.
(** reachable states; the bound is the one of SystemModel.v *)
Definition lreach (cf : lconfig) (lfd now : Z) (acts : list act) (l : lstate) : Prop :=
  Forall act_ok acts ∧ (0 < cf_dbs (lc_sys cf))%nat ∧ boots cf ∧ lrun cf acts (linit cf lfd now) = Ok l ∧ Z.of_nat (total (l_hist l)) < 2 ^ 42.
