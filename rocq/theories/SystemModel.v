(** The server with any number of connections: server/server.go, server/aof.go.

    A history is a list of events; each event is one atomic piece of work of the
    event loop (one command, one call of databasesCron, …).  The order in which
    the loop performs them is modelled in EventModel.v; here any order is allowed.

    Simplifications.
    - A connection is a position in [y_cls]; a freed client stays in the list and
      is never used again by a real history.
    - Requests arrive parsed (RespModel.v models the parser).
    - [EvDone dump]: the rewriting goroutine has written [dump] and
      aofRewriteDoneCallback (aof.go:369-412) replaces the log; the contents of
      [dump] are modelled in AofModel.v, here they are arbitrary.
    - Writes to the log file succeed (otherwise the process exits).
    - [EvBoot file clock rs]: the process has ended, by a crash or not, and is
      started again with the log [file], which is arbitrary here (what a crash
      leaves of the log is the subject of PropsCrash.v).  All connections are gone.
    - Loading the log: [clock j] is the time (ms) at which its j-th command is
      executed; the replies of the fake client are queued and never sent (fd = -1). *)
From Verif Require Import Base Float DictModel DatabaseModel SetModel QuicklistModel SkiplistModel ZsetModel
  Strconv RespSpec ServerModel CommandModel LoadModel.

(** the configuration and the library *)
Record config := Cfg { cf_lib : lib; cf_password : bytes; cf_aof : bool; cf_dbs : nat }.
Definition env_at (cf : config) (now unix : Z) : env := Env (cf_lib cf) now unix (cf_password cf) (cf_aof cf).

(** * Loading the log *)
(* aof.go:203-210: no arity check, no authorisation, no logging *)
Definition exec_logged (E : env) (args : list bytes) : M unit :=
  a ← arg args 0;
  match lookupCommand E (lib_lower (e_lib E) a) with
  | None => ret tt
  | Some cmd => cmd_proc cmd args
  end.
Definition exec_at (cf : config) (clock : nat → Z) (j : nat) (args : list bytes) (w : world) : res world :=
  r ← exec_logged (env_at cf (clock j) 0) args w; Ok r.1.
(* aof.go:136-213: [s] is the server that loads, the fake client is new *)
Definition loadAppendOnlyFile (cf : config) (clock : nat → Z) (file : bytes) (s : server) (rs : list Z) : loaded world :=
  load_file (exec_at cf clock) file (W s NewClient rs).
(* server.go:65-107 and Run: a restart from the log *)
Definition restart (cf : config) (clock : nat → Z) (file : bytes) (rs : list Z) : loaded world :=
  loadAppendOnlyFile cf clock file (NewServer (cf_dbs cf)) rs.

(** * Histories *)
Record sys := Sys { y_srv : server; y_cls : list client; y_file : bytes }.
Definition init_sys (cf : config) : sys := Sys (NewServer (cf_dbs cf)) [] [].

Inductive event :=
| EvConnect
| EvCommand (i : nat) (args : list bytes) (now unix : Z) (rs : list Z)
| EvSent (i n : nat)
| EvCron (now : Z) (rs : list Z)
| EvFlush
| EvRewrite
| EvDone (dump : bytes)
| EvBoot (file : bytes) (clock : nat → Z) (rs : list Z).

Definition step (cf : config) (e : event) (y : sys) : res sys :=
  match e with
  (* server.go:151-177 *)
  | EvConnect => Ok (Sys (y_srv y) (y_cls y ++ [NewClient]) (y_file y))
  (* processCommand (command.go:105-127) *)
  | EvCommand i args now unix rs =>
      match y_cls y !! i with
      | None => Ok y
      | Some c =>
          r ← processCommand (env_at cf now unix) args (W (y_srv y) c rs);
          Ok (Sys (w_srv r.1) (<[i := w_cl r.1]> (y_cls y)) (y_file y))
      end
  (* sendReplayToClient (server.go:214-249) has written [n] queued replies *)
  | EvSent i n =>
      match y_cls y !! i with
      | None => Ok y
      | Some c => Ok (Sys (y_srv y) (<[i := Cl (c_db c) (c_auth c) (drop n (c_out c))]> (y_cls y)) (y_file y))
      end
  (* databasesCron (server.go:274-296) *)
  | EvCron now rs =>
      r ← databasesCron (env_at cf now 0) (s_dbs (y_srv y)) rs;
      Ok (Sys (set_dbs (y_srv y) r.1) (y_cls y) (y_file y))
  (* flushAppendOnlyFile (aof.go:95-111) *)
  | EvFlush =>
      let s := y_srv y in
      Ok (Sys (set_log s (s_select s) [] (s_rwbuf s)) (y_cls y) (y_file y ++ s_aofbuf s))
  (* rewriteAppendOnlyFileBackground (aof.go:218-229), from serverCron *)
  | EvRewrite => s ← rewriteAppendOnlyFileBackground (y_srv y); Ok (Sys s (y_cls y) (y_file y))
  (* aofRewriteDoneCallback (aof.go:369-412) *)
  | EvDone dump =>
      let s := y_srv y in
      if s_task s then
        Ok (Sys (set_task (set_log s (s_select s) (s_aofbuf s) []) false None) (y_cls y) (dump ++ s_rwbuf s))
      else Ok y
  (* server.go:65-107, 134-136: without appendonly the log is not touched *)
  | EvBoot file clock rs =>
      if cf_aof cf then
        let l := restart cf clock file rs in
        _ ← l.2; Ok (Sys (w_srv l.1) [] file)
      else Ok (Sys (NewServer (cf_dbs cf)) [] file)
  end.
Fixpoint run (cf : config) (evs : list event) (y : sys) : res sys :=
  match evs with
  | [] => Ok y
  | e :: evs => y ← step cf e y; run cf evs y
  end.

(** a log record that the server may have written: commands have an accepted number
    of arguments (the loader does not check it) *)
Definition record_ok (cf : config) (args : list bytes) : Prop :=
  ∀ a cmd, args !! 0%nat = Some a → lookupCommand (env_at cf 0 0) (lib_lower (cf_lib cf) a) = Some cmd →
    bad_arity (cmd_arity cmd) args = false.
(** the records that the loader finds in a file *)
Definition records (file : bytes) : list (list bytes) := (load_file (λ _ args s, Ok (s ++ [args])) file []).1.
(** random numbers are not negative, requests are not empty *)
Definition event_ok (cf : config) (e : event) : Prop :=
  match e with
  | EvCommand _ args _ _ rs => args ≠ [] ∧ Forall (λ r, 0 ≤ r) rs
  | EvCron _ rs => Forall (λ r, 0 ≤ r) rs
  | EvBoot file _ rs => Forall (record_ok cf) (records file) ∧ Forall (λ r, 0 ≤ r) rs
  | _ => True
  end.
Definition is_boot (e : event) : Prop := match e with EvBoot _ _ _ => True | _ => False end.
(** total number of arguments of a history, with those in the logs *)
Definition event_size (e : event) : nat :=
  match e with EvCommand _ args _ _ _ => length args | EvBoot file _ _ => length file | _ => 0 end.
Definition total (evs : list event) : nat := sum_list (event_size <$> evs).
(** the history is small enough for dicts not to exceed the largest table (DictModel.v) *)
Definition history_ok (cf : config) (evs : list event) : Prop :=
  Forall (event_ok cf) evs ∧ (0 < cf_dbs cf)%nat ∧ Z.of_nat (total evs) < 2 ^ 42.
Definition reaches (cf : config) (evs : list event) (y : sys) : Prop :=
  history_ok cf evs ∧ run cf evs (init_sys cf) = Ok y.
