(** The log holds whole records of commands that the server accepts (C59). *)
From Verif Require Import Base Strconv RespSpec DictModel DatabaseModel ServerModel CommandModel LoadModel AofModel SystemModel SystemProofs
  CommandSem CommandTop CommandFrame CommandFacts AofProofs1 AofProofs2 AofProofs4 LoadProofs BootProofs LogProofs ExampleLib PropsCommand PropsAof ExampleTools.
From Coq Require Import ZifyBool ZifyNat.

(** The file, the buffer that is not yet written and the buffer of a running rewrite are
    sequences of whole records: SELECT of an existing database, or a command that changes
    data, with a number of arguments that the server accepts, and with no deadline that is
    relative to the time of execution. *)
Theorem C59_log cf evs y : lower_ok (cf_lib cf) → reaches cf evs y → Forall (own_event cf) evs →
  own_log cf (y_file y) ∧ own_log cf (s_aofbuf (y_srv y)) ∧ own_log cf (s_rwbuf (y_srv y)).
Proof. apply own_history. Qed.
Print Assumptions C59_log.

(** So is the text of a rewrite, whatever databases it copies and whatever it finds in the
    containers when it reads them. *)
Theorem C59_rewrite cf E rd dbs dump : lower_ok (cf_lib cf) → (length dbs ≤ cf_dbs cf)%nat →
  rewriteAppendOnlyFile E rd dbs = Ok dump → own_log cf dump.
Proof. intros Hlow HL HE. by eapply (own_rewrite cf E Hlow rd dbs 0). Qed.
Print Assumptions C59_rewrite.

(** The loader finds these records, as they were written; a log that is cut anywhere (the
    server is killed while it writes) gives the first of them.  So the handlers, which do not
    check the number of arguments, are never called with too few. *)
Theorem C59_restart cf evs y k : lower_ok (cf_lib cf) → reaches cf evs y → Forall (own_event cf) evs →
  let text := y_file y ++ s_aofbuf (y_srv y) in readable text →
  (∃ cmds, text = log_file cmds ∧ Forall (own_record cf) cmds ∧ records (take k text) `prefix_of` cmds ∧ records text = cmds) ∧
  ∀ clock rs, Forall (λ r, 0 ≤ r) rs → event_ok cf (EvBoot (take k text) clock rs).
Proof.
  intros Hlow Hr Hev text Hrd. destruct (C59_log cf evs y Hlow Hr Hev) as (H1 & H2 & _).
  assert (Ho : own_log cf text) by (by apply own_app). split.
  - destruct (own_records cf text k Hlow Ho Hrd) as (n & cmds & Ht & Hc & Hk & _). exists cmds. split; [done|]. split; [done|].
    split; [rewrite Hk; exists (drop n cmds); by rewrite take_drop|].
    destruct (own_records cf text (length text) Hlow Ho Hrd) as (n' & cmds' & Ht' & _ & Hk' & Hall).
    rewrite take_ge in Hk' by done. rewrite Hk', Hall by done. apply log_file_inj. congruence.
  - intros clock rs Hrs. split; [by apply own_boot|done].
Qed.
Print Assumptions C59_restart.

(** The same when the server is killed while it installs a rewritten log. *)
Theorem C59_install cf evs y dump disk : lower_ok (cf_lib cf) → reaches cf evs y → Forall (own_event cf) evs → own_event cf (EvDone dump) →
  let rw := s_rwbuf (y_srv y) in
  readable (y_file y) → readable dump → readable (dump ++ rw) → done_disk (y_file y) dump rw disk →
  ∀ clock rs, Forall (λ r, 0 ≤ r) rs → event_ok cf (EvBoot disk clock rs).
Proof.
  intros Hlow Hr Hev (E & rd & dbs & HL & HE) rw R1 R2 R3 Hd clock rs Hrs. split; [|done].
  destruct (C59_log cf evs y Hlow Hr Hev) as (H1 & _ & H3). pose proof (C59_rewrite cf E rd dbs dump Hlow HL HE) as Hdump.
  destruct Hd as [|n|n].
  - rewrite <-(take_ge (y_file y) (length (y_file y))) by done. by apply own_boot.
  - by apply own_boot.
  - rewrite <-(firstn_app_2 n dump rw). apply own_boot; [done| |done]. by apply own_app.
Qed.
Print Assumptions C59_install.

(** A log that is not readable is another matter: two SETs of a client make the loader find
    a SET without arguments, and the restart panics. *)
Definition short_set : bytes := B "xab*1" ++ CRLF ++ B "$3" ++ CRLF ++ B "set".
Definition h_short : list event := [EvConnect;
  EvCommand 0 [B "set"; B "k"; replicate (Z.to_nat 65480) "x"%char] 5 0 []; EvCommand 0 [B "set"; B "v"; short_set] 5 0 []; EvFlush].
Theorem C59_unreadable_refuted : ∃ evs y, reaches cf0 evs y ∧ Forall (own_event cf0) evs ∧
  records (y_file y) !! 2%nat = Some [B "set"] ∧ step cf0 (EvBoot (y_file y) (λ _, 5) []) y = Panic.
Proof.
  exists h_short, (state_of cf0 h_short). split; [apply state_of_reaches; by vm_compute|].
  split; [repeat (apply Forall_cons; split; [exact I|]); apply Forall_nil_2|]. split; by vm_compute.
Qed.
Print Assumptions C59_unreadable_refuted.

(** ** Examples *)
Definition h_log : list event := [EvConnect; cmd 0 5 "SELECT 2"; cmd 0 5 "SETEX k 100 v"; cmd 0 5 "HSET h f v g w"; cmd 0 6 "Expire h 9"; EvFlush;
  EvRewrite; cmd 0 7 "GET k"; cmd 0 7 "SELECT 0"; cmd 0 7 "SADD s a b"].
Example C59_example :
  let y := state_of cf0 h_log in
  reaches cf0 h_log y ∧ Forall (own_event cf0) h_log ∧ readable (y_file y ++ s_aofbuf (y_srv y)) ∧
  records (y_file y ++ s_aofbuf (y_srv y)) =
    [words "select 2"; words "set k v"; words "expireat k 100"; words "HSET h f v g w"; words "expireat h 9"; words "select 0"; words "SADD s a b"] ∧
  records (take 100 (y_file y)) = [words "select 2"; words "set k v"; words "expireat k 100"] ∧
  s_rwbuf (y_srv y) = log_file [words "select 0"; words "SADD s a b"].
Proof.
  intros y. split; [apply state_of_reaches; by vm_compute|]. split; [repeat (apply Forall_cons; split; [exact I|]); apply Forall_nil_2|].
  split; [left; by vm_compute|]. split; [by vm_compute|]. split; by vm_compute.
Qed.
(** the rewrite that is running there, and a kill while its text and the buffer are installed *)
Definition dump0 : bytes := log_file [words "select 2"; words "set k v"; words "expireat k 100"; words "hset h f v g w"; words "expireat h 9"].
Example C59_install_example :
  let y := state_of cf0 h_log in
  (∃ snap, s_snap (y_srv y) = Some snap ∧ rewriteAppendOnlyFile (env_at cf0 7 0) (λ _ _, s_heap (y_srv y)) snap = Ok dump0) ∧
  done_disk (y_file y) dump0 (s_rwbuf (y_srv y)) (dump0 ++ take 30 (s_rwbuf (y_srv y))) ∧
  records (dump0 ++ take 30 (s_rwbuf (y_srv y))) =
    [words "select 2"; words "set k v"; words "expireat k 100"; words "hset h f v g w"; words "expireat h 9"; words "select 0"].
Proof.
  intros y. split.
  { assert (Hc : match s_snap (y_srv y) with
                 | Some snap => match rewriteAppendOnlyFile (env_at cf0 7 0) (λ _ _, s_heap (y_srv y)) snap with Ok d => bool_decide (d = dump0) | _ => false end
                 | None => false
                 end = true) by (by vm_compute).
    destruct (s_snap (y_srv y)) as [snap|]; [|discriminate]. exists snap. split; [reflexivity|].
    destruct (rewriteAppendOnlyFile _ _ _) as [d| |]; [|discriminate..]. apply bool_decide_eq_true in Hc. by rewrite Hc. }
  split; [constructor|by vm_compute].
Qed.
