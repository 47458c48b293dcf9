(** Loading and rewriting the log: C37 (round trip), C38 (truncated logs), C39
    (replay reproduces the dataset), C40 (rewrite preserves the dataset), C41 (crash
    safety of a rewrite). *)
From Verif Require Import Base Float DictModel DictProofs DictProofs2 DictProofs3 DictProofs4 DictRun DatabaseModel
  SetModel SetProofs QuicklistModel SkiplistModel ZsetModel
  Strconv RespSpec ServerModel CommandModel CommandSem CommandInv CommandInv2 CommandProofs1 CommandProofs2
  CommandTop CommandFrame SystemModel SystemProofs CommandFacts PropsCommand ZcmdProofs PropsZcmd PropsData AofModel AofProofs1 AofProofs2 LoadProofs RndFrame AofProofs3 AofProofs4 AofProofs5 BlendProofs ExampleLib.
From Coq Require Import ZifyBool ZifyNat.

(** [log_file cmds]: the RESP encodings of the commands, one after the other (the
    text that feedAppendOnlyFile writes: C29); [replay exec j cmds s] executes the
    commands one after the other, starting with number [j], until one of them
    panics. *)

(** * C37 *)
(** [readable file]: the file has at most 64 KiB (the size of the read buffer), or it
    is a log none of whose arguments crosses the end of the read buffer ([over_cmds]
    follows the number of bytes in the buffer).  Such a log is executed exactly as it
    was written, whatever bytes the arguments contain.  Missing: other logs, see
    [C37_exact] and [C37_round_trip_refuted]. *)
Theorem C37_round_trip_partial {S} (exec : nat → list bytes → S → res S) cmds s :
  Forall (λ c, c ≠ []) cmds → readable (log_file cmds) →
  load_file exec (log_file cmds) s = replay exec 0 cmds s.
Proof. intros H1 H2. apply load_file_all. by apply readable_ok. Qed.
Print Assumptions C37_round_trip_partial.
(** the commands executed by a loader *)
Definition record (j : nat) (args : list bytes) (s : list (list bytes)) : res (list (list bytes)) := Ok (s ++ [args]).
Example C37_round_trip_example : let c := [[B "set"; B "k"; ["*"; CR; LF; NUL; "$"; "3"; CR; LF]%char]; [B "del"; []]] in
  load_file record (log_file c) [] = (c, Ok tt).
Proof. by vm_compute. Qed.
(** more than 64 KiB, but the end of the buffer falls into a first line *)
Example C37_long_example : let c := [words "set a 1"; [B "set"; B "k"; big 65477]; words "set b 2"; words "del a"] in
  readable (log_file c) ∧ 65536 < zlen (log_file c).
Proof.
  intros c. assert (H : 65536 < zlen (log_file c)) by (vm_compute; reflexivity). split; [|exact H]. right.
  split; [vm_compute; discriminate|]. exists c. split; [reflexivity|].
  assert (Hov : match over_cmds 0 c with Some _ => true | None => false end = true) by (vm_compute; reflexivity).
  destruct (over_cmds 0 c) as [b|]; [by exists b|discriminate].
Qed.
Lemma replay_record : ∀ cmds j s, replay record j cmds s = (s ++ cmds, Ok tt).
Proof.
  induction cmds as [|c cmds IH]; intros j s; cbn [replay record]; [by rewrite app_nil_r|]. by rewrite IH, <-app_assoc.
Qed.
(** The condition is exact: a log of commands without zero bytes is loaded as it was
    written if and only if no argument (with its CRLF) crosses the end of the buffer. *)
Theorem C37_exact cmds : Forall (λ c, c ≠ []) cmds → Forall (Forall (λ a, NUL ∉ a)) cmds → zlen (log_file cmds) ≤ 2 ^ 44 →
  load_file record (log_file cmds) [] = (cmds, Ok tt) ↔ is_Some (over_cmds 0 cmds).
Proof.
  intros Hne Ht Hlen. split.
  - intros HE. destruct (over_cmds 0 cmds) as [b|] eqn:Hov; [by exists b|]. exfalso.
    apply (load_bad cmds (length (log_file cmds) + 1) 0 0 (NewReader (log_file cmds)) []); [by apply log_ok_fits|done|apply at_New|done|exact HE].
  - intros Hov. rewrite load_file_all by done. apply replay_record.
Qed.
Print Assumptions C37_exact.
Example C37_exact_example : Z.of_nat <$> over_cmds 0 [words "set a 1"; words "del a"] = Some 65489.
Proof. by vm_compute. Qed.
(** Any log is spoiled by one more command: a SET of a value of 65537 or of 100000
    bytes. *)
Theorem C37_fragile cmds key : Forall (λ c, c ≠ []) cmds → Forall (Forall (λ a, NUL ∉ a)) cmds → NUL ∉ key →
  zlen (log_file cmds) + zlen key ≤ 2 ^ 43 →
  ∃ v, zlen v ≤ 100000 ∧ NUL ∉ v ∧ let c := cmds ++ [[B "set"; key; v]] in load_file record (log_file c) [] ≠ (c, Ok tt).
Proof.
  intros Hne Ht Hk Hlen. destruct (over_one_more cmds key) as (n & Hn & Hov).
  assert (Hn' : 0 ≤ n ≤ 100000). { apply elem_of_cons in Hn as [->|Hn]; [lia|]. apply elem_of_list_singleton in Hn as ->. lia. }
  assert (Hx : NUL ∉ big n). { intros H. unfold big in H. by apply elem_of_replicate in H as [? _]. }
  exists (big n). split; [rewrite big_len; lia|]. split; [done|]. intros c HE.
  assert (Hsome : is_Some (over_cmds 0 c)).
  { apply C37_exact; [apply Forall_app; split; [done|]; by apply Forall_singleton|..|exact HE].
    - apply Forall_app. split; [done|]. rewrite Forall_singleton. apply Forall_cons. split; [|by rewrite !Forall_cons, Forall_nil].
      intros H. repeat (apply elem_of_cons in H as [?|H]; [done|]). by apply elem_of_nil in H.
    - unfold c. rewrite log_app. cbn [log_file map concat]. rewrite app_nil_r, encode_hdr. cbn [map concat]. rewrite !bulk_hdr, app_nil_r.
      change (hdr "*" (zlen [B "set"; key; big n])) with (hdr "*" 3). rewrite big_len by lia. pose proof (zlen_nn key). pose proof (zlen_nn (log_file cmds)).
      pose proof (hdr_length "$" (zlen key) ltac:(lia)). pose proof (hdr_length "$" n ltac:(lia)). pose proof (big_len n ltac:(lia)). unfold zlen in *. rewrite !app_length.
      change (length (hdr "*" 3)) with 4%nat. change (length (hdr "$" (Z.of_nat (length (B "set"))))) with 4%nat.
      change (length (B "set")) with 3%nat. change (length CRLF) with 2%nat. lia. }
  destruct Hsome as [x Hs]. pose proof (eq_trans (eq_sym Hov) Hs) as Hd. discriminate Hd.
Qed.
Print Assumptions C37_fragile.
(** one argument of 65497 bytes, followed by one that crosses the end of the buffer *)
Definition long_log : list (list bytes) := [[B "set"; B "k"; replicate (Z.to_nat 65497) "x"%char]; [B "set"; B "key"; B "value"]].
Theorem C37_round_trip_refuted : ∃ cmds : list (list bytes), Forall (λ c, c ≠ []) cmds ∧
  replay record 0 cmds [] = (cmds, Ok tt) ∧ load_file record (log_file cmds) [] ≠ (cmds, Ok tt).
Proof.
  exists long_log. split; [unfold long_log; do 2 (apply Forall_cons; split; [discriminate|]); apply Forall_nil_2|]. split; [reflexivity|].
  intros H. apply (f_equal (λ x, match x.2 with Ok _ => true | _ => false end)) in H. revert H. vm_compute. discriminate.
Qed.
Print Assumptions C37_round_trip_refuted.
(** It may go unnoticed: an argument is cut at the end of the buffer and filled up
    with zero bytes, and its remaining bytes are executed as a command that nobody
    sent. *)
Definition payload : bytes := B "xab*2" ++ CRLF ++ B "$3" ++ CRLF ++ B "del" ++ CRLF ++ B "$1" ++ CRLF ++ B "k".
Definition quiet_log : list (list bytes) := [[B "set"; B "k"; replicate (Z.to_nat 65480) "x"%char]; [B "set"; B "v"; payload]].
Theorem C37_injection_refuted : ∃ (cmds done : list (list bytes)), Forall (λ c, c ≠ []) cmds ∧
  load_file record (log_file cmds) [] = (done, Ok tt) ∧ [B "del"; B "k"] ∉ cmds ∧ done !! 2%nat = Some [B "del"; B "k"].
Proof.
  exists quiet_log, (load_file record (log_file quiet_log) []).1.
  split; [unfold quiet_log; do 2 (apply Forall_cons; split; [discriminate|]); apply Forall_nil_2|].
  assert (He : (load_file record (log_file quiet_log) []).2 = Ok tt) by (vm_compute; reflexivity).
  split; [revert He; generalize (load_file record (log_file quiet_log) []); intros [a b]; cbn [snd fst]; congruence|]. split.
  - intros [H|[H|H]%elem_of_cons]%elem_of_cons; [discriminate|discriminate|by apply elem_of_nil in H].
  - vm_compute. reflexivity.
Qed.
Print Assumptions C37_injection_refuted.

(** The loader ends on every file. *)
Theorem C37_loader_terminates {S} (exec : nat → list bytes → S → res S) : (∀ j c s, exec j c s ≠ OutOfFuel) → ∀ file s,
  (load_file exec file s).2 ≠ OutOfFuel.
Proof. apply load_total. Qed.
Print Assumptions C37_loader_terminates.

(** * C38 *)
(** A readable log, cut after [k] bytes: exactly the first [n] commands are
    executed, those whose text is complete except perhaps for the last byte.  The
    server then starts if the cut falls inside the first line of a command (or
    between two commands); otherwise it panics.  Missing: other logs, and the start
    after other cuts, see [C38_truncated_refuted]. *)
Theorem C38_truncated_partial {S} (exec : nat → list bytes → S → res S) cmds k s :
  Forall (λ c, c ≠ []) cmds → readable (log_file cmds) →
  ∃ n e, load_file exec (take k (log_file cmds)) s = then_ (replay exec 0 (take n cmds) s) e ∧
    (n ≤ length cmds)%nat ∧ (length (log_file (take n cmds)) ≤ k + 1)%nat ∧
    (match cmds !! n with
     | None => e = Ok tt
     | Some c => (k + 1 < length (log_file (take n cmds)) + length (encode c))%nat ∧
         e = if decide (k < length (log_file (take n cmds)) + length (array_header c))%nat then Ok tt else Panic
     end).
Proof. intros H1 H2. apply load_file_cut. by apply readable_ok. Qed.
Print Assumptions C38_truncated_partial.
Definition two_cmds : list (list bytes) := [words "set a 1"; words "set b 2"].
Example C38_truncated_example :
  (* between two commands; inside the first line; the last byte is missing *)
  load_file record (take 27 (log_file two_cmds)) [] = ([words "set a 1"], Ok tt) ∧
  load_file record (take 29 (log_file two_cmds)) [] = ([words "set a 1"], Ok tt) ∧
  load_file record (take 53 (log_file two_cmds)) [] = (two_cmds, Ok tt) ∧ length (log_file two_cmds) = 54%nat.
Proof. by vm_compute. Qed.
Theorem C38_truncated_refuted : ∃ cmds k, Forall (λ c : list bytes, c ≠ []) cmds ∧ (load_file record (take k (log_file cmds)) []).2 = Panic.
Proof. exists two_cmds, 40%nat. split; [by repeat constructor|]. by vm_compute. Qed.
Print Assumptions C38_truncated_refuted.

(** * C39 *)
Lemma nargs_log cmds : (nargs cmds ≤ length (log_file cmds))%nat.
Proof.
  unfold nargs. induction cmds as [|c cmds IH]; [done|]. rewrite log_cons, app_length, encode_length, fmap_cons. cbn [sum_list sum_list_with] in *.
  destruct (concat_bulk_ge c) as [H _]. unfold sum_list in *. simpl in *. lia.
Qed.
Lemma empty_tame H n : Forall2 sim (abs_dbs (NewServer n)) (abs_dbs (NewServer n)) ∧ Forall (fresh H) (abs_dbs (NewServer n)).
Proof.
  split; [|apply new_fresh]. apply Forall_Forall2_diag. apply Forall_forall. intros D HD.
  unfold abs_dbs in HD. cbn [NewServer s_dbs s_heap] in HD. rewrite fmap_replicate in HD. apply elem_of_replicate in HD as [-> _].
  split; intros k; simpl; rewrite NewDict_map, ?fmap_empty, !lookup_empty; constructor.
Qed.
Lemma restart_leads cf H clock rs dbs db cmds : (0 < cf_dbs cf)%nat → (∀ j, clock j ≤ H) → Forall (λ r, 0 ≤ r) rs →
  enough (draws (cf_lib cf) cmds) rs →
  Forall (good_record cf) cmds → readable (log_file cmds) → leads cf H (abs_dbs (NewServer (cf_dbs cf))) dbs 0 db cmds →
  ∃ w N, restart cf clock (log_file cmds) rs = (w, Ok tt) ∧ replayed H dbs db N w.
Proof.
  intros Hpos Hc Hrs Hen Hne Hlen Hlead. unfold restart, loadAppendOnlyFile.
  rewrite load_file_all by (apply readable_ok; [by eapply good_ne|done]).
  destruct (init_ok cf Hpos) as [I1 I2 I3].
  destruct (Hlead clock 0%nat 0%nat 0%nat (W (NewServer (cf_dbs cf)) NewClient rs)) as (w & Hw & Hrp & _); [done| | | |].
  - pose proof (nargs_log cmds). apply readable_small in Hlen. unfold zlen in *. lia.
  - split; [split; try done; simpl; by rewrite ?replicate_length|..]; try done; cbn [w_srv]; by apply empty_tame.
  - by rewrite Nat.add_0_r.
  - eexists _, _. by split.
Qed.
(** [sim D D']: the same keys with the same values, and in [D'] the deadlines of [D]
    rounded down to whole seconds; a sorted set has the same members with
    the same scores, in the same order, but its nodes may have other levels.
    Restarting from the log of a history gives the dataset of the server, up to these
    differences, if the log is readable (see C37), no deadline passes before the restart
    is complete ([H]), SPOP is not used and the first score of each ZADD is a number
    (see [calm]), and the history is careful with its sorted sets (see C47; one without
    ZADD is: [no_zadd_careful]).  [rs] is the random source of the new server: a level
    can be drawn for each pair that was given to ZADD.  Missing: what the refutations
    below show, and histories that are not careful. *)
Theorem C39_replay_partial cf H evs y clock rs :
  lower_ok (cf_lib cf) → 0 ≤ H → cf_aof cf = true → Z.of_nat (cf_dbs cf) ≤ 2 ^ 44 →
  reaches cf evs y → Forall (calm cf H) evs → careful_history cf evs →
  (∀ j, clock j ≤ H) → Forall (λ r, 0 ≤ r) rs → enough (draws (cf_lib cf) (commands_of evs)) rs →
  let log := y_file y ++ s_aofbuf (y_srv y) in readable log →
  ∃ w, restart cf clock log rs = (w, Ok tt) ∧ Forall2 sim (abs_dbs (y_srv y)) (abs_dbs (w_srv w)).
Proof.
  intros Hlow HH Haof Hdbs Hr Hcalm Hcare Hclock Hrs Hen log Hlen.
  destruct (replay_history cf H evs y) as (cmds & db & Hlog & Hne & _ & _ & Hlead & Hdr); try done.
  unfold log in *. rewrite Hlog in *. destruct Hr as [(_ & Hpos & _) _].
  destruct (restart_leads cf H clock rs (abs_dbs (y_srv y)) db cmds) as (w & N & Hw & Hrp); try done; [by eapply enough_le|].
  exists w. split; [done|]. apply Hrp.
Qed.
Print Assumptions C39_replay_partial.
(** without ZADD nothing is drawn, and every history is careful *)
Theorem C39_plain_partial cf H evs y clock rs :
  lower_ok (cf_lib cf) → 0 ≤ H → cf_aof cf = true → Z.of_nat (cf_dbs cf) ≤ 2 ^ 44 →
  reaches cf evs y → Forall (calm cf H) evs → Forall (no_zadd cf) evs →
  (∀ j, clock j ≤ H) → Forall (λ r, 0 ≤ r) rs →
  let log := y_file y ++ s_aofbuf (y_srv y) in readable log →
  ∃ w, restart cf clock log rs = (w, Ok tt) ∧ Forall2 sim (abs_dbs (y_srv y)) (abs_dbs (w_srv w)).
Proof.
  intros Hlow HH Haof Hdbs Hr Hcalm Hno Hclock Hrs log Hlen.
  apply (C39_replay_partial cf H evs); try done; [by eapply no_zadd_careful|].
  assert (draws (cf_lib cf) (commands_of evs) = 0%nat) as ->; [|done].
  clear -Hno. induction Hno as [|e evs He _ IH]; [done|]. change (commands_of (e :: evs)) with (command_of e ++ commands_of evs).
  rewrite draws_app, IH. destruct e as [|i [|a l] now unix rs'| | | | | |]; try done. cbn [command_of]. rewrite draws_one. unfold levels.
  by rewrite decide_False.
Qed.
Print Assumptions C39_plain_partial.
(** for every log, for a loader that reads every command correctly *)
Theorem C39_commands_partial cf H evs y clock rs :
  lower_ok (cf_lib cf) → 0 ≤ H → cf_aof cf = true → Z.of_nat (cf_dbs cf) ≤ 2 ^ 44 →
  reaches cf evs y → Forall (calm cf H) evs → careful_history cf evs →
  (∀ j, clock j ≤ H) → Forall (λ r, 0 ≤ r) rs → enough (draws (cf_lib cf) (commands_of evs)) rs →
  ∃ cmds, y_file y ++ s_aofbuf (y_srv y) = log_file cmds ∧
    (Z.of_nat (nargs cmds) < 2 ^ 42 →
     ∃ w, replay (exec_at cf clock) 0 cmds (W (NewServer (cf_dbs cf)) NewClient rs) = (w, Ok tt) ∧
       Forall2 sim (abs_dbs (y_srv y)) (abs_dbs (w_srv w))).
Proof.
  intros Hlow HH Haof Hdbs Hr Hcalm Hcare Hclock Hrs Hen.
  destruct (replay_history cf H evs y) as (cmds & db & Hlog & Hne & _ & _ & Hlead & Hdr); try done.
  exists cmds. split; [done|]. intros Hn. destruct Hr as [(_ & Hpos & _) _]. destruct (init_ok cf Hpos) as [I1 I2 I3].
  destruct (Hlead clock 0%nat 0%nat 0%nat (W (NewServer (cf_dbs cf)) NewClient rs)) as (w & Hw & Hrp & _); [done|done| | |].
  - split; [split; try done; simpl; by rewrite ?replicate_length|..]; try done; cbn [w_srv]; by apply empty_tame.
  - rewrite Nat.add_0_r. by eapply enough_le.
  - exists w. split; [done|]. apply Hrp.
Qed.
Print Assumptions C39_commands_partial.

(** observations for the examples: a value, a deadline *)
Definition val (s : server) (db : nat) (k : bytes) : option aval := D ← abs_dbs s !! db; a_keys D !! k.
Definition ttl (s : server) (db : nat) (k : bytes) : option Z := D ← abs_dbs s !! db; a_ttl D !! k.
Definition as_str (o : option aval) : option bytes := match o with Some (AStr s) => Some s | _ => None end.
Definition as_set (o : option aval) : list bytes := match o with Some (ASet s) => base.elements s | _ => [] end.
Definition as_list (o : option aval) : list bytes := match o with Some (AList q) => match q_items q with Ok l => l | _ => [] end | _ => [] end.
Definition as_zset (o : option aval) : option nat := match o with Some (AZset m _) => Some (size m) | _ => None end.
Definition as_hash (o : option aval) (f : bytes) : option bytes := match o with Some (AHash h) => h !! f | _ => None end.
(** the state after a history, and the log *)
Definition after (cf : config) (evs : list event) : sys := match run cf evs (init_sys cf) with Ok y => y | _ => init_sys cf end.
Definition whole_log (y : sys) : bytes := y_file y ++ s_aofbuf (y_srv y).
Definition runs_ok (cf : config) (evs : list event) (y : sys) : bool := match run cf evs y with Ok _ => true | _ => false end.
Lemma after_reaches cf evs : history_check cf evs = true → runs_ok cf evs (init_sys cf) = true → reaches cf evs (after cf evs).
Proof.
  intros H1 H2. split; [by apply history_check_ok|]. unfold after, runs_ok in *. by destruct (run cf evs (init_sys cf)).
Qed.
Definition loads_ok (x : loaded world) : bool := match x.2 with Ok _ => true | _ => false end.
Lemma loads_ok_eq x : loads_ok x = true → x = (x.1, Ok tt).
Proof. destruct x as [w [[]| |]]; done. Qed.

Definition h_calm : list event := [EvConnect; cmd 0 1500 "set a 1"; cmd 0 1500 "expire a 10"; cmd 0 1600 "select 3"; cmd 0 1700 "hset h f v";
  EvFlush; cmd 0 1800 "rpush l x y"; cmd 0 1900 "setex b 20 v"].
Lemma lower0_ok : lower_ok lib0.
Proof.
  intros name ar Hin. cut (Forall (λ p, lower0 p.1 = p.1) arities).
  - rewrite Forall_forall. intros HF. by apply (HF _ Hin).
  - apply (bool_decide_unpack _). by vm_compute.
Qed.
(** checks for [calm] and [enough] *)
Definition calm_check (cf : config) (H : Z) (e : event) : bool :=
  match e with
  | EvCommand _ args now unix _ =>
      (0 <=? now) && (now <=? H) && (unix =? now / 1000) &&
      match args with a :: _ => negb (bool_decide (lib_lower (cf_lib cf) a = B "spop")) | [] => true end &&
      match args with a :: _ :: b :: _ => negb (bool_decide (lib_lower (cf_lib cf) a = B "zadd")) || match lib_parse_float (cf_lib cf) b with Some _ => true | None => false end | _ => true end &&
      match asks (cf_lib cf) args unix with Some s => (H <=? s * 1000) && (s * 1000 + 1000 <=? 2 ^ 63) | None => true end
  | EvCron now _ => now <=? H
  | EvDone _ | EvBoot _ _ _ => false
  | _ => true
  end.
Lemma calm_check_ok cf H e : calm_check cf H e = true → calm cf H e.
Proof.
  destruct e as [|i args now unix rs| |now rs| | | |]; cbn [calm calm_check]; try done; [|lia].
  rewrite !andb_true_iff. intros (((((H1 & H2) & H3) & H4) & H5) & H6). split; [lia|]. split; [lia|]. split; [|split].
  - intros a Ha. destruct args; [done|]. injection Ha as ->. by apply negb_true_iff, bool_decide_eq_false in H4.
  - intros a key b l -> Hz. rewrite bool_decide_true in H5 by done. destruct (lib_parse_float (cf_lib cf) b); [by eexists|done].
  - intros s Hs. rewrite Hs in H6. apply andb_true_iff in H6. lia.
Qed.
Lemma calm_checks cf H evs : forallb (calm_check cf H) evs = true → Forall (calm cf H) evs.
Proof. induction evs as [|e evs IH]; [intros _; apply Forall_nil_2|]. cbn [forallb]. intros [H1 H2]%andb_true_iff. constructor; [by apply calm_check_ok|by apply IH]. Qed.
Fixpoint enough_check (n : nat) (rs : list Z) : bool :=
  match n with
  | O => true
  | S n => match randomLevel rs with Ok (lv, rs') => (1 <=? lv) && enough_check n rs' | _ => false end
  end.
Lemma enough_check_ok n : ∀ rs, enough_check n rs = true → enough n rs.
Proof.
  induction n as [|n IH]; intros rs; [done|]. cbn [enough_check enough]. destruct (randomLevel rs) as [[lv rs']| |]; try done.
  intros [H1 H2]%andb_true_iff. exists lv, rs'. split; [done|]. split; [lia|by apply IH].
Qed.
Example C39_replay_example :
  reaches cf0 h_calm (after cf0 h_calm) ∧ Forall (calm cf0 5000) h_calm ∧ Forall (no_zadd cf0) h_calm ∧ lower_ok (cf_lib cf0) ∧
  let s := y_srv (after cf0 h_calm) in
  as_str (val s 0 (B "a")) = Some (B "1") ∧ ttl s 0 (B "a") = Some 11500 ∧ as_list (val s 3 (B "l")) = [B "x"; B "y"] ∧
  zlen (whole_log (after cf0 h_calm)) = 214.
Proof.
  split; [apply after_reaches; by vm_compute|]. split; [apply calm_checks; by vm_compute|]. split; [|split; [apply lower0_ok|by vm_compute]].
  unfold h_calm. repeat (apply Forall_cons; split); try apply Forall_nil_2; unfold cmd; cbn [no_zadd]; try exact I; apply (bool_decide_unpack _); by vm_compute.
Qed.
(** a sorted set: written with levels 1, 1, 1, restored with levels 3, 1, 2 *)
Definition h_scores : list event := [EvConnect; cmd 0 1500 "zadd z 2 b 1 a"; cmd 0 1500 "expire z 100"; cmd 0 1600 "zadd z 3 c 1 a"; cmd 0 1600 "zremrangebyrank z 0 0"; cmd 0 1700 "zrem z nobody"].
Example C39_scores_example : let rs := [0; 0; 65535; 65535; 0; 65535; 65535; 65535; 65535] in
  reaches cf0 h_scores (after cf0 h_scores) ∧ Forall (calm cf0 5000) h_scores ∧ careful_history cf0 h_scores ∧
  draws (cf_lib cf0) (commands_of h_scores) = 6%nat ∧ enough 6 rs ∧
  let s := y_srv (after cf0 h_scores) in let x := restart cf0 (λ _, 2000) (whole_log (after cf0 h_scores)) rs in
  as_zset (val s 0 (B "z")) = Some 2%nat ∧ loads_ok x = true ∧ as_zset (val (w_srv x.1) 0 (B "z")) = Some 2%nat ∧ ttl (w_srv x.1) 0 (B "z") = Some 101000.
Proof.
  cbv zeta. split; [apply after_reaches; by vm_compute|]. split; [apply calm_checks; by vm_compute|]. split; [apply careful_history_check; by vm_compute|].
  split; [by vm_compute|]. split; [apply enough_check_ok; by vm_compute|by vm_compute].
Qed.

(** SPOP is logged by name: another member is removed when it is replayed *)
Definition h_spop : list event := [EvConnect; cmd 0 1000 "sadd s a b c"; cmd 0 1000 "spop s"].
Theorem C39_spop_refuted : ∃ evs y w, reaches cf0 evs y ∧ restart cf0 (λ _, 2000) (whole_log y) [0; 0; 0; 0] = (w, Ok tt) ∧
  as_set (val (y_srv y) 0 (B "s")) = [B "a"; B "b"] ∧ as_set (val (w_srv w) 0 (B "s")) = [B "b"; B "c"].
Proof.
  exists h_spop, (after cf0 h_spop), (restart cf0 (λ _, 2000) (whole_log (after cf0 h_spop)) [0; 0; 0; 0]).1.
  split; [apply after_reaches; by vm_compute|]. split; [apply loads_ok_eq; by vm_compute|by vm_compute].
Qed.
Print Assumptions C39_spop_refuted.
(** EXPIRE is logged in whole seconds: the key expires earlier after a restart *)
Definition h_expire : list event := [EvConnect; cmd 0 1500 "set a 1"; cmd 0 1500 "expire a 10"].
Theorem C39_ttl_refuted : ∃ evs y w, reaches cf0 evs y ∧ restart cf0 (λ _, 2000) (whole_log y) [] = (w, Ok tt) ∧
  ttl (y_srv y) 0 (B "a") = Some 11500 ∧ ttl (w_srv w) 0 (B "a") = Some 11000.
Proof.
  exists h_expire, (after cf0 h_expire), (restart cf0 (λ _, 2000) (whole_log (after cf0 h_expire)) []).1.
  split; [apply after_reaches; by vm_compute|]. split; [apply loads_ok_eq; by vm_compute|by vm_compute].
Qed.
Print Assumptions C39_ttl_refuted.
(** ZADD with a bad score leaves an empty sorted set that is not logged *)
Definition h_zadd : list event := [EvConnect; cmd 0 1500 "zadd z x m"].
Theorem C39_zadd_refuted : ∃ evs y w, reaches cf0 evs y ∧ restart cf0 (λ _, 2000) (whole_log y) [] = (w, Ok tt) ∧
  as_zset (val (y_srv y) 0 (B "z")) = Some 0%nat ∧ as_zset (val (w_srv w) 0 (B "z")) = None.
Proof.
  exists h_zadd, (after cf0 h_zadd), (restart cf0 (λ _, 2000) (whole_log (after cf0 h_zadd)) []).1.
  split; [apply after_reaches; by vm_compute|]. split; [apply loads_ok_eq; by vm_compute|by vm_compute].
Qed.
Print Assumptions C39_zadd_refuted.
(** ZREMRANGEBYRANK removes what the levels of the nodes tell it (C16), and a restart draws
    other levels: [e] is removed, [c] after the restart *)
Definition h_ranks : list event := [EvConnect; EvCommand 0 (words "zadd z 1 a 2 b 3 c 4 d 5 e") 1000 0 [65535; 0; 65535; 65535; 65535; 65535]; cmd 0 1000 "zremrangebyrank z 2 2"].
Definition has_member (o : option aval) (m : bytes) : bool := match o with Some (AZset d _) => bool_decide (is_Some (d !! m)) | _ => false end.
Theorem C39_rank_refuted : ∃ evs y w, reaches cf0 evs y ∧ restart cf0 (λ _, 2000) (whole_log y) (replicate 5 65535) = (w, Ok tt) ∧
  has_member (val (y_srv y) 0 (B "z")) <$> [B "c"; B "e"] = [true; false] ∧ has_member (val (w_srv w) 0 (B "z")) <$> [B "c"; B "e"] = [false; true].
Proof.
  exists h_ranks, (after cf0 h_ranks), (restart cf0 (λ _, 2000) (whole_log (after cf0 h_ranks)) (replicate 5 65535)).1.
  split; [apply after_reaches; by vm_compute|]. split; [apply loads_ok_eq; by vm_compute|by vm_compute].
Qed.
Print Assumptions C39_rank_refuted.
(** a deadline that was extended before it passed, replayed after it passed: the list
    is gone although its last deadline is still to come *)
Definition h_late : list event := [EvConnect; cmd 0 1500 "rpush l a b"; cmd 0 1500 "expire l 10"; cmd 0 1500 "lpop l"; cmd 0 1500 "expire l 1000"].
Theorem C39_late_refuted : ∃ evs y w, reaches cf0 evs y ∧ restart cf0 (λ _, 20000) (whole_log y) [] = (w, Ok tt) ∧
  as_list (val (y_srv y) 0 (B "l")) = [B "b"] ∧ ttl (y_srv y) 0 (B "l") = Some 1001500 ∧ as_list (val (w_srv w) 0 (B "l")) = [].
Proof.
  exists h_late, (after cf0 h_late), (restart cf0 (λ _, 20000) (whole_log (after cf0 h_late)) []).1.
  split; [apply after_reaches; by vm_compute|]. split; [apply loads_ok_eq; by vm_compute|by vm_compute].
Qed.
Print Assumptions C39_late_refuted.
(** After a restart the server takes database 0 for the last one of the log: a key of
    database 0 is in database 1 after the next restart. *)
Definition h_first : list event := [EvConnect; cmd 0 1000 "select 1"; cmd 0 1000 "set a 1"; EvFlush].
Definition h_second : list event := [EvConnect; cmd 0 2000 "set b 2"; EvFlush].
Theorem C39_restart_refuted : ∃ y w y' w', reaches cf0 h_first y ∧ restart cf0 (λ _, 1500) (y_file y) [] = (w, Ok tt) ∧
  run cf0 h_second (Sys (w_srv w) [] (y_file y)) = Ok y' ∧ restart cf0 (λ _, 3000) (y_file y') [] = (w', Ok tt) ∧
  as_str (val (y_srv y') 0 (B "b")) = Some (B "2") ∧
  val (w_srv w') 0 (B "b") = None ∧ as_str (val (w_srv w') 1 (B "b")) = Some (B "2").
Proof.
  set (y := after cf0 h_first). set (w := (restart cf0 (λ _, 1500) (y_file y) []).1).
  set (y' := match run cf0 h_second (Sys (w_srv w) [] (y_file y)) with Ok y' => y' | _ => y end).
  exists y, w, y', (restart cf0 (λ _, 3000) (y_file y') []).1.
  split; [apply after_reaches; by vm_compute|]. split; [apply loads_ok_eq; by vm_compute|].
  split; [|split; [apply loads_ok_eq; by vm_compute|by vm_compute]].
  assert (runs_ok cf0 h_second (Sys (w_srv w) [] (y_file y)) = true) as Hr by (by vm_compute).
  unfold runs_ok in Hr. unfold y'. by destruct (run cf0 h_second _).
Qed.
Print Assumptions C39_restart_refuted.

(** * C40 *)
(** what a rewrite keeps: strings, and hashes and sets that are not empty; deadlines
    only of keys that exist, later than [H] even in whole seconds *)
Definition lasts (H : Z) (D : adb) : Prop :=
  (∀ k v, a_keys D !! k = Some v → rewritable v) ∧
  (∀ k T, a_ttl D !! k = Some T → H ≤ T / 1000 * 1000 ∧ T < 2 ^ 63 ∧ is_Some (a_keys D !! k)).
Lemma no_task_rwbuf cf evs y : reaches cf evs y → s_task (y_srv y) = false → s_rwbuf (y_srv y) = [].
Proof.
  revert y. induction evs as [|e evs IH] using rev_ind; intros y' Hr.
  { destruct Hr as [_ [= <-]]. done. }
  apply reaches_snoc in Hr as (Hh & y & Hr & HS). specialize (IH y Hr).
  destruct e as [|i args now unix rs|i n|now rs| | |dump|file clock rs]; cbn [step] in HS.
  - by injection HS as <-.
  - destruct (y_cls y !! i) as [c|]; [|by injection HS as <-].
    destruct (processCommand _ _ _) as [[w' []]| |] eqn:EP; try done. injection HS as <-. cbn [y_srv].
    destruct (CommandExt.process_grows _ _ _ _ EP) as (_ & Ht & t & _ & Hrw). cbn [w_srv fst] in *. intros Hf.
    rewrite Hrw, Hf, app_nil_r. apply IH. destruct (s_task (y_srv y)); [|done]. destruct (Ht eq_refl) as [? _]. congruence.
  - destruct (y_cls y !! i); by injection HS as <-.
  - destruct (databasesCron _ _ _) as [[dbs' rs']| |]; try done. by injection HS as <-.
  - by injection HS as <-.
  - unfold rewriteAppendOnlyFileBackground in HS. destruct (s_task (y_srv y)) eqn:Et; [injection HS as <-; cbn [y_srv]; by rewrite Et|].
    destruct (copy_dbs _) as [r| |]; try done. by injection HS as <-.
  - destruct (s_task (y_srv y)) eqn:Et; injection HS as <-; [done|]. intros _. by apply IH.
  - destruct (boot_lst cf evs file clock rs y y' Hh HS) as (Hl & _). intros _. by injection Hl.
Qed.
Lemma exists_select cf evs y : reaches cf evs y → ∃ db : nat, s_select (y_srv y) = Z.of_nat db.
Proof.
  revert y. induction evs as [|e evs IH] using rev_ind; intros y' Hr.
  { destruct Hr as [_ [= <-]]. by exists 0%nat. }
  apply reaches_snoc in Hr as (Hh & y & Hr & HS). destruct (IH y Hr) as [db Hdb].
  destruct e as [|i args now unix rs|i n|now rs| | |dump|file clock rs]; try (cbn [step] in HS).
  - injection HS as <-. eauto.
  - destruct (y_cls y !! i) as [c|] eqn:Hc; [|injection HS as <-; eauto].
    destruct Hh as (Hev & _ & Htot). apply Forall_app in Hev as [_ Hev]. apply Forall_cons in Hev as [[Hargs Hrs] _].
    rewrite total_app in Htot.
    destruct (command_step cf evs y i c args now unix rs y' Hr Hc) as (v' & r & n & [_ _ _ Hl _]); [|by cbn [step]; rewrite Hc|].
    { split; [done|]. split; [done|]. unfold total in *. simpl in *. lia. }
    destruct (_ && _); [destruct Hl as (a & t & _ & _ & Hl)|]; apply (f_equal l_select) in Hl; cbn in Hl; eauto.
    exists db. congruence.
  - destruct (y_cls y !! i); injection HS as <-; eauto.
  - destruct (databasesCron _ _ _) as [[dbs' rs']| |]; try done. injection HS as <-. eauto.
  - injection HS as <-. eauto.
  - unfold rewriteAppendOnlyFileBackground in HS. destruct (s_task (y_srv y)); [injection HS as <-; eauto|].
    destruct (copy_dbs _) as [r| |]; try done. injection HS as <-. eauto.
  - destruct (s_task (y_srv y)) eqn:Ht; injection HS as <-; eauto.
  - destruct (boot_lst cf evs file clock rs y y' Hh HS) as (Hl & _). exists 0%nat. by injection Hl.
Qed.
(** the snapshot has the dataset of the server *)
Lemma rewrite_snapshot cf evs y y' : reaches cf evs y → s_task (y_srv y) = false → step cf EvRewrite y = Ok y' →
  ∃ snap, s_snap (y_srv y') = Some snap ∧ s_task (y_srv y') = true ∧ s_rwbuf (y_srv y') = [] ∧ s_select (y_srv y') = s_select (y_srv y) ∧
    abs_dbs (y_srv y') = abs_dbs (y_srv y) ∧ s_heap (y_srv y') = s_heap (y_srv y) ∧ y_file y' = y_file y ∧
    Forall2 (λ db c, d_map (db_dict c) = d_map (db_dict db) ∧ d_map (db_expire c) = d_map (db_expire db) ∧ db_ok (total evs) c) (s_dbs (y_srv y)) snap.
Proof.
  intros Hr Ht HS. pose proof (reaches_ok cf evs y Hr) as [[S1 S2 S3 S4] _ _].
  destruct (copy_dbs_spec (total evs) (s_dbs (y_srv y)) S1) as (snap & EC & HF).
  { destruct Hr as [(_ & _ & ?) _]. unfold small, max_entries. lia. }
  cbn [step] in HS. unfold rewriteAppendOnlyFileBackground in HS. rewrite Ht, EC in HS. cbn in HS. injection HS as <-.
  exists snap. split; [done|]. split; [done|]. split; [by apply (no_task_rwbuf cf evs y)|]. by split_and!.
Qed.
(** [rd id k] is the containers when the rewriting goroutine comes to key [k] of database
    [id] (AofModel.v): those of some moment between the start of the rewrite, after
    [evs], and its end, [mid] later *)
Definition read_during (cf : config) (evs mid : list event) (rd : nat → bytes → list obj) : Prop :=
  ∀ id k, ∃ m ym, m `prefix_of` mid ∧ run cf (evs ++ EvRewrite :: m) (init_sys cf) = Ok ym ∧ rd id k = s_heap (y_srv ym).
(** a container has the same contents when it is read as in [heap] *)
Definition unchanged (heap : list obj) (rd : nat → bytes → list obj) (snap : list database) : Prop :=
  ∀ id c k v, snap !! id = Some c → d_map (db_dict c) !! k = Some v → abs_val (rd id k) v = abs_val heap v.
(** a container has the same contents when it is read as in [heap], or its key still has
    it when it is read *)
Definition in_place (cf : config) (evs mid : list event) (heap : list obj) (rd : nat → bytes → list obj) (snap : list database) : Prop :=
  ∀ id c k v, snap !! id = Some c → d_map (db_dict c) !! k = Some v → abs_val (rd id k) v = abs_val heap v ∨
    ∃ m ym db, m `prefix_of` mid ∧ run cf (evs ++ EvRewrite :: m) (init_sys cf) = Ok ym ∧ rd id k = s_heap (y_srv ym) ∧
      s_dbs (y_srv ym) !! id = Some db ∧ d_map (db_dict db) !! k = Some v.
Lemma along_app cf ok evs evs' : ∀ y, along cf ok (evs ++ evs') y → along cf ok evs y.
Proof.
  induction evs as [|e evs IH]; intros y; [done|]. cbn [app along]. intros [H1 H2]. split; [done|]. intros y' Hy. by apply IH, H2.
Qed.
Lemma last_used_read heap rd dbs : ∀ cur id, last_used cur id (read_dbs rd id dbs) = last_used cur id (abs_db heap <$> dbs).
Proof.
  induction dbs as [|db dbs IH]; intros cur id; [done|]. cbn [read_dbs fmap list_fmap last_used]. rewrite IH. f_equal.
  assert (Hiff : a_keys (read_db (rd id) db) = ∅ ↔ a_keys (abs_db heap db) = ∅).
  { rewrite read_none. simpl. split; [intros ->; by rewrite fmap_empty|apply fmap_empty_inv]. }
  destruct (decide (a_keys (read_db (rd id) db) = ∅)), (decide (a_keys (abs_db heap db) = ∅)); tauto.
Qed.
Lemma abs_obj_tag x : tag (abs_obj x) ≠ 0%nat.
Proof. by destruct x. Qed.
(** the new log, when it replaces the old one *)
Lemma done_leads cf H E evs y0 y1 snap mid rd dump y2 y :
  lower_ok (cf_lib cf) → 0 ≤ H → cf_aof cf = true → Z.of_nat (cf_dbs cf) ≤ 2 ^ 44 →
  (* a rewrite starts in [y0] *)
  reaches cf evs y0 → s_task (y_srv y0) = false → step cf EvRewrite y0 = Ok y1 → s_snap (y_srv y1) = Some snap →
  (* other commands are executed, then the log is replaced *)
  reaches cf (evs ++ EvRewrite :: mid) y2 → Forall (calm cf H) mid →
  careful_history cf (evs ++ EvRewrite :: mid) → step cf (EvDone dump) y2 = Ok y →
  (* the goroutine reads the keys in the meantime, one by one *)
  read_during cf evs mid rd → in_place cf evs mid (s_heap (y_srv y0)) rd snap → Forall (lasts H) (read_dbs rd 0 snap) → rewriteAppendOnlyFile E rd snap = Ok dump →
  (* the last logged command was in the last database that is used, or nothing was executed *)
  s_select (y_srv y0) = Z.of_nat (last_used 0 0 (abs_dbs (y_srv y0))) ∨ s_rwbuf (y_srv y2) = [] →
  ∃ cmds db, y_file y = log_file cmds ∧ Forall (good_record cf) cmds ∧ Forall (fresh H) (abs_dbs (y_srv y)) ∧
    leads cf H (abs_dbs (NewServer (cf_dbs cf))) (abs_dbs (y_srv y)) 0 db cmds ∧
    (draws (cf_lib cf) cmds ≤ draws (cf_lib cf) (commands_of mid))%nat ∧
    (s_select (y_srv y0) = Z.of_nat (last_used 0 0 (abs_dbs (y_srv y0))) → s_select (y_srv y) = Z.of_nat db).
Proof.
  intros Hlow HH Haof Hdbs Hr0 Ht0 HS1 Hsnap Hr2 Hcalm Hcare HSd Hrd Hin Hlast Hdump Hsel.
  pose proof (reaches_ok cf evs y0 Hr0) as Hok0. pose proof Hok0 as [[S1 S2 S3 S4] Sl _].
  destruct (rewrite_snapshot cf evs y0 y1 Hr0 Ht0 HS1) as (snap' & Hs' & Ht1 & Hrw1 & Hsel1 & Habs1 & Hheap1 & Hf1 & HF).
  rewrite Hsnap in Hs'. injection Hs' as <-.
  assert (Hpos : (0 < cf_dbs cf)%nat) by (by destruct Hr0 as [(_ & ? & _) _]).
  assert (Hpre : ∀ m, m `prefix_of` mid → history_ok cf (evs ++ EvRewrite :: m) ∧ (total (evs ++ EvRewrite :: m) ≤ total (evs ++ EvRewrite :: mid))%nat).
  { intros m [t ->]. destruct Hr2 as [(Hev & _ & Htot) _].
    assert (evs ++ EvRewrite :: m ++ t = (evs ++ EvRewrite :: m) ++ t) as Heq by (by rewrite <-app_assoc). rewrite Heq in *.
    apply Forall_app in Hev as [Hev _]. rewrite (total_app (evs ++ EvRewrite :: m) t) in *. split; [|lia]. split; [done|]. split; [done|]. lia. }
  assert (Hr1 : reaches cf (evs ++ [EvRewrite]) y1).
  { apply reaches_snoc. split; [|by exists y0]. apply Hpre. by exists mid. }
  assert (Hrdok : ∀ id k, Forall (obj_ok (total (evs ++ EvRewrite :: mid))) (rd id k)).
  { intros id k. destruct (Hrd id k) as (m & ym & Hm & Hym & ->). destruct (Hpre m Hm) as [Hh Hle].
    destruct (reaches_ok cf _ ym (conj Hh Hym)) as [[_ M2 _ _] _ _]. eapply Forall_impl; [exact M2|]. intros x Hx. by eapply obj_ok_mono. }
  assert (Hsn : length snap = cf_dbs cf) by (rewrite <-(Forall2_length _ _ _ HF); done).
  assert (Hsame : abs_db (s_heap (y_srv y0)) <$> snap = abs_dbs (y_srv y0)).
  { clear -HF. unfold abs_dbs. generalize (s_heap (y_srv y0)). intros heap. induction HF as [|d c l l' (E1 & E2 & _) _ IH]; [done|].
    rewrite !fmap_cons. f_equal; [|done]. unfold abs_db. by rewrite E1, E2. }
  assert (Hread : ∀ i c, snap !! i = Some c → lasts H (read_db (rd i) c)).
  { intros i c Hc. eapply Forall_lookup_1; [exact Hlast|]. by rewrite read_dbs_lookup, Hc. }
  assert (Hfr : Forall (fresh H) (abs_dbs (y_srv y0))).
  { rewrite <-Hsame. apply Forall_lookup_2. intros i D HD. rewrite list_lookup_fmap in HD. destruct (snap !! i) as [c|] eqn:Hc; [|done]. injection HD as <-.
    intros k T HkT. destruct (Hread i c Hc) as [_ HT]. destruct (HT k T HkT) as [? _].
    assert (T / 1000 * 1000 ≤ T) by (pose proof (Z.mul_div_le T 1000); lia). lia. }
  (* a pointer of the snapshot leads to a container at the start *)
  assert (Hobj : ∀ i c k o, snap !! i = Some c → d_map (db_dict c) !! k = Some (VObj o) → is_Some (s_heap (y_srv y0) !! o)).
  { intros i c k o Hc Hk. destruct (Forall2_lookup_r _ _ _ _ _ HF Hc) as (db & Hdb & Hm1 & _).
    apply lookup_lt_is_Some, S4 with i k. exists db. split; [done|]. by rewrite <-Hm1. }
  assert (Hobj' : ∀ i c k o, snap !! i = Some c → d_map (db_dict c) !! k = Some (VObj o) → is_Some (rd i k !! o)).
  { intros i c k o Hc Hk. destruct (Hin i c k _ Hc Hk) as [Hv|(m & ym & db & Hm & Hym & -> & Hdb & Hkm)].
    - destruct (Hobj i c k o Hc Hk) as [x Hx]. cbn [abs_val] in Hv. rewrite Hx in Hv. destruct (rd i k !! o); [by eexists|]. by destruct x.
    - destruct (Hpre m Hm) as [Hh _]. destruct (reaches_ok cf _ ym (conj Hh Hym)) as [[_ _ _ M4] _ _].
      apply lookup_lt_is_Some, M4 with i k. by exists db. }
  (* the dump *)
  destruct (dbs_leads cf H Hlow HH E rd (total (evs ++ EvRewrite :: mid)) (total evs) snap Hrdok) with (id := 0%nat) as (c1 & E1 & [Hc1 Hd1] & HL1).
  { clear -HF. induction HF as [|? ? ? ? (_ & _ & ?) HF IH]; [by apply Forall_nil_2|by constructor]. }
  { intros i c Hc. cbn [Nat.add]. destruct (Hread i c Hc) as [HL1 HL2]. split.
    - intros k v Hv. split; [apply (HL1 k); by rewrite read_keys, Hv|]. intros o ->. by eapply Hobj'.
    - intros k T HT. destruct (HL2 k T HT) as (? & ? & Hk). split; [by split|]. rewrite read_keys in Hk. by apply fmap_is_Some in Hk. }
  unfold rewriteAppendOnlyFile in Hdump. rewrite Hdump in E1. injection E1 as ->.
  specialize (HL1 [] 0%nat eq_refl ltac:(lia)). cbn [app] in HL1. rewrite Hsn, (last_used_read (s_heap (y_srv y0))), Hsame in HL1.
  assert (Hnew : abs_dbs (NewServer (cf_dbs cf)) = replicate (cf_dbs cf) empty_db).
  { unfold abs_dbs. cbn [NewServer s_dbs]. rewrite fmap_replicate. f_equal. unfold abs_db. simpl. rewrite !NewDict_map. by rewrite fmap_empty. }
  rewrite <-Hnew in HL1.
  (* when the keys are read *)
  destruct (choose_list None (λ (p : nat * bytes) (t : option nat), ∀ c v, snap !! p.1 = Some c → d_map (db_dict c) !! p.2 = Some v →
      match t with
      | None => abs_val (rd p.1 p.2) v = abs_val (s_heap (y_srv y0)) v
      | Some n => (n ≤ length mid)%nat ∧ ∃ ym db, run cf (evs ++ EvRewrite :: take n mid) (init_sys cf) = Ok ym ∧ rd p.1 p.2 = s_heap (y_srv ym) ∧
          s_dbs (y_srv ym) !! p.1 = Some db ∧ d_map (db_dict db) !! p.2 = Some v
      end) (imap pair snap ≫= λ q, (λ e, (q.1, e.1)) <$> map_to_list (d_map (db_dict q.2)))) as [tm Htm].
  { intros [i k] _. cbn [fst snd]. destruct (snap !! i) as [c|] eqn:Hc; [|by exists None].
    destruct (d_map (db_dict c) !! k) as [v|] eqn:Hv.
    - destruct (Hin i c k v Hc Hv) as [Hu|(m & ym & db & [m' Hm] & Hym & Hrest)].
      + exists None. intros c' v' [= <-] Hv'. rewrite Hv in Hv'. by injection Hv' as <-.
      + exists (Some (length m)). intros c' v' [= <-] Hv'. rewrite Hv in Hv'. injection Hv' as <-.
        split; [rewrite Hm, app_length; lia|]. exists ym, db. by rewrite Hm, take_app.
    - exists None. intros c' v' [= <-] Hv'. congruence. }
  assert (Hts : ∀ i c k v, snap !! i = Some c → d_map (db_dict c) !! k = Some v →
      match tm (i, k) with
      | None => abs_val (rd i k) v = abs_val (s_heap (y_srv y0)) v
      | Some n => (n ≤ length mid)%nat ∧ ∃ ym db, run cf (evs ++ EvRewrite :: take n mid) (init_sys cf) = Ok ym ∧ rd i k = s_heap (y_srv ym) ∧
          s_dbs (y_srv ym) !! i = Some db ∧ d_map (db_dict db) !! k = Some v
      end).
  { intros i c k v Hc Hv. apply (Htm (i, k)) with c; [|done|done]. apply elem_of_list_bind. exists (i, c). split.
    - apply elem_of_list_fmap. exists (k, v). split; [done|]. by apply elem_of_map_to_list.
    - apply elem_of_lookup_imap. by exists i, c. }
  clear Htm.
  pose (at_start := λ i k, snap !! i ≫= λ c, d_map (db_dict c) !! k).
  pose (Vat := λ (n i : nat) (k : bytes), match at_start i k, tm (i, k) with
    | Some v, Some t => if decide (n ≤ t)%nat then abs_val (rd i k) v else AStr []
    | _, _ => AStr [] end).
  assert (Hfol : ∀ n yn, run cf (evs ++ EvRewrite :: take n mid) (init_sys cf) = Ok yn → follows (abs_dbs (y_srv yn)) (Vat n) (Vat (S n))).
  { intros n yn Hyn i k. unfold Vat. destruct (at_start i k) as [v|] eqn:Hst; [|by left]. unfold at_start in Hst.
    destruct (snap !! i) as [c|] eqn:Hc; [|done]. cbn [mbind option_bind] in Hst.
    pose proof (Hts i c k v Hc Hst) as Ht. destruct (tm (i, k)) as [t|]; [|by left].
    destruct (decide (n ≤ t)%nat) as [Hnt|Hnt]; [|left; rewrite decide_False by lia; done].
    destruct (decide (S n ≤ t)%nat) as [Hst'|Hst']; [by left|]. assert (t = n) as -> by lia.
    destruct Ht as (_ & ym & db & Hym & Hrdk & Hdb & Hk). rewrite Hyn in Hym. injection Hym as <-.
    right. split; [done|]. exists (abs_db (s_heap (y_srv yn)) db). split; [unfold abs_dbs; by rewrite list_lookup_fmap, Hdb|].
    simpl. by rewrite lookup_fmap, Hk, Hrdk. }
  destruct (exists_select cf evs y0 Hr0) as [db0 Hdb0].
  (* kinds do not change *)
  assert (Hkind : ∀ i c k v, snap !! i = Some c → d_map (db_dict c) !! k = Some v → tag (abs_val (rd i k) v) = tag (abs_val (s_heap (y_srv y0)) v)).
  { intros i c k v Hc Hv. pose proof (Hts i c k v Hc Hv) as Ht. destruct (tm (i, k)) as [n|]; [|by rewrite Ht].
    destruct v as [s|o]; [done|]. destruct Ht as (Hn & ym & db & Hym & Hrdk & Hdb & Hk).
    destruct (Hpre (take n mid)) as [Hh _]; [exists (drop n mid); by rewrite take_drop|].
    destruct (mixed_since cf H (evs ++ [EvRewrite]) y1 db0 (λ _ _ _, AStr []) (abs_dbs (y_srv y1)) (take n mid) ym) as (_ & _ & _ & _ & _ & _ & _ & _ & _ & _ & _ & _ & Hturn); try done.
    - by rewrite Habs1.
    - by rewrite Hsel1.
    - split; [|by rewrite <-app_assoc]. by rewrite <-app_assoc.
    - by apply Forall_take.
    - rewrite <-app_assoc. cbn [app]. assert (evs ++ EvRewrite :: mid = (evs ++ EvRewrite :: take n mid) ++ drop n mid) as Heq by (rewrite <-app_assoc; cbn [app]; by rewrite take_drop).
      rewrite Heq in Hcare. by apply along_app in Hcare.
    - apply mixed_refl.
    - intros ? ? _ _ ? ?. by left.
    - rewrite Habs1 in Hturn. destruct (Hturn i (abs_db (s_heap (y_srv y0)) c)) as (D1 & HD1 & HT); [by rewrite <-Hsame, list_lookup_fmap, Hc|].
      destruct (HT k (abs_val (s_heap (y_srv y0)) (VObj o))) as (v1 & Hv1 & Htag); [simpl; by rewrite lookup_fmap, Hv|].
      unfold abs_dbs in HD1. rewrite list_lookup_fmap, Hdb in HD1. injection HD1 as <-. simpl in Hv1. rewrite lookup_fmap, Hk in Hv1. injection Hv1 as <-.
      rewrite Hrdk. destruct Htag as [Htag|Htag]; [done|]. exfalso.
      destruct (Hobj' i c k o Hc Hv) as [x Hx]. rewrite Hrdk in Hx. cbn [abs_val] in Htag. rewrite Hx in Htag. by apply abs_obj_tag in Htag. }
  (* at the start *)
  assert (Hmix : mixed (Vat 0%nat) (abs_dbs (y_srv y1)) (read_dbs rd 0 snap)).
  { intros i. rewrite Habs1, <-Hsame, list_lookup_fmap, read_dbs_lookup. cbn [Nat.add].
    destruct (snap !! i) as [c|] eqn:Hc; [|constructor]. constructor. split; [done|]. intros k. rewrite read_keys. simpl. rewrite lookup_fmap.
    destruct (d_map (db_dict c) !! k) as [v|] eqn:Hv; [|constructor]. cbn [fmap option_fmap option_map].
    unfold Vat, at_start. rewrite Hc. cbn [mbind option_bind]. rewrite Hv. pose proof (Hts i c k v Hc Hv) as Ht.
    destruct (tm (i, k)) as [t|]; [|rewrite Ht; constructor]. rewrite decide_True by lia. pose proof (Hkind i c k v Hc Hv) as Hkd.
    destruct (Hread i c Hc) as [Hrw _]. specialize (Hrw k (abs_val (rd i k) v)). rewrite read_keys, Hv in Hrw. specialize (Hrw eq_refl).
    destruct v as [s|o]; [constructor|].
    destruct (abs_val (rd i k) (VObj o)) as [| h | |sv| ] eqn:Ev; try done.
    - exfalso. destruct (Hobj' i c k o Hc Hv) as [x Hx]. cbn [abs_val] in Ev. rewrite Hx in Ev. by destruct x.
    - destruct (abs_val (s_heap (y_srv y0)) (VObj o)); try done. eapply blend_hash; [done|]. intros f. by right.
    - destruct (abs_val (s_heap (y_srv y0)) (VObj o)); try done. eapply blend_set; [done|]. intros f. by right. }
  (* the commands since *)
  destruct (mixed_since cf H (evs ++ [EvRewrite]) y1 db0 Vat (read_dbs rd 0 snap) mid y2) as (more & db2 & dbs2 & Hrw & Hne & HF2 & Hsel2 & Ht2 & HL2 & Hm2 & Hdr & Hnone & _); try done.
  { by rewrite Habs1. }
  { by rewrite Hsel1. }
  { by rewrite <-app_assoc. }
  { by rewrite <-app_assoc. }
  { intros n yn _ Hyn. apply Hfol. by rewrite <-app_assoc in Hyn. }
  (* all has been read *)
  assert (dbs2 = abs_dbs (y_srv y2)) as ->.
  { eapply (mixed_none _ _ (Vat (S (length mid)))).
    - intros i k. unfold Vat, at_start. destruct (snap !! i) as [c|] eqn:Hc; [|done]. cbn [mbind option_bind].
      destruct (d_map (db_dict c) !! k) as [v|] eqn:Hv; [|done]. pose proof (Hts i c k v Hc Hv) as Ht.
      destruct (tm (i, k)) as [t|]; [|done]. destruct Ht as [Hlt _]. by rewrite decide_False by lia.
    - eapply mixed_follows; [exact Hm2|]. apply Hfol. rewrite firstn_all. apply Hr2. }
  cbn [step] in HSd. rewrite Ht2 in HSd. injection HSd as <-. cbn [y_file y_srv] in *.
  rewrite Hrw, Hrw1 in *. cbn [app] in *. rewrite <-log_app in *.
  assert (Habs : abs_dbs (set_task (set_log (y_srv y2) (s_select (y_srv y2)) (s_aofbuf (y_srv y2)) []) false None) = abs_dbs (y_srv y2)) by done.
  rewrite Habs. destruct (decide (s_select (y_srv y0) = Z.of_nat (last_used 0 0 (abs_dbs (y_srv y0))))) as [Heq|Hneq].
  - assert (db0 = last_used 0 0 (abs_dbs (y_srv y0))) as -> by lia. exists (c1 ++ more), db2.
    split; [done|]. split; [by apply Forall_app|]. split; [done|]. split; [by eapply leads_app|]. split; [|done]. rewrite draws_app, Hd1. lia.
  - destruct Hsel as [Hsel|Hnil]; [done|]. assert (more = []) as ->.
    { destruct more as [|c more]; [done|]. rewrite log_cons in Hnil. apply (f_equal length) in Hnil. rewrite app_length in Hnil. pose proof (encode_pos c). simpl in Hnil. lia. }
    rewrite app_nil_r in *. rewrite Hnone in HF2 |- * by done. eexists c1, _. split; [done|]. split; [done|]. split; [done|]. split; [exact HL1|]. split; [lia|done].
Qed.
Theorem C40_rewrite_partial cf H E evs y0 y1 snap mid rd dump y2 y clock rs :
  lower_ok (cf_lib cf) → 0 ≤ H → cf_aof cf = true → Z.of_nat (cf_dbs cf) ≤ 2 ^ 44 →
  (* a rewrite starts in [y0] *)
  reaches cf evs y0 → s_task (y_srv y0) = false → step cf EvRewrite y0 = Ok y1 → s_snap (y_srv y1) = Some snap →
  (* other commands are executed, then the log is replaced *)
  reaches cf (evs ++ EvRewrite :: mid) y2 → Forall (calm cf H) mid →
  careful_history cf (evs ++ EvRewrite :: mid) → step cf (EvDone dump) y2 = Ok y →
  (* the goroutine reads the keys in the meantime, one by one; a container that has
     changed is read while its key still has it *)
  read_during cf evs mid rd → in_place cf evs mid (s_heap (y_srv y0)) rd snap →
  (* what it reads are strings, hashes and sets *)
  Forall (lasts H) (read_dbs rd 0 snap) → rewriteAppendOnlyFile E rd snap = Ok dump →
  (* the last logged command was in the last database that is used, or nothing was executed *)
  s_select (y_srv y0) = Z.of_nat (last_used 0 0 (abs_dbs (y_srv y0))) ∨ s_rwbuf (y_srv y2) = [] →
  readable (y_file y) → (∀ j, clock j ≤ H) → Forall (λ r, 0 ≤ r) rs → enough (draws (cf_lib cf) (commands_of mid)) rs →
  ∃ w, restart cf clock (y_file y) rs = (w, Ok tt) ∧ Forall2 sim (abs_dbs (y_srv y)) (abs_dbs (w_srv w)).
Proof.
  intros Hlow HH Haof Hdbs Hr0 Ht0 HS1 Hsnap Hr2 Hcalm Hcare HSd Hrd Hin Hlast Hdump Hsel Hlen Hclock Hrs Hen.
  assert (Hpos : (0 < cf_dbs cf)%nat) by (by destruct Hr0 as [(_ & ? & _) _]).
  destruct (done_leads cf H E evs y0 y1 snap mid rd dump y2 y) as (cmds & db & Hf & Hg & _ & HL & Hd & _); try done.
  rewrite Hf in *. destruct (restart_leads cf H clock rs (abs_dbs (y_srv y)) db cmds) as (w & N & Hw & Hrp); try done; [by eapply enough_le|].
  exists w. split; [done|]. apply Hrp.
Qed.
Print Assumptions C40_rewrite_partial.
(** a check for [lasts] *)
Definition rewritable_check (v : aval) : bool :=
  match v with AStr _ => true | AHash h => negb (bool_decide (h = ∅)) | ASet s => negb (bool_decide (s = ∅)) | _ => false end.
Definition lasts_check (H : Z) (D : adb) : bool :=
  forallb (λ p, rewritable_check p.2) (map_to_list (a_keys D)) &&
  forallb (λ p, (H <=? p.2 / 1000 * 1000) && (p.2 <? 2 ^ 63) && bool_decide (is_Some (a_keys D !! p.1))) (map_to_list (a_ttl D)).
Lemma lasts_check_ok H D : lasts_check H D = true → lasts H D.
Proof.
  intros [H1 H2]%andb_true_iff. rewrite forallb_forall in H1, H2. split.
  - intros k v Hv. apply elem_of_map_to_list, elem_of_list_In, H1 in Hv. simpl in Hv.
    destruct v; simpl in *; try done; by apply negb_true_iff, bool_decide_eq_false in Hv.
  - intros k T HT. apply elem_of_map_to_list, elem_of_list_In, H2 in HT. simpl in HT.
    apply andb_true_iff in HT as [HT H3]. apply andb_true_iff in HT as [HT1 HT2]. apply bool_decide_eq_true in H3. split; [lia|]. split; [lia|done].
Qed.
Lemma lasts_checks H l : forallb (lasts_check H) l = true → Forall (lasts H) l.
Proof. induction l as [|D l IH]; [intros _; apply Forall_nil_2|]. cbn [forallb]. intros [H1 H2]%andb_true_iff. constructor; [by apply lasts_check_ok|by apply IH]. Qed.
Definition dump_of (y : sys) : bytes :=
  match s_snap (y_srv y) with
  | Some snap => match rewriteAppendOnlyFile (env_at cf0 0 0) (λ _ _, s_heap (y_srv y)) snap with Ok d => d | _ => [] end
  | None => []
  end.
Definition next (e : event) (y : sys) : sys := match step cf0 e y with Ok y' => y' | _ => y end.
(** a check for [unchanged]: the values of the snapshot, one by one *)
Definition same_check (v w : aval) : bool :=
  match v, w with
  | AStr a, AStr b => bool_decide (a = b)
  | AHash h, AHash h' => bool_decide (h = h')
  | ASet x, ASet x' => bool_decide (x = x')
  | _, _ => false
  end.
Lemma same_check_ok v w : same_check v w = true → v = w.
Proof. destruct v, w; simpl; try done; intros Heq%bool_decide_eq_true; by rewrite Heq. Qed.
Definition unchanged_check (heap : list obj) (rd : nat → bytes → list obj) (snap : list database) : bool :=
  forallb (λ p, forallb (λ e, same_check (abs_val (rd p.1 e.1) e.2) (abs_val heap e.2)) (map_to_list (d_map (db_dict p.2)))) (imap pair snap).
Lemma unchanged_check_ok heap rd snap : unchanged_check heap rd snap = true → unchanged heap rd snap.
Proof.
  unfold unchanged_check. rewrite forallb_forall. intros Hall id c k v Hc Hv.
  assert (Hin : In (id, c) (imap pair snap)).
  { apply elem_of_list_In, elem_of_lookup_imap. exists id, c. done. }
  apply Hall in Hin. cbn [fst snd] in Hin. rewrite forallb_forall in Hin.
  apply elem_of_map_to_list, elem_of_list_In, Hin in Hv. cbn [fst snd] in Hv. by apply same_check_ok.
Qed.
(** the same for [in_place]; [at_read id k]: the server when the key is read *)
Definition points_to (y : sys) (id : nat) (k : bytes) (v : value) : bool :=
  match s_dbs (y_srv y) !! id with
  | Some db => match d_map (db_dict db) !! k, v with Some (VObj o), VObj o' => bool_decide (o = o') | _, _ => false end
  | None => false
  end.
Definition in_place_check (heap : list obj) (at_read : nat → bytes → sys) (snap : list database) : bool :=
  forallb (λ p, forallb (λ e, same_check (abs_val (s_heap (y_srv (at_read p.1 e.1))) e.2) (abs_val heap e.2) || points_to (at_read p.1 e.1) p.1 e.1 e.2)
    (map_to_list (d_map (db_dict p.2)))) (imap pair snap).
Lemma in_place_check_ok cf evs mid heap at_read snap : in_place_check heap at_read snap = true →
  (∀ id k, ∃ m, m `prefix_of` mid ∧ run cf (evs ++ EvRewrite :: m) (init_sys cf) = Ok (at_read id k)) →
  in_place cf evs mid heap (λ id k, s_heap (y_srv (at_read id k))) snap.
Proof.
  unfold in_place_check. rewrite forallb_forall. intros Hall Hrun id c k v Hc Hv.
  assert (Hin : In (id, c) (imap pair snap)).
  { apply elem_of_list_In, elem_of_lookup_imap. exists id, c. done. }
  apply Hall in Hin. cbn [fst snd] in Hin. rewrite forallb_forall in Hin.
  apply elem_of_map_to_list, elem_of_list_In, Hin in Hv. cbn [fst snd] in Hv. apply orb_true_iff in Hv as [Hv|Hv]; [left; by apply same_check_ok|].
  right. unfold points_to in Hv. destruct (s_dbs (y_srv (at_read id k)) !! id) as [db|] eqn:Hdb; [|done].
  destruct (d_map (db_dict db) !! k) as [[|o]|] eqn:Hk; try done. destruct v as [|o']; [done|]. apply bool_decide_eq_true in Hv as ->.
  destruct (Hrun id k) as (m & Hm & Hr). by exists m, (at_read id k), db.
Qed.
(** Strings, a hash and a set in two databases, one deadline.  The goroutine writes the
    string; then the set is changed, after that it is written, and database 3; then the
    hash is changed, and the log is replaced. *)
Definition h_rewrite : list event := [EvConnect; cmd 0 1500 "set a 1"; cmd 0 1500 "expire a 10"; cmd 0 1500 "sadd s x y";
  cmd 0 1600 "select 3"; cmd 0 1700 "hset h f v"; EvFlush].
Definition h_early : list event := [cmd 0 1800 "select 0"; cmd 0 1800 "sadd s z"; cmd 0 1800 "srem s x"].
Definition h_mid : list event := h_early ++ [cmd 0 1900 "select 3"; cmd 0 1900 "hset h g w"; cmd 0 1900 "zadd z 1 m"; EvFlush].
Definition h_at (id : nat) (k : bytes) : sys :=
  after cf0 (h_rewrite ++ EvRewrite :: if decide (k = B "a") then [] else h_early).
Definition h_reads (id : nat) (k : bytes) : list obj := s_heap (y_srv (h_at id k)).
Definition h_dump : bytes :=
  match s_snap (y_srv (after cf0 (h_rewrite ++ [EvRewrite]))) with
  | Some snap => match rewriteAppendOnlyFile (env_at cf0 0 0) h_reads snap with Ok d => d | _ => [] end
  | None => []
  end.
Definition h_snap : list database := match s_snap (y_srv (after cf0 (h_rewrite ++ [EvRewrite]))) with Some snap => snap | None => [] end.
Example C40_rewrite_example :
  let y0 := after cf0 h_rewrite in let y1 := next EvRewrite y0 in
  let y2 := after cf0 (h_rewrite ++ EvRewrite :: h_mid) in let y := next (EvDone h_dump) y2 in
  reaches cf0 h_rewrite y0 ∧ s_task (y_srv y0) = false ∧
  reaches cf0 (h_rewrite ++ EvRewrite :: h_mid) y2 ∧ Forall (calm cf0 5000) h_mid ∧
  careful_history cf0 (h_rewrite ++ EvRewrite :: h_mid) ∧
  read_during cf0 h_rewrite h_mid h_reads ∧
  (s_snap (y_srv y1) = Some h_snap ∧ in_place cf0 h_rewrite h_mid (s_heap (y_srv y0)) h_reads h_snap ∧ Forall (lasts 5000) (read_dbs h_reads 0 h_snap) ∧
   rewriteAppendOnlyFile (env_at cf0 0 0) h_reads h_snap = Ok h_dump) ∧
  s_select (y_srv y0) = Z.of_nat (last_used 0 0 (abs_dbs (y_srv y0))) ∧
  y_file y = log_file [words "select 0"; words "set a 1"; words "expireat a 11"; words "sadd s y z"; words "select 3"; words "hset h f v";
    words "select 0"; words "sadd s z"; words "srem s x"; words "select 3"; words "hset h g w"; words "zadd z 1 m"].
Proof.
  assert (Hrun : ∀ (id : nat) k, ∃ m, m `prefix_of` h_mid ∧ run cf0 (h_rewrite ++ EvRewrite :: m) (init_sys cf0) = Ok (h_at id k)).
  { assert (Hran : ∀ evs, runs_ok cf0 evs (init_sys cf0) = true → run cf0 evs (init_sys cf0) = Ok (after cf0 evs)).
    { intros evs. unfold runs_ok, after. by destruct (run cf0 evs (init_sys cf0)). }
    intros id k. unfold h_at. exists (if decide (k = B "a") then [] else h_early). destruct (decide (k = B "a")).
    - split; [by exists h_mid|]. apply Hran. by vm_compute.
    - split; [by eexists|]. apply Hran. by vm_compute. }
  cbv zeta. split; [apply after_reaches; by vm_compute|]. split; [by vm_compute|].
  split; [apply after_reaches; by vm_compute|]. split; [apply calm_checks; by vm_compute|].
  split; [apply careful_history_check; by vm_compute|]. split.
  { intros id k. destruct (Hrun id k) as (m & Hm & Hr). exists m, (h_at id k). split; [exact Hm|]. split; [exact Hr|reflexivity]. }
  split; [|by vm_compute].
  split; [vm_compute; reflexivity|]. split; [|split; [apply lasts_checks; by vm_compute|vm_compute; reflexivity]].
  apply (in_place_check_ok cf0 h_rewrite h_mid (s_heap (y_srv (after cf0 h_rewrite))) h_at h_snap); [vm_compute; reflexivity|exact Hrun].
Qed.

(** The refutations: a rewrite of the dataset of [evs]; [mid] is executed while it
    runs, before the dump is written; then the log is replaced and the server
    restarted. *)
Definition rewritten (evs mid : list event) : sys := let y := after cf0 (evs ++ EvRewrite :: mid) in next (EvDone (dump_of y)) y.
Definition reborn (y : sys) : loaded world := restart cf0 (λ _, 3000) (y_file y) [].
(** lists are reversed *)
Definition h_list : list event := [EvConnect; cmd 0 1000 "rpush l a b"; EvFlush].
Theorem C40_list_refuted : reaches cf0 (h_list ++ EvRewrite :: []) (after cf0 (h_list ++ EvRewrite :: [])) ∧
  let y := rewritten h_list [] in let w := (reborn y).1 in reborn y = (w, Ok tt) ∧
  as_list (val (y_srv y) 0 (B "l")) = [B "a"; B "b"] ∧ as_list (val (w_srv w) 0 (B "l")) = [B "b"; B "a"].
Proof. split; [apply after_reaches; by vm_compute|]. cbv zeta. split; [apply loads_ok_eq; by vm_compute|by vm_compute]. Qed.
Print Assumptions C40_list_refuted.
(** sorted sets lose their members *)
Definition h_zset : list event := [EvConnect; cmd 0 1000 "zadd z 1 m"; EvFlush].
Theorem C40_zset_refuted : reaches cf0 (h_zset ++ EvRewrite :: []) (after cf0 (h_zset ++ EvRewrite :: [])) ∧
  let y := rewritten h_zset [] in let w := (reborn y).1 in reborn y = (w, Ok tt) ∧
  as_zset (val (y_srv y) 0 (B "z")) = Some 1%nat ∧ as_zset (val (w_srv w) 0 (B "z")) = Some 0%nat.
Proof. split; [apply after_reaches; by vm_compute|]. cbv zeta. split; [apply loads_ok_eq; by vm_compute|by vm_compute]. Qed.
Print Assumptions C40_zset_refuted.
(** an empty container disappears *)
Definition h_empty : list event := [EvConnect; cmd 0 1000 "sadd s a"; cmd 0 1000 "srem s a"; EvFlush].
Theorem C40_empty_refuted : reaches cf0 (h_empty ++ EvRewrite :: []) (after cf0 (h_empty ++ EvRewrite :: [])) ∧
  let y := rewritten h_empty [] in let w := (reborn y).1 in reborn y = (w, Ok tt) ∧
  is_Some (val (y_srv y) 0 (B "s")) ∧ val (w_srv w) 0 (B "s") = None.
Proof. split; [apply after_reaches; by vm_compute|]. cbv zeta. split; [apply loads_ok_eq; by vm_compute|]. split; [eexists; by vm_compute|by vm_compute]. Qed.
Print Assumptions C40_empty_refuted.
(** a command executed while the rewrite runs ends up in another database *)
Definition h_select : list event := [EvConnect; cmd 0 1000 "select 1"; cmd 0 1000 "set a 1"; cmd 0 1000 "select 0"; cmd 0 1000 "set b 1"; EvFlush].
Theorem C40_select_refuted : reaches cf0 (h_select ++ EvRewrite :: [cmd 0 2000 "set c 1"; EvFlush]) (after cf0 (h_select ++ EvRewrite :: [cmd 0 2000 "set c 1"; EvFlush])) ∧
  let y := rewritten h_select [cmd 0 2000 "set c 1"; EvFlush] in let w := (reborn y).1 in reborn y = (w, Ok tt) ∧
  as_str (val (y_srv y) 0 (B "c")) = Some (B "1") ∧ val (w_srv w) 0 (B "c") = None ∧ as_str (val (w_srv w) 1 (B "c")) = Some (B "1").
Proof. split; [apply after_reaches; by vm_compute|]. cbv zeta. split; [apply loads_ok_eq; by vm_compute|by vm_compute]. Qed.
Print Assumptions C40_select_refuted.
(** the containers are shared with the running server: a command executed before the
    dump is written is in the dump and in the buffer, and is executed twice *)
Definition h_shared : list event := [EvConnect; cmd 0 1000 "lpush l a"; EvFlush].
Theorem C40_shared_refuted : reaches cf0 (h_shared ++ EvRewrite :: [cmd 0 2000 "lpush l b"; EvFlush]) (after cf0 (h_shared ++ EvRewrite :: [cmd 0 2000 "lpush l b"; EvFlush])) ∧
  let y := rewritten h_shared [cmd 0 2000 "lpush l b"; EvFlush] in let w := (reborn y).1 in reborn y = (w, Ok tt) ∧
  as_list (val (y_srv y) 0 (B "l")) = [B "b"; B "a"] ∧ as_list (val (w_srv w) 0 (B "l")) = [B "b"; B "a"; B "b"].
Proof. split; [apply after_reaches; by vm_compute|]. cbv zeta. split; [apply loads_ok_eq; by vm_compute|by vm_compute]. Qed.
Print Assumptions C40_shared_refuted.
(** after the rewrite the server goes on as if the last database of the log were the
    one of the last command: a command executed later ends up in another database *)
Theorem C40_later_refuted : ∃ y w, run cf0 [cmd 0 2000 "set c 1"; EvFlush] (rewritten h_select []) = Ok y ∧ reborn y = (w, Ok tt) ∧
  as_str (val (y_srv y) 0 (B "c")) = Some (B "1") ∧ val (w_srv w) 0 (B "c") = None ∧ as_str (val (w_srv w) 1 (B "c")) = Some (B "1").
Proof.
  set (y := match run cf0 [cmd 0 2000 "set c 1"; EvFlush] (rewritten h_select []) with Ok y => y | _ => init_sys cf0 end).
  exists y, (reborn y).1. split; [|split; [apply loads_ok_eq; by vm_compute|by vm_compute]].
  assert (runs_ok cf0 [cmd 0 2000 "set c 1"; EvFlush] (rewritten h_select []) = true) as Hr by (by vm_compute).
  unfold runs_ok in Hr. unfold y. by destruct (run cf0 _ (rewritten h_select [])).
Qed.
Print Assumptions C40_later_refuted.

(** * C41 *)
(** [done_disk old dump rw disk]: [disk] is the contents of the log file at some point
    of aofRewriteDoneCallback, when the old log is [old], the dump is [dump] and the
    buffer is [rw].
    While a rewrite runs the log only grows, up to the first call of the callback;
    the callback starts with the old log, and ends with the dump followed by the
    commands executed since.  Missing: the points in between, see
    [C41_crash_refuted]; what the dump contains is C40. *)
Theorem C41_crash_partial cf evs evs' y y' : run cf evs (init_sys cf) = Ok y → run cf evs' y = Ok y' → (∀ d, EvDone d ∉ evs') → Forall (λ e, ¬ is_boot e) evs' →
  y_file y `prefix_of` y_file y'.
Proof.
  intros _. revert y. induction evs' as [|e evs' IH]; intros y Hr Hd Hb; [by injection Hr as <-|]. apply Forall_cons in Hb as [Hb Hbs].
  cbn [run] in Hr. destruct (step cf e y) as [y1| |] eqn:HS; try done. cbn [mbind res_bind] in Hr.
  transitivity (y_file y1); [|apply IH; [done|intros d Hin; apply (Hd d); by right|done]].
  destruct e as [|i args now unix rs|i n|now rs| | |dump|file clock rs]; cbn [step] in HS.
  - by injection HS as <-.
  - destruct (y_cls y !! i); [|by injection HS as <-]. destruct (processCommand _ _ _); try done. by injection HS as <-.
  - destruct (y_cls y !! i); by injection HS as <-.
  - destruct (databasesCron _ _ _); try done. by injection HS as <-.
  - injection HS as <-. by apply prefix_app_r.
  - destruct (rewriteAppendOnlyFileBackground _); try done. by injection HS as <-.
  - destruct (Hd dump). by left.
  - by destruct Hb.
Qed.
Print Assumptions C41_crash_partial.
(** the first and the last point of the callback *)
Theorem C41_ends_partial cf evs dump y y' : reaches cf evs y → s_task (y_srv y) = true → step cf (EvDone dump) y = Ok y' →
  done_disk (y_file y) dump (s_rwbuf (y_srv y)) (y_file y) ∧ done_disk (y_file y) dump (s_rwbuf (y_srv y)) (y_file y') ∧
  y_file y' = dump ++ s_rwbuf (y_srv y) ∧ s_rwbuf (y_srv y') = [].
Proof.
  intros _ Ht HS. cbn [step] in HS. rewrite Ht in HS. injection HS as <-. split; [constructor|]. split; [|done]. cbn [y_file].
  rewrite <-(take_ge (s_rwbuf (y_srv y)) (length (s_rwbuf (y_srv y)))) at 2 by done. constructor.
Qed.
Print Assumptions C41_ends_partial.
Definition h_crash : list event := [EvConnect; cmd 0 1000 "set a 1"; EvFlush; EvRewrite; cmd 0 2000 "set b 2"; EvFlush].
(** a crash after the dump has been moved and before the buffer is appended: a command
    that had been flushed is lost *)
Theorem C41_crash_refuted : ∃ y disk w w', reaches cf0 h_crash y ∧ s_task (y_srv y) = true ∧ s_aofbuf (y_srv y) = [] ∧
  let dump := dump_of (after cf0 (take 4 h_crash)) in
  done_disk (y_file y) dump (s_rwbuf (y_srv y)) disk ∧
  restart cf0 (λ _, 3000) (y_file y) [] = (w, Ok tt) ∧ as_str (val (w_srv w) 0 (B "b")) = Some (B "2") ∧
  restart cf0 (λ _, 3000) disk [] = (w', Ok tt) ∧ val (w_srv w') 0 (B "b") = None.
Proof.
  set (y := after cf0 h_crash). set (disk := dump_of (after cf0 (take 4 h_crash)) ++ take 0 (s_rwbuf (y_srv y))).
  exists y, disk, (restart cf0 (λ _, 3000) (y_file y) []).1, (restart cf0 (λ _, 3000) disk []).1.
  split; [apply after_reaches; by vm_compute|]. split; [by vm_compute|]. split; [by vm_compute|]. cbv zeta. split; [apply dd_append|].
  split; [apply loads_ok_eq; by vm_compute|]. split; [by vm_compute|]. split; [apply loads_ok_eq; by vm_compute|by vm_compute].
Qed.
Print Assumptions C41_crash_refuted.
(** a crash while mv copies the dump: even a command of the dump is lost *)
Theorem C41_copy_refuted : ∃ y disk, reaches cf0 h_crash y ∧ s_task (y_srv y) = true ∧
  done_disk (y_file y) (dump_of (after cf0 (take 4 h_crash))) (s_rwbuf (y_srv y)) disk ∧
  y_file y = log_file [words "set a 1"; words "set b 2"] ∧ disk = [].
Proof.
  exists (after cf0 h_crash), []. split; [apply after_reaches; by vm_compute|]. split; [by vm_compute|]. split; [apply (dd_copy _ _ _ 0)|]. by vm_compute.
Qed.
Print Assumptions C41_copy_refuted.
Example C41_crash_example : y_file (after cf0 (take 3 h_crash)) = log_file [words "set a 1"] ∧ (∀ d, EvDone d ∉ drop 3 h_crash) ∧
  y_file (after cf0 h_crash) = log_file [words "set a 1"; words "set b 2"].
Proof.
  split; [by vm_compute|]. split; [|by vm_compute]. intros d Hin. unfold h_crash, cmd in Hin. cbn [drop] in Hin.
  repeat (apply elem_of_cons in Hin as [Hin|Hin]; [discriminate|]). by apply elem_of_nil in Hin.
Qed.
