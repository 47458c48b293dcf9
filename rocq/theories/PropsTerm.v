(** Every command ends (C58). *)
From Verif Require Import Base Float DictModel DictProofs DictProofs2
  DatabaseModel SetModel QuicklistModel QuicklistProofs SkiplistModel ZsetModel
  Strconv RespSpec ServerModel CommandModel CommandSem CommandInv CommandInv2 CommandProofs1 CommandProofs2
  CommandTop CommandFrame SystemModel SystemProofs LoadModel AofModel CommandFacts ExampleLib PropsCommand PropsData PropsReply ZcmdProofs RandomProofs SafeProofs
  TermProofs TermCmd TermDraw TermMore TermBoot PropsSafe PropsSpop ExampleTools.
From Coq Require Import ZifyBool ZifyNat.

(** [OutOfFuel] stands for a loop that is still running: the bound on its rounds is used up,
    or the random numbers of the event are.

    In every reachable state only three commands (also in the log of a restart) and the background
    expiry can be still running when the random numbers given to them are used up; every other event
    ends, whatever scores the clients have sent (also NaN) and however damaged the sorted sets are. *)
Theorem C58_ends cf evs y e : reaches cf evs y → history_ok cf (evs ++ [e]) → step cf e y = OutOfFuel →
  (∃ now rs, e = EvCron now rs) ∨
  (∃ file clock rs a l, e = EvBoot file clock rs ∧ a :: l ∈ records file ∧ lib_lower (cf_lib cf) a ∈ [B "randomget"; B "spop"; B "zadd"]) ∨
  ∃ i c name args now unix rs, e = EvCommand i args now unix rs ∧ y_cls y !! i = Some c ∧ runs cf c name args ∧
    name ∈ [B "randomget"; B "spop"; B "zadd"].
Proof.
  intros Hr (Hev & Hpos & Htot) HS. rewrite total_app in Htot.
  apply Forall_app in Hev as [_ Hev]. apply Forall_cons in Hev as [Hev _].
  pose proof (reaches_ok cf evs y Hr) as Hy.
  destruct e as [|i args now unix rs|i n|now rs| | |dump|file clock rs]; try done.
  - right. right. destruct (y_cls y !! i) as [c|] eqn:Hc; [|cbn [step] in HS; by rewrite Hc in HS]. destruct Hev as [Hargs Hrs].
    assert (Hok : cmd_ok cf evs args rs).
    { split; [done|]. split; [done|]. unfold total in *. simpl in *. lia. }
    destruct (command_did cf evs y i c args now unix rs Hr Hc Hok) as (o & Ht & HT).
    destruct o as [[[v' r] n]| |]; [by destruct HT as (y' & HS' & _); congruence|congruence|]. clear HT.
    remember OutOfFuel as o eqn:Eo in Ht. destruct Ht; try done.
    destruct ro as [[D' r' n']| |]; try done.
    match goal with H : CommandTop.allowed _ _ _ _ |- _ => destruct H as ((a' & l' & ar & -> & -> & Har & Hacc) & Hperm) end.
    cbn [view_at v_dbs v_db v_auth e_lib e_password env_at] in *.
    match goal with H : abs_dbs (y_srv y) !! _ = Some D |- _ => rename H into HD end.
    match goal with H : sem _ _ _ D OutOfFuel |- _ => rename H into Hs end.
    exists i, c, (lib_lower (cf_lib cf) a'), (a' :: l'), now, unix, rs. split_and!; [done|done|by exists a', l', ar|].
    eapply sem_term; [|..|exact Hs].
    + exact (Forall_lookup_1 _ _ _ _ (reaches_finite _ _ _ Hr) HD).
    + intros key q Hq. by eapply reaches_list.
  - cbn [step] in HS. by destruct (y_cls y !! i).
  - left. by exists now, rs.
  - cbn [step] in HS. unfold rewriteAppendOnlyFileBackground in HS. destruct (s_task (y_srv y)); [done|].
    destruct Hy as [[S1 S2 S3 S4] _ _].
    destruct (copy_dbs_spec _ (s_dbs (y_srv y)) S1) as (snap & EC & _); [unfold small, max_entries; simpl in *; lia|].
    by rewrite EC in HS.
  - cbn [step] in HS. by destruct (s_task (y_srv y)).
  - right. left. destruct Hev as [Hrec Hrs]. unfold total in Htot. simpl in Htot.
    destruct (restart_hangs cf clock file rs Hpos Hrec Hrs) as [H _]; [lia|].
    destruct H as (a & l & Ha & Hd). { cbn [step] in HS. destruct (cf_aof cf); [|done]. cbv zeta in HS. destruct (restart cf clock file rs) as [w [u| |]]; done. }
    by exists file, clock, rs, a, l.
Qed.
Print Assumptions C58_ends.

(** ** ZADD *)
Lemma zadd_ends E N w a l D : w_ok N w → room N (a :: l) → lib_lower (e_lib E) a = B "zadd" →
  abs_dbs (w_srv w) !! c_db (w_cl w) = Some D → (bad_arity (-4) (a :: l) = false → term (zadd_out E (a :: l) (w_rnd w) D)) →
  term (processCommand E (a :: l) w).
Proof.
  intros Hw Hroom Hn HD Hout. unfold processCommand. rewrite (bind_ok _ _ _ _ _ (arg_run (a :: l) 0 a w eq_refl)). rewrite Hn.
  rewrite zadd_cmd. cbn [cmd_arity].
  destruct (bad_arity (-4) (a :: l)) eqn:Eb; [done|]. specialize (Hout eq_refl).
  rewrite (bind_ok get_cl _ w w (w_cl w) eq_refl). destruct (_ && _ && _); [done|].
  destruct (cur_view _ _ Hw) as (D' & HD' & Ha). rewrite HD in HD'. injection HD' as <-.
  pose proof (zadd_run E (a :: l) w N D w Eb Ha Hroom) as Hend. unfold call. cbn [cmd_proc cmd_name].
  rewrite (bind_ok get_srv _ w w (w_srv w) eq_refl).
  destruct (zadd_out E (a :: l) (w_rnd w) D) as [[D' r n]| |]; simpl in Hend; [| |done].
  - destruct Hend as (w1 & E1 & Ha1). rewrite (bind_ok _ _ _ _ _ E1).
    rewrite (bind_ok get_srv _ w1 w1 (w_srv w1) eq_refl). destruct (e_aof E && _); [|done].
    rewrite (bind_ok get_cl _ w1 w1 (w_cl w1) eq_refl).
    destruct (feed_run E (w_srv w1) (B "zadd") (c_db (w_cl w1)) (a :: l) (encode (a :: l))) as (s' & Ef & _); [done|].
    assert (EL : lift (feedAppendOnlyFile E (w_srv w1) (B "zadd") (Z.of_nat (c_db (w_cl w1))) (a :: l)) w1 = Ok (w1, s')).
    { unfold lift. by rewrite Ef. }
    by rewrite (bind_ok _ _ _ _ _ EL).
  - by rewrite (bind_panic _ _ _ Hend).
Qed.
(** ZADD ends as soon as as many draws as it has members have stopped raising the level
    (each draw does so with probability 3/4). *)
Theorem C58_zadd cf evs y i c args now unix rs D :
  ready cf evs y i c (B "zadd") args rs D → (length args / 2 ≤ S (length (base.filter (λ r, (16383 < Z.land r 65535)%Z) rs)))%nat →
  step cf (EvCommand i args now unix rs) y ≠ OutOfFuel.
Proof.
  intros [Hr Hc (Ha & Hrs & Ht) (a & l & ar & -> & Hn & Har & Hacc & Hperm) HD] Hst. cbn [step]. rewrite Hc.
  assert (Hw : w_ok (total evs) (W (y_srv y) c rs)) by (eapply client_world; [by apply reaches_ok|done|done]).
  apply (term_bind (processCommand (env_at cf now unix) (a :: l) (W (y_srv y) c rs))); [|done].
  apply (zadd_ends (env_at cf now unix) (total evs) _ a l D Hw (room_total _ _ Ht) Hn HD). intros Hb. cbn [w_rnd].
  destruct l as [|key l]; [done|]. unfold zadd_out. destruct (negb _); [done|].
  intros Hp. apply new_fuel in Hp as ([m s] & Hk & Hp); [|apply AKZset_law]. revert Hp. apply term_zadd_all; cbn [snd].
  - destruct Hk as [Hk|[_ [= _ ->]]]; [|apply NewSkiplist_finite].
    pose proof (Forall_lookup_1 _ _ _ _ (reaches_finite _ _ _ Hr) HD) as HF. eapply HF. exact Hk.
  - assert (Hd : (length (a :: key :: l) / 2 = S (length l / 2))%nat).
    { change (length (a :: key :: l)) with (2 + length l)%nat. apply (Nat.div_add_l 1 2 (length l)). done. }
    rewrite Hd in Hst. replace (stopping rs) with (length (base.filter (λ r, (16383 < Z.land r 65535)%Z) rs)); [lia|].
    unfold stopping. f_equal. apply list_filter_iff. intros r. unfold stops. lia.
Qed.
Print Assumptions C58_zadd.

(** ** The loops that draw *)
(** [e] with more random numbers *)
Definition further (e : event) (x : list Z) : event :=
  match e with
  | EvCommand i args now unix rs => EvCommand i args now unix (rs ++ x)
  | EvCron now rs => EvCron now (rs ++ x)
  | EvBoot file clock rs => EvBoot file clock (rs ++ x)
  | _ => e
  end.
Lemma filter_replicate n : length (base.filter (λ r : Z, 16383 < Z.land r 65535) (replicate n 65535)) = n.
Proof. induction n as [|n IH]; [done|]. cbn [replicate]. rewrite filter_cons_True by (vm_compute; done). simpl. by rewrite IH. Qed.
Lemma lift_more cf evs y i c name proc ar args now unix rs D x : let E := env_at cf now unix in
  ready cf evs y i c name args rs D → lookupCommand E name = Some (Cmd name proc ar) → (name, ar) ∈ arities →
  name ∉ [B "expire"; B "setex"] → Forall (λ r, 0 ≤ r) x →
  (∃ D' r n, ends (W (y_srv y) c rs) (total evs) (proc args (W (y_srv y) c (rs ++ x))) (Ok (Out D' r n))) →
  step cf (EvCommand i args now unix (rs ++ x)) y ≠ OutOfFuel.
Proof.
  intros E [Hr Hc (Ha & Hrs & Ht) (a & l & ar' & Hargs & Hn & Har' & Hacc & Hperm) HD] Hl Har Hne Hx (D' & r & n & Hend).
  assert (Hend' : ends (W (y_srv y) c (rs ++ x)) (total evs) (proc args (W (y_srv y) c (rs ++ x))) (Ok (Out D' r n))).
  { destruct Hend as (w' & E1 & [? ? ? ? ? ? ?]). exists w'. split; [exact E1|]. by split. }
  destruct (handler_reply E (total evs) (W (y_srv y) c (rs ++ x)) args a l (Cmd name proc ar) D' r n name) as (w' & E1 & Hout); [done..| |done|done|exact Hend'|].
  { apply (arities_fun name ar' ar Har') in Har as ->. by apply accepts_bad. }
  cbn [step]. rewrite Hc. fold E. by rewrite E1.
Qed.
(** However long a loop of the server has been running, whatever it has drawn, some finite
    continuation of the draws ends it: no event of any reachable state is stuck. *)
Theorem C58_not_stuck cf evs y e : reaches cf evs y → history_ok cf (evs ++ [e]) →
  ∃ x, Forall (λ r, 0 ≤ r) x ∧ step cf (further e x) y ≠ OutOfFuel.
Proof.
  intros Hr Hh. pose proof Hh as (Hev & Hpos & Htot). rewrite total_app in Htot.
  apply Forall_app in Hev as [_ Hev]. apply Forall_cons in Hev as [Hev _].
  destruct (step cf e y) as [y'| |] eqn:HS.
  { exists []. split; [done|]. destruct e; cbn [further]; rewrite ?app_nil_r, ?HS; done. }
  { exists []. split; [done|]. destruct e; cbn [further]; rewrite ?app_nil_r, ?HS; done. }
  destruct (C58_ends cf evs y e Hr Hh HS) as [(now & rs & ->)|[(file & clock & rs & _ & _ & -> & _)|(i & c & name & args & now & unix & rs & -> & Hc & Hruns & Hn)]].
  - pose proof (reaches_ok cf evs y Hr) as [[S1 S2 S3 S4] _ _].
    destruct (databasesCron_more (env_at cf now 0) _ (s_dbs (y_srv y)) rs S1 Hev) as (x & Hx & HT). exists x. split; [done|].
    cbn [further step]. by apply term_bind.
  - destruct Hev as [Hrec Hrs]. unfold total in Htot. simpl in Htot.
    destruct (restart_hangs cf clock file rs Hpos Hrec Hrs) as [_ (x & Hx & HT)]; [lia|]. exists x. split; [done|].
    cbn [further step]. destruct (cf_aof cf); [|done]. cbv zeta. by apply term_bind.
  - destruct Hev as [Hargs Hrs].
    assert (Hok : cmd_ok cf evs args rs). { split; [done|]. split; [done|]. unfold total in *. simpl in *. lia. }
    pose proof (client_world _ _ _ _ _ rs (reaches_ok _ _ _ Hr) Hc Hrs) as Hw.
    destruct (cur_view _ _ Hw) as (D & HD & HA). cbn [w_srv w_cl] in HD.
    assert (Hrd : ready cf evs y i c name args rs D) by (by split).
    set (E := env_at cf now unix) in *.
    rewrite !elem_of_cons, elem_of_nil in Hn. destruct Hn as [->|[->|[->|[]]]].
    + destruct (randomget_more E _ _ D _ args HA) as (x & D' & r & Hx & HE). exists x. split; [done|]. cbn [further].
      eapply (lift_more cf evs y i c (B "randomget") (randomGetCommand E) 1 args now unix rs D x Hrd); [unfold lookupCommand; reflexivity|in_table|by_compute|done|].
      exists D', r, 0. exact HE.
    + destruct (command_did cf evs y i c args now unix rs Hr Hc Hok) as (o & Ht & HT).
      destruct o as [[[v' r] n]| |]; [by destruct HT as (y' & HS' & _); congruence|congruence|]. clear HT.
      remember OutOfFuel as o eqn:Eo in Ht. destruct Ht; try done. destruct ro as [[D' r' n']| |]; try done.
      match goal with H : CommandTop.allowed _ _ _ _ |- _ => destruct H as ((a' & l' & ar & -> & -> & Har & Hacc) & Hperm) end.
      cbn [view_at v_dbs v_db v_auth e_lib e_password env_at] in *.
      match goal with H : abs_dbs (y_srv y) !! _ = Some D0 |- _ => rewrite HD in H; injection H as <- end.
      match goal with H : sem _ _ _ D OutOfFuel |- _ => rename H into Hs end. destruct Hruns as (a & l & ar' & [= <- <-] & Hn & Har' & Hacc' & _).
      rewrite Hn in Hs. apply (sem_inv _ _ (sem_spop E)) in Hs; [|in_table].
      rewrite (arities_fun (B "spop") ar' 2 Har') in Hacc' by in_table. unfold accepts in Hacc'. simpl in Hacc'.
      destruct l' as [|key [|? ?]]; unfold zlen in Hacc'; cbn [length] in Hacc'; try lia.
      unfold sem_spop in Hs. cbv zeta in Hs. unfold set_at in Hs. destruct (a_keys (purge E key D) !! key) as [[| | |s|]|] eqn:Hk; try done.
      destruct Hs as [[_ ?]|(Hne & _)]; [done|].
      destruct (spop_more E _ _ D _ a' key s HA Hk Hne) as (x & m & Hx & HE). exists x. split; [done|]. cbn [further].
      eapply (lift_more cf evs y i c (B "spop") (sPopCommand E) 2 [a'; key] now unix rs D x Hrd); [unfold lookupCommand; reflexivity|in_table|by_compute|done|].
      by eexists _, _, _.
    + exists (replicate (length args) 65535). split; [by apply Forall_replicate|]. cbn [further].
      apply (C58_zadd cf evs y i c args now unix _ D).
      * destruct Hrd as [? ? (? & ? & ?) ? ?]. split; try done. split; [done|]. split; [|done]. apply Forall_app. split; [done|]. by apply Forall_replicate.
      * rewrite filter_app, app_length, filter_replicate. pose proof (Nat.div_le_upper_bound (length args) 2 (length args)). lia.
Qed.
Print Assumptions C58_not_stuck.
(** An event that has ended has not looked at the numbers that it has not drawn: further ones
    change nothing, in any state. *)
Theorem C58_draws cf e y x : step cf e y ≠ OutOfFuel → step cf (further e x) y = step cf e y.
Proof.
  destruct e as [|i args now unix rs|i n|now rs| | |dump|file clock rs]; try done; cbn [further step]; cbv zeta.
  - destruct (y_cls y !! i) as [c|]; [|done]. intros HT.
    pose proof (more_process (env_at cf now unix) args (W (y_srv y) c rs) x) as H. change (W (y_srv y) c (rs ++ x)) with (more_w (W (y_srv y) c rs) x).
    destruct (processCommand _ args (W (y_srv y) c rs)) as [[w u]| |]; [rewrite H by done; done|by rewrite H|done].
  - intros HT. pose proof (databasesCron_ahead (env_at cf now 0) (s_dbs (y_srv y)) rs x) as H.
    destruct (databasesCron _ (s_dbs (y_srv y)) rs) as [[dbs rs']| |]; [rewrite H by done; done|by rewrite H|done].
  - destruct (cf_aof cf); [|done]. intros HT. unfold restart, loadAppendOnlyFile, load_file in *.
    pose proof (more_load_loop cf clock (length file + 1) 0 (NewReader file) (W (NewServer (cf_dbs cf)) NewClient rs) x) as H.
    change (W (NewServer (cf_dbs cf)) NewClient (rs ++ x)) with (more_w (W (NewServer (cf_dbs cf)) NewClient rs) x).
    rewrite H; [done|]. intros HF. by rewrite HF in HT.
Qed.
Print Assumptions C58_draws.

(** * Concrete cases *)
(** the draws give the new node [lv] levels *)
Definition zcmd (lv : nat) (s : string) : event := EvCommand 0 (words s) 5 5 (replicate (lv - 1) 0 ++ [65535]).
Definition h_knot : list event :=
  [EvConnect; zcmd 1 "ZADD z 1 d"; zcmd 2 "ZADD z nan g"; zcmd 1 "ZADD z 0 g"; zcmd 2 "ZADD z 0 c"; zcmd 6 "ZADD z 3 b"; zcmd 1 "ZADD z 1 b";
   zcmd 1 "ZREMRANGEBYRANK z 3 3"; zcmd 2 "ZADD z 5 b"].
Definition sl_of (y : sys) (k : bytes) : skiplist := match a_keys (db_of y 0) !! k with Some (AZset m s) => s | _ => NewSkiplist end.
(** the links of the nodes of a damaged list form a circle (d to b on level 0, b to g on level 1, g to d on
    level 0); ranges, removals and insertions in it end all the same *)
Definition still_running {A} (r : res A) : bool := match r with OutOfFuel => true | _ => false end.
Example C58_example :
  let y := state_of cf0 h_knot in let s := sl_of y (B "z") in
  reaches cf0 h_knot y ∧ history_ok cf0 (h_knot ++ [zcmd 1 "ZRANGE z 0 -1"]) ∧
  fwd s 0 1 = Some (Some 7%nat) ∧ fwd s 1 7 = Some (Some 2%nat) ∧ fwd s 0 2 = Some (Some 1%nat) ∧
  Forall (λ e, still_running (step cf0 e y) = false)
    [zcmd 1 "ZRANGE z 0 -1"; zcmd 1 "ZCOUNT z 0 9"; zcmd 1 "ZRANGEBYSCORE z 0 9"; zcmd 3 "ZADD z 2 e"; zcmd 1 "ZREM z b"; zcmd 1 "ZREMRANGEBYSCORE z 0 9"] ∧
  ready cf0 h_knot y 0 (who y 0) (B "zadd") (words "ZADD z 2 e") [0; 0; 65535] (db_of y 0).
Proof.
  intros y s. split; [apply state_of_reaches; by vm_compute|]. split; [apply history_check_ok; by vm_compute|].
  split; [by vm_compute|]. split; [by vm_compute|]. split; [by vm_compute|]. split; [by_compute|]. apply ready_at; by vm_compute.
Qed.
(** events that are still running when their draws are used up *)
Definition h_more : list event := [EvConnect; cmd 0 5 "SADD s a b c"; cmd 0 5 "SETEX x 100 y"].
Example C58_more_example :
  let y := state_of cf0 h_more in
  reaches cf0 h_more y ∧
  Forall (λ e, history_check cf0 (h_more ++ [e]) = true ∧ still_running (step cf0 e y) = true)
    [EvCommand 0 (words "SPOP s") 5 5 [0]; EvCommand 0 (words "RANDOMGET") 5 5 []; EvCommand 0 (words "ZADD z 1 a") 5 5 [0; 0]; EvCron 5 [0]] ∧
  Forall (λ e, still_running (step cf0 (further e (concat (replicate 200 [0; 1; 2; 3; 65535]))) y) = false)
    [EvCommand 0 (words "SPOP s") 5 5 [0]; EvCommand 0 (words "RANDOMGET") 5 5 []; EvCommand 0 (words "ZADD z 1 a") 5 5 [0; 0]; EvCron 5 [0]].
Proof. intros y. split; [apply state_of_reaches; by vm_compute|]. split; by_compute. Qed.
(** a restart whose log adds to a sorted set: without numbers it hangs, with more it ends, and
    numbers that are not drawn do not matter *)
Definition h_logged : list event := [EvConnect; cmd 0 5 "SADD s a b c"; zcmd 2 "ZADD z 1 a"; EvFlush].
Example C58_boot_example :
  let y := state_of cf0 h_logged in let e rs := EvBoot (y_file y) (λ _, 5) rs in
  reaches cf0 h_logged y ∧ history_check cf0 (h_logged ++ [e []]) = true ∧
  words "ZADD z 1 a" ∈ records (y_file y) ∧
  still_running (step cf0 (e []) y) = true ∧ still_running (step cf0 (further (e []) [0; 65535]) y) = false ∧
  step cf0 (further (e [0; 65535]) [1; 2; 3]) y = step cf0 (e [0; 65535]) y.
Proof.
  intros y e. split; [apply state_of_reaches; by vm_compute|]. split; [by vm_compute|].
  split; [apply elem_of_list_lookup_2 with 1%nat; by vm_compute|]. split; [by vm_compute|]. split; [by vm_compute|].
  apply C58_draws. intros H. assert (Hs : still_running (step cf0 (e [0; 65535]) y) = false) by (by vm_compute). by rewrite H in Hs.
Qed.
