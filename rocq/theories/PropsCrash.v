(** C54: a restart after a crash recovers a moment of the past, and nothing that was
    on disk is lost. *)
From Verif Require Import Base Float DictModel DictProofs2 DatabaseModel Strconv RespSpec ServerModel CommandModel CommandSem CommandInv CommandTop
  SystemModel SystemProofs CommandFacts ZcmdProofs PropsZcmd AofModel AofProofs1 AofProofs2 LoadProofs RndFrame AofProofs3 AofProofs4 PropsCommand PropsAof CrashProofs ExampleLib.
From Coq Require Import ZifyBool ZifyNat.

(** what the theorems assume of the history [evs] that the crash ends and of the
    restart: the conditions of [C39_replay_partial], and no SETEX *)
Record crash (cf : config) (H : Z) (evs : list event) (y : sys) (clock : nat → Z) (rs : list Z) : Prop := {
  cr_lower : lower_ok (cf_lib cf);
  cr_H : 0 ≤ H;
  cr_aof : cf_aof cf = true;
  cr_dbs : Z.of_nat (cf_dbs cf) ≤ 2 ^ 44;
  cr_reach : reaches cf evs y;
  cr_calm : Forall (calm cf H) evs;
  cr_careful : careful_history cf evs;
  cr_one : Forall (one_record cf) evs;
  cr_clock : ∀ j, clock j ≤ H;
  cr_rs : Forall (λ r, 0 ≤ r) rs;
  cr_draws : enough (draws (cf_lib cf) (commands_of evs)) rs;
  cr_len : readable (whole_log y)
}.
Lemma log_take_le n m cmds : (n ≤ m)%nat → (length (log_file (take n cmds)) ≤ length (log_file (take m cmds)))%nat.
Proof.
  intros Hle. rewrite <-(take_drop n (take m cmds)), take_take, Nat.min_l by done. rewrite log_app, app_length. lia.
Qed.
Lemma log_take_S n cmds c : cmds !! n = Some c → length (log_file (take (S n) cmds)) = (length (log_file (take n cmds)) + length (encode c))%nat.
Proof. intros Hc. rewrite (take_S_r _ _ _ Hc), log_app, app_length, log_cons, app_length. simpl. lia. Qed.
Lemma log_take_len n cmds : (length (log_file (take n cmds)) ≤ length (log_file cmds))%nat.
Proof. rewrite <-(take_drop n cmds) at 2. rewrite log_app, app_length. lia. Qed.

(** Only the first [k] bytes of the log have reached the disk when the machine
    crashes.  If the server starts again, then with the dataset it had after some first
    part of its history (up to the rounding of deadlines, C39): no half of a command,
    no hole.  The first part holds every event whose log was within the [k] bytes, and
    its own log is within [k + 1] bytes.  Missing: what [calm] excludes (C39), logs
    that are not readable (C37), SETEX ([C54_setex_refuted]); and after some cuts the server does not
    start (C38). *)
Theorem C54_torn_partial cf H evs y clock rs k w : crash cf H evs y clock rs →
  restart cf clock (take k (whole_log y)) rs = (w, Ok tt) →
  ∃ evs0 y0, evs0 `prefix_of` evs ∧ reaches cf evs0 y0 ∧ Forall2 sim (abs_dbs (y_srv y0)) (abs_dbs (w_srv w)) ∧
    (length (whole_log y0) ≤ k + 1)%nat ∧
    ∀ evs' y', evs' `prefix_of` evs → reaches cf evs' y' → (length (whole_log y') ≤ k)%nat → evs' `prefix_of` evs0.
Proof.
  intros [Hlow HH Haof Hdbs Hr Hcalm Hcare Hone Hclock Hrs Hen Hlen] Hw.
  destruct (moments cf H evs y) as (cmds & Hlog & Hne & _ & _ & Hdr & Hmom); try done.
  unfold restart, loadAppendOnlyFile in Hw. rewrite Hlog in *.
  destruct (C38_truncated_partial (exec_at cf clock) cmds k (W (NewServer (cf_dbs cf)) NewClient rs) (good_ne _ _ Hne) Hlen) as (n & e & Hload & Hn & Hk & He).
  rewrite Hload in Hw. destruct (Hmom n Hn) as (evs0 & y0 & db & [M1 M2 M3 M4 M5]).
  destruct Hr as [(_ & Hpos & _) _].
  destruct (restart_leads cf H clock rs (abs_dbs (y_srv y0)) db (take n cmds)) as (w1 & N & Hw1 & Hrp); try done.
  { eapply enough_le; [|exact Hen]. pose proof (draws_app (cf_lib cf) (take n cmds) (drop n cmds)) as Hd. rewrite take_drop in Hd. lia. }
  { by apply Forall_take. }
  { apply readable_take; [by eapply good_ne|done]. }
  unfold restart, loadAppendOnlyFile in Hw1. rewrite load_file_all in Hw1.
  2:{ apply log_ok_take, readable_ok; [by eapply good_ne|done]. }
  assert (w1 = w) as ->. { unfold then_ in Hw. rewrite Hw1 in Hw. cbn [fst snd] in Hw. by injection Hw. }
  exists evs0, y0. split; [done|]. split; [done|]. split; [apply Hrp|]. split.
  - destruct M4 as (m & Hm & ->). pose proof (log_take_le m n cmds Hm). lia.
  - intros evs' y' Hp Hr' Hle. destruct (M5 _ _ Hp Hr') as (m & Hm & Hl & Hin). apply Hin.
    destruct (decide (m ≤ n)%nat) as [?|Hgt]; [done|]. exfalso. rewrite Hl in Hle.
    destruct (cmds !! n) as [c|] eqn:Hc; [|apply lookup_ge_None in Hc; lia]. destruct He as [He _].
    pose proof (log_take_le (S n) m cmds ltac:(lia)). rewrite (log_take_S _ _ _ Hc) in *. lia.
Qed.
Print Assumptions C54_torn_partial.

(** Cut where an event of the history ended, the log is always loaded, and the dataset
    is that of this moment. *)
Theorem C54_clean_partial cf H evs y clock rs evs' y' : crash cf H evs y clock rs → evs' `prefix_of` evs → reaches cf evs' y' →
  whole_log y' `prefix_of` whole_log y ∧
  ∃ w, restart cf clock (whole_log y') rs = (w, Ok tt) ∧ Forall2 sim (abs_dbs (y_srv y')) (abs_dbs (w_srv w)).
Proof.
  intros [Hlow HH Haof Hdbs Hr Hcalm Hcare Hone Hclock Hrs Hen Hlen] [t ->] Hr'.
  assert (Hpre : whole_log y' `prefix_of` whole_log y ∧ readable (whole_log y')).
  { destruct (moments cf H (evs' ++ t) y) as (cmds & Hlog & Hne & _ & _ & Hdr & Hmom); try done.
    destruct (Hmom 0%nat ltac:(lia)) as (? & ? & ? & [_ _ _ _ M5]). destruct (M5 evs' y') as (m & _ & -> & _); [by eexists|done|].
    rewrite Hlog in *. split; [|apply readable_take; [by eapply good_ne|done]]. exists (log_file (drop m cmds)). by rewrite <-log_app, take_drop. }
  destruct Hpre as [Hpre Hlen']. split; [done|]. apply (C39_replay_partial cf H evs'); try done; [by apply Forall_app in Hcalm as [? _]|by eapply along_app|].
  eapply enough_le; [|exact Hen]. rewrite commands_app, draws_app. lia.
Qed.
Print Assumptions C54_clean_partial.

(** the last flush: what the file contains, and what happened before it *)
Lemma last_flush cf evs y : reaches cf evs y → (∀ d, EvDone d ∉ evs) → Forall (λ e, ¬ is_boot e) evs →
  ∃ evs1 y1, evs1 `prefix_of` evs ∧ reaches cf evs1 y1 ∧ whole_log y1 = y_file y ∧ ∀ evs', evs' ++ [EvFlush] `prefix_of` evs → evs' `prefix_of` evs1.
Proof.
  revert y. induction evs as [|e evs IH] using rev_ind; intros y' Hr Hd Hb.
  { pose proof Hr as [_ [= <-]]. exists [], (init_sys cf). split; [done|]. split; [done|]. split; [done|].
    intros evs' Hp. apply prefix_nil_inv in Hp. by destruct evs'. }
  pose proof Hr as Hr'. apply reaches_snoc in Hr' as (Hh & y & Hry & HS).
  destruct (IH y Hry) as (evs1 & y1 & I1 & I2 & I3 & I4); [intros d Hin; apply (Hd d), elem_of_app; by left|by apply Forall_app in Hb as [? _]|].
  apply Forall_app in Hb as [_ Hb]. apply Forall_cons in Hb as [Hb _].
  assert (e = EvFlush ∨ e ≠ EvFlush) as [->|Hf] by (destruct e; ((by left) || by right)).
  - cbn [step] in HS. injection HS as <-. eexists (evs ++ [EvFlush]), _. split; [done|]. split; [exact Hr|]. split.
    + unfold whole_log. cbn. by rewrite app_nil_r.
    + intros evs' Hp. transitivity (evs' ++ [EvFlush]); [by apply prefix_app_r|done].
  - exists evs1, y1. split; [by apply prefix_app_r|]. split; [done|]. split.
    + rewrite I3. destruct e as [|i args now unix rs|i n|now rs| | |dump|file clock rs]; cbn [step] in HS; try done.
      * by injection HS as <-.
      * destruct (y_cls y !! i); [|by injection HS as <-]. destruct (processCommand _ _ _); try done. by injection HS as <-.
      * destruct (y_cls y !! i); by injection HS as <-.
      * destruct (databasesCron _ _ _); try done. by injection HS as <-.
      * destruct (rewriteAppendOnlyFileBackground _); try done. by injection HS as <-.
      * destruct (Hd dump). apply elem_of_app. right. by left.
    + intros evs' Hp. apply prefix_snoc in Hp as [Hp|Hp]; [by apply I4|]. apply app_inj_2 in Hp as [_ Hp]; [|done]. by injection Hp as <-.
Qed.
(** The process is killed: the file holds what was written.  The restart succeeds, and
    the dataset is that of a moment after the last flush began; everything before
    any flush is in it. *)
Theorem C54_killed_partial cf H evs y clock rs : crash cf H evs y clock rs →
  ∃ w evs1 y1, restart cf clock (y_file y) rs = (w, Ok tt) ∧ evs1 `prefix_of` evs ∧ reaches cf evs1 y1 ∧
    Forall2 sim (abs_dbs (y_srv y1)) (abs_dbs (w_srv w)) ∧
    ∀ evs', evs' ++ [EvFlush] `prefix_of` evs → evs' `prefix_of` evs1.
Proof.
  intros Hc. pose proof Hc as [Hlow HH Haof Hdbs Hr Hcalm Hcare Hone Hclock Hrs Hen Hlen].
  destruct (last_flush cf evs y Hr) as (evs1 & y1 & I1 & I2 & I3 & I4).
  { intros d Hin. rewrite Forall_forall in Hcalm. by apply Hcalm in Hin. }
  { eapply Forall_impl; [exact Hcalm|]. intros e He Hb. by destruct e. }
  destruct (C54_clean_partial cf H evs y clock rs evs1 y1 Hc I1 I2) as (_ & w & Hw & Hs). rewrite I3 in Hw.
  exists w, evs1, y1. done.
Qed.
Print Assumptions C54_killed_partial.

(** The log may end with the death of the machine in the middle of a write *)
Definition h_torn : list event := [EvConnect; cmd 0 1000 "set a 1"; cmd 0 1000 "set b 2"; EvFlush; cmd 0 2000 "select 3"; cmd 0 2000 "rpush l x y"; cmd 0 2000 "expire l 100"].
Example C54_example :
  crash cf0 5000 h_torn (after cf0 h_torn) (λ _, 3000) [] ∧ length (whole_log (after cf0 h_torn)) = 147%nat ∧
  (* cut after the SELECT and the first line of RPUSH: the moment before RPUSH *)
  (let x := restart cf0 (λ _, 3000) (take 79 (whole_log (after cf0 h_torn))) [] in
   loads_ok x = true ∧ as_str (val (w_srv x.1) 0 (B "b")) = Some (B "2") ∧ val (w_srv x.1) 3 (B "l") = None) ∧
  (* the last byte of RPUSH is missing *)
  (let x := restart cf0 (λ _, 3000) (take 112 (whole_log (after cf0 h_torn))) [] in
   loads_ok x = true ∧ as_list (val (w_srv x.1) 3 (B "l")) = [B "x"; B "y"] ∧ ttl (w_srv x.1) 3 (B "l") = None) ∧
  (* the file at the crash of the process *)
  (let x := restart cf0 (λ _, 3000) (y_file (after cf0 h_torn)) [] in
   loads_ok x = true ∧ as_str (val (w_srv x.1) 0 (B "b")) = Some (B "2") ∧ val (w_srv x.1) 3 (B "l") = None).
Proof.
  split; [|by vm_compute].
  split; [apply lower0_ok|lia|done|by vm_compute|apply after_reaches; by vm_compute|apply calm_checks; by vm_compute|apply careful_history_check; by vm_compute| |done|by apply Forall_nil_2|exact I|left; by vm_compute].
  unfold h_torn. repeat (apply Forall_cons; split); try apply Forall_nil_2; try exact I; apply (bool_decide_unpack _); by vm_compute.
Qed.

(** SETEX is logged as SET and EXPIREAT.  Cut between the two, the log is loaded, and
    the key has no deadline: at no moment of the history was this so. *)
Definition h_setex : list event := [EvConnect; cmd 0 1000 "setex a 10 v"; EvFlush].
Theorem C54_setex_refuted : ∃ evs y k w, reaches cf0 evs y ∧ Forall (calm cf0 5000) evs ∧
  restart cf0 (λ _, 2000) (take k (whole_log y)) [] = (w, Ok tt) ∧
  ∀ evs' y', evs' `prefix_of` evs → reaches cf0 evs' y' → ¬ Forall2 sim (abs_dbs (y_srv y')) (abs_dbs (w_srv w)).
Proof.
  exists h_setex, (after cf0 h_setex), 27%nat, (restart cf0 (λ _, 2000) (take 27 (whole_log (after cf0 h_setex))) []).1.
  split; [apply after_reaches; by vm_compute|]. split.
  { apply calm_checks. by vm_compute. }
  split; [apply loads_ok_eq; by vm_compute|].
  intros evs' y' Hp Hr Hs.
  set (w := (restart _ _ _ _).1) in *.
  assert (Hw : as_str (val (w_srv w) 0 (B "a")) = Some (B "v") ∧ ttl (w_srv w) 0 (B "a") = None) by (by vm_compute). clearbody w.
  assert (Hy : as_str (val (y_srv y') 0 (B "a")) = Some (B "v") ∧ ttl (y_srv y') 0 (B "a") = None).
  { destruct Hw as [Hv Ht]. unfold val, ttl in *.
    pose proof (Forall2_length _ _ _ Hs) as HL.
    destruct (abs_dbs (w_srv w) !! 0%nat) as [D'|] eqn:E'; [|done].
    destruct (lookup_lt_is_Some_2 (abs_dbs (y_srv y')) 0%nat) as [D E]; [rewrite HL; by eapply lookup_lt_Some|].
    rewrite E. destruct (Forall2_lookup_lr _ _ _ _ _ _ Hs E E') as [Hk Hd]. cbn [mbind option_bind] in *. split.
    { specialize (Hk (B "a")). destruct (a_keys D' !! B "a") as [[v| | | |]|]; try done. destruct (a_keys D !! B "a") as [v0|]; inversion Hk as [? ? Hv0|]; subst.
      apply alike_eq' in Hv0; [|done]. by subst v0. }
    specialize (Hd (B "a")). rewrite Ht in Hd. by inversion Hd. }
  assert (Hin : evs' ∈ (λ n, take n h_setex) <$> seq 0 4).
  { destruct Hp as [t Ht]. apply elem_of_list_fmap. exists (length evs'). rewrite Ht, take_app. split; [done|].
    apply elem_of_seq. apply (f_equal length) in Ht. rewrite app_length in Ht. cbn [length h_setex] in Ht. lia. }
  assert (y' = after cf0 evs') as ->. { destruct Hr as [_ Hr]. unfold after. by rewrite Hr. }
  revert Hy. clear -Hin. change (evs' ∈ [take 0 h_setex; take 1 h_setex; take 2 h_setex; take 3 h_setex]) in Hin.
  assert (Hno : ∀ n, bool_decide (as_str (val (y_srv (after cf0 (take n h_setex))) 0 (B "a")) = Some (B "v") ∧ ttl (y_srv (after cf0 (take n h_setex))) 0 (B "a") = None) = false →
    evs' = take n h_setex → as_str (val (y_srv (after cf0 evs')) 0 (B "a")) = Some (B "v") ∧ ttl (y_srv (after cf0 evs')) 0 (B "a") = None → False).
  { intros n Hf -> Hx. apply bool_decide_eq_false in Hf. by apply Hf. }
  repeat (apply elem_of_cons in Hin as [Hin|Hin]; [revert Hin; apply Hno; by vm_compute|]). by apply elem_of_nil in Hin.
Qed.
Print Assumptions C54_setex_refuted.
