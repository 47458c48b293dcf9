(** C55: the dataset over any number of lives of the server: restarts, crashes that
    lose the end of the log, rewrites of the log. *)
From Verif Require Import Base Float DictModel DictProofs2 DatabaseModel Strconv RespSpec ServerModel CommandModel CommandSem CommandInv CommandTop
  SystemModel SystemProofs CommandFacts ZcmdProofs PropsZcmd AofModel AofProofs1 AofProofs2 LoadProofs RndFrame AofProofs3 AofProofs4 AofProofs5 BootProofs
  PropsCommand PropsAof CrashProofs PropsExpire ExampleLib ExampleTools.
From Coq Require Import ZifyBool ZifyNat.

(** the conditions on a start from the log [file], which a history with the commands
    [cmds] has written: the clock, the random numbers, the log is readable (C37) *)
Definition starts (cf : config) (H : Z) (cmds : list (list bytes)) (file : bytes) (clock : nat → Z) (rs : list Z) : Prop :=
  (∀ j, clock j ≤ H) ∧ Forall (λ r, 0 ≤ r) rs ∧ enough (draws (cf_lib cf) cmds) rs ∧ readable file.
(** [lives cf H evs y]: the history [evs] leads to [y] and consists of
    - events as in C39 ([calm], [careful]);
    - restarts from the whole log of some earlier moment [y1] of the history, in which
      the last logged command was in database 0 (see [C39_restart_refuted]): a clean
      restart if [y1] is the moment before, a crash if it is an earlier one;
    - the ends of rewrites of the log as in C40, at a time when everything is written. *)
Inductive lives (cf : config) (H : Z) : list event → sys → Prop :=
| lives_first : lives cf H [] (init_sys cf)
| lives_event evs y e y' : lives cf H evs y → event_ok cf e → calm cf H e → careful cf y e → step cf e y = Ok y' →
    lives cf H (evs ++ [e]) y'
| lives_boot evs y evs1 y1 clock rs y' : lives cf H evs y → evs1 `prefix_of` evs → lives cf H evs1 y1 →
    s_select (y_srv y1) = 0 → starts cf H (commands_of evs1) (whole_log y1) clock rs →
    step cf (EvBoot (whole_log y1) clock rs) y = Ok y' →
    lives cf H (evs ++ [EvBoot (whole_log y1) clock rs]) y'
| lives_done E evs y0 y1 snap mid rd dump y2 y :
    (* a rewrite starts in [y0] *)
    lives cf H evs y0 → s_task (y_srv y0) = false → step cf EvRewrite y0 = Ok y1 → s_snap (y_srv y1) = Some snap →
    s_select (y_srv y0) = Z.of_nat (last_used 0 0 (abs_dbs (y_srv y0))) →
    (* the goroutine reads the keys in the meantime; a container that has changed is read
       while its key still has it *)
    read_during cf evs mid rd → in_place cf evs mid (s_heap (y_srv y0)) rd snap → Forall (lasts H) (read_dbs rd 0 snap) → rewriteAppendOnlyFile E rd snap = Ok dump →
    (* the log is replaced in [y2] *)
    lives cf H (evs ++ EvRewrite :: mid) y2 → Forall (calm cf H) mid →
    s_aofbuf (y_srv y2) = [] → step cf (EvDone dump) y2 = Ok y →
    lives cf H ((evs ++ EvRewrite :: mid) ++ [EvDone dump]) y.

(** what is known of every moment *)
Record alive (cf : config) (H : Z) (evs : list event) (y : sys) (cmds : list (list bytes)) (db : nat) : Prop := {
  al_reach : reaches cf evs y;
  al_careful : careful_history cf evs;
  al_log : whole_log y = log_file cmds;
  al_good : Forall (good_record cf) cmds;
  al_fresh : Forall (fresh H) (abs_dbs (y_srv y));
  al_select : s_select (y_srv y) = Z.of_nat db;
  al_leads : leads cf H (abs_dbs (NewServer (cf_dbs cf))) (abs_dbs (y_srv y)) 0 db cmds;
  al_draws : (draws (cf_lib cf) cmds ≤ draws (cf_lib cf) (commands_of evs))%nat
}.
Lemma sim_fresh_r cf H y cmds dbs db N w : leads cf H (abs_dbs (NewServer (cf_dbs cf))) (abs_dbs (y_srv y)) 0 db cmds →
  replayed H (abs_dbs (y_srv y)) db N w → dbs = abs_dbs (w_srv w) →
  leads cf H (abs_dbs (NewServer (cf_dbs cf))) dbs 0 db cmds.
Proof.
  intros HL [_ R2 _ _] -> clock j N' k w0 Hc HN Hw Hk. destruct (HL clock j N' k w0 Hc HN Hw Hk) as (w' & E1 & [W1 W2 W3 W4] & Hk').
  exists w'. split; [done|]. split; [|done]. split; try done.
  clear -R2 W2. revert R2 W2. generalize (abs_dbs (w_srv w)) (abs_dbs (w_srv w')) (abs_dbs (y_srv y)). intros l2 l3 l1 R2. revert l3.
  induction R2 as [|D1 D2 l1 l2 Hs R2 IH]; intros l3 W2; inversion W2; subst; constructor; [by eapply sim_join|by apply IH].
Qed.
Lemma total_prefix (a b : list event) : a `prefix_of` b → (total a ≤ total b)%nat.
Proof. intros [t ->]. rewrite total_app. lia. Qed.
Theorem lives_alive cf H evs y : lower_ok (cf_lib cf) → 0 ≤ H → cf_aof cf = true → (0 < cf_dbs cf)%nat → Z.of_nat (cf_dbs cf) ≤ 2 ^ 44 →
  lives cf H evs y → Z.of_nat (total evs) < 2 ^ 42 → ∃ cmds db, alive cf H evs y cmds db.
Proof.
  intros Hlow HH Haof Hpos Hdbs HLV.
  induction HLV as [|evs y e y' HLV IH Hok Hcalm Hcare HS|evs y evs1 y1 clock rs y' HLV IH Hpre HLV1 IH1 Hsel (Hclock & Hrs & Hen & Hlen) HS
    |E evs y0 y1 snap mid rd dump y2 y HLV0 IH0 Ht0 HS1 Hsnap Hlu Hrd Hun Hlast Hdump HLV2 IH2 Hcalm Hbuf HSd]; intros Htot.
  - exists [], 0%nat. split; [|exact I|done|by apply Forall_nil_2|apply new_fresh|done|apply leads_nil|done].
    split; [split; [by apply Forall_nil_2|done]|done].
  - rewrite total_app in Htot. destruct IH as (cmds & db & [A1 A2 A3 A4 A5 A6 A7 A8]); [lia|].
    assert (Hh : history_ok cf (evs ++ [e])).
    { destruct A1 as [(Hev & _ & _) _]. split; [apply Forall_app; split; [done|by apply Forall_singleton]|]. split; [done|]. rewrite total_app. lia. }
    assert (Hcare' : careful_history cf (evs ++ [e])).
    { apply along_snoc. split; [done|]. intros y2 Hy2. destruct A1 as [_ Hy]. rewrite Hy in Hy2. by injection Hy2 as <-. }
    destruct (calm_step cf H evs e y y' db) as (db' & more & (B1 & B2 & B3 & B4 & B5 & B6 & B7) & _ & Hd); try done.
    exists (cmds ++ more), db'. split; try done.
    + apply reaches_snoc. split; [done|]. by exists y.
    + unfold whole_log in *. by rewrite B1, A3, log_app.
    + by apply Forall_app.
    + by eapply leads_app.
    + unfold draws_le in Hd. rewrite commands_app, !draws_app. unfold commands_of at 2. cbn [mbind list_bind]. rewrite app_nil_r. lia.
  - rewrite total_app in Htot. destruct IH as (cmds & db & [A1 A2 A3 A4 A5 A6 A7 A8]); [lia|].
    destruct IH1 as (cmds1 & db1 & [C1 C2 C3 C4 C5 C6 C7 C8]); [pose proof (total_prefix _ _ Hpre); lia|].
    assert (db1 = 0%nat) as -> by lia. rewrite C3 in *.
    destruct (restart_leads cf H clock rs (abs_dbs (y_srv y1)) 0 cmds1) as (w & N & Hw & Hrp); try done; [by eapply enough_le|].
    assert (Hrec : records (log_file cmds1) = cmds1).
    { unfold records. rewrite load_file_all by (apply readable_ok; [by eapply good_ne|done]).
      assert (Hr : ∀ l j s, replay (λ _ args s, Ok (s ++ [args])) j l s = (s ++ l, Ok tt)).
      { clear. induction l as [|c l IH]; intros j s; cbn [replay]; [by rewrite app_nil_r|]. rewrite IH, <-app_assoc. done. }
      by rewrite Hr. }
    assert (Hh : history_ok cf (evs ++ [EvBoot (log_file cmds1) clock rs])).
    { destruct A1 as [(Hev & _ & _) _]. split; [|split; [done|rewrite total_app; lia]]. apply Forall_app. split; [done|]. apply Forall_singleton.
      cbn [event_ok]. rewrite Hrec. split; [|done]. eapply Forall_impl; [exact C4|]. by intros c []. }
    destruct (boot_lst cf evs (log_file cmds1) clock rs y y' Hh HS) as (Hl & Hcls & Hfile).
    assert (Hsrv : abs_dbs (y_srv y') = abs_dbs (w_srv w)).
    { cbn [step] in HS. rewrite Haof, Hw in HS. cbn [fst snd mbind res_bind] in HS. by injection HS as <-. }
    assert (Htame : Forall tame_db (abs_dbs (y_srv y'))).
    { rewrite Hsrv. destruct Hrp as [_ R2 _ _]. clear -R2. induction R2 as [|D1 D2 l1 l2 Hs R2 IH]; constructor; [by eapply sim_tame|done]. }
    exists cmds1, 0%nat. split; try done.
    + apply reaches_snoc. split; [done|]. by exists y.
    + apply along_snoc. split; [done|]. intros y2 Hy2 y3 Hy3. destruct A1 as [_ Hy]. rewrite Hy in Hy2. injection Hy2 as <-. rewrite HS in Hy3. by injection Hy3 as <-.
    + unfold whole_log. rewrite Hfile. injection Hl as _ Hb _. by rewrite Hb, app_nil_r.
    + rewrite Hsrv. apply Hrp.
    + by injection Hl.
    + by eapply sim_fresh_r.
    + destruct Hpre as [t ->]. rewrite !commands_app, !draws_app. lia.
  - rewrite total_app in Htot. change (total [EvDone dump]) with 0%nat in Htot.
    destruct IH2 as (cmds2 & db2 & [A1 A2 A3 A4 A5 A6 A7 A8]); [lia|].
    destruct IH0 as (cmds0 & db0 & [C1 C2 C3 C4 C5 C6 C7 C8]).
    { rewrite total_app in Htot. lia. }
    destruct (done_leads cf H E evs y0 y1 snap mid rd dump y2 y) as (cmds & db & Hf & Hg & HF & HL & Hd & Hs); try done; [by left|].
    assert (Hr : reaches cf ((evs ++ EvRewrite :: mid) ++ [EvDone dump]) y).
    { apply reaches_snoc. split; [|by exists y2]. destruct A1 as [(Hev & _ & _) _].
      split; [apply Forall_app; split; [done|by apply Forall_singleton]|]. split; [done|]. rewrite total_app. change (total [EvDone dump]) with 0%nat. lia. }
    exists cmds, db. split; try done.
    + apply along_snoc. by split.
    + unfold whole_log. rewrite Hf. cbn [step] in HSd.
      assert (s_aofbuf (y_srv y) = []) as ->; [|by rewrite app_nil_r].
      destruct (s_task (y_srv y2)); injection HSd as <-; done.
    + by apply Hs.
    + rewrite commands_app. change (commands_of (evs ++ EvRewrite :: mid)) with (commands_of (evs ++ [EvRewrite] ++ mid)).
      rewrite !commands_app, !draws_app in *. lia.
Qed.

(** ** Restarting *)
(** In every moment of such a history the log restores the dataset, up to the rounding
    of deadlines and the levels of the nodes of sorted sets ([sim], C39).  Missing: what
    C39 and C40 exclude, and a restart when the last logged command was in another
    database than 0 ([C39_restart_refuted]). *)
Theorem C55_restores_partial cf H evs y clock rs : lower_ok (cf_lib cf) → 0 ≤ H → cf_aof cf = true → (0 < cf_dbs cf)%nat → Z.of_nat (cf_dbs cf) ≤ 2 ^ 44 →
  lives cf H evs y → Z.of_nat (total evs) < 2 ^ 42 → starts cf H (commands_of evs) (whole_log y) clock rs →
  ∃ w, restart cf clock (whole_log y) rs = (w, Ok tt) ∧ Forall2 sim (abs_dbs (y_srv y)) (abs_dbs (w_srv w)).
Proof.
  intros Hlow HH Haof Hpos Hdbs HLV Htot (Hclock & Hrs & Hen & Hlen).
  destruct (lives_alive cf H evs y) as (cmds & db & [A1 A2 A3 A4 A5 A6 A7 A8]); try done. rewrite A3 in *.
  destruct (restart_leads cf H clock rs (abs_dbs (y_srv y)) db cmds) as (w & N & Hw & Hrp); try done; [by eapply enough_le|].
  exists w. split; [done|]. apply Hrp.
Qed.
Print Assumptions C55_restores_partial.
(** So the server can always be started from the log of an earlier moment [y1], whatever
    has happened since; it has the dataset of that moment and the history goes on. *)
Theorem C55_starts_partial cf H evs y evs1 y1 clock rs : lower_ok (cf_lib cf) → 0 ≤ H → cf_aof cf = true → (0 < cf_dbs cf)%nat → Z.of_nat (cf_dbs cf) ≤ 2 ^ 44 →
  lives cf H evs y → evs1 `prefix_of` evs → lives cf H evs1 y1 → Z.of_nat (total evs) + zlen (whole_log y1) < 2 ^ 42 →
  s_select (y_srv y1) = 0 → starts cf H (commands_of evs1) (whole_log y1) clock rs →
  ∃ y', step cf (EvBoot (whole_log y1) clock rs) y = Ok y' ∧ lives cf H (evs ++ [EvBoot (whole_log y1) clock rs]) y' ∧
    Forall2 sim (abs_dbs (y_srv y1)) (abs_dbs (y_srv y')) ∧ y_cls y' = [] ∧ whole_log y' = whole_log y1.
Proof.
  intros Hlow HH Haof Hpos Hdbs HLV Hpre HLV1 Htot Hsel Hst.
  assert (Htot1 : Z.of_nat (total evs1) < 2 ^ 42) by (pose proof (total_prefix _ _ Hpre); unfold zlen in *; lia).
  destruct (C55_restores_partial cf H evs1 y1 clock rs) as (w & Hw & Hsim); try done.
  assert (HS : step cf (EvBoot (whole_log y1) clock rs) y = Ok (Sys (w_srv w) [] (whole_log y1))).
  { cbn [step]. by rewrite Haof, Hw. }
  assert (HLV' : lives cf H (evs ++ [EvBoot (whole_log y1) clock rs]) (Sys (w_srv w) [] (whole_log y1))) by (by eapply lives_boot).
  eexists. split; [exact HS|]. split; [done|]. split; [done|]. split; [done|].
  destruct (lives_alive cf H _ _ Hlow HH Haof Hpos Hdbs HLV') as (cmds & db & [[Hh _] _ _ _ _ _ _ _]).
  { rewrite total_app. change (total [EvBoot (whole_log y1) clock rs]) with (length (whole_log y1) + 0)%nat. unfold zlen in *. lia. }
  destruct (boot_lst _ _ _ _ _ _ _ Hh HS) as (Hl & _ & _). unfold whole_log at 1. cbn [y_file y_srv] in *. injection Hl as _ Hb _. by rewrite Hb, app_nil_r.
Qed.
Print Assumptions C55_starts_partial.

(** ** The process is killed *)
(** Without a sign of life the process disappears, and what was not yet written is lost
    with it.  The file is the whole log of an earlier moment, the last one in which
    something was written: [C55_starts_partial] applies. *)
Definition writes_file (e : event) : Prop := match e with EvFlush | EvDone _ | EvBoot _ _ _ => True | _ => False end.
Theorem C55_killed_partial cf H evs y : lower_ok (cf_lib cf) → 0 ≤ H → cf_aof cf = true → (0 < cf_dbs cf)%nat → Z.of_nat (cf_dbs cf) ≤ 2 ^ 44 →
  lives cf H evs y → Z.of_nat (total evs) < 2 ^ 42 →
  ∃ evs1 y1 rest, evs = evs1 ++ rest ∧ lives cf H evs1 y1 ∧ y_file y = whole_log y1 ∧ s_aofbuf (y_srv y1) = [] ∧ Forall (λ e, ¬ writes_file e) rest.
Proof.
  intros Hlow HH Haof Hpos Hdbs HLV.
  induction HLV as [|evs y e y' HLV IH Hok Hcalm Hcare HS|evs y evs1 y1 clock rs y' HLV IH Hpre HLV1 IH1 Hsel Hst HS
    |E evs y0 y1 snap mid rd dump y2 y HLV0 IH0 Ht0 HS1 Hsnap Hlu Hrd Hun Hlast Hdump HLV2 IH2 Hcalm Hbuf HSd]; intros Htot.
  - exists [], (init_sys cf), []. split; [done|]. split; [constructor|]. split; [done|]. split; [done|by apply Forall_nil_2].
  - assert (HLV' : lives cf H (evs ++ [e]) y') by (by eapply lives_event).
    assert (Hself : whole_log y' = y_file y' → s_aofbuf (y_srv y') = [] → ∃ evs1 y1 rest, evs ++ [e] = evs1 ++ rest ∧ lives cf H evs1 y1 ∧ y_file y' = whole_log y1 ∧
      s_aofbuf (y_srv y1) = [] ∧ Forall (λ e, ¬ writes_file e) rest).
    { intros Hw Hb. exists (evs ++ [e]), y', []. rewrite app_nil_r. split; [done|]. split; [done|]. split; [done|]. split; [done|by apply Forall_nil_2]. }
    destruct IH as (evs1 & y1 & rest & -> & H1 & H2 & H3 & H4); [rewrite total_app in Htot; lia|].
    assert (Hsame : y_file y' = y_file y → ¬ writes_file e → ∃ evs0 y0 rest0, (evs1 ++ rest) ++ [e] = evs0 ++ rest0 ∧ lives cf H evs0 y0 ∧ y_file y' = whole_log y0 ∧
      s_aofbuf (y_srv y0) = [] ∧ Forall (λ e, ¬ writes_file e) rest0).
    { intros Hf Hw. exists evs1, y1, (rest ++ [e]). split; [by rewrite app_assoc|]. split; [done|]. split; [congruence|]. split; [done|].
      apply Forall_app. split; [done|by apply Forall_singleton]. }
    destruct e as [|i args now unix rs|i n|now rs| | |dump|file clock rs]; try done; cbn [step] in HS.
    + injection HS as <-. apply Hsame; [done|by intros []].
    + apply Hsame; [|by intros []]. destruct (y_cls y !! i); [|by injection HS as <-].
      destruct (processCommand _ _ _) as [[w' u]| |]; try done. by injection HS as <-.
    + apply Hsame; [|by intros []]. destruct (y_cls y !! i); by injection HS as <-.
    + apply Hsame; [|by intros []]. destruct (databasesCron _ _ _) as [[dbs' rs']| |]; try done. by injection HS as <-.
    + injection HS as <-. apply Hself; [|done]. unfold whole_log. cbn [y_file y_srv s_aofbuf set_log]. by rewrite app_nil_r.
    + apply Hsame; [|by intros []]. unfold rewriteAppendOnlyFileBackground in HS. destruct (s_task (y_srv y)); [by injection HS as <-|].
      destruct (copy_dbs _) as [r| |]; try done. by injection HS as <-.
  - assert (HLV' : lives cf H (evs ++ [EvBoot (whole_log y1) clock rs]) y') by (by eapply lives_boot).
    destruct (lives_alive cf H _ _ Hlow HH Haof Hpos Hdbs HLV' Htot) as (cmds & db & [[Hh _] _ _ _ _ _ _ _]).
    destruct (boot_lst _ _ _ _ _ _ _ Hh HS) as (Hl & _ & Hf). injection Hl as _ Hb _.
    eexists _, y', []. split; [by rewrite app_nil_r|]. split; [done|]. split; [unfold whole_log; by rewrite Hb, app_nil_r|]. split; [done|by apply Forall_nil_2].
  - assert (HLV' : lives cf H ((evs ++ EvRewrite :: mid) ++ [EvDone dump]) y) by (by eapply lives_done).
    assert (Hb : s_aofbuf (y_srv y) = []) by (cbn [step] in HSd; destruct (s_task (y_srv y2)); injection HSd as <-; done).
    eexists _, y, []. split; [by rewrite app_nil_r|]. split; [done|]. split; [unfold whole_log; by rewrite Hb, app_nil_r|]. split; [done|by apply Forall_nil_2].
Qed.
Print Assumptions C55_killed_partial.

(** ** The life of a key over many lives of the server *)
(** [keeps cf H j k evs0 y0 evs y]: the history goes on from [y0] to [y], no command
    writes to key [k] of database [j], and no crash goes back behind [y0] *)
Inductive keeps (cf : config) (H : Z) (j : nat) (k : bytes) (evs0 : list event) (y0 : sys) : list event → sys → Prop :=
| keeps_first : lives cf H evs0 y0 → keeps cf H j k evs0 y0 evs0 y0
| keeps_event evs y e y' : keeps cf H j k evs0 y0 evs y → event_ok cf e → calm cf H e → careful cf y e → ¬ writes_to cf y e j k →
    step cf e y = Ok y' → keeps cf H j k evs0 y0 (evs ++ [e]) y'
| keeps_boot evs y evs1 y1 clock rs y' : keeps cf H j k evs0 y0 evs y → evs1 `prefix_of` evs → keeps cf H j k evs0 y0 evs1 y1 →
    s_select (y_srv y1) = 0 → starts cf H (commands_of evs1) (whole_log y1) clock rs →
    step cf (EvBoot (whole_log y1) clock rs) y = Ok y' →
    keeps cf H j k evs0 y0 (evs ++ [EvBoot (whole_log y1) clock rs]) y'
| keeps_done evs y dump y' : keeps cf H j k evs0 y0 evs y → step cf (EvDone dump) y = Ok y' → lives cf H (evs ++ [EvDone dump]) y' →
    keeps cf H j k evs0 y0 (evs ++ [EvDone dump]) y'.
Lemma keeps_lives cf H j k evs0 y0 evs y : keeps cf H j k evs0 y0 evs y → lives cf H evs y.
Proof.
  induction 1 as [| |evs y evs1 y1 clock rs y' HK IH Hpre HK1 IH1 Hsel Hst HS|]; [done|by eapply lives_event|by eapply (lives_boot cf H evs y evs1)|done].
Qed.
(** The key keeps its value, and its deadline up to the rounding to seconds, over all
    restarts, crashes and rewrites. *)
Theorem C55_kept_partial cf H j k evs0 y0 evs y D0 : lower_ok (cf_lib cf) → 0 ≤ H → cf_aof cf = true → (0 < cf_dbs cf)%nat → Z.of_nat (cf_dbs cf) ≤ 2 ^ 44 →
  keeps cf H j k evs0 y0 evs y → Z.of_nat (total evs) < 2 ^ 42 → abs_dbs (y_srv y0) !! j = Some D0 →
  ∃ D, abs_dbs (y_srv y) !! j = Some D ∧ option_Forall2 alike (a_keys D0 !! k) (a_keys D !! k) ∧
    option_Forall2 (λ T T', T' = T ∨ T' = T / 1000 * 1000) (a_ttl D0 !! k) (a_ttl D !! k).
Proof.
  intros Hlow HH Haof Hpos Hdbs HK Htot HD0.
  induction HK as [HL|evs y e y' HK IH Hok Hcalm Hcare Hnw HS|evs y evs1 y1 clock rs y' HK IH Hpre HK1 IH1 Hsel Hst HS|evs y dump y' HK IH HS HL].
  - destruct (lives_alive cf H _ _ Hlow HH Haof Hpos Hdbs HL Htot) as (cmds & db & [A1 A2 _ _ _ _ _ _]).
    pose proof (careful_tame cf evs0 y0 A1 A2) as Htame. rewrite Forall_lookup in Htame. specialize (Htame j D0 HD0).
    exists D0. split; [done|]. split.
    + destruct (a_keys D0 !! k) as [v|] eqn:Hv; constructor. destruct v; try done. cbn. by pose proof (Htame _ _ _ Hv).
    + destruct (a_ttl D0 !! k); constructor. by left.
  - rewrite total_app in Htot. destruct IH as (D & HD & IHk & IHt); [lia|].
    pose proof (keeps_lives _ _ _ _ _ _ _ _ HK) as HL.
    destruct (lives_alive cf H _ _ Hlow HH Haof Hpos Hdbs HL) as (cmds & db & [A1 A2 _ _ A5 _ _ _]); [lia|].
    assert (Hh : history_ok cf (evs ++ [e])).
    { destruct A1 as [(Hev & _ & _) _]. split; [apply Forall_app; split; [done|by apply Forall_singleton]|]. split; [done|]. rewrite total_app. lia. }
    destruct (step_stays cf evs e y y' j D k A1 Hh HS Hnw HD) as (D' & HD' & [[S1 S2]|(when & now & S1 & S2 & S3 & _)]).
    + exists D'. split; [done|]. by rewrite S1, S2.
    + exfalso. rewrite Forall_lookup in A5. specialize (A5 j D HD k when S1).
      unfold times in S2. cbn [omap list_omap] in S2. destruct e as [|i args t unix rs|i n|t rs| | |dump|file clock rs]; cbn [time_of] in S2; try (by apply elem_of_nil in S2);
        apply elem_of_list_singleton in S2; subst t; cbn [calm] in Hcalm; lia.
  - rewrite total_app in Htot.
    destruct IH1 as (D & HD & IHk & IHt); [pose proof (total_prefix _ _ Hpre); lia|].
    destruct (C55_restores_partial cf H evs1 y1 clock rs) as (w & Hw & Hsim); try done; [by eapply keeps_lives|pose proof (total_prefix _ _ Hpre); lia|].
    cbn [step] in HS. rewrite Haof, Hw in HS. cbn [fst snd mbind res_bind] in HS. injection HS as <-. cbn [y_srv].
    destruct (Forall2_lookup_l _ _ _ _ _ Hsim HD) as (D' & HD' & [Hsk Hst']). exists D'. split; [done|]. specialize (Hsk k). specialize (Hst' k). split.
    + destruct IHk as [v v1 Hv|]; [|by inversion Hsk; constructor]. inversion Hsk as [? v2 Hv2|]; subst. constructor. destruct v, v1, v2; cbn in *; naive_solver.
    + destruct IHt as [T T1 HT|]; [|by inversion Hst'; constructor]. inversion Hst' as [? T2 HT2|]; subst. constructor. unfold near in HT2. subst. right.
      destruct HT as [->| ->]; [done|]. by rewrite Z.div_mul.
  - rewrite total_app in Htot. destruct IH as (D & HD & IHk & IHt); [lia|]. exists D. split; [|done].
    cbn [step] in HS. destruct (s_task (y_srv y)); by injection HS as <-.
Qed.
Print Assumptions C55_kept_partial.

(** ** Examples *)
Lemma lives_run cf H evs y es : ∀ y', lives cf H evs y → Forall (event_ok cf) es → Forall (calm cf H) es → along cf (careful cf) es y → run cf es y = Ok y' → lives cf H (evs ++ es) y'.
Proof.
  revert evs y. induction es as [|e es IH]; intros evs y y' HL Hok Hcalm Hal HR.
  - injection HR as <-. by rewrite app_nil_r.
  - apply Forall_cons in Hok as [Hok Hoks], Hcalm as [Hcalm Hcalms]. destruct Hal as [Hc Hal].
    cbn [run] in HR. destruct (step cf e y) as [y1| |] eqn:HS; try done. cbn [mbind res_bind] in HR.
    rewrite cons_middle, app_assoc. apply (IH (evs ++ [e]) y1); try done; [by eapply lives_event|by apply Hal].
Qed.
Lemma keeps_run cf H j k evs0 y0 evs y es : ∀ y', keeps cf H j k evs0 y0 evs y → Forall (event_ok cf) es → Forall (calm cf H) es → along cf (careful cf) es y →
  unwritten cf j k y es → run cf es y = Ok y' → keeps cf H j k evs0 y0 (evs ++ es) y'.
Proof.
  revert evs y. induction es as [|e es IH]; intros evs y y' HL Hok Hcalm Hal Hun HR.
  - injection HR as <-. by rewrite app_nil_r.
  - apply Forall_cons in Hok as [Hok Hoks], Hcalm as [Hcalm Hcalms]. destruct Hal as [Hc Hal], Hun as [Hu Hun].
    cbn [run] in HR. destruct (step cf e y) as [y1| |] eqn:HS; try done. cbn [mbind res_bind] in HR.
    rewrite cons_middle, app_assoc. apply (IH (evs ++ [e]) y1); try done; [by eapply keeps_event|by apply Hal|by apply Hun].
Qed.
Definition unwritten_key (cf : config) (k : bytes) (e : event) : bool :=
  match e with
  | EvCommand i (a :: k' :: _) _ _ _ => negb (bool_decide (k' = k))
  | EvBoot _ _ _ => false
  | _ => true
  end.
Lemma unwritten_keys cf j k es : forallb (unwritten_key cf k) es = true → ∀ y, unwritten cf j k y es.
Proof.
  induction es as [|e es IH]; [done|]. cbn [forallb]. intros [H1 H2]%andb_true_iff y. split; [|by intros; apply IH].
  destruct e as [|i [|a [|k' l]] t u rs| | | | | |]; try (by intros []); try done.
  cbn [unwritten_key] in H1. apply negb_true_iff, bool_decide_eq_false in H1. intros (c & _ & _ & -> & _). done.
Qed.
Lemma run_app cf evs es : ∀ y, run cf (evs ++ es) y = (y' ← run cf evs y; run cf es y').
Proof. induction evs as [|e evs IH]; intros y; [done|]. cbn [run app]. destruct (step cf e y) as [y1| |]; [|done..]. apply IH. Qed.
Definition part_check (cf : config) (H : Z) (evs es : list event) : bool :=
  runs_ok cf evs (init_sys cf) && forallb (event_check cf) es && forallb (calm_check cf H) es &&
  along_check cf (careful_check cf) es (after cf evs) && runs_ok cf es (after cf evs).
Lemma part_check_ok cf H evs es : part_check cf H evs es = true → Forall (event_ok cf) es ∧ Forall (calm cf H) es ∧ along cf (careful cf) es (after cf evs) ∧
  run cf es (after cf evs) = Ok (after cf (evs ++ es)).
Proof.
  unfold part_check. rewrite !andb_true_iff. intros ((((H1 & H2) & H3) & H4) & H5).
  assert (HR : run cf es (after cf evs) = Ok (after cf (evs ++ es))).
  { unfold runs_ok, after in *. destruct (run cf evs (init_sys cf)) as [y| |] eqn:E; try done. rewrite run_app, E. cbn [mbind res_bind]. by destruct (run cf es y). }
  split; [|split; [by apply calm_checks|split; [|done]]].
  - clear -H2. induction es as [|e es IH]; [apply Forall_nil_2|]. cbn [forallb] in H2. apply andb_true_iff in H2 as [? ?]. constructor; [by apply event_check_ok|by apply IH].
  - clear -H4. revert H4. generalize (after cf evs). induction es as [|e es IH]; intros y H; [done|]. cbn [along_check along] in *.
    apply andb_true_iff in H as [H1 H2]. split; [by apply careful_check_ok|]. intros y' Hy. rewrite Hy in H2. by apply IH.
Qed.
(** a single step, for restarts and ends of rewrites *)
Definition then_check (cf : config) (evs : list event) (e : event) : bool :=
  runs_ok cf evs (init_sys cf) && match step cf e (after cf evs) with Ok _ => true | _ => false end.
Lemma then_check_ok cf evs e : then_check cf evs e = true → step cf e (after cf evs) = Ok (after cf (evs ++ [e])).
Proof.
  unfold then_check, runs_ok, after. intros [H1 H2]%andb_true_iff. destruct (run cf evs (init_sys cf)) as [y| |] eqn:E; try done. rewrite run_app, E. cbn [mbind res_bind run].
  by destruct (step cf e y).
Qed.

(** Three lives.  In the first a key is written, with a deadline, and after the last
    flush another one, which the crash loses.  In the second the log is rewritten, and
    while this goes on a hash is written; then the server is restarted. *)
Definition l_one : list event := [EvConnect; cmd 0 1500 "set a 1"; cmd 0 1500 "expire a 10"; EvFlush].
Definition l_lost : list event := l_one ++ [cmd 0 1600 "set b 2"].
Definition l_crash : list event := l_lost ++ [EvBoot (whole_log (after cf0 l_one)) (λ _, 2000) []].
Definition l_two : list event := l_crash ++ [EvConnect; cmd 0 2100 "sadd s x"; EvFlush].
Definition l_mid : list event := [cmd 0 2200 "hset h f v"; EvFlush].
Definition l_before : list event := l_two ++ EvRewrite :: [] ++ l_mid.
Definition l_dump : bytes := dump_of (after cf0 (l_two ++ [EvRewrite])).
Definition l_done : list event := l_before ++ [EvDone l_dump].
Definition l_three : list event := l_done ++ [EvBoot (whole_log (after cf0 l_done)) (λ _, 3000) []].
Lemma lives_one : lives cf0 5000 l_one (after cf0 l_one).
Proof.
  destruct (part_check_ok cf0 5000 [] l_one) as (H1 & H2 & H3 & H4); [by vm_compute|].
  apply (lives_run cf0 5000 [] (init_sys cf0)); [constructor|done..].
Qed.
Lemma keeps_two : keeps cf0 5000 0 (B "a") l_one (after cf0 l_one) l_two (after cf0 l_two).
Proof.
  destruct (part_check_ok cf0 5000 l_one [cmd 0 1600 "set b 2"]) as (H1 & H2 & H3 & H4); [by vm_compute|].
  destruct (part_check_ok cf0 5000 l_crash [EvConnect; cmd 0 2100 "sadd s x"; EvFlush]) as (K1 & K2 & K3 & K4); [by vm_compute|].
  apply (keeps_run cf0 5000 0 (B "a") _ _ l_crash (after cf0 l_crash)); [|done|done|done|apply unwritten_keys; by vm_compute|done].
  apply (keeps_boot cf0 5000 0 (B "a") l_one (after cf0 l_one) l_lost (after cf0 l_lost) l_one (after cf0 l_one)).
  - apply (keeps_run cf0 5000 0 (B "a") _ _ l_one (after cf0 l_one)); [apply keeps_first, lives_one|done|done|done|apply unwritten_keys; by vm_compute|done].
  - by exists [cmd 0 1600 "set b 2"].
  - apply keeps_first, lives_one.
  - by vm_compute.
  - split; [done|]. split; [apply Forall_nil_2|]. split; [exact I|left; by vm_compute].
  - apply then_check_ok. by vm_compute.
Qed.
Lemma lives_rewrite : ∃ snap, s_snap (y_srv (after cf0 (l_two ++ [EvRewrite]))) = Some snap ∧
  in_place cf0 l_two l_mid (s_heap (y_srv (after cf0 l_two))) (λ _ _, s_heap (y_srv (after cf0 (l_two ++ [EvRewrite])))) snap ∧
  Forall (lasts 5000) (read_dbs (λ _ _, s_heap (y_srv (after cf0 (l_two ++ [EvRewrite])))) 0 snap) ∧
  rewriteAppendOnlyFile (env_at cf0 0 0) (λ _ _, s_heap (y_srv (after cf0 (l_two ++ [EvRewrite])))) snap = Ok l_dump.
Proof.
  assert (HS : step cf0 EvRewrite (after cf0 l_two) = Ok (after cf0 (l_two ++ [EvRewrite]))) by (apply then_check_ok; by vm_compute).
  destruct (rewrite_snapshot cf0 l_two (after cf0 l_two) _ (after_reaches cf0 l_two ltac:(by vm_compute) ltac:(by vm_compute)) ltac:(by vm_compute) HS)
    as (snap & H1 & _ & _ & _ & H2 & H3 & _ & H4).
  exists snap. split; [done|]. split; [|split].
  - intros id c k v _ _. left. by rewrite H3.
  - apply lasts_checks.
    assert (HD : match s_snap (y_srv (after cf0 (l_two ++ [EvRewrite]))) with Some snap => forallb (lasts_check 5000) (read_dbs (λ _ _, s_heap (y_srv (after cf0 (l_two ++ [EvRewrite])))) 0 snap) | None => false end = true)
      by (vm_compute; reflexivity).
    by rewrite H1 in HD.
  - unfold l_dump, dump_of. rewrite H1.
    assert (HD : match s_snap (y_srv (after cf0 (l_two ++ [EvRewrite]))) with Some snap => match rewriteAppendOnlyFile (env_at cf0 0 0) (λ _ _, s_heap (y_srv (after cf0 (l_two ++ [EvRewrite])))) snap with Ok _ => true | _ => false end | None => false end = true)
      by (vm_compute; reflexivity).
    rewrite H1 in HD. by destruct (rewriteAppendOnlyFile _ _ snap).
Qed.
Lemma keeps_done_example : keeps cf0 5000 0 (B "a") l_one (after cf0 l_one) l_done (after cf0 l_done).
Proof.
  destruct lives_rewrite as (snap & Hs & Ha & Hb & Hd).
  destruct (part_check_ok cf0 5000 l_two (EvRewrite :: [] ++ l_mid)) as (H1 & H2 & H3 & H4); [by vm_compute|].
  destruct (part_check_ok cf0 5000 l_two [EvRewrite]) as (K1 & K2 & K3 & K4); [by vm_compute|].
  assert (HK : keeps cf0 5000 0 (B "a") l_one (after cf0 l_one) l_before (after cf0 l_before)).
  { apply (keeps_run cf0 5000 0 (B "a") _ _ l_two (after cf0 l_two)); [apply keeps_two|done|done|done|apply unwritten_keys; by vm_compute|done]. }
  assert (HS : step cf0 (EvDone l_dump) (after cf0 l_before) = Ok (after cf0 l_done)) by (apply then_check_ok; by vm_compute).
  apply (keeps_done cf0 5000 0 (B "a") l_one (after cf0 l_one) l_before (after cf0 l_before)); [done|done|].
  apply (lives_done cf0 5000 (env_at cf0 0 0) l_two (after cf0 l_two) (after cf0 (l_two ++ [EvRewrite])) snap l_mid (λ _ _, s_heap (y_srv (after cf0 (l_two ++ [EvRewrite])))) l_dump (after cf0 l_before)).
  - apply (keeps_lives _ _ _ _ _ _ _ _ keeps_two).
  - by vm_compute.
  - apply then_check_ok. by vm_compute.
  - done.
  - by vm_compute.
  - intros id k. exists [], (after cf0 (l_two ++ [EvRewrite])). split; [by exists l_mid|]. split; [|reflexivity].
    assert (Hr : runs_ok cf0 (l_two ++ [EvRewrite]) (init_sys cf0) = true) by (vm_compute; reflexivity). revert Hr. unfold runs_ok, after.
    generalize (run cf0 (l_two ++ [EvRewrite]) (init_sys cf0)). intros [x| |] Hr; [reflexivity|discriminate Hr..].
  - exact Ha.
  - exact Hb.
  - exact Hd.
  - apply (keeps_lives _ _ _ _ _ _ _ _ HK).
  - apply calm_checks. by vm_compute.
  - by vm_compute.
  - done.
Qed.
Example C55_example :
  keeps cf0 5000 0 (B "a") l_one (after cf0 l_one) l_three (after cf0 l_three) ∧ Z.of_nat (total l_three) + zlen (whole_log (after cf0 l_three)) < 2 ^ 42 ∧
  (let s := y_srv (after cf0 l_lost) in as_str (val s 0 (B "a")) = Some (B "1") ∧ ttl s 0 (B "a") = Some 11500 ∧ as_str (val s 0 (B "b")) = Some (B "2")) ∧
  (let s := y_srv (after cf0 l_three) in as_str (val s 0 (B "a")) = Some (B "1") ∧ ttl s 0 (B "a") = Some 11000 ∧ val s 0 (B "b") = None ∧
     as_set (val s 0 (B "s")) = [B "x"] ∧ as_hash (val s 0 (B "h")) (B "f") = Some (B "v")) ∧
  y_file (after cf0 l_three) = log_file [words "select 0"; words "set a 1"; words "expireat a 11"; words "sadd s x"; words "hset h f v"].
Proof.
  split; [|by vm_compute].
  apply (keeps_boot cf0 5000 0 (B "a") l_one (after cf0 l_one) l_done (after cf0 l_done) l_done (after cf0 l_done)).
  - apply keeps_done_example.
  - done.
  - apply keeps_done_example.
  - by vm_compute.
  - split; [done|]. split; [apply Forall_nil_2|]. split; [exact I|left; by vm_compute].
  - apply then_check_ok. by vm_compute.
Qed.
