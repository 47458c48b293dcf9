(** The log of a calm history, record by record: what a part of it replays to. *)
From Verif Require Import Base Float DictModel DictProofs2 DatabaseModel Strconv RespSpec ServerModel CommandModel CommandSem CommandInv CommandTop
  SystemModel SystemProofs CommandFacts ZcmdProofs AofModel AofProofs1 AofProofs2 RndFrame AofProofs3 AofProofs4 PropsCommand PropsAof.
From Coq Require Import ZifyBool ZifyNat.

(** the first [n] of the commands [cmds] that [evs] has logged lead to the state [y0]
    after the first events [evs0]; whatever else is in these [n] commands is in [evs0] *)
Record moment (cf : config) (H : Z) (evs : list event) (cmds : list (list bytes)) (n : nat) (evs0 : list event) (y0 : sys) (db : nat) : Prop := {
  mo_prefix : evs0 `prefix_of` evs;
  mo_reach : reaches cf evs0 y0;
  mo_leads : leads cf H (abs_dbs (NewServer (cf_dbs cf))) (abs_dbs (y_srv y0)) 0 db (take n cmds);
  mo_within : ∃ m, (m ≤ n)%nat ∧ whole_log y0 = log_file (take m cmds);
  mo_most : ∀ evs' y', evs' `prefix_of` evs → reaches cf evs' y' →
    ∃ m, (m ≤ length cmds)%nat ∧ whole_log y' = log_file (take m cmds) ∧ ((m ≤ n)%nat → evs' `prefix_of` evs0)
}.
Lemma prefix_snoc {A} (l k : list A) x : l `prefix_of` k ++ [x] → l `prefix_of` k ∨ l = k ++ [x].
Proof.
  intros [t Ht]. destruct t as [|y t _] using rev_ind; [rewrite app_nil_r in Ht; by right|left].
  rewrite app_assoc in Ht. apply app_inj_2 in Ht as [Ht _]; [|done]. by exists t.
Qed.
Lemma reaches_fun cf evs y y' : reaches cf evs y → reaches cf evs y' → y = y'.
Proof. intros [_ H1] [_ H2]. congruence. Qed.
Theorem moments cf H evs y : lower_ok (cf_lib cf) → 0 ≤ H → cf_aof cf = true → Z.of_nat (cf_dbs cf) ≤ 2 ^ 44 →
  reaches cf evs y → Forall (calm cf H) evs → careful_history cf evs → Forall (one_record cf) evs →
  ∃ cmds, whole_log y = log_file cmds ∧ Forall (good_record cf) cmds ∧
    Forall (fresh H) (abs_dbs (y_srv y)) ∧ (∃ db, s_select (y_srv y) = Z.of_nat db ∧ leads cf H (abs_dbs (NewServer (cf_dbs cf))) (abs_dbs (y_srv y)) 0 db cmds) ∧
    (draws (cf_lib cf) cmds ≤ draws (cf_lib cf) (commands_of evs))%nat ∧
    ∀ n, (n ≤ length cmds)%nat → ∃ evs0 y0 db, moment cf H evs cmds n evs0 y0 db.
Proof.
  intros Hlow HH Haof Hdbs. revert y. induction evs as [|e evs IH] using rev_ind; intros y' Hr Hcalm Hcare Hone.
  { pose proof Hr as [_ [= <-]]. exists []. split; [done|]. split; [by apply Forall_nil_2|]. split; [apply new_fresh|].
    split; [exists 0%nat; split; [done|apply leads_nil]|]. split; [done|]. intros n Hn. simpl in Hn. assert (n = 0%nat) as -> by lia.
    exists [], (init_sys cf), 0%nat. split; [done|done|apply leads_nil|by exists 0%nat|].
    intros evs' y' ->%prefix_nil_inv Hr'. rewrite (reaches_fun _ _ _ _ Hr' Hr). exists 0%nat. done. }
  apply Forall_app in Hcalm as [Hcalm He], Hone as [Hone Ho]. apply Forall_cons in He as [He _], Ho as [Ho _].
  pose proof Hr as Hr'. apply reaches_snoc in Hr' as (Hh & y & Hry & HS).
  pose proof Hcare as Hcare'. apply along_snoc in Hcare' as [Hcare' _].
  destruct (IH y Hry Hcalm Hcare' Hone) as (cmds & Hfile & Hne & HF & (db & Hsel & Hlead) & Hdr & Hmom).
  destruct (calm_step cf H evs e y y' db) as (db' & more & (A1 & A2 & A3 & A4 & A5 & A6 & A7) & Hw & Hd); try done.
  assert (Hlog : whole_log y' = log_file (cmds ++ more)) by (unfold whole_log in *; by rewrite A1, Hfile, log_app).
  assert (Hlead' : leads cf H (abs_dbs (NewServer (cf_dbs cf))) (abs_dbs (y_srv y')) 0 db' (cmds ++ more)) by (by eapply leads_app).
  exists (cmds ++ more). split; [done|]. split; [by apply Forall_app|]. split; [done|]. split; [by eauto|].
  split. { unfold draws_le in Hd. rewrite commands_app, !draws_app. unfold commands_of at 2. cbn [mbind list_bind]. rewrite app_nil_r. lia. }
  (* every moment of [evs] knows its position *)
  assert (Hpos : ∀ evs' y1, evs' `prefix_of` evs → reaches cf evs' y1 → ∃ m, (m ≤ length cmds)%nat ∧ whole_log y1 = log_file (take m cmds)).
  { intros evs' y1 Hp Hr1. destruct (Hmom 0%nat ltac:(lia)) as (? & ? & ? & [_ _ _ _ Hmost]). destruct (Hmost _ _ Hp Hr1) as (m & ? & ? & _). by exists m. }
  intros n Hn. rewrite app_length in Hn.
  destruct (decide (n = length cmds + length more)%nat) as [->|Hn1].
  { (* everything *)
    exists (evs ++ [e]), y', db'. split; [done|done|rewrite take_ge; [done|rewrite app_length; lia]| |].
    - exists (length cmds + length more)%nat. split; [lia|]. rewrite take_ge by (rewrite app_length; lia). done.
    - intros evs' y1 Hp Hr1. apply prefix_snoc in Hp as [Hp| ->].
      + destruct (Hpos _ _ Hp Hr1) as (m & Hm & Hl). exists m. rewrite app_length. split; [lia|]. split; [rewrite take_app_le by lia; done|].
        intros _. by apply prefix_app_r.
      + rewrite (reaches_fun _ _ _ _ Hr1 Hr). exists (length cmds + length more)%nat. rewrite app_length. split; [lia|].
        split; [|done]. rewrite take_ge by (rewrite app_length; lia). done. }
  assert (Hlast : ∀ y1, reaches cf (evs ++ [e]) y1 → ∃ m, (m ≤ length (cmds ++ more))%nat ∧ whole_log y1 = log_file (take m (cmds ++ more)) ∧ (n < m)%nat).
  { intros y1 Hr1. rewrite (reaches_fun _ _ _ _ Hr1 Hr). exists (length cmds + length more)%nat. rewrite app_length.
    split; [lia|]. split; [|lia]. rewrite take_ge by (rewrite app_length; lia). done. }
  destruct (decide (n ≤ length cmds)%nat) as [Hn2|Hn2].
  - destruct (Hmom n Hn2) as (evs0 & y0 & db0 & [M1 M2 M3 M4 M5]). exists evs0, y0, db0. split.
    + by apply prefix_app_r.
    + done.
    + by rewrite take_app_le by lia.
    + destruct M4 as (m & Hm & Hl). exists m. split; [done|]. by rewrite take_app_le by lia.
    + intros evs' y1 Hp Hr1. apply prefix_snoc in Hp as [Hp| ->].
      * destruct (M5 _ _ Hp Hr1) as (m & Hm & Hl & Hin). exists m. rewrite app_length. split; [lia|]. split; [by rewrite take_app_le by lia|done].
      * destruct (Hlast _ Hr1) as (m & ? & ? & ?). exists m. split; [done|]. split; [done|]. lia.
  - (* between a SELECT and its command *)
    destruct (Hw Ho (n - length cmds)%nat ltac:(lia)) as (db1 & Hl1).
    exists evs, y, db1. split.
    + by apply prefix_app_r.
    + done.
    + rewrite take_app_ge by lia. by eapply leads_app.
    + exists (length cmds). split; [lia|]. by rewrite take_app.
    + intros evs' y1 Hp Hr1. apply prefix_snoc in Hp as [Hp| ->].
      * destruct (Hpos _ _ Hp Hr1) as (m & Hm & Hl). exists m. rewrite app_length. split; [lia|]. split; [by rewrite take_app_le by lia|done].
      * destruct (Hlast _ Hr1) as (m & ? & ? & ?). exists m. split; [done|]. split; [done|]. lia.
Qed.
