(** Which sorted-set commands can end the server, at the level of commands (C18). *)
From Verif Require Import Base Float DictModel DictProofs2 QuicklistModel SkiplistModel ZsetModel
  Strconv RespSpec ServerModel CommandModel CommandSem CommandInv
  CommandTop CommandFrame SystemModel SystemProofs CommandFacts ExampleLib PropsCommand PropsData
  ZcmdProofs PropsZcmd ExampleTools SafeProofs TermProofs SolidProofs SolidCmd SolidRange PropsSafe PropsTerm PropsConn.
From Coq Require Import ZifyBool ZifyNat.

Lemma ready_history cf evs y i c name args rs D now unix : ready cf evs y i c name args rs D → history_ok cf (evs ++ [EvCommand i args now unix rs]).
Proof.
  intros [[(Hev & Hpos & Htot) Hr] Hc (Ha & Hrs & Ht) Hrun HD]. split; [|split; [done|]].
  - apply Forall_app. split; [done|]. by apply Forall_singleton.
  - rewrite total_app. unfold total at 2. simpl in *. lia.
Qed.

(** The sorted-set commands, in every reachable state and with any arguments: ZREM,
    ZREMRANGEBYRANK, ZREMRANGEBYSCORE, ZCARD, ZSCORE and ZCOUNT never end the server; ZADD only
    if 127 successive draws raise a level; ZRANGE and ZRANGEBYSCORE only if the sorted set is
    damaged (its list leads to an element its dictionary does not have) or, for ZRANGE, if the last rank asked
    for is 2^45 or more.  The full property has no exception; see the refutations
    C18_nil_element_refuted, C18_nan_refuted, C18_huge_rank_refuted. *)
Theorem C18_commands_partial cf evs y i c name args rs D now unix :
  ready cf evs y i c name args rs D → name ∈ B "zadd" :: zset_commands → step cf (EvCommand i args now unix rs) y = Panic →
  name = B "zadd" ∧ ¬ level_ok rs ∨
  name ∈ [B "zrange"; B "zrangebyscore"] ∧ (∃ key m s, args !! 1%nat = Some key ∧ a_keys D !! key = Some (AZset m s) ∧ ghost m s) ∨
  name = B "zrange" ∧ ∃ b j, args !! 3%nat = Some b ∧ Atoi b = Some j ∧ 2 ^ 45 ≤ j.
Proof.
  intros Hrd Hname HS. pose proof (ready_history _ _ _ _ _ _ _ _ _ now unix Hrd) as Hh. pose proof Hrd as [Hr Hc Hok Hrun HD].
  destruct (C49_only cf evs y (EvCommand i args now unix rs) Hr (λ H, H) Hh HS) as (i' & c' & name' & args' & now' & unix' & rs' & He & Hc' & Hrun' & Hcan & _ & Hz).
  injection He as <- <- <- <- <-. rewrite Hc in Hc'. injection Hc' as <-.
  assert (name' = name) as ->.
  { destruct Hrun as (a & l & ar & -> & <- & _), Hrun' as (a' & l' & ar' & [= <- <-] & <- & _). done. }
  assert (Hall : Forall (λ n, n ∉ can_crash ∨ n = B "zadd" ∨ n ∈ [B "zrange"; B "zrangebyscore"]) (B "zadd" :: zset_commands)).
  { apply (bool_decide_unpack _). by vm_compute. }
  rewrite Forall_forall in Hall. destruct (Hall _ Hname) as [?|[->|Hn]]; [done|left; by split; [|apply Hz]|].
  destruct (C49_ranges _ _ _ _ _ _ _ _ _ now unix Hrd Hn HS) as (key & m & s & Hk & HD' & [Hg|Hj]); [right; left|by right; right].
  split; [done|]. by exists key, m, s.
Qed.
Print Assumptions C18_commands_partial.

(** Every panic outside a restart has one of six causes: a negative SELECT, a list of several
    pages, a huge stop of LRANGE, a level that overflows, a damaged sorted set, a huge stop of ZRANGE. *)
Inductive cause (name : bytes) (args : list bytes) (rs : list Z) (D : adb) : Prop :=
| cause_select b k : name = B "select" → args !! 1%nat = Some b → Atoi b = Some k → k < 0 → cause name args rs D
| cause_pages key q : name ∈ [B "rpop"; B "lindex"; B "lrange"] → args !! 1%nat = Some key → a_keys D !! key = Some (AList q) →
    (1 < length (q_pages q))%nat → cause name args rs D
| cause_lrange b j : name = B "lrange" → args !! 3%nat = Some b → Atoi b = Some j → 2 ^ 43 ≤ j → cause name args rs D
| cause_level : name = B "zadd" → ¬ level_ok rs → cause name args rs D
| cause_ghost key m s : name ∈ [B "zrange"; B "zrangebyscore"] → args !! 1%nat = Some key → a_keys D !! key = Some (AZset m s) →
    ghost m s → cause name args rs D
| cause_zrange b j : name = B "zrange" → args !! 3%nat = Some b → Atoi b = Some j → 2 ^ 45 ≤ j → cause name args rs D.
Theorem C49_causes cf evs y e : reaches cf evs y → ¬ is_boot e → history_ok cf (evs ++ [e]) → step cf e y = Panic →
  ∃ i c name args now unix rs D, e = EvCommand i args now unix rs ∧ ready cf evs y i c name args rs D ∧ cause name args rs D.
Proof.
  intros Hr Hboot Hh HS.
  destruct (C49_only cf evs y e Hr Hboot Hh HS) as (i & c & name & args & now & unix & rs & -> & Hc & Hrun & Hcan & Hsel & Hz).
  pose proof (history_cmd_ok _ _ _ _ _ _ _ Hh) as Hok.
  assert (HD : ∃ D, abs_dbs (y_srv y) !! c_db c = Some D).
  { apply lookup_lt_is_Some. rewrite abs_dbs_len.
    destruct (C28_current cf evs y Hr) as [H1 H2]. rewrite <-H1 in H2. rewrite (yo_len _ _ _ (reaches_ok _ _ _ Hr)).
    eapply (Forall_lookup_1 _ _ i) in H2; [exact H2|]. by rewrite list_lookup_fmap, Hc. }
  destruct HD as [D HD]. exists i, c, name, args, now, unix, rs, D. split; [done|].
  assert (Hrd : ready cf evs y i c name args rs D) by (by split). split; [done|].
  assert (Hall : Forall (λ n, n = B "select" ∨ n = B "zadd" ∨ n ∈ [B "rpop"; B "lindex"; B "lrange"] ∨ n ∈ [B "zrange"; B "zrangebyscore"]) can_crash).
  { apply (bool_decide_unpack _). by vm_compute. }
  rewrite Forall_forall in Hall. destruct (Hall _ Hcan) as [Hn|[Hn|[Hn|Hn]]].
  - destruct (Hsel Hn) as (b & k & ? & ? & ?). by eapply cause_select.
  - by apply cause_level; [|apply Hz].
  - destruct (C49_lists _ _ _ _ _ _ _ _ _ now unix Hrd Hn HS) as (key & q & ? & ? & [?|(? & b & j & ? & ? & ?)]); [by eapply cause_pages|by eapply cause_lrange].
  - destruct (C49_ranges _ _ _ _ _ _ _ _ _ now unix Hrd Hn HS) as (key & m & s & ? & ? & [?|(? & b & j & ? & ? & ?)]); [by eapply cause_ghost|by eapply cause_zrange].
Qed.
Print Assumptions C49_causes.

(** Every ZRANGE of more than 2^45 ranks of a sorted set that has not expired ends the
    server, whatever the set holds. *)
Theorem C18_huge cf evs y i c args rs D now unix key a b j k m s :
  ready cf evs y i c (B "zrange") args rs D → args !! 1%nat = Some key → a_keys D !! key = Some (AZset m s) →
  (∀ t, a_ttl D !! key = Some t → now ≤ t) →
  args !! 2%nat = Some a → Atoi a = Some j → args !! 3%nat = Some b → Atoi b = Some k → 0 ≤ j → 2 ^ 45 ≤ k - j → k < maxInt64 →
  step cf (EvCommand i args now unix rs) y = Panic.
Proof.
  intros Hrd Hkey Hz Httl Ha Hj Hb Hk Hpos Hlen Hmax. pose proof (ready_history _ _ _ _ _ _ _ _ _ now unix Hrd) as Hh. destruct Hrd as [Hr Hc Hok Hrun HD].
  destruct (data_did cf evs y i c args now unix rs _ Hr Hc Hok Hrun) as (D0 & ro & HD0 & Hs & HT).
  { intros [H|[H|H]]; discriminate H. }
  rewrite HD in HD0. injection HD0 as <-. destruct ro as [[D' r' n']| |]; [|done|].
  - exfalso. apply (sem_inv _ _ (sem_zrange (env_at cf now unix))) in Hs; [|in_table]. unfold sem_zrange, fn in Hs.
    destruct args as [|a0 [|key' [|a' [|b' l]]]]; try done. injection Hkey as ->. injection Ha as ->. injection Hb as ->.
    injection Hs as Hs. unfold ints in Hs. rewrite Hj, Hk in Hs. unfold on_existing in Hs. cbn zeta in Hs.
    rewrite purge_id in Hs.
    2:{ unfold expired. intros (t & Ht & Hlt). specialize (Httl _ Ht). cbn in Hlt. lia. }
    rewrite Hz in Hs. cbn [AKZset ak_out ak_in] in Hs. unfold reading, zrange, RangeByRank, last_rank in Hs. cbn [fst snd] in Hs.
    destruct (Z.eqb_spec k maxInt64) as [?|_]; [lia|].
    rewrite !wrap64_id in Hs by (unfold in_int64, minInt64, maxInt64 in *; lia).
    destruct (_ || _) eqn:Eg in Hs; [lia|].
    destruct (GetElementByRank _ _) as [x| |]; cbn [mbind res_bind] in Hs; [|done..].
    destruct (make_ok _ _) eqn:Em in Hs; [unfold make_ok, maxAlloc in Em; lia|done].
  - exfalso. destruct (C58_ends cf evs y _ Hr Hh HT) as [(? & ? & ?)|[(? & ? & ? & ? & ? & ? & _)|(i' & c' & name' & args' & now' & unix' & rs' & He & Hc' & Hrun' & Hn)]]; [done..|].
    injection He as <- <- <- <- <-.
    assert (name' = B "zrange") as ->.
    { destruct Hrun as (a' & l & ar & -> & <- & _), Hrun' as (a'' & l' & ar' & [= <- <-] & <- & _). done. }
    revert Hn. apply (bool_decide_unpack _). by vm_compute.
Qed.
Print Assumptions C18_huge.

(** ** Instances *)
(** ZRANGE after a member has changed its score and been removed meets the hypotheses of [C18_commands_partial] *)
Example C18_commands_example : let y := state_of cf0 h_updated in
  ready cf0 h_updated y 0 (who y 0) (B "zrange") (words "ZRANGE z 0 9") [] (db_of y 0) ∧ step cf0 (cmd 0 7 "ZRANGE z 0 9") y = Panic.
Proof. intros y. split; [apply ready_at; by vm_compute|]. apply C47_removed_refuted. Qed.
Definition h_one : list event := [EvConnect; cmd 0 5 "ZADD z 1 a"].
Example C18_huge_example : let y := state_of cf0 h_one in
  ready cf0 h_one y 0 (who y 0) (B "zrange") (words "ZRANGE z 0 35184372088832") [] (db_of y 0) ∧
  (∃ m s, a_keys (db_of y 0) !! B "z" = Some (AZset m s)) ∧ Atoi (B "35184372088832") = Some (2 ^ 45)%Z ∧ a_ttl (db_of y 0) !! B "z" = None.
Proof.
  intros y. split; [apply ready_at; by vm_compute|]. split; [|split; by vm_compute].
  assert (H : match a_keys (db_of y 0) !! B "z" with Some (AZset _ _) => true | _ => false end = true) by (by vm_compute).
  destruct (a_keys (db_of y 0) !! B "z") as [[]|]; try done. by eexists _, _.
Qed.
(** the histories of [crashes] meet those of [C49_causes] *)
Example C49_causes_example : let y := state_of cf0 h_updated in
  reaches cf0 h_updated y ∧ history_ok cf0 (h_updated ++ [cmd 0 7 "ZRANGE z 0 9"]) ∧ step cf0 (cmd 0 7 "ZRANGE z 0 9") y = Panic.
Proof. intros y. split; [apply C47_removed_refuted|]. split; [apply history_check_ok; by vm_compute|apply C47_removed_refuted]. Qed.
