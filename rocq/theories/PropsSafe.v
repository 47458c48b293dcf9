(** Which commands can end the server (C49). *)
From Verif Require Import Base Float DictModel DictProofs2 QuicklistModel QuicklistProofs SkiplistModel
  Strconv RespSpec ServerModel CommandModel CommandSem CommandInv
  CommandTop CommandFrame SystemModel SystemProofs CommandFacts ExampleLib PropsCommand PropsData PropsSkiplist
  ZcmdProofs ListcmdProofs PropsZcmd PropsListcmd ExampleTools SafeProofs SolidProofs SolidCmd SolidRange.
From Coq Require Import ZifyBool ZifyNat SpecFloat.

(** * C49 *)
(** Along a history in which every event satisfies the conditions below, no command and
    no background job panics.  The conditions:
    [careful]: ZADD gives no member a second, different score and no NaN, removal by rank
      starts at rank 0, bounds of ZREMRANGEBYSCORE are not NaN (ZcmdProofs.v);
    [fits]: no push makes a list longer than 1024 elements (ListcmdProofs.v);
    [mild]: SELECT of an index from 0 on, LRANGE with a stop below 2^43, ZRANGE of fewer
      than 2^45 ranks, lower bounds of scores are not NaN, no 127 successive random draws
      that raise the level of a skiplist node (SafeProofs.v);
    a restart finds a log that can be loaded and leads to sorted sets and lists as above.
    The full property has none of these conditions; see the laws and refutations below. *)
Definition safe_history (cf : config) (evs : list event) : Prop :=
  along cf (λ y e, careful cf y e ∧ fits cf y e ∧ mild cf e) evs (init_sys cf).
Lemma along_impl cf (P Q : sys → event → Prop) : (∀ y e, P y e → Q y e) → ∀ evs y, along cf P evs y → along cf Q evs y.
Proof.
  intros H evs. induction evs as [|e evs IH]; intros y Ha; [done|]. cbn [along] in *. destruct Ha as [H1 H2]. split; [by apply H|].
  intros y' Hy. by apply IH, H2.
Qed.
Lemma run_app cf evs evs' : ∀ y, run cf (evs ++ evs') y = (y' ← run cf evs y; run cf evs' y').
Proof.
  induction evs as [|e evs IH]; intros y; [done|]. cbn [run app]. destruct (step cf e y) as [y1| |]; [|done..]. cbn [mbind res_bind]. apply IH.
Qed.
Theorem C49_safe_partial cf evs : history_ok cf evs → safe_history cf evs → run cf evs (init_sys cf) ≠ Panic.
Proof.
  induction evs as [|e evs IH] using rev_ind; intros Hh Hs; [done|].
  apply along_snoc in Hs as [Hs He].
  assert (Hh' : history_ok cf evs).
  { destruct Hh as (H1 & H2 & H3). rewrite total_app in H3. apply Forall_app in H1 as [H1 _]. split; [done|]. split; [done|lia]. }
  rewrite run_app. destruct (run cf evs (init_sys cf)) as [y| |] eqn:Er; cbn [mbind res_bind]; [|by apply IH|done].
  destruct (He y eq_refl) as (H1 & H2 & H3). cbn [run].
  enough (step cf e y ≠ Panic) as Hn by (destruct (step cf e y); done).
  apply (step_safe cf evs); try done.
  - eapply along_impl; [|exact Hs]. by intros ? ? (? & _ & _).
  - eapply along_impl; [|exact Hs]. by intros ? ? (_ & ? & _).
Qed.
Print Assumptions C49_safe_partial.

(** In every reachable state only seven of the 43 commands can end the server, among
    them SELECT only with a negative index and ZADD only if 127 successive draws raise a
    level; the others, every other event but a restart (connections, replies, background expiry, flushing and
    rewriting the log) and requests that are refused cannot. *)
Definition can_crash : list bytes :=
  [B "select"; B "rpop"; B "lindex"; B "lrange"; B "zadd"; B "zrange"; B "zrangebyscore"].
Theorem C49_only cf evs y e : reaches cf evs y → ¬ is_boot e → history_ok cf (evs ++ [e]) → step cf e y = Panic →
  ∃ i c name args now unix rs, e = EvCommand i args now unix rs ∧ y_cls y !! i = Some c ∧ runs cf c name args ∧ name ∈ can_crash ∧
    (name = B "select" → ∃ b k, args !! 1%nat = Some b ∧ Atoi b = Some k ∧ k < 0) ∧
    (name = B "zadd" → ¬ level_ok rs).
Proof.
  intros Hr Hboot (Hev & Hpos & Htot) HS. rewrite total_app in Htot.
  apply Forall_app in Hev as [_ Hev]. apply Forall_cons in Hev as [Hev _].
  pose proof (reaches_ok cf evs y Hr) as Hy.
  destruct e as [|i args now unix rs|i n|now rs| | |dump|file clock rs]; try done.
  - destruct (y_cls y !! i) as [c|] eqn:Hc; [|cbn [step] in HS; by rewrite Hc in HS]. destruct Hev as [Hargs Hrs].
    assert (Hok : cmd_ok cf evs args rs).
    { split; [done|]. split; [done|]. unfold total in *. simpl in *. lia. }
    pose proof (reaches_solid cf evs y Hr) as Hsolid.
    assert (Hz : ∀ a l, args = a :: l → lib_lower (cf_lib cf) a = B "zadd" → ¬ level_ok rs).
    { intros a l -> Hz. pose proof HS as HS2. cbn [step] in HS2. rewrite Hc in HS2.
      destruct (Forall_lookup_1 _ _ _ _ (yo_cls _ _ _ Hy) Hc) as [Hdb _].
      assert (is_Some (abs_dbs (y_srv y) !! c_db c)) as [D HD] by (apply lookup_lt_is_Some; by rewrite abs_dbs_len).
      assert (Hw : w_ok (total evs) (W (y_srv y) c rs)) by (by eapply client_world).
      pose proof Hok as (_ & _ & Hlen).
      destruct (bad_arity (-4) (a :: l)) eqn:Eb.
      { exfalso. refine (zadd_process (env_at cf now unix) (total evs) (W (y_srv y) c rs) a l D Hw (room_total _ _ Hlen) Hz HD _ _); [by rewrite Eb|].
        by destruct (processCommand _ _ _) as [[? ?]| |]. }
      destruct (zadd_out (env_at cf now unix) (a :: l) rs D) as [?| |] eqn:Eo.
      2:{ eapply zadd_overflow; [by eapply Forall_lookup_1| |exact Eo]. destruct l; [by vm_compute in Eb|simpl; lia]. }
      all: exfalso; refine (zadd_process (env_at cf now unix) (total evs) (W (y_srv y) c rs) a l D Hw (room_total _ _ Hlen) Hz HD _ _);
        [intros _; cbn [w_rnd]; by rewrite Eo|by destruct (processCommand _ _ _) as [[? ?]| |]]. }
    destruct (command_did cf evs y i c args now unix rs Hr Hc Hok) as (o & Ht & HT).
    destruct o as [[[v' r] n]| |]; [by destruct HT as (y' & HS' & _); congruence| |congruence]. clear HT.
    remember Panic as o eqn:Eo in Ht. destruct Ht; try done.
    + destruct ro as [[D' r' n']| |]; try done.
      match goal with H : CommandTop.allowed _ _ _ _ |- _ => destruct H as ((a' & l' & ar & -> & -> & Har & Hacc) & Hperm) end.
      cbn [view_at v_dbs v_db v_auth e_lib e_password env_at] in *.
      match goal with H : abs_dbs (y_srv y) !! _ = Some D |- _ => rename H into HD end.
      match goal with H : sem _ _ _ D Panic |- _ => rename H into Hs end.
      exists i, c, (lib_lower (cf_lib cf) a'), (a' :: l'), now, unix, rs. split_and!; [done|done|by exists a', l', ar|..]; [|intros Hx; apply sem_not_special in Hs; exfalso; apply Hs; rewrite Hx; by left|intros Hx; by eapply Hz].
      pose proof (sem_calm _ _ _ _ Hs) as Hrisk.
      assert (Hall : Forall (λ n, n = B "lpush" ∨ n = B "lpop" ∨ n ∈ [B "zrem"; B "zremrangebyrank"; B "zremrangebyscore"; B "zcount"] ∨ n ∈ can_crash) risky).
      { apply (bool_decide_unpack _). by vm_compute. }
      rewrite Forall_forall in Hall. destruct (Hall _ Hrisk) as [Hn|[Hn|[Hn|?]]]; [..|done]; exfalso.
      3:{ revert Hn. eapply sem_zsafe; [|exact Hs]. by eapply Forall_lookup_1. }
      all: rewrite Hn in Hs.
      * apply (sem_inv _ _ (sem_push lpush_all)) in Hs; [|in_table]. unfold sem_push, fn in Hs. destruct l' as [|key l]; [done|]. injection Hs as Hs.
        apply new_panic in Hs as (q & Hq & Hs); [|apply AKList_law].
        assert (wf q) as Hw by (destruct Hq as [Hq|[_ ->]]; [by eapply reaches_list|apply wf_New]).
        destruct (lpush_all_spec l q Hw) as (q' & E1 & _). by rewrite E1 in Hs.
      * apply (sem_inv _ _ (sem_pop (env_at cf now unix) PopFront)) in Hs; [|in_table]. unfold sem_pop, fn in Hs. destruct l' as [|key l]; [done|]. injection Hs as Hs.
        apply existing_panic in Hs as (q & Hq & Hs); [|apply AKList_law].
        assert (wf q) as Hw by (by eapply reaches_list).
        pose proof (PopFront_spec q Hw) as HP. unfold Len in Hs. rewrite (wf_length q Hw) in Hs.
        destruct (qels q) as [|v x]; [done|]. destruct HP as (q' & E1 & _). cbn [length] in Hs.
        replace (Z.of_nat (S (length x)) =? 0) with false in Hs by lia. by rewrite E1 in Hs.
    + match goal with H : CommandTop.allowed _ _ _ _ |- _ => destruct H as ((a' & l' & ar & -> & Hn & Har & Hacc) & Hperm) end.
      cbn [view_at v_auth e_lib e_password env_at] in *.
      exists i, c, (B "select"), (a' :: l'), now, unix, rs. split_and!; [done|done|by exists a', l', ar|by left| |done]. intros _. eexists _, _. split; [eassumption|]. split; [eassumption|done].
  - cbn [step] in HS. by destruct (y_cls y !! i).
  - cbn [step] in HS. destruct Hy as [[S1 S2 S3 S4] _ _].
    pose proof (databasesCron_no_panic (env_at cf now 0) _ _ rs S1 Hev) as Hnp. by destruct (databasesCron _ _ _).
  - cbn [step] in HS. unfold rewriteAppendOnlyFileBackground in HS. destruct (s_task (y_srv y)); [done|].
    destruct Hy as [[S1 S2 S3 S4] _ _].
    destruct (copy_dbs_spec _ (s_dbs (y_srv y)) S1) as (snap & EC & _); [unfold small, max_entries; simpl in *; lia|].
    by rewrite EC in HS.
  - cbn [step] in HS. by destruct (s_task (y_srv y)).
Qed.
Print Assumptions C49_only.

(** RPOP, LINDEX and LRANGE only end the server on a list of more than one page, which has
    or had more than 1024 elements, or LRANGE with a stop of at least 2^43 *)
Theorem C49_lists cf evs y i c name args rs D now unix : ready cf evs y i c name args rs D → name ∈ [B "rpop"; B "lindex"; B "lrange"] →
  step cf (EvCommand i args now unix rs) y = Panic →
  ∃ key q, args !! 1%nat = Some key ∧ a_keys D !! key = Some (AList q) ∧
    ((1 < length (q_pages q))%nat ∨ name = B "lrange" ∧ ∃ b j, args !! 3%nat = Some b ∧ Atoi b = Some j ∧ 2 ^ 43 ≤ j).
Proof.
  intros [Hr Hc Hok Hrun HD] Hname HS.
  assert (Hsp : ¬ special name) by (intros [->|[->| ->]]; revert Hname; apply (bool_decide_unpack _); by vm_compute).
  destruct (data_did cf evs y i c args now unix rs name Hr Hc Hok Hrun Hsp) as (D0 & ro & HD0 & Hs & HT).
  rewrite HD in HD0. injection HD0 as <-. destruct ro as [[D' r' n']| |]; [by destruct HT as (y' & HS' & _); congruence| |congruence]. clear HT.
  destruct Hrun as (a & l & ar & -> & Hn & Har & Hacc & Hperm).
  destruct l as [|key l].
  { exfalso. change (zlen [a]) with 1 in Hacc. assert (HF : Forall (λ p, p.1 ∉ [B "rpop"; B "lindex"; B "lrange"] ∨ ¬ (if 0 <? p.2 then 1 =? p.2 else - p.2 <=? 1) = true) arities).
    { apply (bool_decide_unpack _). by vm_compute. }
    rewrite Forall_forall in HF. destruct (HF _ Har) as [?|Hx]; [done|]. apply Hx. cbn [snd]. unfold accepts in Hacc. clear -Hacc.
    destruct (0 <? ar) eqn:?, (decide (0 < ar)); try lia. }
  assert (Hno : (∀ q, a_keys D !! key = Some (AList q) → onepage q) → ¬ list_mild name l).
  { intros H1 H2. revert Hs. apply list_safe; [|intros q Hq; split; [by eapply reaches_list|by apply H1]|done].
    revert Hname. rewrite !elem_of_cons, elem_of_nil. tauto. }
  assert (Hq : ∃ q, a_keys D !! key = Some (AList q)).
  { revert Hname Hs. generalize (name). clear. intros name Hname Hs. rewrite !elem_of_cons, elem_of_nil in Hname. destruct Hname as [->|[->|[->|[]]]].
    - apply (sem_inv _ _ (sem_pop (env_at cf now unix) PopBack)) in Hs; [|in_table]. unfold sem_pop, fn in Hs. injection Hs as Hs.
      apply existing_panic in Hs as (q & Hq & _); [by exists q|apply AKList_law].
    - apply (sem_inv _ _ (sem_lindex (env_at cf now unix))) in Hs; [|in_table]. unfold sem_lindex, fn in Hs. destruct l as [|b l]; [done|]. injection Hs as Hs.
      apply existing_panic in Hs as (q & Hq & _); [by exists q|apply AKList_law].
    - apply (sem_inv _ _ (sem_lrange (env_at cf now unix))) in Hs; [|in_table]. unfold sem_lrange, fn in Hs. destruct l as [|b [|b2 l]]; [done..|]. injection Hs as Hs.
      apply existing_panic in Hs as (q & Hq & _); [by exists q|apply AKList_law]. }
  destruct Hq as [q Hq]. exists key, q. split; [done|]. split; [done|]. destruct (decide (onepage q)) as [Ho|Ho]; [right|left; unfold onepage in Ho; lia].
  assert (Hm : ¬ list_mild name l) by (apply Hno; intros q' Hq'; by rewrite Hq in Hq'; injection Hq' as <-).
  unfold list_mild in Hm. destruct (decide (name = B "lrange")) as [->|Hne]; [|by destruct Hm]. split; [done|]. cbn [lookup list_lookup].
  destruct (l !! 1%nat) as [b|] eqn:Eb; [|by destruct Hm]. destruct (Atoi b) as [j|] eqn:Ej; [|destruct Hm; intros _ b' j' [= <-]; congruence].
  exists b, j. split; [by destruct l|]. split; [done|]. destruct (decide (2 ^ 43 ≤ j)) as [?|Hlt]; [done|]. destruct Hm. intros _ b' j' [= <-]. rewrite Ej. intros [= <-]. lia.
Qed.
Print Assumptions C49_lists.

(** ZRANGE and ZRANGEBYSCORE can end the server only if the pointers of the sorted set
    lead to an element that its dictionary does not have, or if the last rank asked for is
    2^45 or more *)
Theorem C49_ranges cf evs y i c name args rs D now unix : ready cf evs y i c name args rs D → name ∈ [B "zrange"; B "zrangebyscore"] →
  step cf (EvCommand i args now unix rs) y = Panic →
  ∃ key m s, args !! 1%nat = Some key ∧ a_keys D !! key = Some (AZset m s) ∧
    (ghost m s ∨ name = B "zrange" ∧ ∃ b j, args !! 3%nat = Some b ∧ Atoi b = Some j ∧ 2 ^ 45 ≤ j).
Proof.
  intros [Hr Hc Hok Hrun HD] Hname HS.
  assert (Hsp : ¬ special name) by (intros [->|[->| ->]]; revert Hname; apply (bool_decide_unpack _); by vm_compute).
  destruct (data_did cf evs y i c args now unix rs name Hr Hc Hok Hrun Hsp) as (D0 & ro & HD0 & Hs & HT).
  rewrite HD in HD0. injection HD0 as <-. destruct ro as [[D' r' n']| |]; [by destruct HT as (y' & HS' & _); congruence| |congruence]. clear HT.
  pose proof (reaches_solid cf evs y Hr) as Hsol. rewrite Forall_lookup in Hsol. specialize (Hsol _ _ HD).
  rewrite !elem_of_cons, elem_of_nil in Hname. destruct Hname as [->|[->|[]]].
  - apply (sem_inv _ _ (sem_zrange (env_at cf now unix))) in Hs; [|in_table]. unfold sem_zrange, fn in Hs.
    destruct args as [|a0 [|key [|a [|b l]]]]; try done. injection Hs as Hs. unfold ints in Hs.
    destruct (Atoi a) as [k|] eqn:Ea; [|done]. destruct (Atoi b) as [j|] eqn:Eb; [|done].
    apply existing_panic in Hs as ([m s] & Hk & Hs); [|apply AKZset_law]. exists key, m, s. split; [done|]. split; [done|].
    apply Hsol in Hk. apply Atoi_int64 in Ea. pose proof (Atoi_int64 _ _ Eb) as Hj.
    destruct (zrange_panic (env_at cf now unix) (a0 :: key :: a :: b :: l) m s k j Hk) as [?|?]; [unfold in_int64, minInt64, maxInt64; lia..| |by left|].
    + unfold reading in Hs. match type of Hs with (r ← ?x; _) = _ => by destruct x end.
    + right. split; [done|]. by exists b, j.
  - apply (sem_inv _ _ (sem_zrangebyscore (env_at cf now unix))) in Hs; [|in_table]. unfold sem_zrangebyscore, fn in Hs.
    destruct args as [|a0 [|key [|a [|b l]]]]; try done. injection Hs as Hs. unfold floats in Hs.
    destruct (lib_parse_float _ a) as [k|] eqn:Ea; [|done]. destruct (lib_parse_float _ b) as [j|] eqn:Eb; [|done].
    apply existing_panic in Hs as ([m s] & Hk & Hs); [|apply AKZset_law]. exists key, m, s. split; [done|]. split; [done|]. left.
    apply Hsol in Hk. apply (zrangebyscore_panic (env_at cf now unix) (a0 :: key :: a :: b :: l) m s k j Hk).
    unfold reading in Hs. match type of Hs with (r ← ?x; _) = _ => by destruct x end.
Qed.
Print Assumptions C49_ranges.

(** SELECT with a negative index ends the server in every state in which it is permitted *)
Theorem C49_select_crash cf evs y i c args now unix rs a k :
  reaches cf evs y → y_cls y !! i = Some c → cmd_ok cf evs args rs → runs cf c (B "select") args →
  args !! 1%nat = Some a → Atoi a = Some k → k < 0 → step cf (EvCommand i args now unix rs) y = Panic.
Proof.
  intros Hr Hc Hok (a0 & l & ar & -> & Hn & Har & Hacc & Hperm) Ha Hk Hneg.
  destruct (command_did cf evs y i c (a0 :: l) now unix rs Hr Hc Hok) as (o & Ht & HT).
  assert (Hal : ∀ n, CommandTop.allowed (env_at cf now unix) (a0 :: l) (view_at y c) n → n = B "select").
  { intros n' ((a' & l' & ar' & [= <- <-] & -> & _) & _). done. }
  inversion Ht; subst;
    try (match goal with H : _ :: _ = _ :: _ |- _ => injection H as <- <- end);
    try (match goal with H : CommandTop.allowed _ _ _ ?n |- _ => pose proof (Hal _ H) as Hal0; try discriminate Hal0 end);
    try (match goal with H : (a0 :: l) !! 1%nat = Some ?b |- _ => assert (b = a) as -> by (rewrite Ha in H; by injection H) end).
  - exfalso. match goal with H : ∀ ar, _ ∉ arities |- _ => by apply (H ar); simpl; rewrite Hn end.
  - exfalso. match goal with H : (_, ?b) ∈ arities |- _ => simpl in H; rewrite Hn in H; by rewrite (arities_fun _ _ _ Har H) in Hacc end.
  - exfalso. simpl in *. destruct Hperm as [?|[?|?]]; congruence.
  - exfalso. subst. match goal with H : sem _ _ _ _ _ |- _ => apply sem_not_special in H; apply H end. by left.
  - congruence.
  - exfalso. simpl in *. assert (i0 = k) as -> by congruence. unfold zlen in *. lia.
  - exact HT.
  - exfalso. assert (i0 = k) as -> by congruence. lia.
Qed.
Print Assumptions C49_select_crash.

(** ** Refutations *)
(** Short histories, within the limits on sizes, that end in a panic: a negative SELECT;
    RPOP of a list of 1025 elements; LRANGE with a large stop; ZRANGE of 2^62 ranks; ZRANGE
    after a member has got another score, or the score NaN, and been removed, or after a
    ZREMRANGEBYRANK that does not begin at rank 0. *)
Definition crashes : list (list event) :=
  [ [EvConnect; cmd 0 5 "SELECT -1"];
    [EvConnect; EvCommand 0 (words "RPUSH l" ++ replicate 1025 (B "v")) 5 0 []; cmd 0 6 "RPOP l"];
    [EvConnect; EvCommand 0 (words "RPUSH l" ++ replicate 1025 (B "v")) 5 0 []; cmd 0 6 "LINDEX l 1024"];
    [EvConnect; cmd 0 5 "RPUSH l a"; cmd 0 6 "LRANGE l 0 9223372036854775806"];
    [EvConnect; cmd 0 5 "ZADD z 1 a"; cmd 0 6 "ZRANGE z 0 4611686018427387904"];
    h_updated ++ [cmd 0 7 "ZRANGE z 0 9"];
    h_updated ++ [cmd 0 7 "ZRANGEBYSCORE z 0 99"];
    h_nan ++ [cmd 0 7 "ZRANGE z 0 9"];
    h_ghost ++ [cmd 0 7 "ZRANGE z 3 3"];
    [EvConnect; EvCommand 0 (words "ZADD z 1 a") 5 0 (replicate 200 0 ++ [65535])] ].
Definition crashes_check (cf : config) (evs : list event) : bool :=
  history_check cf evs && match run cf evs (init_sys cf) with Panic => true | _ => false end.
Lemma crashes_check_ok cf evs : crashes_check cf evs = true → history_ok cf evs ∧ run cf evs (init_sys cf) = Panic.
Proof. unfold crashes_check. intros [H1 H2]%andb_true_iff. split; [by apply history_check_ok|]. by destruct (run cf evs (init_sys cf)). Qed.
Theorem C49_refuted evs : evs ∈ crashes → history_ok cf0 evs ∧ run cf0 evs (init_sys cf0) = Panic.
Proof.
  intros H. apply crashes_check_ok.
  assert (HF : Forall (λ evs, crashes_check cf0 evs = true) crashes) by (apply Forall_fold_right; repeat (split; [by vm_compute|]); done).
  rewrite Forall_forall in HF. by apply HF.
Qed.
Print Assumptions C49_refuted.
(** each of the seven commands is the last one of such a history *)
Theorem C49_each name : name ∈ can_crash →
  ∃ evs i a l now unix rs, evs ++ [EvCommand i (a :: l) now unix rs] ∈ crashes ∧ lib_lower (cf_lib cf0) a = name.
Proof.
  set (last_name := λ evs, match reverse evs with EvCommand _ (a :: _) _ _ _ :: _ => Some (lib_lower (cf_lib cf0) a) | _ => None end).
  intros Hn. assert (Hin : Some name ∈ (last_name <$> crashes)).
  { assert (HF : Forall (λ n, Some n ∈ (last_name <$> crashes)) can_crash) by (apply (bool_decide_unpack _); by vm_compute).
    rewrite Forall_forall in HF. by apply HF. }
  apply elem_of_list_fmap in Hin as (evs & Hl & Hevs). unfold last_name in Hl.
  destruct (reverse evs) as [|[|i [|a l] now unix rs| | | | | |] evs'] eqn:Er; try done. injection Hl as Hl.
  apply (f_equal reverse) in Er. rewrite reverse_involutive, reverse_cons in Er. subst evs. by exists (reverse evs'), i, a, l, now, unix, rs.
Qed.
Print Assumptions C49_each.

(** ** Instances *)
Definition num_check (o : option bytes) (P : Z → bool) : bool := match o ≫= Atoi with Some k => P k | None => true end.
Definition mild_check (cf : config) (e : event) : bool :=
  match e with
  | EvCommand i (a :: key :: l) _ _ rs => let name := lib_lower (cf_lib cf) a in
      num_check (Some key) (λ k, (0 <=? k) || negb (bool_decide (name = B "select"))) &&
      num_check (l !! 1%nat) (λ k, (k <? 2 ^ 43)) && num_check (l !! 0%nat) (λ k, (- 2 ^ 43 <? k)) &&
      negb (bool_decide (name = B "zremrangebyrank")) && (length rs <? 127)%nat &&
      (negb (bool_decide (name ∈ score_commands)) || match l !! 0%nat with Some a => match lib_parse_float (cf_lib cf) a with Some S754_nan => false | _ => true end | None => true end)
  | EvBoot file clock rs => negb (cf_aof cf) || match (restart cf clock file rs).2 with Panic => false | _ => true end
  | _ => true
  end.
Lemma mild_check_ok cf e : mild_check cf e = true → mild cf e.
Proof.
  destruct e as [|i [|a [|key l]] now unix rs| | | | | |file clock rs]; try done.
  2:{ unfold mild_check, mild. intros H Ha. rewrite Ha in H. cbn [negb orb] in H. intros Hp. by rewrite Hp in H. }
  unfold mild_check, mild, fair.
  rewrite !andb_true_iff. intros (((((H1 & H2) & H3) & H4) & H5) & H6). split_and!.
  - intros Hn k Hk. unfold num_check in H1. cbn in H1. rewrite Hk in H1. rewrite bool_decide_eq_true_2 in H1 by done. simpl in H1. lia.
  - intros Hn b j Hb Hj. unfold num_check in H2. rewrite Hb in H2. cbn [mbind option_bind] in H2. rewrite Hj in H2. lia.
  - intros Hn b1 b2 s1 s2 Hb1 Hb2 Hs1 Hs2. right. unfold num_check in H2, H3. rewrite Hb2 in H2. rewrite Hb1 in H3. cbn [mbind option_bind] in H2, H3.
    rewrite Hs2 in H2. rewrite Hs1 in H3. lia.
  - intros Hn. by rewrite bool_decide_eq_true_2 in H4 by done.
  - intros Hn b mn Hb Hmn. rewrite bool_decide_eq_true_2, Hb, Hmn in H6 by done. by destruct mn.
  - intros _ r0 r1 r2 -> _. rewrite !app_length in H5. lia.
Qed.
Definition safe_check (cf : config) (y : sys) (e : event) : bool := careful_check cf y e && fits_check cf y e && mild_check cf e.
Lemma fits_check_ok cf y e : fits_check cf y e = true → fits cf y e.
Proof.
  destruct e as [|i [|a [|key l]] now unix rs| | | | | |file clock rs]; try done.
  2:{ intros H y' HS. eapply Forall_impl; [by eapply loaded_check_ok|]. intros D HD k q Hk. apply HD in Hk. by apply onepage_check_ok. }
  unfold fits, fits_check in *. intros H1 c D x Hc HD Hx _. rewrite Hc, HD in H1. simpl in H1. rewrite Hx in H1.
  apply Nat.leb_le in H1. lia.
Qed.
Lemma safe_history_check cf evs : along_check cf (safe_check cf) evs (init_sys cf) = true → safe_history cf evs.
Proof.
  unfold safe_history. generalize (init_sys cf). induction evs as [|e evs IH]; intros y H; [done|]. cbn [along_check along] in *.
  apply andb_true_iff in H as [H1 H2]. split; [|intros y' Hy; rewrite Hy in H2; by apply IH].
  unfold safe_check in H1. rewrite !andb_true_iff in H1. destruct H1 as [[H1 H1'] H1'']. split_and!; [by apply careful_check_ok|by apply fits_check_ok|by apply mild_check_ok].
Qed.
(** a history with two clients, every kind of value, commands that fail, expiry and a rewrite of the log *)
Definition h_safe : list event :=
  [EvConnect; EvConnect; cmd 0 5 "SET k v"; cmd 1 6 "SELECT 1"; cmd 0 7 "RPUSH l a b c"; cmd 0 8 "RPOP l"; cmd 0 9 "LRANGE l 0 -1"; cmd 0 9 "LINDEX l 7";
   cmd 1 10 "ZADD z 1 a 2 b 1.5 c"; cmd 1 11 "ZRANGE z 0 -1 WITHSCORES"; cmd 1 12 "ZREM z a"; cmd 1 13 "ZCOUNT z 0 9"; cmd 0 14 "SADD s x y"; cmd 0 15 "HSET h f 1";
   cmd 0 16 "EXPIRE l 10"; cmd 0 17 "SELECT -1x"; cmd 0 17 "LPOP k"; cmd 0 18 "NOSUCH"; EvCron 20 (concat (replicate 200 [0; 1; 2; 3])); EvFlush; EvRewrite; cmd 0 21 "DEL k"].
Example C49_example : history_ok cf0 h_safe ∧ safe_history cf0 h_safe ∧ runs_check cf0 h_safe = true.
Proof. split; [apply history_check_ok; by vm_compute|]. split; [apply safe_history_check; by vm_compute|by vm_compute]. Qed.
(** SELECT -1 meets the hypotheses of [C49_select_crash] *)
Example C49_select_example : let y := state_of cf0 h_safe in
  ready cf0 h_safe y 0 (who y 0) (B "select") (words "SELECT -1") [] (db_of y 0) ∧ words "SELECT -1" !! 1%nat = Some (B "-1") ∧ Atoi (B "-1") = Some (-1).
Proof. intros y. split; [apply ready_at; by vm_compute|]. split; [done|by vm_compute]. Qed.
(** RPOP of a list of 1025 elements meets those of [C49_lists] *)
Definition h_1025 : list event := [EvConnect; EvCommand 0 (words "RPUSH l" ++ replicate 1025 (B "v")) 5 0 []].
Example C49_lists_example : let y := state_of cf0 h_1025 in
  ready cf0 h_1025 y 0 (who y 0) (B "rpop") (words "RPOP l") [] (db_of y 0) ∧ step cf0 (EvCommand 0 (words "RPOP l") 6 0 []) y = Panic.
Proof.
  intros y. split; [apply ready_at; by vm_compute|].
  assert (H : match step cf0 (EvCommand 0 (words "RPOP l") 6 0 []) y with Panic => true | _ => false end = true) by (by vm_compute).
  by destruct (step cf0 (EvCommand 0 (words "RPOP l") 6 0 []) y).
Qed.
(** ZRANGEBYSCORE after a member has changed its score and been removed meets those of [C49_ranges] *)
Example C49_ranges_example : let y := state_of cf0 h_updated in
  ready cf0 h_updated y 0 (who y 0) (B "zrangebyscore") (words "ZRANGEBYSCORE z 0 99") [] (db_of y 0) ∧
  step cf0 (EvCommand 0 (words "ZRANGEBYSCORE z 0 99") 7 0 []) y = Panic.
Proof.
  intros y. split; [apply ready_at; by vm_compute|].
  assert (H : match step cf0 (EvCommand 0 (words "ZRANGEBYSCORE z 0 99") 7 0 []) y with Panic => true | _ => false end = true) by (by vm_compute).
  by destruct (step cf0 (EvCommand 0 (words "ZRANGEBYSCORE z 0 99") 7 0 []) y).
Qed.
