(** Deadlines (C52). *)
From Verif Require Import Base Float DictModel DictProofs DictProofs2
  DatabaseModel SetModel QuicklistModel QuicklistProofs SkiplistModel ZsetModel
  Strconv RespSpec ServerModel CommandModel CommandSem CommandInv CommandInv2 CommandProofs1 CommandProofs2
  CommandTop CommandFrame SystemModel SystemProofs CommandFacts ExampleLib PropsCommand PropsData ExampleTools.
From Coq Require Import ZifyBool ZifyNat.

(** * Setting and asking *)
(** EXPIRE and EXPIREAT set the deadline of the key and change nothing else.  The full
    property has no bound on the number (see [C52_overflow_refuted]) and is about keys
    that exist (see [C52_phantom_refuted]). *)
Theorem C52_expire_partial cf evs y i c name args now unix rs D key a n when :
  (name = B "expire" ∧ when = now + n * 1000) ∨ (name = B "expireat" ∧ when = n * 1000) →
  ready cf evs y i c name args rs D → args !! 1%nat = Some key → args !! 2%nat = Some a → Atoi a = Some n →
  in_int64 (n * 1000) → in_int64 when →
  ∃ y' D', step cf (EvCommand i args now unix rs) y = Ok y' ∧ changed_to y y' c D' ∧ replied y y' i c ROK ∧
    a_keys D' = a_keys D ∧ a_ttl D' !! key = Some when ∧ same_but key D D'.
Proof.
  intros Hn H Hkey Ha Hat B1 B2.
  assert (∃ f, (name, sem_expire (env_at cf now unix) f) ∈ semTable (env_at cf now unix) ∧ f n = when) as (f & Hf & Hw).
  { destruct Hn as [[-> ->]|[-> ->]]; eexists; (split; [in_table|]); cbn [env_at e_now]; unfold ms; by rewrite !wrap64_id by (rewrite ?wrap64_id; done). }
  destruct (data_total cf evs y i c name (sem_expire (env_at cf now unix) f) args now unix rs D
    (λ D' r n', a_keys D' = a_keys D ∧ a_ttl D' !! key = Some when ∧ same_but key D D' ∧ r = ROK) H)
    as (y' & D' & r & n' & HS & Hch & Hrep & _ & H1 & H2 & H3 & ->); [by eapply semTable_special|exact Hf| |by exists y', D'].
  intros o Ho. unfold sem_expire, fn in Ho. destruct args as [|? [|? [|? ?]]]; try done. injection Hkey as ->. injection Ha as ->. rewrite Hat in Ho.
  injection Ho as <-. do 3 eexists. split; [done|]. cbn [a_keys a_ttl]. rewrite lookup_insert, Hw. split_and!; try done.
  intros k Hk. simpl. by rewrite lookup_insert_ne.
Qed.
Print Assumptions C52_expire_partial.

(** TTL: -2 for a key that does not exist, -1 for a key without deadline, otherwise the
    whole seconds that are left; nothing changes.  The full property also covers keys
    whose deadline has passed (see [C33_ttl_refuted] and [C52_ttl_refuted]). *)
Definition seconds_left (now : Z) (D : adb) (key : bytes) : Z :=
  match a_keys D !! key, a_ttl D !! key with
  | None, _ => -2
  | Some _, None => -1
  | Some _, Some when => (when - now) / 1000
  end.
Theorem C52_ttl_partial cf evs y i c args now unix rs D key :
  ready cf evs y i c (B "ttl") args rs D → args !! 1%nat = Some key →
  ¬ expired (env_at cf now unix) D key → (∀ when, a_ttl D !! key = Some when → when - now ≤ maxInt64) →
  ∃ y', step cf (EvCommand i args now unix rs) y = Ok y' ∧ changed_to y y' c D ∧ replied y y' i c (RInt (seconds_left now D key)) ∧ not_logged y y'.
Proof.
  intros H Hkey He Hb.
  destruct (data_total cf evs y i c (B "ttl") (sem_ttl (env_at cf now unix)) args now unix rs D
    (λ D' r n', D' = D ∧ r = RInt (seconds_left now D key) ∧ n' = 0) H)
    as (y' & D' & r & n' & HS & Hch & Hrep & Hlog & -> & -> & ->); [not_special|in_table| |by exists y'; auto].
  intros o Ho. unfold sem_ttl, fn in Ho. destruct args as [|? [|? ?]]; try done. injection Hkey as ->. injection Ho as <-. do 3 eexists. split; [done|].
  split; [done|]. split; [|done]. f_equal. unfold seconds_left. destruct (a_keys D !! key) as [v|]; [|done]. destruct (a_ttl D !! key) as [when|] eqn:Ht; [|done].
  cbn [env_at e_now]. assert (now ≤ when). { destruct (decide (when < now)); [|lia]. exfalso. apply He. exists when. split; [done|simpl; lia]. }
  rewrite wrap64_id by (specialize (Hb _ eq_refl); unfold in_int64, minInt64 in *; lia). rewrite Z.quot_div_nonneg by lia. done.
Qed.
Print Assumptions C52_ttl_partial.

(** * The life of a key *)
(** the event is a command of a client of database [j] that may change key [k], or a
    restart from a log *)
Definition writes_to (cf : config) (y : sys) (e : event) (j : nat) (k : bytes) : Prop :=
  match e with
  | EvCommand i (a :: k' :: _) _ _ _ => ∃ c, y_cls y !! i = Some c ∧ c_db c = j ∧ k' = k ∧
      (lib_lower (cf_lib cf) a ∈ writers ∨ lib_lower (cf_lib cf) a = B "zadd")
  | EvBoot _ _ _ => True
  | _ => False
  end.
Fixpoint unwritten (cf : config) (j : nat) (k : bytes) (y : sys) (evs : list event) : Prop :=
  match evs with
  | [] => True
  | e :: evs => ¬ writes_to cf y e j k ∧ ∀ y', step cf e y = Ok y' → unwritten cf j k y' evs
  end.
(** [k] is in [D'] what it was in [D], or its deadline was over at one of the [times]
    and it is gone *)
Definition stays (times : list Z) (k : bytes) (D D' : adb) : Prop :=
  (a_keys D' !! k = a_keys D !! k ∧ a_ttl D' !! k = a_ttl D !! k) ∨
  (∃ when now, a_ttl D !! k = Some when ∧ now ∈ times ∧ when < now ∧ a_keys D' !! k = None ∧ a_ttl D' !! k = None).
Definition times (evs : list event) : list Z := omap time_of evs.
Lemma purged_stays E D D' k : purged E D D' → stays [e_now E] k D D'.
Proof.
  intros (X & HX & ->). unfold drop_keys, stays. simpl. destruct (decide (k ∈ X)) as [Hk|Hk].
  - right. destruct (HX _ Hk) as (when & Ht & Hw). exists when, (e_now E). split_and!; [done|set_solver|done|..]; apply map_filter_lookup_None; right; intros x _ Hx; by apply Hx.
  - left. split; apply option_eq; intros x; rewrite map_filter_lookup_Some; (split; [by intros [? _]|done]).
Qed.
Lemma stays_trans ts ts' k D D1 D2 : stays ts k D D1 → stays ts' k D1 D2 → stays (ts ++ ts') k D D2.
Proof.
  intros [[H1 H2]|(when & now & H1 & H2 & H3 & H4 & H5)] [[G1 G2]|(when' & now' & G1 & G2 & G3 & G4 & G5)].
  - left. by rewrite G1, G2.
  - right. exists when', now'. rewrite <-H2. split_and!; [done|set_solver|done..].
  - right. exists when, now. rewrite G1, G2. split_and!; [done|set_solver|done..].
  - by rewrite H5 in G1.
Qed.
Lemma stays_same ts k D : stays ts k D D.
Proof. by left. Qed.
Lemma step_stays cf evs e y y' j D k : reaches cf evs y → history_ok cf (evs ++ [e]) → step cf e y = Ok y' → ¬ writes_to cf y e j k →
  abs_dbs (y_srv y) !! j = Some D → ∃ D', abs_dbs (y_srv y') !! j = Some D' ∧ stays (times [e]) k D D'.
Proof.
  intros Hr Hh HS Hw HD.
  assert (Hsame : abs_dbs (y_srv y') = abs_dbs (y_srv y) → ∃ D', abs_dbs (y_srv y') !! j = Some D' ∧ stays (times [e]) k D D').
  { intros ->. exists D. split; [done|apply stays_same]. }
  assert (Hpurged : ∀ E D', purged E D D' → time_of e = Some (e_now E) → abs_dbs (y_srv y') !! j = Some D' →
    ∃ D', abs_dbs (y_srv y') !! j = Some D' ∧ stays (times [e]) k D D').
  { intros E D' Hp Ht HD'. exists D'. split; [done|]. unfold times. cbn [omap list_omap]. rewrite Ht. by apply purged_stays. }
  destruct e as [|i args now unix rs|i n|now rs| | |dump|file clock rs].
  - cbn [step] in HS. injection HS as <-. by apply Hsame.
  - destruct (y_cls y !! i) as [c|] eqn:Hc.
    2: { cbn [step] in HS. rewrite Hc in HS. injection HS as <-. by apply Hsame. }
    pose proof (history_cmd_ok _ _ _ _ _ _ _ Hh) as Hok.
    destruct (command_step _ _ _ _ _ _ _ _ _ _ Hr Hc Hok HS) as (v' & r & n & Hd).
    pose proof (did_dbs _ _ _ _ _ _ _ _ _ _ Hd) as Hdbs. pose proof (di_top _ _ _ _ _ _ _ _ _ _ Hd) as Ht.
    inversion Ht; subst; try (by apply Hsame).
    match goal with H : on_view _ ?o = _ |- _ => destruct o as [[D1 r' n']| |]; [|done..]; injection H as <- _ _ end.
    simpl in Hdbs. destruct (decide (j = c_db c)) as [->|Hj].
    + simpl in *. assert (D0 = D) as -> by congruence.
      assert (HD1 : abs_dbs (y_srv y') !! c_db c = Some D1). { rewrite Hdbs, list_lookup_insert; [done|by eapply lookup_lt_Some]. }
      match goal with H : sem _ _ _ _ _ |- _ => rename H into Hsem end.
      match goal with H : CommandTop.allowed _ _ _ _ |- _ => destruct H as [(a & l & ar & -> & Hname & Har & Hacc) _] end. simpl in Hname.
      destruct (decide (name ∈ readers)) as [Hrd|Hnr].
      * eapply (Hpurged (env_at cf now unix) D1); [|done|done]. by eapply sem_reads.
      * assert (Hkey : ∃ key, (a :: l) !! 1%nat = Some key ∧ same_but key D D1 ∧ (name ∈ writers ∨ name = B "zadd")).
        { destruct (sem_kinds _ _ _ _ _ Hsem) as [?|[Hwr| ->]]; [done| |].
          - destruct (sem_writes _ name ar _ _ _ _ _ (or_introl Hwr) Har Hacc Hsem) as (key & ? & ? & _). by exists key; auto.
          - rewrite (arities_fun (B "zadd") ar (-4) Har) in Hacc by in_table. apply (sem_inv _ _ (sem_zadd (env_at cf now unix))) in Hsem; [|in_table].
            destruct (zadd_same_but _ _ _ _ _ _ Hacc Hsem) as (key & ? & ? & _). by exists key; auto. }
        destruct Hkey as (key & Hkey & Hsb & Hnm). exists D1. split; [done|]. left. apply Hsb. intros ->. apply Hw.
        destruct l as [|k' l]; [done|]. injection Hkey as ->. exists c. split_and!; [done..|]. by rewrite <-Hname.
    + exists D. rewrite Hdbs, list_lookup_insert_ne by done. split; [done|apply stays_same].
  - cbn [step] in HS. destruct (y_cls y !! i); injection HS as <-; by apply Hsame.
  - cbn [step] in HS. apply bind_inv in HS as ([dbs' rs'] & HC & HS). injection HS as <-.
    destruct (reaches_ok _ _ _ Hr) as [Hs _ _].
    assert (Hrs : Forall (λ r, 0 ≤ r) rs). { destruct Hh as (Hf & _). apply Forall_app in Hf as [_ Hf]. by inversion Hf. }
    destruct (databasesCron_spec _ _ (s_heap (y_srv y)) _ _ _ _ (so_dbs _ _ Hs) Hrs HC) as (_ & HP & _).
    destruct (Forall2_lookup_l _ _ _ _ _ HP HD) as (D' & HD' & Hp). by eapply (Hpurged _ _ Hp).
  - cbn [step] in HS. injection HS as <-. by apply Hsame.
  - cbn [step] in HS. apply bind_inv in HS as (s & HC & HS). injection HS as <-. apply Hsame. simpl.
    unfold rewriteAppendOnlyFileBackground in HC. destruct (s_task (y_srv y)); [by injection HC as <-|].
    apply bind_inv in HC as ([dbs1 dbs2] & HC & Hx). injection Hx as <-.
    destruct (reaches_ok _ _ _ Hr) as [Hs _ _]. destruct (copy_dbs_spec _ (s_dbs (y_srv y)) (so_dbs _ _ Hs)) as (snap & EC & _).
    { destruct Hr as [(_ & _ & Ht) _]. unfold small, max_entries. lia. }
    rewrite EC in HC. by injection HC as <- <-.
  - cbn [step] in HS. destruct (s_task (y_srv y)); injection HS as <-; by apply Hsame.
  - by destruct Hw.
Qed.
Lemma history_prefix cf evs evs' : history_ok cf (evs ++ evs') → history_ok cf evs.
Proof. intros (H1 & H2 & H3). rewrite total_app in H3. apply Forall_app in H1 as [H1 _]. split_and!; [done..|lia]. Qed.
(** A key that no command writes to keeps its value and its deadline, whatever else
    happens, and disappears (with its deadline) only after its deadline. *)
Theorem C52_kept cf j k evs2 : ∀ evs y y' D, reaches cf evs y → history_ok cf (evs ++ evs2) → run cf evs2 y = Ok y' →
  unwritten cf j k y evs2 → abs_dbs (y_srv y) !! j = Some D →
  ∃ D', abs_dbs (y_srv y') !! j = Some D' ∧ stays (times evs2) k D D'.
Proof.
  induction evs2 as [|e evs2 IH]; intros evs y y' D Hr Hh Hrun Hu HD.
  - injection Hrun as <-. exists D. split; [done|apply stays_same].
  - cbn [run] in Hrun. destruct (step cf e y) as [y1| |] eqn:HS; [|done..]. cbn [mbind res_bind] in Hrun. destruct Hu as [Hw Hu].
    replace (evs ++ e :: evs2) with ((evs ++ [e]) ++ evs2) in Hh by (by rewrite <-app_assoc). pose proof (history_prefix _ _ _ Hh) as Hh1.
    destruct (step_stays _ _ _ _ _ _ _ k Hr Hh1 HS Hw HD) as (D1 & HD1 & S1).
    destruct (IH (evs ++ [e]) y1 y' D1) as (D' & HD' & S2); [by apply reaches_snoc; eauto|done|done|by apply Hu|done|].
    exists D'. split; [done|]. pose proof (stays_trans _ _ _ _ _ _ S1 S2) as S3. unfold times in *. cbn [omap list_omap] in S3 |- *. by destruct (time_of e).
Qed.
Print Assumptions C52_kept.
(** So what a reader sees of it depends on the value and the deadline it was given and
    on the reader's own clock, if the clock does not go backwards. *)
Theorem C52_seen cf j k evs evs2 y y' D E : reaches cf evs y → history_ok cf (evs ++ evs2) → run cf evs2 y = Ok y' →
  unwritten cf j k y evs2 → abs_dbs (y_srv y) !! j = Some D → Forall (λ t, t ≤ e_now E) (times evs2) →
  ∃ D', abs_dbs (y_srv y') !! j = Some D' ∧ live E D' k = live E D k.
Proof.
  intros Hr Hh Hrun Hu HD Ht. destruct (C52_kept _ _ _ _ _ _ _ _ Hr Hh Hrun Hu HD) as (D' & HD' & [[H1 H2]|(when & now & H1 & H2 & H3 & H4 & H5)]); exists D'; (split; [done|]).
  - unfold live. by rewrite H1, H2.
  - unfold live. rewrite H5, H4, H1. rewrite Forall_forall in Ht. apply Ht in H2. by replace (when <? e_now E) with true by lia.
Qed.
Print Assumptions C52_seen.
(** EXPIRE, anything that does not write to the key, and GET: the value up to the
    deadline, nothing after it *)
Theorem C52_life_partial cf evs y i c args now unix rs D key a n v y1 evs2 y2 i2 c2 args2 now2 unix2 rs2 D2 :
  ready cf evs y i c (B "expire") args rs D → args !! 1%nat = Some key → args !! 2%nat = Some a → Atoi a = Some n →
  in_int64 (n * 1000) → in_int64 (now + n * 1000) → a_keys D !! key = Some (AStr v) →
  step cf (EvCommand i args now unix rs) y = Ok y1 →
  run cf evs2 y1 = Ok y2 → unwritten cf (c_db c) key y1 evs2 → Forall (λ t, t ≤ now2) (times evs2) →
  ready cf (evs ++ EvCommand i args now unix rs :: evs2) y2 i2 c2 (B "get") args2 rs2 D2 → c_db c2 = c_db c → args2 !! 1%nat = Some key →
  ∃ y3, step cf (EvCommand i2 args2 now2 unix2 rs2) y2 = Ok y3 ∧
    replied y2 y3 i2 c2 (if decide (now2 ≤ now + n * 1000) then RBulk v else RNull).
Proof.
  intros H Hkey Ha Hat B1 B2 Hv HS Hrun Hu Ht H2 Hdb Hkey2.
  destruct (C52_expire_partial cf evs y i c (B "expire") args now unix rs D key a n (now + n * 1000)) as (y1' & D1 & HS' & Hch & _ & K1 & K2 & _);
    [by left|done..|]. rewrite HS in HS'. injection HS' as <-.
  set (e := EvCommand i args now unix rs) in *. pose proof (rd_reach _ _ _ _ _ _ _ _ _ H2) as Hr2.
  assert (Hh : history_ok cf ((evs ++ [e]) ++ evs2)). { rewrite <-app_assoc. apply Hr2. }
  assert (Hr1 : reaches cf (evs ++ [e]) y1). { apply reaches_snoc. split; [by eapply history_prefix|]. exists y. split; [by apply H|done]. }
  assert (HD1 : abs_dbs (y_srv y1) !! c_db c = Some D1). { rewrite Hch. apply list_lookup_insert. pose proof (rd_db _ _ _ _ _ _ _ _ _ H). by eapply lookup_lt_Some. }
  destruct (C52_seen cf (c_db c) key (evs ++ [e]) evs2 y1 y2 D1 (env_at cf now2 unix2)) as (D2' & HD2 & Hl); [done..|].
  assert (D2' = D2) as ->. { pose proof (rd_db _ _ _ _ _ _ _ _ _ H2) as Hx. rewrite Hdb in Hx. congruence. }
  destruct (C30_get _ _ _ _ _ _ now2 unix2 _ _ _ H2 Hkey2) as (y3 & r & HS3 & Hrep & Hr). exists y3. split; [done|]. rewrite Hl in Hr. unfold live in Hr.
  rewrite K2, K1, Hv in Hr. cbn [env_at e_now] in Hr. case_decide; [replace (now + n * 1000 <? now2) with false in Hr by lia|replace (now + n * 1000 <? now2) with true in Hr by lia]; by subst r.
Qed.
Print Assumptions C52_life_partial.

(** * Concrete cases *)
Definition writes_check (cf : config) (y : sys) (e : event) (j : nat) (k : bytes) : bool :=
  match e with
  | EvCommand i (a :: k' :: _) _ _ _ =>
      match y_cls y !! i with
      | Some c => bool_decide (c_db c = j) && bool_decide (k' = k) && bool_decide (lib_lower (cf_lib cf) a ∈ B "zadd" :: writers)
      | None => false
      end
  | EvBoot _ _ _ => true
  | _ => false
  end.
Fixpoint unwritten_check (cf : config) (j : nat) (k : bytes) (y : sys) (evs : list event) : bool :=
  match evs with
  | [] => true
  | e :: evs => negb (writes_check cf y e j k) && match step cf e y with Ok y' => unwritten_check cf j k y' evs | _ => true end
  end.
Lemma unwritten_check_ok cf j k evs : ∀ y, unwritten_check cf j k y evs = true → unwritten cf j k y evs.
Proof.
  induction evs as [|e evs IH]; intros y; [done|]. cbn [unwritten_check unwritten]. intros [H1 H2]%andb_true_iff. split.
  - intros Hw. unfold writes_to in Hw. unfold writes_check in H1. destruct e as [|i [|a [|k' l]] now unix rs|i n|now rs| | |dump|file clock rs]; try done.
    destruct Hw as (c & Hc & <- & -> & Hn). rewrite Hc, !bool_decide_eq_true_2 in H1; [done| |done|done]. destruct Hn as [Hn| ->]; [by right|left].
  - intros y' HS. rewrite HS in H2. by apply IH.
Qed.
Definition h_life : list event := [EvConnect; EvConnect; cmd 0 5 "SET k v"].
Definition h_then : list event :=
  [cmd 1 6 "SET x y"; EvCron 100 (concat (replicate 200 [0; 1; 2; 3])); cmd 1 7 "GET k"; cmd 1 8 "SELECT 1"; cmd 1 9 "SET k w"; EvFlush; cmd 0 2005 "TTL k"].
Definition expire_k : event := EvCommand 0 (words "EXPIRE k 2") 5 5 [].
Example C52_example :
  let y := state_of cf0 h_life in let y1 := state_of cf0 (h_life ++ [expire_k]) in let y2 := state_of cf0 (h_life ++ expire_k :: h_then) in
  ready cf0 h_life y 0 (who y 0) (B "expire") (words "EXPIRE k 2") [] (db_of y 0) ∧ Atoi (B "2") = Some 2 ∧ a_keys (db_of y 0) !! B "k" = Some (AStr (B "v")) ∧
  step cf0 expire_k y = Ok y1 ∧ run cf0 h_then y1 = Ok y2 ∧ unwritten cf0 (c_db (who y 0)) (B "k") y1 h_then ∧
  Forall (λ t, t ≤ 2005) (times h_then) ∧ ready cf0 (h_life ++ expire_k :: h_then) y2 0 (who y2 0) (B "get") (words "GET k") [] (db_of y2 0) ∧
  seconds_left 1004 (db_of y1 0) (B "k") = 1.
Proof.
  intros y y1 y2. split; [apply ready_at; by vm_compute|]. split; [by vm_compute|]. split; [by vm_compute|].
  split; [by vm_compute|]. split; [by vm_compute|]. split; [apply unwritten_check_ok; by vm_compute|]. split; [by_compute|].
  split; [apply ready_at; by vm_compute|by vm_compute].
Qed.
(** the deadline is converted to milliseconds without a check: the key is gone at once *)
Theorem C52_overflow_refuted : ∃ y c, reaches cf0 [EvConnect; cmd 0 5 "SET k v"; cmd 0 5 "EXPIREAT k 9223372036854775807"; cmd 0 5 "GET k"] y ∧
  y_cls y !! 0%nat = Some c ∧ c_out c = [B "+OK" ++ CRLF; B "+OK" ++ CRLF; B "$-1" ++ CRLF].
Proof. eexists. eexists. split; [reached|]. split; [reflexivity|]. by vm_compute. Qed.
Print Assumptions C52_overflow_refuted.
(** EXPIRE of a key that does not exist leaves a deadline that later removes a list
    which was never given one *)
Theorem C52_phantom_refuted : ∃ y c, reaches cf0 [EvConnect; cmd 0 5 "EXPIRE k 1"; cmd 0 500 "RPUSH k a b"; cmd 0 500 "LLEN k"; cmd 0 1006 "LLEN k"] y ∧
  y_cls y !! 0%nat = Some c ∧ c_out c = [B "+OK" ++ CRLF; B ":2" ++ CRLF; B ":2" ++ CRLF; B ":0" ++ CRLF].
Proof. eexists. eexists. split; [reached|]. split; [reflexivity|]. by vm_compute. Qed.
Print Assumptions C52_phantom_refuted.
(** one and a half seconds after its deadline TTL says that the key has none *)
Theorem C52_ttl_refuted : ∃ y c, reaches cf0 [EvConnect; cmd 0 5 "SETEX k 1 v"; cmd 0 2505 "TTL k"; cmd 0 2505 "GET k"] y ∧
  y_cls y !! 0%nat = Some c ∧ c_out c = [B "+OK" ++ CRLF; B ":-1" ++ CRLF; B "$-1" ++ CRLF].
Proof. eexists. eexists. split; [reached|]. split; [reflexivity|]. by vm_compute. Qed.
Print Assumptions C52_ttl_refuted.
