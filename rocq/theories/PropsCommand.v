(** The password gate, rejected commands, isolation of databases, reads, removal
    of keys, logging (C26-C29, C35, C36). *)
From Verif Require Import Base Float DictModel DictProofs DictProofs2
  DatabaseModel SetModel QuicklistModel QuicklistProofs SkiplistModel ZsetModel
  Strconv RespSpec ServerModel CommandModel CommandSem CommandInv CommandInv2 CommandProofs1 CommandProofs2
  CommandTop CommandFrame SystemModel SystemProofs CommandFacts ExampleLib.
From Coq Require Import ZifyBool ZifyNat.

Ltac by_compute := apply (bool_decide_unpack _); by vm_compute.
Ltac reached := split; [by apply history_check_ok; vm_compute|vm_compute; reflexivity].

(** * C26 *)
(** the connections that are authenticated after a history: the latest AUTH with
    one argument counts *)
Definition auth_event (cf : config) (l : list bool) (e : event) : list bool :=
  match e with
  | EvConnect => l ++ [false]
  | EvBoot _ _ _ => []
  | EvCommand i [a; p] _ _ _ =>
      if decide (lib_lower (cf_lib cf) a = B "auth")
      then <[i := bool_decide (cf_password cf = [] ∨ cf_password cf = p)]> l else l
  | _ => l
  end.
Definition auth_after (cf : config) (evs : list event) : list bool := foldl (auth_event cf) [] evs.

Lemma reaches_snoc cf evs e y' : reaches cf (evs ++ [e]) y' ↔
  history_ok cf (evs ++ [e]) ∧ ∃ y, reaches cf evs y ∧ step cf e y = Ok y'.
Proof.
  assert (Hrun : ∀ evs y, run cf (evs ++ [e]) y = (y1 ← run cf evs y; step cf e y1)).
  { clear. induction evs as [|e' evs IH]; intros y; cbn [run app].
    - cbn [mbind res_bind]. by destruct (step cf e y).
    - destruct (step cf e' y) as [y1| |]; [|done..]. cbn [mbind res_bind]. apply IH. }
  split.
  - intros [H1 H2]. split; [done|]. rewrite Hrun in H2. apply bind_inv in H2 as (y1 & H2 & H3). exists y1. split; [|done].
    split; [|done]. destruct H1 as (Hf & Hn & Ht). apply Forall_app in Hf as [Hf _]. rewrite total_app in Ht. split; [done|]. split; [done|lia].
  - intros (H1 & y1 & [_ H2] & H3). split; [done|]. rewrite Hrun, H2. done.
Qed.
Lemma history_cmd_ok cf evs i args now unix rs : history_ok cf (evs ++ [EvCommand i args now unix rs]) → cmd_ok cf evs args rs.
Proof.
  intros (Hf & _ & Ht). apply Forall_app in Hf as [_ Hf]. apply Forall_singleton in Hf as [? ?]. rewrite total_app in Ht.
  split; [done|]. split; [done|]. unfold total in Ht at 2. simpl in Ht. lia.
Qed.
Lemma auth_only_auth E a l task v v' r n : top E (a :: l) task v (Ok (v', r, n)) →
  (lib_lower (e_lib E) a ≠ B "auth" ∨ length l ≠ 1%nat) → v_auth v' = v_auth v.
Proof.
  intros Ht Hn.
  assert (Ha : ¬ allowed E (a :: l) v (B "auth")).
  { intros ((a' & l' & ar & [= <- <-] & Hname & Har & Hacc) & _). destruct Hn as [Hn|Hn]; [done|].
    assert (ar = 2) as -> by (eapply (arities_fun (B "auth")); [exact Har|by_compute]).
    unfold accepts, zlen in Hacc. rewrite decide_True in Hacc by lia. simpl in Hacc. lia. }
  inversion Ht; subst; try done.
  match goal with H : on_view _ ?o = _ |- _ => destruct o as [[D' r' n']| |]; [|done..]; by injection H as <- _ _ end.
Qed.
Lemma auth_auth E a p task v v' r n : top E [a; p] task v (Ok (v', r, n)) → lib_lower (e_lib E) a = B "auth" →
  v_auth v' = bool_decide (e_password E = [] ∨ e_password E = p).
Proof.
  intros Ht Hn.
  assert (Hal : ∀ n, allowed E [a; p] v n → n = B "auth").
  { intros n' ((a' & l' & ar' & [= <- <-] & -> & _) & _). done. }
  inversion Ht; subst;
    try (match goal with H : _ :: _ = _ :: _ |- _ => injection H as <- <- end);
    try (match goal with H : allowed _ _ _ ?n |- _ => pose proof (Hal _ H) as Hal0; try discriminate Hal0 end).
  - exfalso. match goal with H : ∀ ar, _ ∉ arities |- _ => apply (H 2) end. rewrite Hn. by_compute.
  - exfalso. assert (ar = 2) as ->.
    { eapply (arities_fun (B "auth")); [|by_compute]. by rewrite <-Hn. }
    done.
  - done.
  - exfalso. subst. match goal with H : sem _ _ _ _ _ |- _ => apply sem_not_special in H; apply H end. right; by left.
  - match goal with H : [_; _] !! 1%nat = Some _ |- _ => injection H as <- end. by rewrite bool_decide_eq_true_2.
  - match goal with H : [_; _] !! 1%nat = Some _ |- _ => injection H as <- end. rewrite bool_decide_eq_false_2; [done|]. by intros [].
Qed.
Theorem C26_auth_state cf evs y : reaches cf evs y → c_auth <$> y_cls y = auth_after cf evs.
Proof.
  revert y. induction evs as [|e evs IH] using rev_ind; intros y' Hr.
  { destruct Hr as [_ Hr]. injection Hr as <-. done. }
  pose proof Hr as Hr0. apply reaches_snoc in Hr as (Hh & y & Hr & HS). specialize (IH y Hr).
  unfold auth_after. rewrite foldl_app. fold (auth_after cf evs). cbn [foldl]. rewrite <-IH. clear IH.
  destruct e as [|i args now unix rs|i n|now rs| | |dump|file clock rs]; cbn [step] in HS.
  - injection HS as <-. simpl. by rewrite fmap_app.
  - destruct (y_cls y !! i) as [c|] eqn:Hc.
    2: { injection HS as <-. unfold auth_event. destruct args as [|? [|? []]]; try done. case_decide; [|done].
         symmetry. apply list_insert_ge. rewrite fmap_length. by apply lookup_ge_None. }
    assert (HS' : step cf (EvCommand i args now unix rs) y = Ok y') by (cbn [step]; by rewrite Hc). clear HS.
    pose proof (history_cmd_ok _ _ _ _ _ _ _ Hh) as Hok.
    destruct (command_step _ _ _ _ _ _ _ _ _ _ Hr Hc Hok HS') as (v' & r & n & Hd).
    destruct Hd as [Ht (c' & Hcl & Hv & _) _ _ _]. rewrite Hcl, list_fmap_insert.
    assert (c_auth c' = v_auth v') as -> by (by rewrite <-Hv).
    assert (Hsame : v_auth v' = c_auth c → <[i := v_auth v']> (c_auth <$> y_cls y) = c_auth <$> y_cls y).
    { intros ->. apply list_insert_id. by rewrite list_lookup_fmap, Hc. }
    destruct args as [|a args]; [by destruct Hok|].
    destruct (decide (lib_lower (cf_lib cf) a = B "auth")) as [Ha|Ha].
    2: { rewrite Hsame.
         - destruct args as [|? []]; try done. unfold auth_event. by rewrite decide_False.
         - eapply (auth_only_auth _ _ _ _ _ _ _ _ Ht). by left. }
    destruct args as [|p [|]].
    + simpl. apply Hsame. eapply (auth_only_auth _ _ _ _ _ _ _ _ Ht). by right.
    + unfold auth_event. rewrite decide_True by done. f_equal. by eapply (auth_auth _ _ _ _ _ _ _ _ Ht).
    + simpl. apply Hsame. eapply (auth_only_auth _ _ _ _ _ _ _ _ Ht). by right.
  - destruct (y_cls y !! i) as [c|] eqn:Hc; injection HS as <-; [|done]. simpl. rewrite list_fmap_insert.
    apply list_insert_id. by rewrite list_lookup_fmap, Hc.
  - apply bind_inv in HS as (? & _ & HS). by injection HS as <-.
  - by injection HS as <-.
  - apply bind_inv in HS as (? & _ & HS). by injection HS as <-.
  - destruct (s_task (y_srv y)); by injection HS as <-.
  - destruct (cf_aof cf); [|by injection HS as <-]. apply bind_inv in HS as (? & _ & HS). by injection HS as <-.
Qed.
Print Assumptions C26_auth_state.
(** a command other than AUTH on a connection without authentication: nothing
    changes but the reply queue of this connection *)
Theorem C26_denied cf evs y i a l now unix rs :
  reaches cf evs y → auth_after cf evs !! i = Some false → cmd_ok cf evs (a :: l) rs →
  cf_password cf ≠ [] → lib_lower (cf_lib cf) a ≠ B "auth" →
  ∃ c y' r, y_cls y !! i = Some c ∧ step cf (EvCommand i (a :: l) now unix rs) y = Ok y' ∧
    abs_dbs (y_srv y') = abs_dbs (y_srv y) ∧ not_logged y y' ∧ replied y y' i c (RError r).
Proof.
  intros Hr Ha Hok Hpw Hn. rewrite <-(C26_auth_state _ _ _ Hr), list_lookup_fmap in Ha.
  destruct (y_cls y !! i) as [c|] eqn:Hc; [|done]. injection Ha as Ha.
  destruct (command_did cf evs y i c (a :: l) now unix rs Hr Hc Hok) as (o & Ht & HT). exists c.
  assert (Hal : ∀ n, allowed (env_at cf now unix) (a :: l) (view_at y c) n → False).
  { intros n [(a' & l' & ar & [= <- <-] & -> & _) [Hx|[Hx|Hx]]]; [by apply Hpw|change (c_auth c = true) in Hx; congruence|by apply Hn]. }
  inversion Ht; subst; try (by exfalso; eapply Hal);
    (destruct HT as (y' & HS & [_ (c' & G1 & G2 & G3) _ G5 G6]); rewrite andb_false_r in G5;
     exists y'; eexists; split; [done|]; split; [done|];
     split; [injection G2 as G2 _ _; done|]; split; [by apply lst_not_logged|];
     exists c'; injection G2 as G2 G7 G8; done).
Qed.
Print Assumptions C26_denied.
(** such a reply does not depend on the data: in any two reachable states of two
    servers with the same configuration it is the same *)
Theorem C26_reveals_nothing cf evs1 evs2 y1 y2 i1 i2 c1 c2 a l now1 unix1 rs1 now2 unix2 rs2 y1' y2' c1' c2' sent1 sent2 :
  reaches cf evs1 y1 → reaches cf evs2 y2 →
  auth_after cf evs1 !! i1 = Some false → auth_after cf evs2 !! i2 = Some false →
  cmd_ok cf evs1 (a :: l) rs1 → cmd_ok cf evs2 (a :: l) rs2 → cf_password cf ≠ [] → lib_lower (cf_lib cf) a ≠ B "auth" →
  y_cls y1 !! i1 = Some c1 → y_cls y2 !! i2 = Some c2 →
  step cf (EvCommand i1 (a :: l) now1 unix1 rs1) y1 = Ok y1' → step cf (EvCommand i2 (a :: l) now2 unix2 rs2) y2 = Ok y2' →
  y_cls y1' !! i1 = Some c1' → y_cls y2' !! i2 = Some c2' →
  mjoin (c_out c1') = mjoin (c_out c1) ++ sent1 → mjoin (c_out c2') = mjoin (c_out c2) ++ sent2 →
  sent1 = sent2.
Proof.
  assert (Hone : ∀ evs y i c now unix rs y' c' sent,
    reaches cf evs y → auth_after cf evs !! i = Some false → cmd_ok cf evs (a :: l) rs → cf_password cf ≠ [] →
    lib_lower (cf_lib cf) a ≠ B "auth" → y_cls y !! i = Some c → step cf (EvCommand i (a :: l) now unix rs) y = Ok y' →
    y_cls y' !! i = Some c' → mjoin (c_out c') = mjoin (c_out c) ++ sent →
    ∃ r, sent = enc (RError r) ∧
      ((∀ ar, (lib_lower (cf_lib cf) a, ar) ∉ arities) ∧ r = B "unknown command" ∨
       (∃ ar, (lib_lower (cf_lib cf) a, ar) ∈ arities ∧ ¬ accepts ar (zlen (a :: l))) ∧ r = B "wrong number of arguments" ∨
       (∃ ar, (lib_lower (cf_lib cf) a, ar) ∈ arities ∧ accepts ar (zlen (a :: l))) ∧ r = B "operation not permitted")).
  { intros evs y i c now unix rs y' c' sent Hr Ha Hok Hpw Hn Hc HS Hc' Hsent.
    rewrite <-(C26_auth_state _ _ _ Hr), list_lookup_fmap, Hc in Ha. injection Ha as Ha.
    destruct (command_step _ _ _ _ _ _ _ _ _ _ Hr Hc Hok HS) as (v' & r & n & Hd).
    destruct (did_client _ _ _ _ _ _ _ _ _ _ Hd Hc) as (cx & Hcx & _ & _ & Hout).
    assert (cx = c') as -> by congruence. rewrite Hsent in Hout. apply app_inv_head in Hout as ->.
    assert (Hal : ∀ n, allowed (env_at cf now unix) (a :: l) (view_at y c) n → False).
    { intros n' [(a' & l' & ar & [= <- <-] & -> & _) [Hx|[Hx|Hx]]]; [by apply Hpw|change (c_auth c = true) in Hx; congruence|by apply Hn]. }
    pose proof (di_top _ _ _ _ _ _ _ _ _ _ Hd) as Ht.
    inversion Ht; subst; try (by exfalso; eapply Hal);
      match goal with H : _ :: _ = _ :: _ |- _ => injection H as <- <- end; (eexists; split; [done|]).
    - by left.
    - right; left; split; [eauto|done].
    - right; right; split; [eauto|done]. }
  intros. destruct (Hone evs1 y1 i1 c1 now1 unix1 rs1 y1' c1' sent1) as (r1 & -> & G1); [assumption..|]. destruct (Hone evs2 y2 i2 c2 now2 unix2 rs2 y2' c2' sent2) as (r2 & -> & G2); [assumption..|]. f_equal. f_equal.
  destruct G1 as [[G1 ->]|[[(ar & G1 & G1') ->]|[(ar & G1 & G1') ->]]], G2 as [[G2 ->]|[[(ar2 & G2 & G2') ->]|[(ar2 & G2 & G2') ->]]];
    try done; exfalso; first [by eapply G1|by eapply G2|rewrite (arities_fun _ _ _ G1 G2) in G1'; done].
Qed.
Print Assumptions C26_reveals_nothing.
Example C26_example : ∃ y y', reaches cf_pw [EvConnect; cmd 0 1 "AUTH pw"; cmd 0 1 "SET k v"; EvConnect; cmd 0 2 "AUTH bad"] y ∧
  auth_after cf_pw [EvConnect; cmd 0 1 "AUTH pw"; cmd 0 1 "SET k v"; EvConnect; cmd 0 2 "AUTH bad"] = [false; false] ∧
  (∃ D, abs_dbs (y_srv y) !! 0%nat = Some D ∧ a_keys D !! B "k" = Some (AStr (B "v"))) ∧
  step cf_pw (cmd 0 3 "GET k") y = Ok y' ∧ (∃ c, y_cls y' !! 0%nat = Some c ∧
    c_out c = [B "+OK" ++ CRLF; B "+OK" ++ CRLF; B "-ERR invalid password" ++ CRLF; B "-ERR operation not permitted" ++ CRLF]).
Proof.
  eexists. eexists. split; [reached|]. split; [by vm_compute|]. split; [eexists; split; [reflexivity|by vm_compute]|].
  split; [vm_compute; reflexivity|]. eexists. split; [reflexivity|]. by vm_compute.
Qed.

(** * C27 *)
(** unknown name or wrong number of arguments *)
Theorem C27_malformed cf evs y i c a l now unix rs :
  reaches cf evs y → y_cls y !! i = Some c → cmd_ok cf evs (a :: l) rs →
  (∀ ar, (lib_lower (cf_lib cf) a, ar) ∈ arities → ¬ accepts ar (zlen (a :: l))) →
  ∃ y' s, step cf (EvCommand i (a :: l) now unix rs) y = Ok y' ∧
    abs_dbs (y_srv y') = abs_dbs (y_srv y) ∧ not_logged y y' ∧ replied y y' i c (RError s).
Proof.
  intros Hr Hc Hok Hn.
  destruct (command_did cf evs y i c (a :: l) now unix rs Hr Hc Hok) as (o & Ht & HT).
  assert (Hal : ∀ n, allowed (env_at cf now unix) (a :: l) (view_at y c) n → False).
  { intros n [(a' & l' & ar & [= <- <-] & -> & H1 & H2) _]. by eapply Hn. }
  inversion Ht; subst; try (by exfalso; eapply Hal);
    (destruct HT as (y' & HS & [_ (c' & G1 & G2 & G3) _ G5 G6]); rewrite andb_false_r in G5;
     exists y'; eexists; split; [done|];
     split; [injection G2 as G2 _ _; done|]; split; [by apply lst_not_logged|];
     exists c'; injection G2 as G2 G7 G8; done).
Qed.
Print Assumptions C27_malformed.
Example C27_malformed_example : ∃ y y', reaches cf0 [EvConnect; cmd 0 5 "SET k v"] y ∧
  (∀ ar, (lib_lower lib0 (B "SADD"), ar) ∈ arities → ¬ accepts ar (zlen (words "SADD k"))) ∧
  step cf0 (cmd 0 6 "SADD k") y = Ok y'.
Proof.
  eexists. eexists. split; [reached|]. split; [|vm_compute; reflexivity].
  intros ar Har. rewrite (arities_fun (B "sadd") ar (-3)); [by vm_compute|exact Har|by_compute].
Qed.

(** whenever the reply is an error, no key and no TTL changes except by expiry,
    and nothing is logged.  The full property also covers ZADD with a score that
    does not parse (false: [C27_zadd_refuted]). *)
Theorem C27_errors_partial cf evs y i c name args now unix rs D y' s :
  let E := env_at cf now unix in
  ready cf evs y i c name args rs D → ¬ special name → (name = B "zadd" → scores_ok E args) →
  step cf (EvCommand i args now unix rs) y = Ok y' → replied y y' i c (RError s) →
  ∃ D', changed_to y y' c D' ∧ purged E D D' ∧ not_logged y y'.
Proof.
  intros E H Hsp Hz HS He. destruct (data_step cf evs y i c name args now unix rs D y' H Hsp HS) as (D' & r & n & Hs & Hch & Hrep & Hlog & _).
  fold E in Hs. pose proof H as [Hr Hc Hok (a & l & ar & Ha & Hname & Har & Hacc & Hperm) HD].
  exists D'. split; [done|]. pose proof (replied_error _ _ _ _ _ _ Hc Hrep He) as Hre.
  destruct (sem_kinds _ _ _ _ _ Hs) as [Hk|Hk].
  - destruct (sem_reads _ _ _ _ _ _ _ Hk Hs) as [-> Hp]. split; [done|]. by apply Hlog.
  - destruct (sem_writes E name ar args D D' r n) as (key & _ & _ & _ & Hp & Hn); [|done..|].
    { destruct Hk as [?|Hk]; [by left|]. right. split; [done|]. by apply Hz. }
    specialize (Hn Hre). split; [by apply Hp|by apply Hlog].
Qed.
Print Assumptions C27_errors_partial.

(** a failing SELECT *)
Theorem C27_select cf evs y i c args now unix rs a y' :
  reaches cf evs y → y_cls y !! i = Some c → cmd_ok cf evs args rs → runs cf c (B "select") args → args !! 1%nat = Some a →
  (Atoi a = None ∨ ∃ k, Atoi a = Some k ∧ zlen (s_dbs (y_srv y)) ≤ k) →
  step cf (EvCommand i args now unix rs) y = Ok y' →
  abs_dbs (y_srv y') = abs_dbs (y_srv y) ∧ not_logged y y' ∧ ∃ s, replied y y' i c (RError s).
Proof.
  intros Hr Hc Hok Hruns Ha Hbad HS. destruct (command_step _ _ _ _ _ _ _ _ _ _ Hr Hc Hok HS) as (v' & r & n & Hd).
  destruct Hruns as (a0 & l & ar & -> & Hname & Har & Hacc & Hperm).
  assert (Hal : ∀ n, allowed (env_at cf now unix) (a0 :: l) (view_at y c) n → n = B "select").
  { intros n' ((a' & l' & ar' & [= <- <-] & -> & _) & _). done. }
  destruct Hd as [Ht (c' & G1 & G2 & G3) _ G5 G6].
  assert (G7 : abs_dbs (y_srv y') = v_dbs v') by (by rewrite <-G2). assert (G8 : c_db c' = v_db v') by (by rewrite <-G2).
  assert (G9 : c_auth c' = v_auth v') by (by rewrite <-G2). clear G2.
  assert (Hlen : zlen (abs_dbs (y_srv y)) = zlen (s_dbs (y_srv y))).
  { unfold zlen. by rewrite abs_dbs_len. }
  inversion Ht; subst;
    try (match goal with H : _ :: _ = _ :: _ |- _ => injection H as <- <- end);
    try (match goal with H : allowed _ _ _ ?n |- _ => pose proof (Hal _ H) as Hal0; try discriminate Hal0 end);
    try (match goal with H : (a0 :: l) !! 1%nat = Some ?b |- _ => assert (b = a) as -> by (rewrite Ha in H; by injection H) end).
  - exfalso. match goal with H : ∀ ar, _ ∉ arities |- _ => by apply (H ar); simpl; rewrite Hname end.
  - exfalso. match goal with H : (_, ?b) ∈ arities |- _ => simpl in H; rewrite Hname in H; by rewrite (arities_fun _ _ _ Har H) in Hacc end.
  - exfalso. simpl in *. destruct Hperm as [?|[?|?]]; congruence.
  - exfalso. subst. match goal with H : sem _ _ _ _ _ |- _ => apply sem_not_special in H; apply H end. by left.
  - rewrite andb_false_r in G5. split; [done|]. split; [by apply lst_not_logged|]. eexists. exists c'. done.
  - rewrite andb_false_r in G5. split; [done|]. split; [by apply lst_not_logged|]. eexists. exists c'. done.
  - exfalso. simpl in *. destruct Hbad as [?|(k & ? & ?)]; [congruence|]. assert (k = i0) as -> by congruence. lia.
Qed.
Print Assumptions C27_select.

(** ** Wrong type *)
Inductive kind := KStr | KHash | KList | KSet | KZset.
Global Instance kind_eq_dec : EqDecision kind.
Proof. solve_decision. Defined.
Definition kind_of (v : aval) : kind :=
  match v with AStr _ => KStr | AHash _ => KHash | AList _ => KList | ASet _ => KSet | AZset _ _ => KZset end.
(** the commands that expect a kind at their first argument *)
Definition expects : list (bytes * kind) := [
  (B "get", KStr);
  (B "hset", KHash); (B "hget", KHash); (B "hdel", KHash); (B "hexists", KHash); (B "hkeys", KHash); (B "hlen", KHash);
  (B "lpush", KList); (B "rpush", KList); (B "lpop", KList); (B "rpop", KList); (B "llen", KList); (B "lindex", KList); (B "lrange", KList);
  (B "sadd", KSet); (B "srem", KSet); (B "spop", KSet); (B "scard", KSet); (B "sismember", KSet); (B "smembers", KSet);
  (B "sdiff", KSet); (B "sinter", KSet); (B "sunion", KSet);
  (B "zadd", KZset); (B "zrange", KZset); (B "zrangebyscore", KZset); (B "zrem", KZset); (B "zremrangebyrank", KZset);
  (B "zremrangebyscore", KZset); (B "zcard", KZset); (B "zcount", KZset); (B "zscore", KZset)].
Section wrong.
  Variable E : env.
  Notation args_rel := (list bytes → adb → res outcome → Prop).
  Definition rejects (k : kind) (R : args_rel) : Prop := ∀ args D key v o,
    args !! 1%nat = Some key → a_keys D !! key = Some v → kind_of v ≠ k → ¬ expired E D key → R args D o →
    ∃ s, o = Ok (Out D (RError s) 0).
  Lemma existing_wrong {X} (k : akind X) key none f D v o : ¬ expired E D key → a_keys D !! key = Some v → ak_out k v = None →
    on_existing k E key none f D = o → ∃ s, o = Ok (Out D (RError s) 0).
  Proof. intros He Hk Ho <-. unfold on_existing, purge. rewrite decide_False by done. rewrite Hk, Ho. by eexists. Qed.
  Lemma new_wrong {X} (k : akind X) wrong key f D v o : a_keys D !! key = Some v → ak_out k v = None → is_error wrong →
    on_new k wrong key f D = o → ∃ s, o = Ok (Out D (RError s) 0).
  Proof. intros Hk Ho Hw <-. unfold on_new. rewrite Hk, Ho. destruct wrong; try done. by eexists. Qed.
  Lemma algebra_wrong fold key keys D v o : ¬ expired E D key → a_keys D !! key = Some v → kind_of v ≠ KSet →
    set_algebra fold E key keys D o → ∃ s, o = Ok (Out D (RError s) 0).
  Proof.
    intros He Hk Ho H. unfold set_algebra, purge, set_at in H. rewrite decide_False in H by done. rewrite Hk in H.
    destruct v; try done; rewrite H; by eexists.
  Qed.
  Ltac start args D v Hk Hv He H := let Ha := fresh in intros args D ? v ? Ha Hk Hv He H; destruct args as [|? [|? args]]; [done..|]; injection Ha as ->.
  Ltac ex v Hk He H := injection H as H; eapply existing_wrong; [exact He|exact Hk| |exact H]; by destruct v.
  Ltac nw v Hk H := injection H as H; eapply new_wrong; [exact Hk| | |exact H]; [by destruct v|done].
  Lemma rejects_get : rejects KStr (sem_get E).
  Proof.
    start args D v Hk Hv He H. unfold sem_get, fn, purge in H. rewrite decide_False in H by done. rewrite Hk in H. injection H as <-.
    destruct v; try done; by eexists.
  Qed.
  Lemma rejects_hset : rejects KHash sem_hset.
  Proof. start args D v Hk Hv He H. unfold sem_hset, fn in H. destruct (negb _); [injection H as <-; by eexists|]. nw v Hk H. Qed.
  Lemma rejects_hget : rejects KHash (sem_hget E).
  Proof. start args D v Hk Hv He H. unfold sem_hget, fn in H. destruct args; [done|]. ex v Hk He H. Qed.
  Lemma rejects_hdel : rejects KHash (sem_hdel E).
  Proof. start args D v Hk Hv He H. unfold sem_hdel, fn in H. ex v Hk He H. Qed.
  Lemma rejects_hexists : rejects KHash (sem_hexists E).
  Proof. start args D v Hk Hv He H. unfold sem_hexists, fn in H. destruct args; [done|]. ex v Hk He H. Qed.
  Lemma rejects_hkeys : rejects KHash (sem_hkeys E).
  Proof.
    start args D v Hk Hv He H. unfold sem_hkeys, purge in H. rewrite decide_False in H by done. rewrite Hk in H.
    destruct v; try done; rewrite H; by eexists.
  Qed.
  Lemma rejects_hlen : rejects KHash (sem_hlen E).
  Proof. start args D v Hk Hv He H. unfold sem_hlen, fn in H. ex v Hk He H. Qed.
  Lemma rejects_push all : rejects KList (sem_push all).
  Proof. start args D v Hk Hv He H. unfold sem_push, fn in H. nw v Hk H. Qed.
  Lemma rejects_pop pop : rejects KList (sem_pop E pop).
  Proof. start args D v Hk Hv He H. unfold sem_pop, fn in H. ex v Hk He H. Qed.
  Lemma rejects_llen : rejects KList (sem_llen E).
  Proof. start args D v Hk Hv He H. unfold sem_llen, fn in H. ex v Hk He H. Qed.
  Lemma rejects_lindex : rejects KList (sem_lindex E).
  Proof. start args D v Hk Hv He H. unfold sem_lindex, fn in H. destruct args; [done|]. ex v Hk He H. Qed.
  Lemma rejects_lrange : rejects KList (sem_lrange E).
  Proof. start args D v Hk Hv He H. unfold sem_lrange, fn in H. destruct args as [|? []]; [done..|]. ex v Hk He H. Qed.
  Lemma rejects_sadd : rejects KSet sem_sadd.
  Proof. start args D v Hk Hv He H. unfold sem_sadd, fn in H. nw v Hk H. Qed.
  Lemma rejects_srem : rejects KSet (sem_srem E).
  Proof. start args D v Hk Hv He H. unfold sem_srem, fn in H. ex v Hk He H. Qed.
  Lemma rejects_spop : rejects KSet (sem_spop E).
  Proof.
    start args D v Hk Hv He H. unfold sem_spop, purge, set_at in H. rewrite decide_False in H by done. rewrite Hk in H.
    destruct v; try done; rewrite H; by eexists.
  Qed.
  Lemma rejects_scard : rejects KSet (sem_scard E).
  Proof. start args D v Hk Hv He H. unfold sem_scard, fn in H. ex v Hk He H. Qed.
  Lemma rejects_sismember : rejects KSet (sem_sismember E).
  Proof. start args D v Hk Hv He H. unfold sem_sismember, fn in H. destruct args; [done|]. ex v Hk He H. Qed.
  Lemma rejects_smembers : rejects KSet (sem_smembers E).
  Proof. start args D v Hk Hv He H. unfold sem_smembers in H. by eapply algebra_wrong. Qed.
  Lemma rejects_algebra fold : rejects KSet (sem_algebra E fold).
  Proof. start args D v Hk Hv He H. unfold sem_algebra in H. by eapply algebra_wrong. Qed.
  Lemma rejects_zadd : rejects KZset (sem_zadd E).
  Proof.
    start args D v Hk Hv He H. unfold sem_zadd in H. destruct (negb _); [rewrite H; by eexists|]. destruct H as (rs & _ & H). symmetry in H.
    eapply new_wrong; [exact Hk| | |exact H]; [by destruct v|done].
  Qed.
  Lemma ints_wrong a b w1 w2 D k o : (∀ x y, k x y = o → ∃ s, o = Ok (Out D (RError s) 0)) → ints E a b w1 w2 D k = o →
    ∃ s, o = Ok (Out D (RError s) 0).
  Proof.
    intros Hk H. unfold ints in H. destruct (Atoi a) as [x|]; [|rewrite <-H; by eexists].
    destruct (Atoi b) as [z|] eqn:Hb; [|rewrite <-H; by eexists]. by eapply Hk.
  Qed.
  Lemma floats_wrong a b w1 w2 D k o : (∀ x y, k x y = o → ∃ s, o = Ok (Out D (RError s) 0)) → floats E a b w1 w2 D k = o →
    ∃ s, o = Ok (Out D (RError s) 0).
  Proof.
    intros Hk H. unfold floats in H. destruct (lib_parse_float _ a) as [x|]; [|rewrite <-H; by eexists].
    destruct (lib_parse_float _ b) as [z|] eqn:Hb; [|rewrite <-H; by eexists]. by eapply Hk.
  Qed.
  Ltac nums v Hk He H := injection H as H; first [eapply ints_wrong; [|exact H] | eapply floats_wrong; [|exact H]]; let Hx := fresh in intros ? ? Hx;
    eapply existing_wrong; [exact He|exact Hk| |exact Hx]; by destruct v.
  Lemma rejects_zrange : rejects KZset (sem_zrange E).
  Proof. start args D v Hk Hv He H. unfold sem_zrange, fn in H. destruct args as [|? []]; [done..|]. nums v Hk He H. Qed.
  Lemma rejects_zrangebyscore : rejects KZset (sem_zrangebyscore E).
  Proof. start args D v Hk Hv He H. unfold sem_zrangebyscore, fn in H. destruct args as [|? []]; [done..|]. nums v Hk He H. Qed.
  Lemma rejects_zremrangebyrank : rejects KZset (sem_zremrangebyrank E).
  Proof. start args D v Hk Hv He H. unfold sem_zremrangebyrank, fn in H. destruct args as [|? []]; [done..|]. nums v Hk He H. Qed.
  Lemma rejects_zremrangebyscore : rejects KZset (sem_zremrangebyscore E).
  Proof. start args D v Hk Hv He H. unfold sem_zremrangebyscore, fn in H. destruct args as [|? []]; [done..|]. nums v Hk He H. Qed.
  Lemma rejects_zcount : rejects KZset (sem_zcount E).
  Proof. start args D v Hk Hv He H. unfold sem_zcount, fn in H. destruct args as [|? []]; [done..|]. nums v Hk He H. Qed.
  Lemma rejects_zrem : rejects KZset (sem_zrem E).
  Proof. start args D v Hk Hv He H. unfold sem_zrem, fn in H. ex v Hk He H. Qed.
  Lemma rejects_zcard : rejects KZset (sem_zcard E).
  Proof. start args D v Hk Hv He H. unfold sem_zcard, fn in H. ex v Hk He H. Qed.
  Lemma rejects_zscore : rejects KZset (sem_zscore E).
  Proof. start args D v Hk Hv He H. unfold sem_zscore, fn in H. destruct args; [done|]. ex v Hk He H. Qed.
  Lemma table_rejects : Forall (λ p, ∀ k, (p.1, k) ∈ expects → rejects k p.2) (semTable E).
  Proof.
    assert (HN : NoDup (expects.*1)) by by_compute.
    assert (Hone : ∀ name k (R : args_rel), (name, k) ∈ expects → rejects k R → ∀ k', (name, k') ∈ expects → rejects k' R).
    { intros name k R [i1 Hi]%elem_of_list_lookup HR k' [j Hj]%elem_of_list_lookup.
      assert (i1 = j) as ->; [|by (assert (k = k') as <- by congruence)]. eapply NoDup_lookup; [exact HN| |]; by rewrite list_lookup_fmap, ?Hi, ?Hj. }
    assert (Hno : ∀ name (R : args_rel), bool_decide (name ∉ expects.*1) = true → ∀ k', (name, k') ∈ expects → rejects k' R).
    { intros name R Hn%bool_decide_eq_true k' Hk'. exfalso. apply Hn. apply elem_of_list_fmap. by exists (name, k'). }
    unfold semTable.
    apply Forall_cons; split; [apply Hno; by vm_compute|].
    apply Forall_cons; split; [apply Hno; by vm_compute|].
    apply Forall_cons; split; [apply Hno; by vm_compute|].
    apply Forall_cons; split; [apply Hno; by vm_compute|].
    apply Forall_cons; split; [apply Hno; by vm_compute|].
    apply Forall_cons; split; [apply Hno; by vm_compute|].
    apply Forall_cons; split; [apply Hno; by vm_compute|].
    apply Forall_cons; split; [eapply Hone; [|apply rejects_get]; by_compute|].
    apply Forall_cons; split; [apply Hno; by vm_compute|].
    apply Forall_cons; split; [eapply Hone; [|apply rejects_hset]; by_compute|].
    apply Forall_cons; split; [eapply Hone; [|apply rejects_hget]; by_compute|].
    apply Forall_cons; split; [eapply Hone; [|apply rejects_hdel]; by_compute|].
    apply Forall_cons; split; [eapply Hone; [|apply rejects_hexists]; by_compute|].
    apply Forall_cons; split; [eapply Hone; [|apply rejects_hkeys]; by_compute|].
    apply Forall_cons; split; [eapply Hone; [|apply rejects_hlen]; by_compute|].
    apply Forall_cons; split; [eapply Hone; [|apply rejects_push]; by_compute|].
    apply Forall_cons; split; [eapply Hone; [|apply rejects_push]; by_compute|].
    apply Forall_cons; split; [eapply Hone; [|apply rejects_pop]; by_compute|].
    apply Forall_cons; split; [eapply Hone; [|apply rejects_pop]; by_compute|].
    apply Forall_cons; split; [eapply Hone; [|apply rejects_llen]; by_compute|].
    apply Forall_cons; split; [eapply Hone; [|apply rejects_lindex]; by_compute|].
    apply Forall_cons; split; [eapply Hone; [|apply rejects_lrange]; by_compute|].
    apply Forall_cons; split; [eapply Hone; [|apply rejects_sadd]; by_compute|].
    apply Forall_cons; split; [eapply Hone; [|apply rejects_srem]; by_compute|].
    apply Forall_cons; split; [eapply Hone; [|apply rejects_spop]; by_compute|].
    apply Forall_cons; split; [eapply Hone; [|apply rejects_scard]; by_compute|].
    apply Forall_cons; split; [eapply Hone; [|apply rejects_sismember]; by_compute|].
    apply Forall_cons; split; [eapply Hone; [|apply rejects_smembers]; by_compute|].
    apply Forall_cons; split; [eapply Hone; [|apply rejects_algebra]; by_compute|].
    apply Forall_cons; split; [eapply Hone; [|apply rejects_algebra]; by_compute|].
    apply Forall_cons; split; [eapply Hone; [|apply rejects_algebra]; by_compute|].
    apply Forall_cons; split; [eapply Hone; [|apply rejects_zadd]; by_compute|].
    apply Forall_cons; split; [eapply Hone; [|apply rejects_zrange]; by_compute|].
    apply Forall_cons; split; [eapply Hone; [|apply rejects_zrangebyscore]; by_compute|].
    apply Forall_cons; split; [eapply Hone; [|apply rejects_zrem]; by_compute|].
    apply Forall_cons; split; [eapply Hone; [|apply rejects_zremrangebyrank]; by_compute|].
    apply Forall_cons; split; [eapply Hone; [|apply rejects_zremrangebyscore]; by_compute|].
    apply Forall_cons; split; [eapply Hone; [|apply rejects_zcard]; by_compute|].
    apply Forall_cons; split; [eapply Hone; [|apply rejects_zcount]; by_compute|].
    apply Forall_cons; split; [eapply Hone; [|apply rejects_zscore]; by_compute|].
    by apply Forall_nil.
  Qed.
End wrong.
Lemma expects_not_special name k : (name, k) ∈ expects → ¬ special name.
Proof.
  intros Hin.
  assert (Forall (λ p : bytes * kind, p.1 ≠ B "select" ∧ p.1 ≠ B "auth" ∧ p.1 ≠ B "bgrewriteaof") expects) as HF by by_compute.
  rewrite Forall_forall in HF. destruct (HF _ Hin) as (? & ? & ?). by intros [?|[?|?]].
Qed.
Theorem C27_wrong_type cf evs y i c name args now unix rs D key v k :
  ready cf evs y i c name args rs D → (name, k) ∈ expects →
  args !! 1%nat = Some key → a_keys D !! key = Some v → kind_of v ≠ k → ¬ expired (env_at cf now unix) D key →
  ∃ y' s, step cf (EvCommand i args now unix rs) y = Ok y' ∧
    abs_dbs (y_srv y') = abs_dbs (y_srv y) ∧ not_logged y y' ∧ replied y y' i c (RError s).
Proof.
  intros H Hk Hkey Hv Hne He. pose proof (expects_not_special _ _ Hk) as Hsp.
  assert (Hin : ∃ R, (name, R) ∈ semTable (env_at cf now unix)).
  { pose proof H as [Hr Hc Hok Hruns HD].
    destruct (data_did cf evs y i c args now unix rs name Hr Hc Hok Hruns Hsp) as (D0 & ro & HD0 & (R & HR & _) & _). by exists R. }
  destruct Hin as [R HR].
  destruct (data_total cf evs y i c name R args now unix rs D (λ D' r n, D' = D ∧ is_error r ∧ n = 0) H Hsp HR)
    as (y' & D' & r & n & HS & Hch & Hrep & Hlog & -> & Hr & ->).
  { intros o Ho. pose proof (table_rejects (env_at cf now unix)) as HT. rewrite Forall_forall in HT.
    destruct (HT _ HR k Hk args D key v o Hkey Hv Hne He Ho) as [s ->]. by eexists _, _, _. }
  destruct r as [|s| | | |]; try done. exists y', s. split; [done|]. split; [|split; [by apply Hlog|done]].
  unfold changed_to in Hch. rewrite Hch. apply list_insert_id. apply (rd_db _ _ _ _ _ _ _ _ _ H).
Qed.
Print Assumptions C27_wrong_type.
Ltac ready_tac := split; [reached|reflexivity|
  split; [done|split; [by_compute|by vm_compute]]|
  eexists _, _, _; split; [reflexivity|]; split; [reflexivity|];
  split; [repeat first [apply elem_of_list_here|apply elem_of_list_further]|]; split; [by vm_compute|by left]|reflexivity].
Example C27_wrong_type_example : ∃ y c D, ready cf0 [EvConnect; cmd 0 5 "RPUSH l a"] y 0 c (B "sunion") (words "SUNION l l") [] D ∧
  (B "sunion", KSet) ∈ expects ∧ (∃ v, a_keys D !! B "l" = Some v ∧ kind_of v ≠ KSet) ∧ ¬ expired (env_at cf0 6 0) D (B "l").
Proof.
  eexists. eexists. eexists. split; [ready_tac|]. split; [by_compute|]. split; [|by vm_compute; intros (? & ? & _)].
  eexists. split; [vm_compute; reflexivity|]. done.
Qed.

(** ** Numbers that do not parse *)
(** argument positions that must be integers / floats *)
Definition int_args : list (bytes * nat) := [
  (B "expire", 2%nat); (B "expireat", 2%nat); (B "setex", 2%nat); (B "zrange", 2%nat); (B "zrange", 3%nat);
  (B "zremrangebyrank", 2%nat); (B "zremrangebyrank", 3%nat)].
Definition float_args : list (bytes * nat) := [
  (B "zcount", 2%nat); (B "zcount", 3%nat); (B "zrangebyscore", 2%nat); (B "zrangebyscore", 3%nat);
  (B "zremrangebyscore", 2%nat); (B "zremrangebyscore", 3%nat)].
Lemma bad_number_sem E name j args D o a :
  ((name, j) ∈ int_args ∧ Atoi a = None ∨ (name, j) ∈ float_args ∧ lib_parse_float (e_lib E) a = None) →
  args !! j = Some a → sem E name args D o → ∃ s, o = Ok (Out D (RError s) 0).
Proof.
  intros Hj Ha Hs.
  assert (HI : ∀ b w1 w2 k, (∃ x, (b = x ∧ Atoi a = None)) → ∃ s, ints E a b w1 w2 D k = Ok (Out D (RError s) 0)).
  { intros b w1 w2 k (_ & _ & Hx). unfold ints. rewrite Hx. by eexists. }
  assert (HI2 : ∀ b w1 w2 k, Atoi a = None → ∃ s, ints E b a w1 w2 D k = Ok (Out D (RError s) 0)).
  { intros b w1 w2 k Hx. unfold ints. destruct (Atoi b); [rewrite Hx|]; by eexists. }
  assert (HF : ∀ b w1 w2 k, lib_parse_float (e_lib E) a = None → ∃ s, floats E a b w1 w2 D k = Ok (Out D (RError s) 0)).
  { intros b w1 w2 k Hx. unfold floats. rewrite Hx. by eexists. }
  assert (HF2 : ∀ b w1 w2 k, lib_parse_float (e_lib E) a = None → ∃ s, floats E b a w1 w2 D k = Ok (Out D (RError s) 0)).
  { intros b w1 w2 k Hx. unfold floats. destruct (lib_parse_float _ b); [rewrite Hx|]; by eexists. }
  destruct Hj as [[Hj Hp]|[Hj Hp]].
  - unfold int_args in Hj. rewrite !elem_of_cons in Hj. rewrite elem_of_nil in Hj.
    destruct Hj as [[= -> ->]|[[= -> ->]|[[= -> ->]|[[= -> ->]|[[= -> ->]|[[= -> ->]|[[= -> ->]|[]]]]]]]].
    + apply (sem_inv E (B "expire") (sem_expire E (λ n, wrap64 (e_now E + ms n)))) in Hs; [|by repeat constructor].
      unfold sem_expire, fn in Hs. destruct args as [|? [|? [|? ?]]]; try done. injection Ha as ->. rewrite Hp in Hs. injection Hs as <-. by eexists.
    + apply (sem_inv E (B "expireat") (sem_expire E ms)) in Hs; [|by repeat constructor].
      unfold sem_expire, fn in Hs. destruct args as [|? [|? [|? ?]]]; try done. injection Ha as ->. rewrite Hp in Hs. injection Hs as <-. by eexists.
    + apply (sem_inv E (B "setex") (sem_setex E)) in Hs; [|by repeat constructor].
      unfold sem_setex, fn in Hs. destruct args as [|? [|? [|? [|? ?]]]]; try done. injection Ha as ->. rewrite Hp in Hs. injection Hs as <-. by eexists.
    + apply (sem_inv E (B "zrange") (sem_zrange E)) in Hs; [|by repeat constructor].
      unfold sem_zrange, fn in Hs. destruct args as [|? [|? [|? [|? ?]]]]; try done. injection Ha as ->. injection Hs as <-. eauto.
    + apply (sem_inv E (B "zrange") (sem_zrange E)) in Hs; [|by repeat constructor].
      unfold sem_zrange, fn in Hs. destruct args as [|? [|? [|? [|? ?]]]]; try done. injection Ha as ->. injection Hs as <-. eauto.
    + apply (sem_inv E (B "zremrangebyrank") (sem_zremrangebyrank E)) in Hs; [|by repeat constructor].
      unfold sem_zremrangebyrank, fn in Hs. destruct args as [|? [|? [|? [|? ?]]]]; try done. injection Ha as ->. injection Hs as <-. eauto.
    + apply (sem_inv E (B "zremrangebyrank") (sem_zremrangebyrank E)) in Hs; [|by repeat constructor].
      unfold sem_zremrangebyrank, fn in Hs. destruct args as [|? [|? [|? [|? ?]]]]; try done. injection Ha as ->. injection Hs as <-. eauto.
  - unfold float_args in Hj. rewrite !elem_of_cons in Hj. rewrite elem_of_nil in Hj.
    destruct Hj as [[= -> ->]|[[= -> ->]|[[= -> ->]|[[= -> ->]|[[= -> ->]|[[= -> ->]|[]]]]]]].
    + apply (sem_inv E (B "zcount") (sem_zcount E)) in Hs; [|by repeat constructor].
      unfold sem_zcount, fn in Hs. destruct args as [|? [|? [|? [|? ?]]]]; try done. injection Ha as ->. injection Hs as <-. eauto.
    + apply (sem_inv E (B "zcount") (sem_zcount E)) in Hs; [|by repeat constructor].
      unfold sem_zcount, fn in Hs. destruct args as [|? [|? [|? [|? ?]]]]; try done. injection Ha as ->. injection Hs as <-. eauto.
    + apply (sem_inv E (B "zrangebyscore") (sem_zrangebyscore E)) in Hs; [|by repeat constructor].
      unfold sem_zrangebyscore, fn in Hs. destruct args as [|? [|? [|? [|? ?]]]]; try done. injection Ha as ->. injection Hs as <-. eauto.
    + apply (sem_inv E (B "zrangebyscore") (sem_zrangebyscore E)) in Hs; [|by repeat constructor].
      unfold sem_zrangebyscore, fn in Hs. destruct args as [|? [|? [|? [|? ?]]]]; try done. injection Ha as ->. injection Hs as <-. eauto.
    + apply (sem_inv E (B "zremrangebyscore") (sem_zremrangebyscore E)) in Hs; [|by repeat constructor].
      unfold sem_zremrangebyscore, fn in Hs. destruct args as [|? [|? [|? [|? ?]]]]; try done. injection Ha as ->. injection Hs as <-. eauto.
    + apply (sem_inv E (B "zremrangebyscore") (sem_zremrangebyscore E)) in Hs; [|by repeat constructor].
      unfold sem_zremrangebyscore, fn in Hs. destruct args as [|? [|? [|? [|? ?]]]]; try done. injection Ha as ->. injection Hs as <-. eauto.
Qed.
(** The full property includes LINDEX and LRANGE (which do not notice a bad number
    when the list is missing: [C27_lindex_refuted]) and ZADD ([C27_zadd_refuted]). *)
Theorem C27_bad_number_partial cf evs y i c name args now unix rs D j a :
  ready cf evs y i c name args rs D →
  ((name, j) ∈ int_args ∧ Atoi a = None ∨ (name, j) ∈ float_args ∧ lib_parse_float (cf_lib cf) a = None) →
  args !! j = Some a →
  ∃ y' s, step cf (EvCommand i args now unix rs) y = Ok y' ∧
    abs_dbs (y_srv y') = abs_dbs (y_srv y) ∧ not_logged y y' ∧ replied y y' i c (RError s).
Proof.
  intros H Hj Ha. pose proof H as [Hr Hc Hok Hruns HD].
  assert (Hsp : ¬ special name).
  { assert (Forall (λ p : bytes * nat, p.1 ≠ B "select" ∧ p.1 ≠ B "auth" ∧ p.1 ≠ B "bgrewriteaof") (int_args ++ float_args)) as HF by by_compute.
    rewrite Forall_forall in HF. assert (Hin : (name, j) ∈ int_args ++ float_args) by (apply elem_of_app; naive_solver).
    destruct (HF _ Hin) as (? & ? & ?). by intros [?|[?|?]]. }
  destruct (data_did cf evs y i c args now unix rs name Hr Hc Hok Hruns Hsp) as (D0 & ro & HD0 & (R & HR & HR') & _).
  destruct (data_total cf evs y i c name R args now unix rs D (λ D' r n, D' = D ∧ is_error r ∧ n = 0) H Hsp HR)
    as (y' & D' & r & n & HS & Hch & Hrep & Hlog & -> & Hre & ->).
  { intros o Ho. destruct (bad_number_sem (env_at cf now unix) name j args D o a Hj Ha) as [s ->]; [by exists R|]. by eexists _, _, _. }
  destruct r as [|s| | | |]; try done. exists y', s. split; [done|]. split; [|split; [by apply Hlog|done]].
  unfold changed_to in Hch. rewrite Hch. apply list_insert_id. done.
Qed.
Print Assumptions C27_bad_number_partial.
Example C27_bad_number_example : ∃ y c D, ready cf0 [EvConnect; cmd 0 5 "SET k v"] y 0 c (B "setex") (words "SETEX k 12x w") [] D ∧
  (B "setex", 2%nat) ∈ int_args ∧ words "SETEX k 12x w" !! 2%nat = Some (B "12x") ∧ Atoi (B "12x") = None.
Proof. eexists. eexists. eexists. split; [ready_tac|]. split; [by_compute|]. by vm_compute. Qed.

(** ZADD z x m: an error, but the key z now exists (an empty sorted set) and
    nothing is logged; ZADD z 1 a x b: an error, but a is added *)
Theorem C27_zadd_refuted : ∃ y y1 y2 D1 D2,
  reaches cf0 [EvConnect] y ∧
  step cf0 (cmd 0 5 "ZADD z x m") y = Ok y1 ∧ abs_dbs (y_srv y1) !! 0%nat = Some D1 ∧
  is_Some (a_keys D1 !! B "z") ∧ not_logged y y1 ∧
  step cf0 (cmd 0 5 "ZADD z 1 a x b") y = Ok y2 ∧ abs_dbs (y_srv y2) !! 0%nat = Some D2 ∧
  (∃ m s, a_keys D2 !! B "z" = Some (AZset m s) ∧ m !! B "a" = Some (of_Z 1)) ∧
  (∃ c1 c2, y_cls y1 !! 0%nat = Some c1 ∧ y_cls y2 !! 0%nat = Some c2 ∧
    B "-ERR " `prefix_of` mjoin (c_out c1) ∧ B "-ERR " `prefix_of` mjoin (c_out c2)).
Proof.
  eexists. eexists. eexists. eexists. eexists. split; [reached|]. split; [vm_compute; reflexivity|]. split; [reflexivity|].
  split; [vm_compute; by eexists|]. split; [by vm_compute|]. split; [vm_compute; reflexivity|]. split; [reflexivity|].
  split; [eexists _, _; split; [vm_compute; reflexivity|by vm_compute]|].
  eexists _, _. split; [reflexivity|]. split; [reflexivity|]. split; by_compute.
Qed.
Print Assumptions C27_zadd_refuted.
(** LINDEX missing x: a null reply instead of an error *)
Theorem C27_lindex_refuted : ∃ y y1 c1, reaches cf0 [EvConnect] y ∧ step cf0 (cmd 0 5 "LINDEX l x") y = Ok y1 ∧
  y_cls y1 !! 0%nat = Some c1 ∧ c_out c1 = [B "$-1" ++ CRLF].
Proof. eexists. eexists. eexists. split; [reached|]. split; [vm_compute; reflexivity|]. split; [reflexivity|]. by vm_compute. Qed.
Print Assumptions C27_lindex_refuted.

(** * C28 *)
Theorem C28_isolation cf evs y i c args now unix rs y' :
  reaches cf evs y → y_cls y !! i = Some c → cmd_ok cf evs args rs → step cf (EvCommand i args now unix rs) y = Ok y' →
  (∀ j, j ≠ c_db c → abs_dbs (y_srv y') !! j = abs_dbs (y_srv y) !! j) ∧
  (∀ j, j ≠ i → y_cls y' !! j = y_cls y !! j).
Proof.
  intros Hr Hc Hok HS. destruct (command_step _ _ _ _ _ _ _ _ _ _ Hr Hc Hok HS) as (v' & r & n & Hd).
  split; [|intros j Hj; by eapply did_others]. intros j Hj. rewrite (did_dbs _ _ _ _ _ _ _ _ _ _ Hd).
  pose proof (di_top _ _ _ _ _ _ _ _ _ _ Hd) as Ht. inversion Ht; subst; try done.
  match goal with H : on_view _ ?o = _ |- _ => destruct o as [[D' r' n']| |]; [|done..]; injection H as <- _ _ end.
  simpl. by rewrite list_lookup_insert_ne.
Qed.
Print Assumptions C28_isolation.
Theorem C28_select cf evs y i c args now unix rs a k :
  reaches cf evs y → y_cls y !! i = Some c → cmd_ok cf evs args rs → runs cf c (B "select") args →
  args !! 1%nat = Some a → Atoi a = Some k → 0 ≤ k < Z.of_nat (cf_dbs cf) →
  ∃ y' c', step cf (EvCommand i args now unix rs) y = Ok y' ∧
    abs_dbs (y_srv y') = abs_dbs (y_srv y) ∧ not_logged y y' ∧
    y_cls y' = <[i := c']> (y_cls y) ∧ c_db c' = Z.to_nat k ∧ c_auth c' = c_auth c ∧
    mjoin (c_out c') = mjoin (c_out c) ++ enc ROK.
Proof.
  intros Hr Hc Hok (a0 & l & ar & -> & Hname & Har & Hacc & Hperm) Ha Hk Hrange.
  destruct (command_did cf evs y i c (a0 :: l) now unix rs Hr Hc Hok) as (o & Ht & HT).
  assert (Hal : ∀ n, allowed (env_at cf now unix) (a0 :: l) (view_at y c) n → n = B "select").
  { intros n' ((a' & l' & ar' & [= <- <-] & -> & _) & _). done. }
  assert (Hlen : zlen (abs_dbs (y_srv y)) = Z.of_nat (cf_dbs cf)).
  { unfold zlen. rewrite abs_dbs_len. f_equal. apply (yo_len _ _ _ (reaches_ok _ _ _ Hr)). }
  inversion Ht; subst;
    try (match goal with H : _ :: _ = _ :: _ |- _ => injection H as <- <- end);
    try (match goal with H : allowed _ _ _ ?n |- _ => pose proof (Hal _ H) as Hal0; try discriminate Hal0 end);
    try (match goal with H : (a0 :: l) !! 1%nat = Some ?b |- _ => assert (b = a) as -> by (rewrite Ha in H; by injection H) end).
  - exfalso. match goal with H : ∀ ar, _ ∉ arities |- _ => by apply (H ar); simpl; rewrite Hname end.
  - exfalso. match goal with H : (_, ?b) ∈ arities |- _ => simpl in H; rewrite Hname in H; by rewrite (arities_fun _ _ _ Har H) in Hacc end.
  - exfalso. simpl in *. destruct Hperm as [?|[?|?]]; congruence.
  - exfalso. subst. match goal with H : sem _ _ _ _ _ |- _ => apply sem_not_special in H; apply H end. by left.
  - congruence.
  - exfalso. simpl in *. assert (i0 = k) as -> by congruence. lia.
  - exfalso. assert (i0 = k) as -> by congruence. lia.
  - assert (i0 = k) as -> by congruence. destruct HT as (y' & HS & [_ (c' & G1 & G2 & G3) _ G5 G6]).
    rewrite andb_false_r in G5. injection G2 as G2 G7 G8.
    exists y', c'. split; [done|]. split; [done|]. split; [by apply lst_not_logged|]. done.
Qed.
Print Assumptions C28_select.
Example C28_example : ∃ y c, reaches cf0 [EvConnect; cmd 0 5 "SET k v"; EvConnect] y ∧ y_cls y !! 1%nat = Some c ∧
  runs cf0 c (B "select") (words "SELECT 3") ∧ Atoi (B "3") = Some 3.
Proof.
  eexists. eexists. split; [reached|]. split; [reflexivity|]. split; [|done].
  eexists _, _, _; split; [reflexivity|]; split; [reflexivity|];
  split; [repeat first [apply elem_of_list_here|apply elem_of_list_further]|]; split; [by vm_compute|by left].
Qed.

(** * C29 *)
(** [readers]: PING and the commands of the property.  (LRANGE, LINDEX and the
    sorted set ranges can also crash the server: C09, C11, C18.) *)
Theorem C29_reads cf evs y i c name args now unix rs D y' :
  ready cf evs y i c name args rs D → name ∈ readers → step cf (EvCommand i args now unix rs) y = Ok y' →
  ∃ D' r, changed_to y y' c D' ∧ purged (env_at cf now unix) D D' ∧ not_logged y y' ∧ replied y y' i c r.
Proof.
  intros H Hn HS.
  assert (Hsp : ¬ special name).
  { assert (Forall (λ n, n ≠ B "select" ∧ n ≠ B "auth" ∧ n ≠ B "bgrewriteaof") readers) as HF by by_compute.
    rewrite Forall_forall in HF. destruct (HF _ Hn) as (? & ? & ?). by intros [?|[?|?]]. }
  destruct (data_step cf evs y i c name args now unix rs D y' H Hsp HS) as (D' & r & n & Hs & Hch & Hrep & Hlog & _).
  destruct (sem_reads _ _ _ _ _ _ _ Hn Hs) as [-> Hp]. exists D', r. split; [done|]. split; [done|]. split; [by apply Hlog|done].
Qed.
Print Assumptions C29_reads.
(** what [purged] means for one key: an entry that has not expired stays as it is *)
Theorem C29_purged E D D' k : purged E D D' → ¬ expired E D k →
  a_keys D' !! k = a_keys D !! k ∧ a_ttl D' !! k = a_ttl D !! k.
Proof.
  intros (X & HX & ->) Hk. assert (k ∉ X) by (intros ?; by apply Hk, HX). unfold drop_keys. simpl.
  split.
  - destruct (a_keys D !! k) as [v|] eqn:Hv; [by apply map_filter_lookup_Some_2|apply map_filter_lookup_None_2; by left].
  - destruct (a_ttl D !! k) as [v|] eqn:Hv; [by apply map_filter_lookup_Some_2|apply map_filter_lookup_None_2; by left].
Qed.
Print Assumptions C29_purged.
Example C29_example : ∃ y c D, ready cf0 [EvConnect; cmd 0 5 "SADD s a b"; cmd 0 5 "SETEX k 1 v"] y 0 c (B "keys") (words "KEYS *") [] D ∧
  B "keys" ∈ readers ∧ expired (env_at cf0 2000 0) D (B "k") ∧ ¬ expired (env_at cf0 2000 0) D (B "s").
Proof.
  eexists. eexists. eexists. split; [ready_tac|]. split; [by_compute|]. split; [by_compute|by_compute].
Qed.

(** * C35 *)
(** the time at which an event looks at the clock *)
Definition time_of (e : event) : option Z :=
  match e with EvCommand _ _ now _ _ | EvCron now _ => Some now | _ => None end.
(** in any step of the server other than a restart a key is kept, unless its deadline
    has passed *)
Theorem C35_keys_stay cf evs e y y' j D k :
  reaches cf evs y → ¬ is_boot e → history_ok cf (evs ++ [e]) → step cf e y = Ok y' →
  abs_dbs (y_srv y) !! j = Some D → is_Some (a_keys D !! k) →
  ∃ D', abs_dbs (y_srv y') !! j = Some D' ∧
    (is_Some (a_keys D' !! k) ∨ ∃ now when, time_of e = Some now ∧ a_ttl D !! k = Some when ∧ when < now).
Proof.
  intros Hr Hboot Hh HS HD Hk.
  assert (Hsame : abs_dbs (y_srv y') = abs_dbs (y_srv y) → ∃ D', abs_dbs (y_srv y') !! j = Some D' ∧
    (is_Some (a_keys D' !! k) ∨ ∃ now when, time_of e = Some now ∧ a_ttl D !! k = Some when ∧ when < now)).
  { intros ->. exists D. split; [done|by left]. }
  assert (Hpurged : ∀ E D', purged E D D' → time_of e = Some (e_now E) → abs_dbs (y_srv y') !! j = Some D' → ∃ D', abs_dbs (y_srv y') !! j = Some D' ∧
    (is_Some (a_keys D' !! k) ∨ ∃ now when, time_of e = Some now ∧ a_ttl D !! k = Some when ∧ when < now)).
  { intros E D' Hp Ht HD'. exists D'. split; [done|]. destruct (purged_keeps E _ _ Hp k Hk) as [?|(when & ? & ?)]; [by left|].
    right. by exists (e_now E), when. }
  destruct e as [|i args now unix rs|i n|now rs| | |dump|file clock rs].
  - cbn [step] in HS. injection HS as <-. by apply Hsame.
  - destruct (y_cls y !! i) as [c|] eqn:Hc.
    2: { cbn [step] in HS. rewrite Hc in HS. injection HS as <-. by apply Hsame. }
    pose proof (history_cmd_ok _ _ _ _ _ _ _ Hh) as Hok.
    destruct (command_step _ _ _ _ _ _ _ _ _ _ Hr Hc Hok HS) as (v' & r & n & Hd).
    pose proof (did_dbs _ _ _ _ _ _ _ _ _ _ Hd) as Hdbs. pose proof (di_top _ _ _ _ _ _ _ _ _ _ Hd) as Ht.
    inversion Ht; subst; try (by apply Hsame).
    match goal with H : on_view _ ?o = _ |- _ => destruct o as [[D1 r' n']| |]; [|done..]; injection H as <- _ _ end.
    simpl in Hdbs. rewrite Hdbs. destruct (decide (j = c_db c)) as [->|Hj].
    + simpl in *. assert (D0 = D) as -> by congruence. exists D1.
      rewrite list_lookup_insert by (by eapply lookup_lt_Some). split; [done|].
      match goal with H : sem _ _ _ _ _ |- _ => destruct (sem_keeping _ _ _ _ _ _ _ H k Hk) as [?|(when & ? & ?)]; [by left|] end.
      right. by exists now, when.
    + exists D. rewrite list_lookup_insert_ne by done. split; [done|by left].
  - cbn [step] in HS. destruct (y_cls y !! i); injection HS as <-; by apply Hsame.
  - cbn [step] in HS. apply bind_inv in HS as ([dbs' rs'] & HC & HS). injection HS as <-.
    destruct (reaches_ok _ _ _ Hr) as [Hs _ _].
    assert (Hrs : Forall (λ r, 0 ≤ r) rs). { destruct Hh as (Hf & _). apply Forall_app in Hf as [_ Hf]. by inversion Hf. }
    destruct (databasesCron_spec _ _ (s_heap (y_srv y)) _ _ _ _ (so_dbs _ _ Hs) Hrs HC) as (_ & HP & _).
    destruct (Forall2_lookup_l _ _ _ _ _ HP HD) as (D' & HD' & Hp). by eapply (Hpurged _ _ Hp).
  - cbn [step] in HS. injection HS as <-. by apply Hsame.
  - cbn [step] in HS. apply bind_inv in HS as (s & HC & HS). injection HS as <-. apply Hsame. simpl.
    unfold rewriteAppendOnlyFileBackground in HC. destruct (s_task (y_srv y)); [by injection HC as <-|].
    apply bind_inv in HC as ([dbs1 dbs2] & HC & Hx). injection Hx as <-.
    destruct (reaches_ok _ _ _ Hr) as [Hs _ _]. destruct (copy_dbs_spec _ (s_dbs (y_srv y)) (so_dbs _ _ Hs)) as (snap & EC & _).
    { destruct Hr as [(_ & _ & Ht) _]. unfold small, max_entries. lia. }
    rewrite EC in HC. by injection HC as <- <-.
  - cbn [step] in HS. destruct (s_task (y_srv y)); injection HS as <-; by apply Hsame.
  - by destruct Hboot.
Qed.
Print Assumptions C35_keys_stay.
Example C35_example : ∃ y y', reaches cf0 [EvConnect; cmd 0 5 "SET k v"; cmd 0 5 "SETEX x 1 w"] y ∧
  history_ok cf0 ([EvConnect; cmd 0 5 "SET k v"; cmd 0 5 "SETEX x 1 w"] ++ [EvCron 1006 (concat (replicate 40 [0; 1; 2; 3]))]) ∧
  step cf0 (EvCron 1006 (concat (replicate 40 [0; 1; 2; 3]))) y = Ok y' ∧
  (∃ D D', abs_dbs (y_srv y) !! 0%nat = Some D ∧ abs_dbs (y_srv y') !! 0%nat = Some D' ∧
     a_keys D !! B "x" = Some (AStr (B "w")) ∧ a_keys D' !! B "x" = None ∧ a_keys D' !! B "k" = Some (AStr (B "v"))).
Proof.
  eexists. eexists. split; [reached|]. split; [apply history_check_ok; by vm_compute|]. split; [vm_compute; reflexivity|].
  eexists _, _. split; [reflexivity|]. split; [reflexivity|]. by vm_compute.
Qed.
(** EXPIRE with a positive number of seconds, as long as the deadline in ms fits
    into an int64.  The full property has no such bound (see [C35_refuted]). *)
Theorem C35_expire_partial cf evs y i c args now unix rs D key a n :
  ready cf evs y i c (B "expire") args rs D → args !! 1%nat = Some key → args !! 2%nat = Some a → Atoi a = Some n →
  0 < n → 0 ≤ now → now + n * 1000 ≤ maxInt64 →
  ∃ y' D', step cf (EvCommand i args now unix rs) y = Ok y' ∧ changed_to y y' c D' ∧ replied y y' i c ROK ∧
    a_keys D' = a_keys D ∧ a_ttl D' = <[key := now + n * 1000]> (a_ttl D).
Proof.
  intros H Hkey Ha Hn Hpos Hnow Hmax.
  destruct (data_total cf evs y i c (B "expire") (sem_expire (env_at cf now unix) (λ n, wrap64 (now + ms n))) args now unix rs D
    (λ D' r n', a_keys D' = a_keys D ∧ a_ttl D' = <[key := now + n * 1000]> (a_ttl D) ∧ r = ROK) H)
    as (y' & D' & r & n' & HS & Hch & Hrep & _ & H1 & H2 & ->).
  - by intros [?|[?|?]].
  - by repeat constructor.
  - intros o Ho. unfold sem_expire, fn in Ho. destruct args as [|? [|? [|? ?]]]; try done. injection Hkey as ->. injection Ha as ->.
    rewrite Hn in Ho. injection Ho as <-. do 3 eexists. split; [done|]. simpl. split; [done|]. split; [|done]. f_equal.
    assert (Hw : ∀ z, in_int64 z → wrap64 z = z).
    { intros z Hz. unfold in_int64, minInt64, maxInt64, wrap64 in *. rewrite Z.mod_small; lia. }
    unfold ms. rewrite (Hw (n * 1000)), Hw; unfold in_int64, minInt64, maxInt64 in *; lia.
  - exists y', D'. done.
Qed.
Print Assumptions C35_expire_partial.
Example C35_expire_example : ∃ y c D, ready cf0 [EvConnect; cmd 0 5 "SET k v"] y 0 c (B "expire") (words "EXPIRE k 9223372036854775") [] D ∧
  Atoi (B "9223372036854775") = Some 9223372036854775 ∧ 5 + 9223372036854775 * 1000 ≤ maxInt64.
Proof. eexists. eexists. eexists. split; [ready_tac|]. split; [by vm_compute|]. by vm_compute. Qed.
(** EXPIRE k 9223372036854775807: the key is gone at once *)
Theorem C35_refuted : ∃ y c, reaches cf0 [EvConnect; cmd 0 5 "SET k v"; cmd 0 5 "EXPIRE k 9223372036854775807"; cmd 0 5 "GET k"] y ∧
  y_cls y !! 0%nat = Some c ∧ c_out c = [B "+OK" ++ CRLF; B "+OK" ++ CRLF; B "$-1" ++ CRLF].
Proof. eexists. eexists. split; [reached|]. split; [reflexivity|]. by vm_compute. Qed.
Print Assumptions C35_refuted.

(** * C36 *)
(** Either nothing changes (but for expired keys) and nothing is logged, or the
    command is logged: its text (EXPIRE and SETEX as EXPIREAT with the deadline in
    seconds) is appended to the log buffer, after a SELECT when the previously
    logged command was for another database, and to the rewrite buffer while a
    rewrite runs.  The full property also covers ZADD with scores that do not
    parse (false: [C36_zadd_refuted]), and asks that logged commands without
    effect have no effect when replayed (see C39). *)
Theorem C36_logged_partial cf evs y i c name args now unix rs D y' :
  let E := env_at cf now unix in
  ready cf evs y i c name args rs D → cf_aof cf = true → ¬ special name → (name = B "zadd" → scores_ok E args) →
  step cf (EvCommand i args now unix rs) y = Ok y' →
  (∃ D', changed_to y y' c D' ∧ purged E D D' ∧ not_logged y y') ∨
  (∃ t, log_text E name args = Some t ∧ y_file y' = y_file y ∧
     let sel := if s_select (y_srv y) =? Z.of_nat (c_db c) then [] else encode [B "select"; itoa (Z.of_nat (c_db c))] in
     s_aofbuf (y_srv y') = s_aofbuf (y_srv y) ++ sel ++ t ∧
     s_rwbuf (y_srv y') = s_rwbuf (y_srv y) ++ (if s_task (y_srv y) then sel ++ t else []) ∧
     s_select (y_srv y') = Z.of_nat (c_db c)).
Proof.
  intros E H Haof Hsp Hz HS.
  destruct (data_step cf evs y i c name args now unix rs D y' H Hsp HS) as (D' & r & n & Hs & Hch & Hrep & Hlog & Hd). fold E in Hs, Hd.
  pose proof H as [Hr Hc Hok (a & l & ar & Ha & Hname & Har & Hacc & Hperm) HD].
  destruct (decide (n = 0)) as [->|Hn].
  - left. exists D'. split; [done|]. split; [|by apply Hlog].
    destruct (sem_kinds _ _ _ _ _ Hs) as [Hk|Hk].
    + by destruct (sem_reads _ _ _ _ _ _ _ Hk Hs) as [_ Hp].
    + destruct (sem_writes E name ar args D D' r 0) as (key & _ & _ & _ & Hp & _); [|done..|by apply Hp].
      destruct Hk as [?|Hk]; [by left|]. right. split; [done|]. by apply Hz.
  - right. destruct Hd as [_ _ _ Hl Hf]. rewrite Haof in Hl. replace (n =? 0) with false in Hl by lia. cbn [negb andb] in Hl.
    destruct Hl as (a' & t & Ha' & Ht & Hlst). subst args. injection Ha' as <-. rewrite Hname in Ht.
    exists t. split; [done|]. split; [done|]. unfold lst, log_add in Hlst. cbn [l_select l_buf l_rw v_db] in Hlst.
    injection Hlst as -> -> Hrw. split; [done|]. split; [|done]. rewrite Hrw. destruct (s_task (y_srv y)); [done|]. by rewrite app_nil_r.
Qed.
Print Assumptions C36_logged_partial.
(** SELECT, AUTH, BGREWRITEAOF and rejected commands log nothing *)
Theorem C36_others cf evs y i c args now unix rs y' :
  reaches cf evs y → y_cls y !! i = Some c → cmd_ok cf evs args rs → step cf (EvCommand i args now unix rs) y = Ok y' →
  (∃ a l, args = a :: l ∧ special (lib_lower (cf_lib cf) a)) ∨ (∀ name, ¬ runs cf c name args) →
  not_logged y y' ∧ abs_dbs (y_srv y') = abs_dbs (y_srv y).
Proof.
  intros Hr Hc Hok HS Hx. destruct (command_step _ _ _ _ _ _ _ _ _ _ Hr Hc Hok HS) as (v' & r & n & Hd).
  pose proof (did_dbs _ _ _ _ _ _ _ _ _ _ Hd) as Hdbs. destruct Hd as [Ht _ _ Hl Hf].
  assert (Hn : n = 0 ∧ v_dbs v' = abs_dbs (y_srv y)).
  { inversion Ht; subst; try done. exfalso.
    match goal with H : allowed _ _ _ _ |- _ => destruct H as ((a & l & ar & -> & -> & Har & Hacc) & Hperm) end.
    destruct Hx as [(a' & l' & [= <- <-] & Hsp)|Hx].
    - match goal with H : sem _ _ _ _ _ |- _ => by apply sem_not_special in H end.
    - eapply Hx. by eexists _, _, _. }
  destruct Hn as [-> Hn]. rewrite andb_false_r in Hl. split; [by apply lst_not_logged|congruence].
Qed.
Print Assumptions C36_others.
Example C36_example : ∃ y c D, ready cf0 [EvConnect; cmd 0 5 "SELECT 2"; cmd 0 5 "SADD s a"; EvFlush] y 0 c (B "srem") (words "SREM s a b") [] D ∧
  ∃ y', step cf0 (EvCommand 0 (words "SREM s a b") 6 0 []) y = Ok y' ∧ s_aofbuf (y_srv y') = encode (words "SREM s a b").
Proof. eexists. eexists. eexists. split; [ready_tac|]. eexists. split; [vm_compute; reflexivity|]. by vm_compute. Qed.
(** ZADD z x m creates the key z and logs nothing *)
Theorem C36_zadd_refuted : ∃ y y1 D1, reaches cf0 [EvConnect] y ∧ step cf0 (cmd 0 5 "ZADD z x m") y = Ok y1 ∧
  abs_dbs (y_srv y1) !! 0%nat = Some D1 ∧ is_Some (a_keys D1 !! B "z") ∧ not_logged y y1 ∧ y_file y1 = [] ∧ s_aofbuf (y_srv y1) = [].
Proof.
  eexists. eexists. eexists. split; [reached|]. split; [vm_compute; reflexivity|]. split; [reflexivity|].
  split; [vm_compute; by eexists|]. split; [by vm_compute|]. done.
Qed.
Print Assumptions C36_zadd_refuted.
