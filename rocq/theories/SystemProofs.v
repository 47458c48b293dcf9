(** Invariant of reachable states, and one command in a reachable state. *)
From Verif Require Import Base Float DictModel DictProofs DictProofs2 DictProofs3 DictProofs4 DictRun
  DatabaseModel SetModel SetProofs QuicklistModel QuicklistProofs SkiplistModel ZsetModel
  Strconv RespSpec ServerModel CommandModel CommandSem CommandInv CommandInv2 CommandProofs1 CommandProofs2
  CommandTop CommandFrame SystemModel BootProofs.
From Coq Require Import ZifyBool ZifyNat.

(** * Background expiry *)
Section cron.
  Variable E : env.
  Lemma expire_rounds_spec N h : ∀ n db rs db' rs', db_ok N db → Forall (λ r, 0 ≤ r) rs →
    expire_rounds E n db rs = Ok (db', rs') →
    db_ok N db' ∧ Forall (λ r, 0 ≤ r) rs' ∧ purged E (abs_db h db) (abs_db h db') ∧ d_map (db_dict db') ⊆ d_map (db_dict db).
  Proof.
    induction n as [|n IH]; intros db rs db' rs' Hdb Hrs HR.
    { injection HR as <- <-. do 2 (split; [done|]). split; [apply purged_refl|done]. }
    cbn [expire_rounds] in HR. destruct Hdb as (I1 & I2 & S1 & S2). destruct I2 as [Hok Hit].
    destruct (GetRandomKey_spec Hash (db_expire db) rs Hok Hrs) as [G1 G2].
    destruct (decide (d_map (db_expire db) = ∅)) as [He|Hne].
    { rewrite (G1 He) in HR. cbn in HR. injection HR as <- <-. destruct db as [d x]. simpl in *.
      do 2 (split; [done|]). split; [apply purged_refl|done]. }
    destruct (G2 Hne) as [Ef|(x & key & when & rs1 & EG & Hk & Hok' & Hm & Hi' & _ & rs0 & ->)]; [by rewrite Ef in HR|].
    rewrite EG in HR. cbn [mbind res_bind] in HR. apply Forall_app in Hrs as [_ Hrs].
    assert (Ix : dinv x) by (split; [done|congruence]).
    destruct (Z.ltb_spec when (e_now E)) as [Hlt|Hge].
    - destruct (iDelete (db_dict db) key I1) as (d1 & e1 & ED1 & _ & Id1 & Hm1). rewrite ED1 in HR. cbn [mbind res_bind fst] in HR.
      destruct (iDelete x key Ix) as (x1 & e2 & ED2 & _ & Ix1 & Hm2). rewrite ED2 in HR. cbn [mbind res_bind fst] in HR.
      assert (Hdb1 : db_ok N (DB d1 x1)).
      { split_and!; simpl; try done; rewrite ?Hm1, ?Hm2, ?Hm; (etrans; [apply size_delete_le|done]). }
      apply IH in HR as (H1 & H2 & H3 & H4); [|done..]. split; [done|]. split; [done|]. split.
      + eapply purged_trans; [|exact H3]. replace (abs_db h (DB d1 x1)) with (purge E key (abs_db h db)); [apply purge_purged|].
        unfold purge. rewrite decide_True by (by exists when). unfold remove_key, abs_db. simpl.
        by rewrite Hm1, Hm2, Hm, fmap_delete.
      + simpl in H4. rewrite Hm1 in H4. etrans; [exact H4|]. apply delete_subseteq.
    - assert (Hdb1 : db_ok N (DB (db_dict db) x)) by (split_and!; simpl; try done; by rewrite Hm).
      apply IH in HR as (H1 & H2 & H3 & H4); [|done..]. do 2 (split; [done|]). split; [|done].
      eapply purged_trans; [|exact H3]. replace (abs_db h (DB (db_dict db) x)) with (abs_db h db); [apply purged_refl|].
      unfold abs_db. simpl. by rewrite Hm.
  Qed.
  Lemma databasesCron_cons db dbs rs : databasesCron E (db :: dbs) rs =
    (r ← expire_rounds E checkExpireEntryCount db rs; r' ← databasesCron E dbs r.2; Ok (r.1 :: r'.1, r'.2)).
  Proof. reflexivity. Qed.
  Lemma bind_inv {A B} (m : res A) (f : A → res B) b : m ≫= f = Ok b → ∃ a, m = Ok a ∧ f a = Ok b.
  Proof. destruct m; [|done..]. eauto. Qed.
  Lemma databasesCron_spec N h : ∀ dbs rs dbs' rs', Forall (db_ok N) dbs → Forall (λ r, 0 ≤ r) rs →
    databasesCron E dbs rs = Ok (dbs', rs') →
    Forall (db_ok N) dbs' ∧ Forall2 (purged E) (abs_db h <$> dbs) (abs_db h <$> dbs') ∧
    Forall2 (λ db db', d_map (db_dict db') ⊆ d_map (db_dict db)) dbs dbs'.
  Proof.
    induction dbs as [|db dbs IH]; intros rs dbs' rs' Hdbs Hrs HR.
    { injection HR as <- <-. by repeat constructor. }
    rewrite databasesCron_cons in HR. apply Forall_cons in Hdbs as [Hdb Hdbs].
    apply bind_inv in HR as ([db1 rs1] & E1 & HR). apply bind_inv in HR as ([dbs1 rs2] & E2 & HR).
    injection HR as <- <-. apply (expire_rounds_spec N h) in E1 as (H1 & H2 & H3 & H4); [|done..].
    apply IH in E2 as (H5 & H6 & H7); [|done..]. split; [by constructor|]. split; by constructor.
  Qed.
  Lemma expire_rounds_no_panic N : ∀ n db rs, db_ok N db → Forall (λ r, 0 ≤ r) rs → expire_rounds E n db rs ≠ Panic.
  Proof.
    induction n as [|n IH]; intros db rs Hdb Hrs; [done|]. cbn [expire_rounds].
    destruct Hdb as (I1 & I2 & S1 & S2). destruct I2 as [Hok Hit].
    destruct (GetRandomKey_spec Hash (db_expire db) rs Hok Hrs) as [G1 G2].
    destruct (decide (d_map (db_expire db) = ∅)) as [He|Hne]; [by rewrite (G1 He)|].
    destruct (G2 Hne) as [->|(x & key & when & rs1 & -> & Hk & Hok' & Hm & Hi' & _ & rs0 & ->)]; [done|].
    cbn [mbind res_bind]. apply Forall_app in Hrs as [_ Hrs].
    assert (Ix : dinv x) by (split; [done|congruence]).
    destruct (Z.ltb_spec when (e_now E)).
    - destruct (iDelete (db_dict db) key I1) as (d1 & e1 & -> & _ & Id1 & Hm1). cbn [mbind res_bind fst].
      destruct (iDelete x key Ix) as (x1 & e2 & -> & _ & Ix1 & Hm2). cbn [mbind res_bind fst].
      apply IH; [|done]. split_and!; simpl; try done; rewrite ?Hm1, ?Hm2, ?Hm; (etrans; [apply size_delete_le|done]).
    - apply IH; [|done]. split_and!; simpl; try done. by rewrite Hm.
  Qed.
  Lemma databasesCron_no_panic N : ∀ dbs rs, Forall (db_ok N) dbs → Forall (λ r, 0 ≤ r) rs → databasesCron E dbs rs ≠ Panic.
  Proof.
    induction dbs as [|db dbs IH]; intros rs Hdbs Hrs; [done|]. rewrite databasesCron_cons. apply Forall_cons in Hdbs as [Hdb Hdbs].
    pose proof (expire_rounds_no_panic N checkExpireEntryCount db rs Hdb Hrs) as Hnp.
    generalize checkExpireEntryCount, Hnp. clear Hnp. intros k Hnp.
    destruct (expire_rounds E k db rs) as [[db1 rs1]| |] eqn:E1; [|done..]. cbn [mbind res_bind fst snd].
    apply (expire_rounds_spec N []) in E1 as (_ & H2 & _); [|done..]. specialize (IH rs1 Hdbs H2).
    by destruct (databasesCron E dbs rs1).
  Qed.
End cron.

(** * Invariant *)
Definition client_ok (s : server) (c : client) : Prop :=
  (c_db c < length (s_dbs s))%nat ∧ Forall (λ o, o ≠ []) (c_out c).
Record sys_ok (cf : config) (N : nat) (y : sys) : Prop := {
  yo_srv : srv_ok N (y_srv y);
  yo_len : length (s_dbs (y_srv y)) = cf_dbs cf;
  yo_cls : Forall (client_ok (y_srv y)) (y_cls y)
}.
Lemma sys_ok_mono cf N N' y : (N ≤ N')%nat → sys_ok cf N y → sys_ok cf N' y.
Proof. intros HN [H1 H2 H3]. split; try done. by eapply srv_ok_mono. Qed.
Lemma init_ok cf : (0 < cf_dbs cf)%nat → sys_ok cf 0 (init_sys cf).
Proof. intros Hn. split; simpl; [apply new_server_ok|by rewrite replicate_length|done]. Qed.

Lemma abs_dbs_len s : length (abs_dbs s) = length (s_dbs s).
Proof. unfold abs_dbs. by rewrite fmap_length. Qed.

(** one command in a state that satisfies the invariant *)
Definition view_at (y : sys) (c : client) : view := V (abs_dbs (y_srv y)) (c_db c) (c_auth c).
Lemma client_world cf N y i c rs : sys_ok cf N y → y_cls y !! i = Some c → Forall (λ r, 0 ≤ r) rs →
  w_ok N (W (y_srv y) c rs).
Proof.
  intros Hy Hc Hrs. destruct Hy as [H1 H2 H3]. destruct (Forall_lookup_1 _ _ _ _ H3 Hc) as [H4 H5]. by split.
Qed.
Lemma room_total N args : Z.of_nat (N + length args) < 2 ^ 42 → CommandProofs1.room N args.
Proof. unfold CommandProofs1.room, small, max_entries. lia. Qed.

Lemma top_dbs_len E args task v v' r n : top E args task v (Ok (v', r, n)) → length (v_dbs v') = length (v_dbs v).
Proof.
  intros H. inversion H; subst; try done.
  match goal with H : on_view _ _ = _ |- _ => unfold on_view in H; rename H into HE end.
  destruct ro as [[D' r' n']| |]; try done. cbn in HE. injection HE as <- _ _. simpl. by rewrite insert_length.
Qed.
Lemma step_ok cf e y y' N : sys_ok cf N y → (0 < cf_dbs cf)%nat → event_ok cf e → Z.of_nat (N + event_size e) < 2 ^ 42 →
  step cf e y = Ok y' → sys_ok cf (N + event_size e) y'.
Proof.
  intros Hy Hcf He HN HS. assert (HyM : sys_ok cf (N + event_size e) y) by (eapply sys_ok_mono; [|done]; lia).
  destruct e as [|i args now unix rs|i n|now rs| | |dump|file clock rs]; cbn [step] in HS.
  - injection HS as <-. destruct HyM as [H1 H2 H3]. split; try done. simpl. apply Forall_app. split; [done|].
    apply Forall_singleton. split; simpl; [lia|done].
  - destruct (y_cls y !! i) as [c|] eqn:Hc; [|by injection HS as <-]. destruct He as [Ha Hrs].
    pose proof (client_world cf N y i c rs Hy Hc Hrs) as Hw.
    destruct (processCommand_top (env_at cf now unix) N _ args Hw Ha) as (o & Ht & HT); [by apply room_total|].
    simpl in HS. destruct (processCommand (env_at cf now unix) args (W (y_srv y) c rs)) as [[w' []]| |]; try done.
    injection HS as <-. destruct o as [[[v' r] n]| |]; try done.
    destruct HT as (w1 & [= <-] & Hw' & Hv & _). apply top_dbs_len in Ht.
    rewrite <-Hv in Ht. unfold view_of in Ht. simpl in Ht. rewrite !abs_dbs_len in Ht.
    destruct HyM as [H1 H2 H3]. split; simpl; [apply Hw'|congruence|]. apply Forall_insert.
    + eapply Forall_impl; [exact H3|]. intros c' [? ?]. split; [lia|done].
    + split; [apply Hw'|]. apply Hw'.
  - destruct (y_cls y !! i) as [c|] eqn:Hc; [|by injection HS as <-]. injection HS as <-.
    destruct HyM as [H1 H2 H3]. split; simpl; try done. apply Forall_insert; [done|].
    destruct (Forall_lookup_1 _ _ _ _ H3 Hc) as [H4 H5]. split; [done|]. simpl. by apply Forall_drop.
  - destruct (databasesCron (env_at cf now 0) (s_dbs (y_srv y)) rs) as [[dbs' rs']| |] eqn:EC; try done.
    injection HS as <-. destruct HyM as [[S1 S2 S3 [R1 R2]] H2 H3].
    pose proof (databasesCron_spec _ _ (s_heap (y_srv y)) _ _ _ _ S1 He EC) as (H5 & _ & H6).
    assert (Hl : length dbs' = length (s_dbs (y_srv y))) by (by rewrite (Forall2_length _ _ _ H6)).
    assert (Hh : ∀ i k o, holds dbs' i k o → holds (s_dbs (y_srv y)) i k o).
    { intros i k o (db' & Hi & Hk). destruct (Forall2_lookup_r _ _ _ _ _ H6 Hi) as (db & Hi' & Hsub).
      exists db. split; [done|]. by eapply lookup_weaken. }
    split; simpl; [|lia|].
    + split; simpl; try done. split; [intros i k o Ho; by eapply R1, Hh|]. intros i k o i' k' Ho Ho'.
      eapply R2; by apply Hh.
    + eapply Forall_impl; [exact H3|]. intros c [? ?]. split; simpl; [lia|done].
  - injection HS as <-. destruct HyM as [[S1 S2 S3 S4] H2 H3]. by split.
  - unfold rewriteAppendOnlyFileBackground in HS. destruct (s_task (y_srv y)).
    { injection HS as <-. by destruct y. }
    destruct HyM as [[S1 S2 S3 S4] H2 H3].
    destruct (copy_dbs_spec _ (s_dbs (y_srv y)) S1) as (snap & EC & _); [unfold small, max_entries; simpl in *; lia|].
    rewrite EC in HS. cbn in HS. injection HS as <-. by split.
  - destruct (s_task (y_srv y)); [|by injection HS as <-]. injection HS as <-.
    destruct HyM as [[S1 S2 S3 S4] H2 H3]. by split.
  - destruct He as [Hrec Hrs]. simpl in HN. destruct (cf_aof cf).
    + destruct (restart cf clock file rs) as [w [[]| |]] eqn:ER; [|done..]. cbn [fst snd mbind res_bind] in HS. injection HS as <-.
      apply restart_ok in ER as (Hw & Hl & _); [|done..|lia]. split; simpl; [|done..]. eapply srv_ok_mono; [|apply Hw]. lia.
    + injection HS as <-. split; simpl; [|by rewrite replicate_length|done]. eapply srv_ok_mono; [|apply new_server_ok]. lia.
Qed.
Lemma run_ok cf : ∀ evs y y' N, sys_ok cf N y → (0 < cf_dbs cf)%nat → Forall (event_ok cf) evs →
  Z.of_nat (N + total evs) < 2 ^ 42 → run cf evs y = Ok y' → sys_ok cf (N + total evs) y'.
Proof.
  induction evs as [|e evs IH]; intros y y' N Hy Hcf He HN HR.
  { injection HR as <-. unfold total. simpl. by rewrite Nat.add_0_r. }
  apply Forall_cons in He as [He Hes]. cbn [run] in HR.
  change (total (e :: evs)) with (event_size e + total evs)%nat in *.
  destruct (step cf e y) as [y1| |] eqn:ES; try done. cbn in HR.
  apply (step_ok cf e y y1 N) in ES; [|done..|lia]. rewrite Nat.add_assoc. eapply IH; try done. lia.
Qed.
Lemma reaches_ok cf evs y : reaches cf evs y → sys_ok cf (total evs) y.
Proof.
  intros [(H1 & H2 & H3) HR]. eapply (run_ok cf evs _ y 0); try done. by apply init_ok.
Qed.
Lemma total_app evs evs' : total (evs ++ evs') = (total evs + total evs')%nat.
Proof. unfold total. by rewrite fmap_app, sum_list_with_app || (rewrite fmap_app; induction evs; simpl; lia). Qed.
(** the log state of a server that has just been started *)
Lemma boot_lst cf evs file clock rs y y' : history_ok cf (evs ++ [EvBoot file clock rs]) → step cf (EvBoot file clock rs) y = Ok y' →
  lst (y_srv y') = LS 0 [] [] ∧ y_cls y' = [] ∧ y_file y' = file.
Proof.
  intros (Hev & Hpos & Htot) HS. rewrite total_app in Htot. apply Forall_app in Hev as [_ Hev]. apply Forall_cons in Hev as [[Hrec Hrs] _].
  cbn [step] in HS. destruct (cf_aof cf); [|by injection HS as <-].
  destruct (restart cf clock file rs) as [w [[]| |]] eqn:ER; [|done..]. cbn [fst snd mbind res_bind] in HS. injection HS as <-.
  apply restart_ok in ER as (_ & _ & Hl); [done|done..|]. unfold total in Htot. simpl in Htot. lia.
Qed.

(** ** One command in a reachable state *)
Definition cmd_ok (cf : config) (evs : list event) (args : list bytes) (rs : list Z) : Prop :=
  args ≠ [] ∧ Forall (λ r, 0 ≤ r) rs ∧ Z.of_nat (total evs + length args) < 2 ^ 42.
Theorem command_top cf evs y i c args now unix rs :
  reaches cf evs y → y_cls y !! i = Some c → cmd_ok cf evs args rs →
  ∃ o, top (env_at cf now unix) args (s_task (y_srv y)) (view_at y c) o ∧
       tends (env_at cf now unix) (total evs + length args) args (W (y_srv y) c rs)
         (processCommand (env_at cf now unix) args (W (y_srv y) c rs)) o.
Proof.
  intros Hr Hc (Ha & Hrs & HN). apply reaches_ok in Hr as Hy.
  apply (processCommand_top (env_at cf now unix) (total evs) (W (y_srv y) c rs) args); [|done|by apply room_total].
  by eapply client_world.
Qed.
