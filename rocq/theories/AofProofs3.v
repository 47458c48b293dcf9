(** Executing logged commands on another server: the effect of one command does
    not depend on the clock as long as no deadline passes. *)
From Verif Require Import Base Float DictModel DictProofs DictProofs2 DatabaseModel SetModel QuicklistModel SkiplistModel
  SkiplistProofs SkiplistProofs2 SkiplistProofs3 SkiplistProofs4 SkiplistProofs5 ZsetModel ZsetProofs
  Strconv RespSpec ServerModel CommandModel CommandSem CommandInv CommandInv2 CommandProofs1 CommandProofs2
  CommandTop CommandFrame SystemModel SystemProofs CommandFacts PropsZset PropsSkiplist ZcmdProofs SafeProofs PropsData AofModel AofProofs1 AofProofs2 RndFrame.
From Coq Require Import ZifyBool ZifyNat.

(** ** One logged command *)
Lemma exec_run E N w a l ar :
  let name := lib_lower (e_lib E) a in
  w_ok N w → (name, ar) ∈ arities → accepts ar (zlen (a :: l)) → ¬ special name → room N (a :: l) →
  ∃ D ro, abs_dbs (w_srv w) !! c_db (w_cl w) = Some D ∧ sem E name (a :: l) D ro ∧
    match ro with
    | Ok (Out D' r n) => ∃ w', exec_logged E (a :: l) w = Ok (w', tt) ∧ w_ok (N + length (a :: l)) w' ∧
        abs_dbs (w_srv w') = <[c_db (w_cl w) := D']> (abs_dbs (w_srv w)) ∧ c_db (w_cl w') = c_db (w_cl w)
    | Panic => exec_logged E (a :: l) w = Panic
    | OutOfFuel => exec_logged E (a :: l) w = OutOfFuel
    end.
Proof.
  intros name Hw Har Hacc Hsp Hroom. destruct (cur_view N w Hw) as (D & HD & Ha). exists D.
  unfold exec_logged. rewrite (bind_ok _ _ _ _ _ (arg_run (a :: l) 0 a w eq_refl)). fold name.
  unfold lookupCommand. destruct (list_find (λ c, cmd_name c = name) (commandTable E)) as [[i cmd]|] eqn:EF.
  2:{ exfalso. apply list_find_None in EF. rewrite Forall_forall in EF. rewrite <-(arities_ok E) in Har.
      apply elem_of_list_fmap in Har as (c & [= Hn _] & Hc). by apply (EF c Hc). }
  apply list_find_Some in EF as (Hi & Hn & _). cbn [fmap option_fmap option_map snd].
  assert (Hin : cmd ∈ commandTable E) by (by eapply elem_of_list_lookup_2).
  assert (Har' : (name, cmd_arity cmd) ∈ arities).
  { rewrite <-(arities_ok E). apply elem_of_list_fmap. exists cmd. by rewrite Hn. }
  rewrite (arities_fun _ _ _ Har Har') in Hacc. apply accepts_bad in Hacc.
  pose proof (data_table E) as HT. rewrite Forall_forall in HT.
  destruct (HT cmd Hin) as [(R & HR & Href & _)|Hs].
  - destruct (Href _ _ _ _ _ Hacc Ha Hroom) as (ro & Hro & Hend). exists ro. split; [done|].
    split; [exists R; by rewrite Hn in HR|]. destruct ro as [[D' r n]| |]; [|done..].
    destruct Hend as (w' & E1 & Ha'). exists w'. split; [done|]. split; [apply Ha'|]. split; [apply Ha'|apply Ha'].
  - exfalso. apply Hsp. rewrite <-Hn. unfold special. destruct Hs as [->|[->| ->]]; simpl; by auto.
Qed.
Lemma exec_select E N w (db : nat) : lib_lower (e_lib E) (B "select") = B "select" → w_ok N w →
  (db < length (s_dbs (w_srv w)))%nat → in_int64 (Z.of_nat db) →
  ∃ w', exec_logged E [B "select"; itoa (Z.of_nat db)] w = Ok (w', tt) ∧ w_ok N w' ∧
    abs_dbs (w_srv w') = abs_dbs (w_srv w) ∧ c_db (w_cl w') = db.
Proof.
  intros Hlow Hw Hdb Hint. unfold exec_logged.
  rewrite (bind_ok _ _ _ _ _ (arg_run [B "select"; itoa (Z.of_nat db)] 0 (B "select") w eq_refl)). rewrite Hlow.
  change (lookupCommand E (B "select")) with (Some (Cmd (B "select") (selectCommand E) 2)). cbn [cmd_proc]. unfold selectCommand.
  rewrite (bind_ok _ _ _ _ _ (arg_run [B "select"; itoa (Z.of_nat db)] 1 (itoa (Z.of_nat db)) w eq_refl)).
  rewrite Atoi_itoa by done. rewrite (bind_ok get_srv _ w w (w_srv w) eq_refl).
  rewrite (proj2 (Z.leb_gt _ _)) by (unfold zlen; lia). rewrite (proj2 (Z.ltb_ge _ _)) by lia.
  rewrite (bind_ok get_cl _ w w (w_cl w) eq_refl).
  destruct (tends_client E N [] w (Cl (Z.to_nat (Z.of_nat db)) (c_auth (w_cl w)) (c_out (w_cl w))) addReplyOK ROK) as (w' & E1 & Hw' & Hv & _); try done; [|apply rOK|].
  { simpl. lia. }
  exists w'. split; [done|]. split; [done|]. unfold view_of in Hv. injection Hv as H1 H2 H3. split; [done|]. rewrite H2. simpl. lia.
Qed.

(** ZADD takes the levels of the new nodes from the random source *)
Lemma exec_zadd E N w a l : lib_lower (e_lib E) a = B "zadd" → w_ok N w → accepts (-4) (zlen (a :: l)) → room N (a :: l) →
  ∃ D, abs_dbs (w_srv w) !! c_db (w_cl w) = Some D ∧
    match zadd_out E (a :: l) (w_rnd w) D with
    | Ok (Out D' r n) => ∃ w', exec_logged E (a :: l) w = Ok (w', tt) ∧ w_ok (N + length (a :: l)) w' ∧
        abs_dbs (w_srv w') = <[c_db (w_cl w) := D']> (abs_dbs (w_srv w)) ∧ c_db (w_cl w') = c_db (w_cl w)
    | _ => True
    end.
Proof.
  intros Hn Hw Hacc Hroom. destruct (cur_view N w Hw) as (D & HD & Ha). exists D. split; [done|].
  apply accepts_bad in Hacc. pose proof (zadd_run E (a :: l) w N D w Hacc Ha Hroom) as Hend.
  destruct (zadd_out E (a :: l) (w_rnd w) D) as [[D' r n]| |]; try done. destruct Hend as (w' & E1 & Ha').
  exists w'. split; [|split; [apply Ha'|split; apply Ha']].
  unfold exec_logged. rewrite (bind_ok _ _ _ _ _ (arg_run (a :: l) 0 a w eq_refl)). by rewrite Hn, zadd_cmd.
Qed.

(** ** Databases that differ in the fractions of a second of their deadlines and in the
    levels of the nodes of their skiplists *)
Definition near (T T' : Z) : Prop := T' = T / 1000 * 1000.
(** equal, except that the nodes of a sorted set may have other levels: two sorted
    sets have the same members with the same scores, and the skiplist of each lists
    exactly these, in order *)
Definition alike (v v' : aval) : Prop :=
  match v, v' with
  | AZset m s, AZset m' s' => m = m' ∧ tame m s ∧ tame m' s'
  | _, _ => v = v'
  end.
(** [nr] relates the deadlines *)
Definition simr (nr : Z → Z → Prop) (D D' : adb) : Prop :=
  (∀ k, option_Forall2 alike (a_keys D !! k) (a_keys D' !! k)) ∧ ∀ k, option_Forall2 nr (a_ttl D !! k) (a_ttl D' !! k).
(** [D'] has the deadlines of [D], rounded down to whole seconds *)
Notation sim := (simr near).
(** no deadline before [H] *)
Definition fresh (H : Z) (D : adb) : Prop := ∀ k T, a_ttl D !! k = Some T → H ≤ T.

Lemma fresh_not_expired H E D k : fresh H D → e_now E ≤ H → ¬ expired E D k.
Proof. intros HF HE (T & HT & Hlt). specialize (HF k T HT). lia. Qed.
Lemma fresh_purge H E D k : fresh H D → e_now E ≤ H → purge E k D = D.
Proof. intros HF HE. apply purge_id. by eapply fresh_not_expired. Qed.
Lemma fresh_purged H E D D' : fresh H D → e_now E ≤ H → purged E D D' → D' = D.
Proof.
  intros HF HE (X & HX & ->). assert (X = ∅) as ->.
  { apply elem_of_equiv_empty_L. intros k Hk. by eapply fresh_not_expired, HX. }
  apply drop_keys_empty.
Qed.
Lemma sim_fresh H D D' : sim D D' → fresh H D' → fresh H D.
Proof.
  intros [_ Hs] HF k T HT. specialize (Hs k). rewrite HT in Hs. inversion Hs as [? T' Hn E1 E2|]; subst.
  specialize (HF k T' (eq_sym E2)). unfold near in Hn. lia.
Qed.
Lemma alike_insert (m m' : gmap bytes aval) key v v' : (∀ k, option_Forall2 alike (m !! k) (m' !! k)) → alike v v' →
  ∀ k, option_Forall2 alike (<[key := v]> m !! k) (<[key := v']> m' !! k).
Proof.
  intros Hm Hv k. destruct (decide (k = key)) as [->|Hk]; [rewrite !lookup_insert; by constructor|]. by rewrite !lookup_insert_ne by done.
Qed.
Lemma sim_put nr key v v' D D' : simr nr D D' → alike v v' → simr nr (put_val key v D) (put_val key v' D').
Proof. intros [H1 H2] Hv. split; [|done]. simpl. by apply alike_insert. Qed.
Definition no_zset (v : aval) : Prop := match v with AZset _ _ => False | _ => True end.
Lemma alike_refl v : no_zset v → alike v v.
Proof. by destruct v. Qed.
Lemma alike_eq v v' : no_zset v → alike v v' → v' = v.
Proof. by destruct v, v'. Qed.
Lemma alike_eq' v v' : no_zset v' → alike v v' → v' = v.
Proof. by destruct v, v'. Qed.
Lemma sim_refl D : tame_db D → simr eq D D.
Proof.
  intros Ht. split; intros k.
  - destruct (a_keys D !! k) as [v|] eqn:Hk; constructor. destruct v; try done. cbn. pose proof (Ht _ _ _ Hk). done.
  - by destruct (a_ttl D !! k); constructor.
Qed.
Lemma sim_tame D D' : sim D D' → tame_db D'.
Proof.
  intros [Hs _] k m s Hk. specialize (Hs k). rewrite Hk in Hs. inversion Hs as [v ? Hv|]; subst. destruct v; try done. cbn in Hv. by destruct Hv as (-> & _ & ?).
Qed.
Lemma sim_join D1 D2 D3 : sim D1 D2 → sim D1 D3 → sim D2 D3.
Proof.
  intros [K2 T2] [K3 T3]. split; intros k.
  - specialize (K2 k). specialize (K3 k). destruct K2 as [v1 v2 H2|]; [|by inversion K3; constructor].
    inversion K3 as [? v3 H3|]; subst. constructor. destruct v1, v2, v3; cbn in *; naive_solver.
  - specialize (T2 k). specialize (T3 k). destruct T2 as [v1 v2 H2|]; [|by inversion T3; constructor].
    inversion T3 as [? v3 H3|]; subst. constructor. unfold near in *. subst. by rewrite Z.div_mul.
Qed.
Lemma sim_trans D1 D2 D3 : sim D1 D2 → sim D2 D3 → sim D1 D3.
Proof.
  intros [K2 T2] [K3 T3]. split; intros k.
  - specialize (K2 k). specialize (K3 k). destruct K2 as [v1 v2 H2|]; [|by inversion K3; constructor].
    inversion K3 as [? v3 H3|]; subst. constructor. destruct v1, v2, v3; cbn in *; naive_solver.
  - specialize (T2 k). specialize (T3 k). destruct T2 as [v1 v2 H2|]; [|by inversion T3; constructor].
    inversion T3 as [? v3 H3|]; subst. constructor. unfold near in *. subst. by rewrite Z.div_mul.
Qed.
(** the sorted sets of [D] are those of a server *)
Definition zknown (D : adb) : Prop := ∀ key m s, a_keys D !! key = Some (AZset m s) → ∃ N z, held N m s z ∧ Z.of_nat N ≤ 2 ^ 44.
Lemma world_zknown N w db D : w_ok N w → Z.of_nat N ≤ 2 ^ 44 → abs_dbs (w_srv w) !! db = Some D → zknown D.
Proof.
  intros [[_ Hh _ _] _] HN HD key m s Hk. unfold abs_dbs in HD. rewrite list_lookup_fmap in HD.
  destruct (s_dbs (w_srv w) !! db) as [d|]; [|done]. injection HD as <-. simpl in Hk. rewrite lookup_fmap in Hk.
  destruct (d_map (db_dict d) !! key) as [[|o]|]; try done. simpl in Hk. destruct (s_heap (w_srv w) !! o) as [x|] eqn:Hx; [|done].
  pose proof (Forall_lookup_1 _ _ _ _ Hh Hx) as Ho. destruct x as [| | |z]; try done. simpl in Hk. injection Hk as <- <-. by exists N, z.
Qed.
(** what [careful] asks of a command *)
Definition zcare (lib : lib) (name : bytes) (args : list bytes) (D : adb) : Prop :=
  match args with
  | _ :: key :: l => ∀ m, zset_at D key = Some m → zset_careful lib name l m (is_Some (a_keys D !! key))
  | _ => True
  end.
Lemma fresh_put H key v D : fresh H D → fresh H (put_val key v D).
Proof. done. Qed.

Lemma option_near_insert (nr : Z → Z → Prop) (m m' : gmap bytes Z) key T T' : (∀ k, option_Forall2 nr (m !! k) (m' !! k)) → nr T T' →
  ∀ k, option_Forall2 nr (<[key := T]> m !! k) (<[key := T']> m' !! k).
Proof.
  intros Hm HT k. destruct (decide (k = key)) as [->|Hk]; [rewrite !lookup_insert; by constructor|].
  by rewrite !lookup_insert_ne by done.
Qed.
Lemma option_near_delete (nr : Z → Z → Prop) (m m' : gmap bytes Z) key : (∀ k, option_Forall2 nr (m !! k) (m' !! k)) →
  ∀ k, option_Forall2 nr (delete key m !! k) (delete key m' !! k).
Proof.
  intros Hm k. destruct (decide (k = key)) as [->|Hk]; [rewrite !lookup_delete; by constructor|].
  by rewrite !lookup_delete_ne by done.
Qed.
Section logged.
  Variables (nr : Z → Z → Prop) (H : Z) (E E' : env).
  Local Notation sim := (simr nr).
  Hypotheses (Hlib : e_lib E = e_lib E') (HE : e_now E ≤ H) (HE' : e_now E' ≤ H).
  (** the command does the same in [E] and [E'] *)
  Definition same_effect (args : list bytes) (R R' : list bytes → adb → res outcome → Prop) : Prop := ∀ D1 D2 D1' r n o,
    sim D1 D2 → fresh H D1 → fresh H D2 → R args D1 (Ok (Out D1' r n)) → R' args D2 o →
    ∃ D2', o = Ok (Out D2' r n) ∧ sim D1' D2' ∧ fresh H D2'.
  Definition flat_kind {X} (k : akind X) : Prop := (∀ m s, ak_out k (AZset m s) = None) ∧ ∀ x, no_zset (ak_in k x).
  Lemma alike_out {X} (k : akind X) v v' : flat_kind k → alike v v' → ak_out k v' = ak_out k v.
  Proof.
    intros [Hk _] Hv. destruct v, v'; try done; cbn in Hv; [by injection Hv as ->..|by rewrite !Hk].
  Qed.
  Lemma existing_same {X} (k : akind X) key none f D1 D2 D1' r n : flat_kind k → sim D1 D2 → fresh H D1 → fresh H D2 →
    on_existing k E key none f D1 = Ok (Out D1' r n) →
    ∃ D2', on_existing k E' key none f D2 = Ok (Out D2' r n) ∧ sim D1' D2' ∧ fresh H D2'.
  Proof.
    intros Hfk Hs HF1 HF2. unfold on_existing. rewrite !(fresh_purge H) by done. pose proof Hs as [Hk Ht]. specialize (Hk key).
    destruct Hk as [v v' Hv|]; [|intros [= <- <- <-]; by eexists]. rewrite (alike_out k v v' Hfk Hv).
    destruct (ak_out k v) as [x|]; [|intros [= <- <- <-]; by eexists].
    destruct (f x) as [[[x' r'] n']| |]; [|done..]. cbn [mbind res_bind]. intros [= <- <- <-]. eexists. split; [done|].
    split; [apply sim_put; [done|]; apply alike_refl, Hfk|done].
  Qed.
  Lemma new_same {X} (k : akind X) wrong key f D1 D2 D1' r n : flat_kind k → sim D1 D2 → fresh H D2 →
    on_new k wrong key f D1 = Ok (Out D1' r n) →
    ∃ D2', on_new k wrong key f D2 = Ok (Out D2' r n) ∧ sim D1' D2' ∧ fresh H D2'.
  Proof.
    intros Hfk Hs HF. unfold on_new. pose proof Hs as [Hk Ht]. specialize (Hk key).
    destruct Hk as [v v' Hv|].
    - rewrite (alike_out k v v' Hfk Hv). destruct (ak_out k v) as [x|]; [|intros [= <- <- <-]; by eexists].
      destruct (f x) as [[[x' r'] n']| |]; [|done..]. cbn [mbind res_bind]. intros [= <- <- <-]. eexists. split; [done|].
      split; [apply sim_put; [done|]; apply alike_refl, Hfk|done].
    - destruct (f (ak_new k)) as [[[x' r'] n']| |]; [|done..]. cbn [mbind res_bind]. intros [= <- <- <-]. eexists. split; [done|].
      split; [apply sim_put; [done|]; apply alike_refl, Hfk|done].
  Qed.
  (** sorted sets *)
  Lemma zexisting_same key none f D1 D2 D1' r n : sim D1 D2 → fresh H D1 → fresh H D2 → zknown D1 → zknown D2 →
    (∀ m s1 s2 N1 z1 N2 z2 x1, a_keys D1 !! key = Some (AZset m s1) → held N1 m s1 z1 → Z.of_nat N1 ≤ 2 ^ 44 → tame m s1 →
       held N2 m s2 z2 → Z.of_nat N2 ≤ 2 ^ 44 → tame m s2 → f (m, s1) = Ok (x1, r, n) →
       ∃ x2, f (m, s2) = Ok (x2, r, n) ∧ x2.1 = x1.1 ∧ tame x1.1 x1.2 ∧ tame x1.1 x2.2) →
    on_existing AKZset E key none f D1 = Ok (Out D1' r n) →
    ∃ D2', on_existing AKZset E' key none f D2 = Ok (Out D2' r n) ∧ sim D1' D2' ∧ fresh H D2'.
  Proof.
    intros Hs HF1 HF2 HZ1 HZ2 Hf. unfold on_existing. rewrite !(fresh_purge H) by done. pose proof Hs as [Hk Ht]. specialize (Hk key).
    remember (a_keys D1 !! key) as o1 eqn:E1. remember (a_keys D2 !! key) as o2 eqn:E2.
    destruct Hk as [v v' Hv|]; [|intros [= <- <- <-]; by eexists].
    destruct v as [| | | |m s1]; try (apply alike_eq in Hv; [|done]; subst v'; cbn; intros [= <- <- <-]; by eexists).
    destruct v' as [| | | |m2 s2]; try done. cbn in Hv. destruct Hv as (<- & Ht1 & Ht2). cbn [ak_out AKZset].
    destruct (HZ1 _ _ _ (eq_sym E1)) as (N1 & z1 & Hh1 & HN1). destruct (HZ2 _ _ _ (eq_sym E2)) as (N2 & z2 & Hh2 & HN2).
    destruct (f (m, s1)) as [[[x' r'] n']| |] eqn:Ef; [|done..]. cbn [mbind res_bind]. intros [= <- <- <-].
    destruct (Hf m s1 s2 N1 z1 N2 z2 x') as (x2 & -> & Hx & T1 & T2); try done. cbn [mbind res_bind]. eexists. split; [done|].
    split; [|done]. apply sim_put; [done|]. cbn. rewrite Hx. done.
  Qed.

  Lemma fresh_insert keys (m : gmap bytes Z) key T : (∀ k T, m !! k = Some T → H ≤ T) → H ≤ T → fresh H (ADB keys (<[key := T]> m)).
  Proof. intros Hm HT k T' Hk. simpl in Hk. apply lookup_insert_Some in Hk as [[-> <-]|[_ Hk]]; [done|by eapply Hm]. Qed.
  Lemma fresh_delete keys (m : gmap bytes Z) key : (∀ k T, m !! k = Some T → H ≤ T) → fresh H (ADB keys (delete key m)).
  Proof. intros Hm k T' Hk. simpl in Hk. apply lookup_delete_Some in Hk as [_ Hk]. by eapply Hm. Qed.

  Lemma set_same args : same_effect args sem_set sem_set.
  Proof.
    intros D1 D2 D1' r n o Hs HF1 HF2 H1 H2. unfold sem_set, fn in *. destruct args as [|a0 [|key [|v l]]]; try done.
    injection H1 as <- <- <-. injection H2 as <-. eexists. split; [done|]. destruct Hs as [Hk Ht]. split.
    - split; simpl; [by apply alike_insert|by apply option_near_delete].
    - by apply fresh_delete.
  Qed.
  (** the other commands that count changes, except SPOP and ZADD *)
  Definition plain (name : bytes) : Prop := name ∈ [B "set"; B "hset"; B "hdel"; B "lpush"; B "rpush"; B "lpop"; B "rpop";
    B "sadd"; B "srem"; B "zrem"; B "zremrangebyrank"; B "zremrangebyscore"].
  Ltac same := intros H1 H2; unfold fn in *;
    repeat match goal with H : match ?args with [] => _ | _ :: _ => _ end = Some _ |- _ => destruct args; try done end;
    injection H1 as H1; injection H2 as <-.
  Lemma num_err_same what f a : num_err E what f a = num_err E' what f a.
  Proof. unfold num_err. by rewrite Hlib. Qed.
  Lemma flat_hash : flat_kind AKHash. Proof. by split. Qed.
  Lemma flat_list : flat_kind AKList. Proof. by split. Qed.
  Lemma flat_set : flat_kind AKSet. Proof. by split. Qed.
  Hint Resolve flat_hash flat_list flat_set : core.
  Lemma plain_same name args (R R' : list bytes → adb → res outcome → Prop) D1 D2 D1' r n o : plain name → (name, R) ∈ semTable E → (name, R') ∈ semTable E' →
    sim D1 D2 → fresh H D1 → fresh H D2 → zknown D1 → zknown D2 → zcare (e_lib E) name args D1 →
    R args D1 (Ok (Out D1' r n)) → R' args D2 o →
    ∃ D2', o = Ok (Out D2' r n) ∧ sim D1' D2' ∧ fresh H D2'.
  Proof.
    intros Hp HR HR' Hs HF1 HF2 HZ1 HZ2 Hcare.
    assert (Hgo : ∀ R0 R0' : list bytes → adb → res outcome → Prop, (name, R0) ∈ semTable E → (name, R0') ∈ semTable E' →
      (R0 args D1 (Ok (Out D1' r n)) → R0' args D2 o → ∃ D2', o = Ok (Out D2' r n) ∧ sim D1' D2' ∧ fresh H D2') →
      R args D1 (Ok (Out D1' r n)) → R' args D2 o → ∃ D2', o = Ok (Out D2' r n) ∧ sim D1' D2' ∧ fresh H D2').
    { intros R0 R0' H0 H0' Hse H1 H2. eapply Hse.
      - eapply (sem_inv E name R0); [done|]. by exists R.
      - eapply (sem_inv E' name R0'); [done|]. by exists R'. }
    unfold plain in Hp. repeat apply elem_of_cons in Hp as [->|Hp]; [..|by apply elem_of_nil in Hp].
    - eapply (Hgo sem_set sem_set); [by repeat constructor..|]. intros H1 H2. by eapply set_same.
    - eapply (Hgo sem_hset sem_hset); [by repeat constructor..|]. unfold sem_hset. same.
      destruct (negb _) in H1 |- *; [injection H1 as <- <- <-; eexists; by split|]. by eapply new_same.
    - eapply (Hgo (sem_hdel E) (sem_hdel E')); [by repeat constructor..|]. unfold sem_hdel. same. by eapply existing_same.
    - eapply (Hgo (sem_push lpush_all) (sem_push lpush_all)); [by repeat constructor..|]. unfold sem_push. same. by eapply new_same.
    - eapply (Hgo (sem_push (λ l q, Ok (rpush_all l q))) (sem_push (λ l q, Ok (rpush_all l q)))); [by repeat constructor..|].
      unfold sem_push. same. by eapply new_same.
    - eapply (Hgo (sem_pop E PopFront) (sem_pop E' PopFront)); [by repeat constructor..|]. unfold sem_pop. same. by eapply existing_same.
    - eapply (Hgo (sem_pop E PopBack) (sem_pop E' PopBack)); [by repeat constructor..|]. unfold sem_pop. same. by eapply existing_same.
    - eapply (Hgo sem_sadd sem_sadd); [by repeat constructor..|]. unfold sem_sadd. same. by eapply new_same.
    - eapply (Hgo (sem_srem E) (sem_srem E')); [by repeat constructor..|]. unfold sem_srem. same. by eapply existing_same.
    - eapply (Hgo (sem_zrem E) (sem_zrem E')); [by repeat constructor..|]. unfold sem_zrem. same.
      eapply zexisting_same; try done. intros m s1 s2 N1 z1 N2 z2 x1 _ Hh1 HN1 T1 Hh2 HN2 T2.
      match goal with |- context [zrem_all ?l _ 0] => destruct (zrem_all_tame N1 l m s1 z1 0 Hh1 T1 HN1) as (s1' & E1 & T1'); destruct (zrem_all_tame N2 l m s2 z2 0 Hh2 T2 HN2) as (s2' & E2 & T2') end.
      cbn zeta in *. rewrite E1, E2. cbn [mbind res_bind fst snd]. intros [= <- <- <-]. eexists. split; [done|]. done.
    - eapply (Hgo (sem_zremrangebyrank E) (sem_zremrangebyrank E')); [by repeat constructor..|]. unfold sem_zremrangebyrank. same.
      unfold ints in *. rewrite <-!num_err_same.
      match goal with |- context [Atoi ?a] => destruct (Atoi a) as [i|] eqn:Ea; [|injection H1 as <- <- <-; by eexists];
        destruct (Atoi b2) as [j|] eqn:Eb; [|injection H1 as <- <- <-; by eexists] end.
      eapply zexisting_same; try done. intros m s1 s2 N1 z1 N2 z2 x1 Hk Hh1 HN1 T1 Hh2 HN2 T2.
      pose proof (Atoi_int64 _ _ Ea). pose proof (Atoi_int64 _ _ Eb).
      destruct (Hcare m) as (_ & Hi & _); [unfold zset_at; by rewrite Hk|]. specialize (Hi eq_refl ltac:(rewrite Hk; by eexists) _ _ eq_refl Ea).
      destruct (zremrangebyrank_tame N1 m s1 z1 i j Hh1 T1 HN1) as (S1 & s1' & O1 & E1 & T1'); [lia|lia|].
      destruct (zremrangebyrank_tame N2 m s2 z2 i j Hh2 T2 HN2) as (S2 & s2' & O2 & E2 & T2'); [lia|lia|].
      assert (S2 = S1) as -> by (eapply C17_order_unique; [|exact O2|exact O1]; intros x sc Hx; exact (tame_nan m s1 x sc T1 Hx)).
      cbn zeta in *. rewrite E1, E2. intros [= <- <- <-]. eexists. split; [done|]. done.
    - eapply (Hgo (sem_zremrangebyscore E) (sem_zremrangebyscore E')); [by repeat constructor..|]. unfold sem_zremrangebyscore. same.
      unfold floats in *. rewrite <-!num_err_same, <-Hlib.
      match goal with |- context [lib_parse_float _ ?a] => destruct (lib_parse_float (e_lib E) a) as [i|] eqn:Ea; [|injection H1 as <- <- <-; by eexists];
        destruct (lib_parse_float (e_lib E) b2) as [j|] eqn:Eb; [|injection H1 as <- <- <-; by eexists] end.
      eapply zexisting_same; try done. intros m s1 s2 N1 z1 N2 z2 x1 Hk Hh1 HN1 T1 Hh2 HN2 T2.
      destruct (Hcare m) as (_ & _ & Hi); [unfold zset_at; by rewrite Hk|]. specialize (Hi eq_refl ltac:(rewrite Hk; by eexists) _ _ eq_refl Ea).
      destruct (zremrangebyscore_tame N1 m s1 z1 i j Hh1 T1 HN1 Hi) as (s1' & E1 & T1').
      destruct (zremrangebyscore_tame N2 m s2 z2 i j Hh2 T2 HN2 Hi) as (s2' & E2 & T2').
      cbn zeta in *. rewrite E1, E2. intros [= <- <- <-]. eexists. split; [done|]. done.
  Qed.
End logged.
Lemma expireat_same H E E' key a0 a n0 : Atoi a = Some n0 → H ≤ n0 * 1000 < 2 ^ 63 → 0 ≤ H →
  same_effect near H [a0; key; a] (sem_expire E ms) (sem_expire E' ms).
Proof.
  intros Ha Hn HH D1 D2 D1' r n o Hs HF1 HF2 H1 H2. unfold sem_expire, fn in *. rewrite Ha in H1, H2.
  injection H1 as <- <- <-. injection H2 as <-. eexists. split; [done|]. destruct Hs as [Hk Ht].
  assert (ms n0 = n0 * 1000) as -> by (apply wrap64_id; unfold in_int64, minInt64, maxInt64; lia). split.
  - split; simpl; [done|]. apply option_near_insert; [done|]. unfold near. by rewrite Z.div_mul.
  - apply fresh_insert; [done|lia].
Qed.
(** EXPIRE is logged as EXPIREAT *)
Lemma expire_same H E E' (HE : e_now E ≤ H) key a0 a1 a n0 D1 D2 D1' r n o : Atoi a = Some n0 → 0 ≤ H → e_unix E = e_now E / 1000 → 0 ≤ e_now E →
  H ≤ (e_unix E + n0) * 1000 → e_now E + n0 * 1000 < 2 ^ 63 → sim D1 D2 → fresh H D1 → fresh H D2 →
  sem_expire E (λ n, wrap64 (e_now E + ms n)) [a0; key; a] D1 (Ok (Out D1' r n)) →
  sem_expire E' ms [a1; key; itoa (wrap64 (e_unix E + n0))] D2 o →
  ∃ D2' r', o = Ok (Out D2' r' n) ∧ sim D1' D2' ∧ fresh H D2'.
Proof.
  intros Ha HH Hu Hnow Hlo Hhi Hs HF1 HF2 H1 H2. unfold sem_expire, fn in *. rewrite Ha in H1.
  assert (Hm1 : ms n0 = n0 * 1000) by (apply wrap64_id; unfold in_int64, minInt64, maxInt64; lia).
  assert (Hm2 : wrap64 (e_unix E + n0) = e_unix E + n0) by (apply wrap64_id; unfold in_int64, minInt64, maxInt64; lia).
  assert (Hm3 : ms (e_unix E + n0) = (e_unix E + n0) * 1000) by (apply wrap64_id; unfold in_int64, minInt64, maxInt64; lia).
  rewrite Hm2, Atoi_itoa in H2 by (unfold in_int64, minInt64, maxInt64; lia). rewrite Hm1 in H1. rewrite Hm3 in H2.
  rewrite wrap64_id in H1 by (unfold in_int64, minInt64, maxInt64; lia).
  injection H1 as <- <- <-. injection H2 as <-. eexists _, _. split; [done|]. destruct Hs as [Hk Ht]. split.
  - split; simpl; [done|]. apply option_near_insert; [done|]. unfold near. by rewrite Z.div_add, Hu.
  - apply fresh_insert; [done|lia].
Qed.

(** ** ZADD *)
Lemma sl_add_ok m s sc x rs : tame m s → m !! x = None → not_nan sc → enough 1 rs → ∃ s' rs', sl_add s sc x rs = Ok (s', rs') ∧ ∀ k, enough (S k) rs → enough k rs'.
Proof.
  intros (L & HL & HP) Hx Hn (lv & rs' & Er & Hlv & _). unfold sl_add. rewrite Er. cbn [mbind res_bind fst snd].
  assert (Hlv' : 1 ≤ lv ≤ Z.of_nat maxLevel).
  { split; [done|]. unfold randomLevel in Er. destruct (randomLevel_loop 1 rs) as [[l r']| |]; try done. cbn [mbind res_bind fst snd] in Er. injection Er as <- _.
    destruct (l <? Z.of_nat maxLevel) eqn:El; lia. }
  destruct (Insert_sinv s L lv sc x HL Hlv' Hn) as (A & Bb & s1 & HAB & -> & Hs' & _).
  { apply Forall_forall. intros e He. destruct (esame (e_key e) (sc, x)) eqn:Es; [|done]. exfalso. apply esame_member in Es. simpl in Es.
    assert ((e_score e, x) ∈ ZsetProofs.pairs m) as Hin by (rewrite <-HP; apply elem_of_list_fmap; exists e; unfold e_key; by rewrite <-Es).
    apply elem_of_pairs in Hin. congruence. }
  cbn [mbind res_bind fst snd]. eexists _, _. split; [done|]. intros k (lv2 & rs2 & Er2 & _ & Hk). rewrite Er in Er2. injection Er2 as <- <-. done.
Qed.
Lemma zadd_all_ok E l : ∀ m s c n rs, tame m s → scores_stay (scored (e_lib E) l) m → enough (length l / 2) rs → Nat.Even (length l) →
  ∃ z r n', zadd_all E l (m, s) c n rs = Ok (z, r, n').
Proof.
  remember (length l) as k eqn:Hk. revert l Hk. induction (lt_wf k) as [k _ IH]. intros l -> m s c n rs Ht Hst Hr Hev.
  destruct l as [|a [|x l]]; cbn [zadd_all scored] in Hst |- *; [by eauto| |].
  { destruct Hev as [j Hj]. simpl in Hj. lia. }
  assert (Hev' : Nat.Even (length l)) by (destruct Hev as [[|j] Hj]; simpl in Hj; [lia|exists j; lia]).
  assert (Hlen : (length (a :: x :: l) / 2)%nat = S (length l / 2)).
  { cbn [length]. replace (S (S (length l))) with (length l + 1 * 2)%nat by lia. rewrite Nat.div_add by lia. lia. }
  rewrite Hlen in Hr.
  destruct (lib_parse_float (e_lib E) a) as [sc|] eqn:Ea; [|by eauto].
  unfold zadd1. cbn [fst snd]. destruct (m !! x) as [sc0|] eqn:Ex.
  - destruct (feq sc sc0) eqn:Ef.
    + cbn [negb mbind res_bind]. eapply (IH (length l)); [simpl; lia|done|done| | |done].
      * intros sc2 x2 Hin. rewrite <-(with_new_old sc x) by (by rewrite Ex). apply Hst. by right.
      * eapply enough_le; [|exact Hr]. lia.
    + exfalso. destruct (Hst sc x) as (sc' & H1 & H2); [left|]. unfold with_new in H1. erewrite lookup_union_Some_l in H1 by exact Ex. congruence.
  - assert (Hn : not_nan sc).
    { destruct (Hst sc x) as (sc' & _ & H2); [left|]. by apply feq_not_nan in H2 as [? _]. }
    destruct (sl_add_ok m s sc x rs Ht Ex Hn) as (s2 & rs2 & Ea2 & Hr2); [eapply enough_le; [|exact Hr]; lia|]. rewrite Ea2. cbn [mbind res_bind fst snd].
    eapply (IH (length l)); [simpl; lia|done|by eapply sl_add_tame| |by apply Hr2|done].
    intros sc2 x2 Hin. rewrite <-with_new_cons by done. apply Hst. by right.
Qed.
(** the first score is a number, or the number of arguments is wrong, or the value is
    no sorted set: ZADD changes nothing unless it counts a change *)
Lemma zadd_count E l : ∀ z c n rs z' r n', zadd_all E l z c n rs = Ok (z', r, n') → n ≤ n'.
Proof.
  remember (length l) as k eqn:Hk. revert l Hk. induction (lt_wf k) as [k _ IH]. intros l -> z c n rs z' r n' Hz.
  destruct l as [|a [|x l]]; cbn [zadd_all] in Hz; [by injection Hz as _ _ <-| |].
  - destruct (lib_parse_float (e_lib E) a); [done|]. by injection Hz as _ _ <-.
  - destruct (lib_parse_float (e_lib E) a) as [sc|]; [|by injection Hz as _ _ <-].
    destruct (zadd1 z sc x rs) as [[[z1 b] rs1]| |]; try done. cbn [mbind res_bind] in Hz.
    apply (IH (length l) ltac:(simpl; lia) l eq_refl) in Hz. lia.
Qed.
Lemma zadd_quiet E a key b l D D' r : is_Some (lib_parse_float (e_lib E) b) → sem_zadd E (a :: key :: b :: l) D (Ok (Out D' r 0)) → D' = D.
Proof.
  intros [sc Hb] Hs. cbn [sem_zadd] in Hs. destruct (negb _); [by injection Hs as ->|]. destruct Hs as (rs & _ & Hs). symmetry in Hs.
  apply new_cases in Hs as [(-> & _)|([m s] & x' & H1 & H2 & ->)]; [done| |apply AKZset_law]. exfalso.
  destruct l as [|x l]; cbn [zadd_all] in H2; rewrite Hb in H2; [done|].
  destruct (zadd1 (m, s) sc x rs) as [[[z1 b1] rs1]| |]; try done. cbn [mbind res_bind] in H2. apply zadd_count in H2. lia.
Qed.
Lemma zadd_same H E E' a key l rs D1 D2 D1' r n : e_lib E = e_lib E' → sim D1 D2 → fresh H D2 → enough (length (a :: key :: l) / 2) rs →
  zcare (e_lib E) (B "zadd") (a :: key :: l) D1 → sem_zadd E (a :: key :: l) D1 (Ok (Out D1' r n)) →
  ∃ D2' r' n', zadd_out E' (a :: key :: l) rs D2 = Ok (Out D2' r' n') ∧ sim D1' D2' ∧ fresh H D2'.
Proof.
  intros Hlib Hsim HF Hrs Hcare Hs. cbn [sem_zadd zadd_out] in *.
  destruct (negb (zlen (a :: key :: l) mod 2 =? 0)) eqn:Hodd; [injection Hs as -> _ _; by eauto 10|].
  assert (Hev : Nat.Even (length l)).
  { destruct (Z.eqb_spec (zlen (a :: key :: l) mod 2) 0) as [Hm|]; [|done]. unfold zlen in Hm. cbn [length] in Hm.
    apply Z.mod_divide in Hm as [q Hq]; [|lia]. exists (Z.to_nat (q - 1)). lia. }
  assert (Hlen : enough (length l / 2) rs).
  { eapply enough_le; [|exact Hrs]. apply Nat.div_le_mono; simpl; lia. }
  destruct Hs as (rs0 & _ & Hs). symmetry in Hs. unfold on_new in *. pose proof Hsim as [Hk Ht]. specialize (Hk key).
  remember (a_keys D1 !! key) as o1 eqn:E1. remember (a_keys D2 !! key) as o2 eqn:E2.
  assert (Hgo : ∀ m s1 s2, zset_at D1 key = Some m → tame m s1 → tame m s2 →
    (x ← zadd_all E l (m, s1) 0 0 rs0; let '(x', r, n) := x in Ok (Out (put_val key (ak_in AKZset x') D1) r n)) = Ok (Out D1' r n) →
    ∃ D2' r' n', (x ← zadd_all E' l (m, s2) 0 0 rs; let '(x', r, n) := x in Ok (Out (put_val key (ak_in AKZset x') D2) r n)) = Ok (Out D2' r' n') ∧ sim D1' D2' ∧ fresh H D2').
  { intros m s1 s2 Hat T1 T2. destruct (Hcare m Hat) as (Hst & _). specialize (Hst eq_refl).
    destruct (zadd_all E l (m, s1) 0 0 rs0) as [[[x1 r1] n1]| |] eqn:Ez1; try done. cbn [mbind res_bind]. intros [= <- _ _].
    destruct (zadd_all_ok E' l m s2 0 0 rs T2) as (x2 & r2 & n2 & Ez2); [by rewrite <-Hlib|done|done|]. rewrite Ez2. cbn [mbind res_bind].
    destruct (zadd_all_tame _ _ _ _ _ _ _ _ _ _ T1 Hst Ez1) as (M1 & TT1 & _).
    rewrite Hlib in Hst. destruct (zadd_all_tame _ _ _ _ _ _ _ _ _ _ T2 Hst Ez2) as (M2 & TT2 & _).
    eexists _, _, _. split; [done|]. split; [|done]. apply sim_put; [done|]. cbn. rewrite M1 in *. rewrite M2 in *. by rewrite Hlib in *. }
  destruct Hk as [v v' Hv|].
  - destruct v as [| | | |m s1]; try (apply alike_eq in Hv; [|done]; subst v'; cbn in *; injection Hs as <- _ _; by eauto 10).
    destruct v' as [| | | |m2 s2]; try done. cbn in Hv. destruct Hv as (<- & T1 & T2). cbn [ak_out AKZset] in *.
    eapply (Hgo m s1 s2); try done. unfold zset_at. by rewrite <-E1.
  - cbn [ak_new AKZset] in *. eapply (Hgo ∅ NewSkiplist NewSkiplist); [unfold zset_at; by rewrite <-E1|apply tame_new|apply tame_new|done].
Qed.
