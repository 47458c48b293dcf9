(** Every member and every key can be drawn: SPOP and RANDOMGET. *)
From Verif Require Import Base Float DictModel DictProofs DictProofs2 DictProofs3 DictProofs4 DictRun
  DatabaseModel SetModel SetProofs QuicklistModel QuicklistProofs SkiplistModel ZsetModel
  Strconv RespSpec ServerModel CommandModel CommandSem CommandInv CommandInv2 CommandProofs1 CommandProofs2 CommandProofs3
  CommandTop CommandFrame SystemModel SystemProofs CommandFacts ExampleLib .
From Coq Require Import ZifyBool ZifyNat.

(** * Computations that draw nothing *)
Definition blind {A} (m : M A) : Prop := ∀ w w' a rs, m w = Ok (w', a) → m (with_rs w rs) = Ok (with_rs w' rs, a).
Lemma blind_bind {A B} (m : M A) (f : A → M B) : blind m → (∀ a, blind (f a)) → blind (m ≫= f).
Proof.
  intros Hm Hf w w' b rs. unfold mbind, M_bind. destruct (m w) as [[w1 a]| |] eqn:E1; [|done..].
  rewrite (Hm _ _ _ rs E1). apply Hf.
Qed.
Lemma blind_ret {A} (a : A) : blind (ret a).
Proof. intros w w' b rs [= <- <-]. done. Qed.
Lemma blind_lift {A} (r : res A) : blind (lift r).
Proof. intros w w' b rs. unfold lift. destruct r; [|done..]. by intros [= <- <-]. Qed.
Lemma blind_get_srv : blind get_srv.
Proof. intros w w' b rs [= <- <-]. done. Qed.
Lemma blind_get_cl : blind get_cl.
Proof. intros w w' b rs [= <- <-]. done. Qed.
Lemma blind_put_srv s : blind (put_srv s).
Proof. intros w w' b rs [= <- <-]. done. Qed.
Ltac blind := repeat first [apply blind_ret|apply blind_lift|apply blind_get_srv|apply blind_get_cl|apply blind_put_srv|
  apply blind_bind; [|intros ?]].
Lemma blind_on_dict {A} (f : dict bytes value → res (dict bytes value * A)) : blind (on_dict f).
Proof. unfold on_dict, get_db, put_db. blind. Qed.
Lemma blind_on_expire {A} (f : dict bytes Z → res (dict bytes Z * A)) : blind (on_expire f).
Proof. unfold on_expire, get_db, put_db. blind. Qed.
Lemma blind_get_if_exist {X} E (k : ServerModel.kind X) key : blind (get_if_exist E k key).
Proof.
  unfold get_if_exist, expireIfNeeded. apply blind_bind; [|intros _].
  - apply blind_bind; [apply blind_on_expire|]. intros [[? when]|]; [|blind]. destruct (when <? e_now E); [|blind].
    apply blind_bind; [apply blind_on_dict|intros _]. apply blind_bind; [apply blind_on_expire|intros _]. blind.
  - apply blind_bind; [apply blind_on_dict|]. intros [[?|o]|]; simpl; unfold as_kind, load; blind.
Qed.
Lemma blind_on_obj {X A} (k : ServerModel.kind X) o (f : X → res (X * A)) : blind (on_obj k o f).
Proof. unfold on_obj, load, store. blind. Qed.

(** * SPOP *)
Section draw.
  Variable E : env.
  Lemma spop_draws w0 N D w a key s m : At w0 N D [] 0 w →
    a_keys (purge E key D) !! key = Some (ASet s) → m ∈ s →
    ∃ rs, Forall (λ r, 0 ≤ r) rs ∧
      ends w0 N (sPopCommand E [a; key] (with_rs w rs)) (Ok (Out (put_val key (ASet (s ∖ {[m]})) (purge E key D)) (RBulk m) 1)).
  Proof.
    intros Ha Hk Hm.
    destruct (get_if_exist_run ServerModel.KSet AKSet fSet E key _ _ _ _ _ _ relSet Ha) as (w1 & r & E1 & Ha1 & _ & _ & Hr).
    destruct Hr as [[Hn ->]|[(v & Hv & Hvo & ->)|(o & x & -> & Hp & Hv & Hvo & Hi)]].
    { by rewrite Hk in Hn. }
    { rewrite Hk in Hv. by injection Hv as <-. }
    rewrite Hk in Hv. injection Hv as ->. simpl in Hi. change (m ∈ members x) in Hm. change (fSet x) with (members x) in *.
    pose proof Hi as [Hok _]. pose proof Hm as Hm'. unfold members in Hm'. apply elem_of_dom in Hm' as [[] Hu].
    destruct (GetRandomKey_complete Hash x m () Hok Hu) as (r1 & r2 & x' & P1 & P2 & HGR).
    specialize (HGR []). exists [r1; r2]. split; [by repeat constructor|].
    assert (Hrs : Forall (λ r, 0 ≤ r) [r1; r2]) by (by repeat constructor).
    set (rs := [r1; r2]) in *. unfold sPopCommand.
    pose proof (blind_get_if_exist E ServerModel.KSet key _ _ _ rs E1) as E1'.
    assert (Ha1' : At w0 N (purge E key D) [] 0 (with_rs w1 rs)) by (by apply At_rnd).
    assert (Hp1' : points (with_rs w1 rs) key o (OSet x)) by done.
    destruct (on_obj_read ServerModel.KSet w0 N _ [] 0 (with_rs w1 rs) key o x x (λ s, n ← SSize s; Ok (s, n)) (Z.of_nat (size (members x))) KSet_ok Ha1' Hp1')
          as (w2 & E2 & Ha2 & Hp2 & Hr2); [by rewrite (SSize_spec Hash x Hi)|done|done|].
    assert (Hpos : (Z.of_nat (size (members x)) =? 0) = false).
    { apply Z.eqb_neq. intros H0. assert (members x = ∅) as He by (apply leibniz_equiv, size_empty_inv; lia). rewrite He in Hm. set_solver. }
    pose proof Hp2 as [_ Hx2].
    assert (Hw2 : w_rnd w2 = rs).
    { revert E2. unfold on_obj. rewrite (bind_ok _ _ _ _ _ (load_run (with_rs w1 rs) o _ (proj2 Hp1'))). simpl.
      unfold mbind, M_bind, lift, store, put_srv. simpl. rewrite (SSize_spec Hash x Hi). simpl. by intros [= <-]. }
    assert (HG : GetRandom Hash x (w_rnd w2) = Ok (x', m, [])).
    { rewrite Hw2. unfold GetRandom. rewrite HGR. done. }
    assert (Hrs2 : Forall (λ r, 0 ≤ r) (w_rnd w2)) by (by rewrite Hw2).
    destruct (GetRandom_spec Hash x (w_rnd w2) Hi Hrs2) as [HG'|(x1 & m1 & rs1 & HG' & _ & Hi' & Hmx & _)].
    { intros He. rewrite He in Hm. set_solver. }
    { by rewrite HG in HG'. }
    rewrite HG in HG'. injection HG' as <- <- <-.
    set (w3 := with_heap_at (with_rs w2 []) o (OSet x')).
    assert (E3 : on_obj_rnd ServerModel.KSet o (GetRandom Hash) w2 = Ok (w3, m)).
    { unfold on_obj_rnd. rewrite (bind_ok _ _ _ _ _ (load_run w2 o _ Hx2)). simpl.
      unfold mbind, M_bind, lift, with_rnd. simpl. by rewrite HG. }
    assert (Hp2' : points (with_rs w2 []) key o (OSet x)) by done.
    destruct (At_store w0 N N _ [] 0 (with_rs w2 []) key o (OSet x) (OSet x')
        (At_rnd _ _ _ _ _ _ _ Ha2 (Forall_nil_2 _)) Hp2') as [Ha3 Hp3]; [done|done| |].
    { eapply members_same_size; [exact Hx2|exact (At_members _ _ _ _ _ _ Ha2)|by simpl; rewrite Hmx]. }
    fold w3 in Ha3, Hp3. simpl abs_obj in Ha3. rewrite Hmx in Ha3. rewrite put_val_id in Ha3 by done.
    destruct (SDelete_spec Hash x' m Hi') as (x4 & e & Ed & He & Hi4 & Hm4 & _).
    destruct (set_in_all _ _ _ _ _ _ _ _ _ Ha3 Hp3) as (Hin & Hsz & _).
    destruct (on_obj_run ServerModel.KSet w0 N N _ [] 0 w3 key o x' x4 (λ s, SDelete Hash s m) e KSet_ok Ha3 Hp3)
        as (w4 & E4 & Ha4 & Hp4 & _); [lia|exact Ed|done| |].
    { simpl. rewrite Hm4. exact (members_del_size _ _ _ _ Hin (At_members _ _ _ _ _ _ Ha3)). }
    assert (e = None) as -> by (apply He; by rewrite Hmx).
    simpl abs_obj in Ha4. rewrite Hm4, Hmx in Ha4.
    eapply ends_bind; [by apply arg_run|]. eapply ends_bind; [exact E1'|]. cbn iota.
    eapply ends_bind; [exact E2|]. rewrite Hpos. eapply ends_bind; [done|]. eapply ends_bind; [done|]. cbn iota.
    apply (dirty_ok w0 _ _ 0 _ 1); [done|apply rBulk].
  Qed.

  (** * RANDOMGET *)
  Lemma randomget_draws w0 N D w args k : At w0 N D [] 0 w → is_Some (a_keys D !! k) → ¬ expired E D k →
    ∃ rs, Forall (λ r, 0 ≤ r) rs ∧ ends w0 N (randomGetCommand E args (with_rs w rs)) (Ok (Out D (RBulk k) 0)).
  Proof.
    intros Ha Hk Hexp.
    destruct (At_cur _ _ _ _ _ _ Ha) as (db & Hc & Hok & HD). pose proof Hok as (Hd & Hx & Hds & Hxs).
    destruct Hd as [Hokd Hid]. rewrite HD in Hk. unfold abs_db in Hk. simpl in Hk. rewrite lookup_fmap in Hk.
    destruct (d_map (db_dict db) !! k) as [v|] eqn:Hv; [|by destruct Hk]. clear Hk.
    destruct (GetRandomKey_complete Hash (db_dict db) k v Hokd Hv) as (r1 & r2 & d' & P1 & P2 & HGR).
    specialize (HGR []). exists [r1; r2]. split; [by repeat constructor|].
    assert (Hrs : Forall (λ r, 0 ≤ r) [r1; r2]) by (by repeat constructor).
    set (rs := [r1; r2]) in *. unfold randomGetCommand. cbn [random_loop].
    assert (Hc' : cur (with_rs w rs) db) by done.
    rewrite (bind_ok _ _ _ _ _ (get_db_run (with_rs w rs) db Hc')).
    destruct (GetRandomKey_spec Hash (db_dict db) rs Hokd Hrs) as [_ G2].
    destruct G2 as [G|(d1 & k1 & v1 & rs1 & G & _ & Hok' & Hm' & Hi' & _)].
    { intros He. by rewrite He in Hv. }
    { by rewrite G in HGR. }
    rewrite HGR in G. injection G as <- <- <- <-.
    assert (EW : with_rnd (λ rs, r ← GetRandomKey Hash (db_dict db) rs; Ok (r.1.1, r.1.2, r.2)) (with_rs w rs)
                   = Ok (with_rs w [], (d', Some (k, v)))).
    { unfold with_rnd. simpl w_rnd. rewrite HGR. done. }
    rewrite (bind_ok _ _ _ _ _ EW). simpl fst. simpl snd.
    destruct (At_with_db w0 N N _ [] 0 (with_rs w []) db (DB d' (db_expire db))
        (At_rnd _ _ _ _ _ _ _ Ha (Forall_nil_2 _)) Hc) as (Ha2 & _ & _ & _); [done| | |].
    { split; [split; simpl; [done|congruence]|]. simpl. by rewrite Hm'. }
    { simpl. rewrite Hm'. eauto. }
    rewrite (bind_ok _ _ _ _ _ (put_db_run _ _)).
    assert (HD2 : abs_db (s_heap (w_srv (with_rs w []))) (DB d' (db_expire db)) = D).
    { rewrite HD. unfold abs_db. simpl. by rewrite Hm'. }
    rewrite HD2 in Ha2.
    destruct (expireIfNeeded_run E k _ _ _ _ _ _ Ha2) as (w3 & E3 & Ha3 & _). simpl fst.
    rewrite (bind_ok _ _ _ _ _ E3). rewrite bool_decide_false by done.
    unfold purge in Ha3. rewrite decide_False in Ha3 by done. by apply rBulk.
  Qed.

  (** the reply of a handler is the reply of processCommand *)
  Lemma handler_reply N w args a l cmd D' r n name :
    args = a :: l → lib_lower (e_lib E) a = name → lookupCommand E name = Some cmd → cmd_name cmd = name →
    bad_arity (cmd_arity cmd) args = false →
    (e_password E = [] ∨ c_auth (w_cl w) = true ∨ name = B "auth") →
    name ∉ [B "expire"; B "setex"] →
    ends w N (cmd_proc cmd args w) (Ok (Out D' r n)) →
    ∃ w', processCommand E args w = Ok (w', tt) ∧ mjoin (c_out (w_cl w')) = mjoin (c_out (w_cl w)) ++ enc r.
  Proof.
    intros -> Hn Hl Hcn Hb Hp Hne Hend. unfold processCommand. rewrite (bind_ok _ _ _ _ _ (arg_run (a :: l) 0 a w eq_refl)).
    rewrite Hn, Hl, Hb. rewrite (bind_ok get_cl _ w w (w_cl w) eq_refl).
    replace (_ && _ && _) with false.
    2:{ destruct Hp as [->|[->| ->]]; [by rewrite bool_decide_true|by rewrite andb_false_r|].
        rewrite (bool_decide_true (B "auth" = B "auth")) by done. by rewrite andb_false_r. }
    unfold call. rewrite (bind_ok get_srv _ w w (w_srv w) eq_refl).
    destruct Hend as (w1 & E1 & Ha1). rewrite (bind_ok _ _ _ _ _ E1).
    rewrite (bind_ok get_srv _ w1 w1 (w_srv w1) eq_refl).
    destruct (e_aof E && _).
    - rewrite (bind_ok get_cl _ w1 w1 (w_cl w1) eq_refl). rewrite Hcn.
      destruct (feed_run E (w_srv w1) name (c_db (w_cl w1)) (a :: l) (encode (a :: l))) as (s' & Ef & _).
      { unfold log_text. by rewrite !decide_False by set_solver. }
      assert (EL : lift (feedAppendOnlyFile E (w_srv w1) name (Z.of_nat (c_db (w_cl w1))) (a :: l)) w1 = Ok (w1, s')).
      { unfold lift. by rewrite Ef. }
      rewrite (bind_ok _ _ _ _ _ EL). eexists. split; [done|]. exact (at_out _ _ _ _ _ _ Ha1).
    - eexists. split; [done|]. exact (at_out _ _ _ _ _ _ Ha1).
  Qed.
End draw.
