(** Loops that draw: whatever has been drawn, some further draws end them. *)
From Verif Require Import Base Float DictModel DictProofs DictProofs2 DictProofs3 DictProofs4 DictRun
  DatabaseModel SetModel SetProofs QuicklistModel QuicklistProofs SkiplistModel ZsetModel
  Strconv RespSpec ServerModel CommandModel CommandSem CommandInv CommandInv2 CommandProofs1 CommandProofs2 CommandProofs3
  CommandTop CommandFrame SystemModel SystemProofs CommandFacts RandomProofs SafeProofs TermProofs TermCmd.
From Coq Require Import ZifyBool ZifyNat.

(** * Dicts *)
Section dicts.
  Context {K V : Type} `{Countable K}.
  Variable hash : K → Z.
  Implicit Types (d : dict K V).
  Notation dict_ok := (dict_ok (V:=V) hash).
  Lemma draw_bucket_app d rs x b rs1 : draw_bucket d rs = Ok (b, rs1) → draw_bucket d (rs ++ x) = Ok (b, rs1 ++ x).
  Proof.
    induction rs as [|r rs IH]; [done|]. cbn [draw_bucket app]. destruct (deref (d_ht0 d)) as [h0| |]; [|done..]. cbn [mbind res_bind].
    match goal with |- ((?m ≫= _) = _) → _ => destruct m as [[|e c]| |] end; try done. cbn [mbind res_bind]. by intros [= <- <-].
  Qed.
  Lemma draw_bucket_more d rs x : draw_bucket d rs = OutOfFuel → draw_bucket d (rs ++ x) = draw_bucket d x.
  Proof.
    induction rs as [|r rs IH]; [done|]. cbn [draw_bucket app]. destruct (deref (d_ht0 d)) as [h0| |] eqn:E0; [|done|by destruct (d_ht0 d)]. cbn [mbind res_bind].
    match goal with |- ((?m ≫= _) = _) → _ => destruct m as [[|e c]| |] eqn:Em end; try done.
    exfalso. revert Em. change (term (if isRehashing d then h1 ← deref (d_ht1 d);
      if zlen (ht_tables h0) + zlen (ht_tables h1) - d_rehashIndex d =? 0 then Panic else
      if zlen (ht_tables h0) <=? d_rehashIndex d + Z.rem r (zlen (ht_tables h0) + zlen (ht_tables h1) - d_rehashIndex d)
      then go_index (ht_tables h1) (d_rehashIndex d + Z.rem r (zlen (ht_tables h0) + zlen (ht_tables h1) - d_rehashIndex d) - zlen (ht_tables h0))
      else go_index (ht_tables h0) (d_rehashIndex d + Z.rem r (zlen (ht_tables h0) + zlen (ht_tables h1) - d_rehashIndex d))
      else if zlen (ht_tables h0) =? 0 then Panic else go_index (ht_tables h0) (Z.rem r (zlen (ht_tables h0))))).
    destruct (isRehashing d).
    - apply term_bind; [apply term_deref|]. intros h1 _. destruct (_ =? _); [done|]. destruct (_ <=? _); apply term_go_index.
    - destruct (_ =? _); [done|]. apply term_go_index.
  Qed.
  Lemma GetRandomKey_app d rs x d' o rs1 : GetRandomKey hash d rs = Ok (d', o, rs1) → GetRandomKey hash d (rs ++ x) = Ok (d', o, rs1 ++ x).
  Proof.
    unfold GetRandomKey. destruct (d_ht0 d); [|by intros [= <- <- <-]]. destruct (Size d) as [n| |]; [|done..]. cbn [mbind res_bind].
    destruct (n =? 0); [by intros [= <- <- <-]|]. destruct (maybe_step hash d) as [d1| |]; [|done..]. cbn [mbind res_bind].
    destruct (draw_bucket d1 rs) as [[b rs2]| |] eqn:Ed; [|done..]. rewrite (draw_bucket_app _ _ x _ _ Ed). cbn [mbind res_bind fst snd].
    destruct rs2 as [|r rs2]; [done|]. cbn [app]. destruct (go_index b _) as [e| |]; [|done..]. cbn [mbind res_bind]. by intros [= <- <- <-].
  Qed.
  (** whatever has been drawn, at most two more draws select an entry *)
  Lemma GetRandomKey_more d rs : dict_ok d → Forall (λ r, 0 ≤ r) rs →
    ∃ x d' o rs1, Forall (λ r, 0 ≤ r) x ∧ GetRandomKey hash d (rs ++ x) = Ok (d', o, rs1).
  Proof.
    intros Hok Hrs. destruct (decide (d_map d = ∅)) as [He|Hne].
    { destruct (GetRandomKey_spec hash d rs Hok Hrs) as [G _]. exists [], d, None, rs. split; [done|]. rewrite app_nil_r. by apply G. }
    destruct (GetRandomKey_spec hash d rs Hok Hrs) as [_ G]. destruct (G Hne) as [Hf|(d1 & k & v & rs1 & E1 & _)].
    2:{ exists [], d1, (Some (k, v)), rs1. split; [done|]. by rewrite app_nil_r. }
    apply map_choose in Hne as (k & v & Hkv). destruct (GetRandomKey_complete hash d k v Hok Hkv) as (r1 & r2 & d' & P1 & P2 & HG).
    specialize (HG []). unfold GetRandomKey in *.
    destruct (d_ht0 d) as [h|]; [|done]. destruct (Size d) as [n| |]; [|done..]. cbn [mbind res_bind] in *. destruct (n =? 0); [done|].
    destruct (maybe_step_spec hash d) as (d0 & Ed & Hs); [by destruct Hok|]. rewrite Ed in *. cbn [mbind res_bind] in *.
    pose proof (dict_ok_step hash d d0 Hok Hs) as Hok0.
    destruct (draw_bucket d0 rs) as [[b rs2]| |] eqn:Eb; cbn [mbind res_bind fst snd] in *; [|done|].
    - destruct rs2 as [|r rs2].
      + destruct (draw_bucket_spec hash d0 rs b [] Hok0 Eb) as (_ & Hb & _). destruct b as [|e b]; [done|].
        exists [0], d0, (Some e), []. split; [by repeat constructor|]. rewrite (draw_bucket_app _ _ [0] _ _ Eb). cbn [mbind res_bind fst snd app].
        rewrite Z.rem_0_l by (unfold zlen; simpl; lia). done.
      + exfalso. revert Hf. apply (term_bind (go_index b (Z.rem r (zlen b)))); [apply term_go_index|done].
    - exists [r1; r2], d', (Some (k, v)), []. split; [by repeat constructor|]. rewrite (draw_bucket_more _ _ _ Eb). exact HG.
  Qed.
End dicts.

(** * Background expiry *)
Section cron.
  Variable E : env.
  Lemma expire_rounds_app n : ∀ db rs x db' rs', expire_rounds E n db rs = Ok (db', rs') → expire_rounds E n db (rs ++ x) = Ok (db', rs' ++ x).
  Proof.
    induction n as [|n IH]; intros db rs x db' rs'; cbn [expire_rounds]; [by intros [= <- <-]|].
    destruct (GetRandomKey Hash (db_expire db) rs) as [[[d o] rs1]| |] eqn:EG; [|done..]. rewrite (GetRandomKey_app _ _ _ x _ _ _ EG). cbn [mbind res_bind].
    destruct o as [[key when]|]; [|by intros [= <- <-]]. destruct (when <? e_now E); [|apply IH].
    destruct (Delete Hash (db_dict db) key); [|done..]. cbn [mbind res_bind]. destruct (Delete Hash d key); [|done..]. cbn [mbind res_bind]. apply IH.
  Qed.
  Lemma expire_rounds_more N n : ∀ db rs, db_ok N db → Forall (λ r, 0 ≤ r) rs →
    ∃ x, Forall (λ r, 0 ≤ r) x ∧ term (expire_rounds E n db (rs ++ x)).
  Proof.
    induction n as [|n IH]; intros db rs Hdb Hrs; [by exists []|]. cbn [expire_rounds].
    destruct Hdb as (I1 & I2 & S1 & S2). destruct I2 as [Hok Hit].
    destruct (GetRandomKey_more Hash (db_expire db) rs Hok Hrs) as (x & d & o & rs1 & Hx & EG).
    destruct o as [[key when]|]; [|exists x; split; [done|by rewrite EG]].
    assert (Hrx : Forall (λ r, 0 ≤ r) (rs ++ x)) by (by apply Forall_app).
    destruct (GetRandomKey_spec Hash (db_expire db) (rs ++ x) Hok Hrx) as [G1 G2].
    destruct (decide (d_map (db_expire db) = ∅)) as [He|Hne]; [by rewrite (G1 He) in EG|].
    destruct (G2 Hne) as [Ef|(x0 & key0 & when0 & rs2 & EG2 & Hk & Hok' & Hm & Hi' & _ & rs0 & Hrs0)]; [by rewrite Ef in EG|].
    rewrite EG in EG2. injection EG2 as <- <- <- <-.
    assert (Hrs1 : Forall (λ r, 0 ≤ r) rs1) by (rewrite Hrs0 in Hrx; by apply Forall_app in Hrx as [_ ?]).
    assert (Ix : dinv d) by (split; [done|congruence]).
    assert (Happ : ∀ y, GetRandomKey Hash (db_expire db) (rs ++ x ++ y) = Ok (d, Some (key, when), rs1 ++ y)).
    { intros y. rewrite app_assoc. by apply GetRandomKey_app. }
    destruct (Z.ltb_spec when (e_now E)) as [Hlt|Hge].
    - destruct (iDelete (db_dict db) key I1) as (d1 & e1 & ED1 & _ & Id1 & Hm1).
      destruct (iDelete d key Ix) as (x1 & e2 & ED2 & _ & Ix1 & Hm2).
      assert (Hdb1 : db_ok N (DB d1 x1)).
      { split_and!; simpl; try done; rewrite ?Hm1, ?Hm2, ?Hm; (etrans; [apply size_delete_le|done]). }
      destruct (IH _ rs1 Hdb1 Hrs1) as (y & Hy & HT). exists (x ++ y). split; [by apply Forall_app|].
      rewrite Happ. cbn [mbind res_bind]. replace (when <? e_now E) with true by lia. rewrite ED1. cbn [mbind res_bind fst]. rewrite ED2. cbn [mbind res_bind fst]. done.
    - assert (Hdb1 : db_ok N (DB (db_dict db) d)) by (split_and!; simpl; try done; by rewrite Hm).
      destruct (IH _ rs1 Hdb1 Hrs1) as (y & Hy & HT). exists (x ++ y). split; [by apply Forall_app|].
      rewrite Happ. cbn [mbind res_bind]. replace (when <? e_now E) with false by lia. done.
  Qed.
  Lemma databasesCron_more N : ∀ dbs rs, Forall (db_ok N) dbs → Forall (λ r, 0 ≤ r) rs →
    ∃ x, Forall (λ r, 0 ≤ r) x ∧ term (databasesCron E dbs (rs ++ x)).
  Proof.
    induction dbs as [|db dbs IH]; intros rs Hdbs Hrs; [by exists []|]. apply Forall_cons in Hdbs as [Hdb Hdbs].
    generalize (databasesCron_cons E db dbs). generalize checkExpireEntryCount. intros n Hcons.
    destruct (expire_rounds_more N n db rs Hdb Hrs) as (x & Hx & HT).
    assert (Hrx : Forall (λ r, 0 ≤ r) (rs ++ x)) by (by apply Forall_app).
    destruct (expire_rounds E n db (rs ++ x)) as [[db1 rs1]| |] eqn:E1; [| |done].
    2:{ exists x. split; [done|]. by rewrite Hcons, E1. }
    pose proof (expire_rounds_spec E N [] n _ _ _ _ Hdb Hrx E1) as (_ & Hrs1 & _).
    destruct (IH rs1 Hdbs Hrs1) as (y & Hy & HT2). exists (x ++ y). split; [by apply Forall_app|].
    rewrite Hcons, app_assoc, (expire_rounds_app _ _ _ y _ _ E1). cbn [mbind res_bind fst snd]. apply term_bind; [done|]. done.
  Qed.
End cron.

(** * RANDOMGET *)
Section commands.
  Variable E : env.
  Notation nonneg := (Forall (λ r : Z, 0 ≤ r)).
  Lemma blind_expireIfNeeded key : blind (expireIfNeeded E key).
  Proof.
    unfold expireIfNeeded. apply blind_bind; [apply blind_on_expire|]. intros [[? when]|]; [|blind]. destruct (when <? e_now E); [|blind].
    apply blind_bind; [apply blind_on_dict|intros _]. apply blind_bind; [apply blind_on_expire|intros _]. blind.
  Qed.
  Lemma random_loop_more w0 N : ∀ n D w, (size (a_keys D) ≤ n)%nat → At w0 N D [] 0 w →
    ∃ x D' r, nonneg x ∧ ∀ pad fuel, nonneg pad → (n < fuel)%nat →
      ends w0 N (random_loop E fuel (with_rs w (w_rnd w ++ x ++ pad))) (Ok (Out D' r 0)).
  Proof.
    induction n as [n IH] using lt_wf_ind. intros D w Hn Ha.
    destruct (At_cur _ _ _ _ _ _ Ha) as (db & Hc & Hok & HD). pose proof Hok as (Hd & Hx & Hds & Hxs). destruct Hd as [Hokd Hid].
    assert (Hrs : nonneg (w_rnd w)) by apply (at_ok _ _ _ _ _ _ Ha).
    destruct (GetRandomKey_more Hash (db_dict db) (w_rnd w) Hokd Hrs) as (x & d' & o & rs1 & Hx0 & EG).
    assert (Hrx : nonneg (w_rnd w ++ x)) by (by apply Forall_app).
    destruct (GetRandomKey_spec Hash (db_dict db) (w_rnd w ++ x) Hokd Hrx) as [G1 G2].
    assert (EW : ∀ y, with_rnd (λ rs, r ← GetRandomKey Hash (db_dict db) rs; Ok (r.1.1, r.1.2, r.2)) (with_rs w (w_rnd w ++ x ++ y))
                   = Ok (with_rs w (rs1 ++ y), (d', o))).
    { intros y. unfold with_rnd. cbn [w_rnd with_rs]. rewrite app_assoc. rewrite (GetRandomKey_app _ _ _ y _ _ _ EG). done. }
    assert (Hc' : ∀ rs, cur (with_rs w rs) db) by done.
    assert (Hkeys : a_keys D = abs_val (s_heap (w_srv w)) <$> d_map (db_dict db)) by (by rewrite HD).
    destruct (decide (d_map (db_dict db) = ∅)) as [He|Hne].
    - rewrite (G1 He) in EG. injection EG as <- <- <-. exists x, D, RNull. split; [done|]. intros pad [|fuel] Hp Hf; [lia|]. cbn [random_loop].
      rewrite (bind_ok _ _ _ _ _ (get_db_run _ db (Hc' _))). rewrite (bind_ok _ _ _ _ _ (EW pad)). cbn [fst snd].
      rewrite (bind_ok _ _ _ _ _ (put_db_run _ _)).
      assert (Hrp : nonneg ((w_rnd w ++ x) ++ pad)) by (by apply Forall_app).
      destruct (At_with_db w0 N N _ [] 0 (with_rs w ((w_rnd w ++ x) ++ pad)) db (DB (db_dict db) (db_expire db))
        (At_rnd _ _ _ _ _ _ _ Ha Hrp) Hc) as (Ha2 & _ & _ & _); [done|done|eauto|].
      rewrite HD. exact (rNull _ _ _ _ _ Ha2).
    - destruct (G2 Hne) as [Ef|(d1 & k & v & rs2 & EG2 & Hk & Hok' & Hm' & Hi' & _ & rs0 & Hrs0)]; [by rewrite Ef in EG|].
      rewrite EG in EG2. injection EG2 as <- -> <-.
      assert (Hrs1 : nonneg rs1) by (rewrite Hrs0 in Hrx; by apply Forall_app in Hrx as [_ ?]).
      assert (HA : ∀ rs, nonneg rs → At w0 N D [] 0 (with_db (with_rs w rs) (DB d' (db_expire db)))).
      { intros rs Hr. destruct (At_with_db w0 N N _ [] 0 (with_rs w rs) db (DB d' (db_expire db))
          (At_rnd _ _ _ _ _ _ _ Ha Hr) Hc) as (Ha2 & _ & _ & _); [done| | |].
        { split; [split; simpl; [done|congruence]|]. simpl. by rewrite Hm'. }
        { simpl. rewrite Hm'. eauto. }
        replace D with (abs_db (s_heap (w_srv (with_rs w rs))) (DB d' (db_expire db))); [done|]. rewrite HD. unfold abs_db. simpl. by rewrite Hm'. }
      destruct (expireIfNeeded_run E k _ _ _ _ _ _ (HA rs1 Hrs1)) as (w3 & E3 & Ha3 & _).
      pose proof (RndFrame.still_expireIfNeeded E k _ _ _ E3) as Hst. change (w_rnd w3 = rs1) in Hst.
      assert (E3' : ∀ rs, expireIfNeeded E k (with_db (with_rs w rs) (DB d' (db_expire db))) = Ok (with_rs w3 rs, bool_decide (expired E D k))).
      { intros rs. exact (blind_expireIfNeeded k _ _ _ rs E3). }
      destruct (decide (expired E D k)) as [Hexp|Hexp].
      + assert (Hlt : (size (a_keys (purge E k D)) < n)%nat).
        { unfold purge. rewrite decide_True by done. simpl. rewrite map_size_delete_Some; [|rewrite Hkeys, lookup_fmap, Hk; by eexists].
          assert (a_keys D ≠ ∅) as Hz. { intros Hz. rewrite Hkeys in Hz. apply fmap_empty_inv in Hz. done. }
          apply map_size_non_empty_iff in Hz. lia. }
        destruct (IH _ Hlt _ w3 (Nat.le_refl _) Ha3) as (y & D' & r & Hy & HE). exists (x ++ y), D', r. split; [by apply Forall_app|].
        intros pad [|fuel] Hp Hf; [lia|]. cbn [random_loop]. rewrite <-app_assoc.
        rewrite (bind_ok _ _ _ _ _ (get_db_run _ db (Hc' _))). rewrite (bind_ok _ _ _ _ _ (EW (y ++ pad))). cbn [fst snd].
        rewrite (bind_ok _ _ _ _ _ (put_db_run _ _)). rewrite (bind_ok _ _ _ _ _ (E3' _)). rewrite bool_decide_true by done.
        rewrite <-Hst. apply HE; [done|lia].
      + exists x, D, (RBulk k). split; [done|]. intros pad [|fuel] Hp Hf; [lia|]. cbn [random_loop].
        rewrite (bind_ok _ _ _ _ _ (get_db_run _ db (Hc' _))). rewrite (bind_ok _ _ _ _ _ (EW pad)). cbn [fst snd].
        rewrite (bind_ok _ _ _ _ _ (put_db_run _ _)). rewrite (bind_ok _ _ _ _ _ (E3' _)). rewrite bool_decide_false by done.
        unfold purge in Ha3. rewrite decide_False in Ha3 by done. apply rBulk. apply At_rnd; [done|]. by apply Forall_app.
  Qed.
  Lemma randomget_more w0 N D w args : At w0 N D [] 0 w →
    ∃ x D' r, nonneg x ∧ ends w0 N (randomGetCommand E args (with_rs w (w_rnd w ++ x))) (Ok (Out D' r 0)).
  Proof.
    intros Ha. destruct (random_loop_more w0 N _ D w (Nat.le_refl _) Ha) as (x & D' & r & Hx & HE).
    exists (x ++ replicate (size (a_keys D)) 0), D', r. assert (Hp : nonneg (replicate (size (a_keys D)) 0)) by (by apply Forall_replicate).
    split; [by apply Forall_app|]. unfold randomGetCommand. apply HE; [done|]. cbn [w_rnd with_rs]. rewrite !app_length, replicate_length. lia.
  Qed.

  (** * SPOP *)
  Lemma spop_more w0 N D w a key s : At w0 N D [] 0 w → a_keys (purge E key D) !! key = Some (ASet s) → s ≠ ∅ →
    ∃ x m, nonneg x ∧ ends w0 N (sPopCommand E [a; key] (with_rs w (w_rnd w ++ x))) (Ok (Out (put_val key (ASet (s ∖ {[m]})) (purge E key D)) (RBulk m) 1)).
  Proof.
    intros Ha Hk Hne.
    assert (Hrs0 : nonneg (w_rnd w)) by apply (at_ok _ _ _ _ _ _ Ha).
    destruct (get_if_exist_run ServerModel.KSet AKSet fSet E key _ _ _ _ _ _ relSet Ha) as (w1 & r & E1 & Ha1 & _ & _ & Hr).
    destruct Hr as [[Hn ->]|[(v & Hv & Hvo & ->)|(o & x & -> & Hp & Hv & Hvo & Hi)]].
    { by rewrite Hk in Hn. }
    { rewrite Hk in Hv. by injection Hv as <-. }
    rewrite Hk in Hv. injection Hv as ->. simpl in Hi. change (fSet x) with (members x) in *.
    pose proof Hi as [Hok _].
    destruct (GetRandomKey_more Hash x (w_rnd w) Hok Hrs0) as (ex & x' & o' & rs1 & Hex & HGR).
    set (rs := w_rnd w ++ ex) in *. assert (Hrs : nonneg rs) by (by apply Forall_app).
    unfold sPopCommand.
    pose proof (blind_get_if_exist E ServerModel.KSet key _ _ _ rs E1) as E1'.
    assert (Ha1' : At w0 N (purge E key D) [] 0 (with_rs w1 rs)) by (by apply At_rnd).
    assert (Hp1' : points (with_rs w1 rs) key o (OSet x)) by done.
    destruct (on_obj_read ServerModel.KSet w0 N _ [] 0 (with_rs w1 rs) key o x x (λ s, n ← SSize s; Ok (s, n)) (Z.of_nat (size (members x))) KSet_ok Ha1' Hp1')
          as (w2 & E2 & Ha2 & Hp2 & Hr2); [by rewrite (SSize_spec Hash x Hi)|done|done|].
    assert (Hpos : (Z.of_nat (size (members x)) =? 0) = false).
    { apply Z.eqb_neq. intros H0. apply Hne, leibniz_equiv, size_empty_inv. lia. }
    pose proof Hp2 as [_ Hx2].
    assert (Hw2 : w_rnd w2 = rs).
    { revert E2. unfold on_obj. rewrite (bind_ok _ _ _ _ _ (load_run (with_rs w1 rs) o _ (proj2 Hp1'))). simpl.
      unfold mbind, M_bind, lift, store, put_srv. simpl. rewrite (SSize_spec Hash x Hi). simpl. by intros [= <-]. }
    assert (Hrs2 : Forall (λ r, 0 ≤ r) (w_rnd w2)) by (by rewrite Hw2).
    destruct (GetRandom_spec Hash x (w_rnd w2) Hi Hrs2) as [HG'|(x1 & m & rs2 & HG & Hmin & Hi' & Hmx & _ & Hsuf)].
    { done. }
    { exfalso. rewrite Hw2 in HG'. unfold GetRandom in HG'. rewrite HGR in HG'. cbn [mbind res_bind] in HG'. revert HG'.
      apply (term_bind (deref o')); [apply term_deref|done]. }
    assert (Hrs3 : nonneg rs2) by (destruct Hsuf as (r0 & Hr0); rewrite Hr0 in Hrs2; by apply Forall_app in Hrs2 as [_ ?]).
    set (w3 := with_heap_at (with_rs w2 rs2) o (OSet x1)).
    assert (E3 : on_obj_rnd ServerModel.KSet o (GetRandom Hash) w2 = Ok (w3, m)).
    { unfold on_obj_rnd. rewrite (bind_ok _ _ _ _ _ (load_run w2 o _ Hx2)). simpl.
      unfold mbind, M_bind, lift, with_rnd. simpl. by rewrite HG. }
    assert (Hp2' : points (with_rs w2 rs2) key o (OSet x)) by done.
    destruct (At_store w0 N N _ [] 0 (with_rs w2 rs2) key o (OSet x) (OSet x1)
        (At_rnd _ _ _ _ _ _ _ Ha2 Hrs3) Hp2') as [Ha3 Hp3]; [done|done| |].
    { eapply members_same_size; [exact Hx2|exact (At_members _ _ _ _ _ _ Ha2)|by simpl; rewrite Hmx]. }
    fold w3 in Ha3, Hp3. simpl abs_obj in Ha3. rewrite Hmx in Ha3. rewrite put_val_id in Ha3 by done.
    destruct (SDelete_spec Hash x1 m Hi') as (x4 & e & Ed & He & Hi4 & Hm4 & _).
    destruct (set_in_all _ _ _ _ _ _ _ _ _ Ha3 Hp3) as (Hin & Hsz & _).
    destruct (on_obj_run ServerModel.KSet w0 N N _ [] 0 w3 key o x1 x4 (λ s, SDelete Hash s m) e KSet_ok Ha3 Hp3)
        as (w4 & E4 & Ha4 & Hp4 & _); [lia|exact Ed|done| |].
    { simpl. rewrite Hm4. exact (members_del_size _ _ _ _ Hin (At_members _ _ _ _ _ _ Ha3)). }
    assert (e = None) as -> by (apply He; by rewrite Hmx).
    simpl abs_obj in Ha4. rewrite Hm4, Hmx in Ha4.
    exists ex, m. split; [done|].
    eapply ends_bind; [by apply arg_run|]. eapply ends_bind; [exact E1'|]. cbn iota.
    eapply ends_bind; [exact E2|]. rewrite Hpos. eapply ends_bind; [done|]. eapply ends_bind; [done|]. cbn iota.
    apply (dirty_ok w0 _ _ 0 _ 1); [done|apply rBulk].
  Qed.
End commands.
