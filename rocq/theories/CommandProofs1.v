(** The model of the commands refines CommandSem.v: keys, strings, hashes, lists. *)
From Verif Require Import Base Float DictModel DictProofs DictProofs2 DictProofs3 DictProofs4 DictRun
  DatabaseModel SetModel SetProofs QuicklistModel QuicklistProofs SkiplistModel ZsetModel
  Strconv RespSpec ServerModel CommandModel CommandSem CommandInv CommandInv2.
From Coq Require Import ZifyBool ZifyNat.

Definition room (N : nat) (args : list bytes) : Prop := small (2 * (N + length args)).
Definition refines (arity : Z) (proc : list bytes → M unit) (R : list bytes → adb → res outcome → Prop) : Prop :=
  ∀ args w0 N D w, bad_arity arity args = false → At w0 N D [] 0 w → room N args →
    ∃ ro, R args D ro ∧ ends w0 (N + length args) (proc args w) ro.

Lemma arity_pos n args : bad_arity (Z.of_nat (S n)) args = false → length args = S n.
Proof. unfold bad_arity, zlen. lia. Qed.
Lemma arity_neg n args : bad_arity (- Z.of_nat n) args = false → (n ≤ length args)%nat.
Proof. unfold bad_arity, zlen. lia. Qed.
Ltac args_pos n args H :=
  apply (arity_pos n) in H; repeat (destruct args as [|? args]; try discriminate H); clear H.
Ltac args_neg3 args H :=
  apply (arity_neg 3) in H; do 3 (destruct args as [|? args]; [simpl in H; lia|]); clear H.
Ltac args_neg4 args H :=
  apply (arity_neg 4) in H; do 4 (destruct args as [|? args]; [simpl in H; lia|]); clear H.

Lemma room_small N args : room N args → small N.
Proof. apply small_mono. lia. Qed.
Lemma on_obj_upd {X A} (k : kind X) w0 N N' D out n w key o (x x' : X) (f : X → res (X * A)) a :
  kind_ok k →
  At w0 N D out n w → points w key o (k_in k x) → (N ≤ N')%nat → f x = Ok (x', a) →
  obj_ok N' (k_in k x') → obj_members (k_in k x') = ∅ →
  ∃ w', on_obj k o f w = Ok (w', a) ∧ At w0 N' (put_val key (abs_obj (k_in k x')) D) out n w' ∧
    points w' key o (k_in k x') ∧ w' = with_heap_at w o (k_in k x').
Proof.
  intros Hk Ha Hp HN Hf Hx' Hm. apply (on_obj_run k w0 N N' D out n w key o x x' f a); try done.
  rewrite Hm. rewrite (left_id_L ∅ (∪)). pose proof (At_members _ _ _ _ _ _ Ha). lia.
Qed.
Lemma At_dirty_points w0 N D out n w k key o x : At w0 N D out n w → points w key o x →
  ∃ w', add_dirty k w = Ok (w', tt) ∧ At w0 N D out (n + k) w' ∧ points w' key o x ∧ w_rnd w' = w_rnd w.
Proof.
  intros Ha [Hp1 Hp2]. destruct (At_dirty _ _ _ _ _ _ k Ha) as (w' & E & Ha' & Hh & Hd & Hr & Hc).
  exists w'. split; [done|]. split; [done|]. split; [|done]. split; [by rewrite Hd, Hc|by rewrite Hh].
Qed.

(** a command that only reads a container *)
Lemma read_body {X Y A} (k : kind X) (ak : akind Y) f (F : X → res (X * A)) (m : A → M unit) x x' a r key o w0 N D w :
  rel_kind k ak f → At w0 N D [] 0 w → points w key o (k_in k x) → a_keys D !! key = Some (ak_in ak (f x)) →
  F x = Ok (x', a) → obj_ok N (k_in k x') → f x' = f x → replies (m a) r →
  ends w0 N ((a ← on_obj k o F; m a) w) (out_of ak key D (Ok (f x, r, 0))).
Proof.
  intros Hk Ha Hp Hkey HF Hx' Hf Hm.
  destruct (on_obj_read k w0 N D [] 0 w key o x x' F a (rk_ok _ _ _ Hk) Ha Hp HF Hx') as (w1 & E1 & Ha1 & _).
  { by rewrite !(rk_in _ _ _ Hk), Hf. }
  eapply ends_bind; [done|]. unfold out_of. simpl. rewrite put_val_id by done. by apply Hm.
Qed.
Lemma existing_frame_swap {X Y} (k : kind X) (ak : akind Y) f E key field none mnone body (g : Y → res (Y * reply * Z)) w0 N N' D w args :
  rel_kind k ak f → args !! 1%nat = Some key → args !! 2%nat = Some field →
  At w0 N D [] 0 w → (N ≤ N')%nat → replies mnone none →
  (∀ w D1 o x, At w0 N D1 [] 0 w → points w key o (k_in k x) → obj_ok N (k_in k x) →
     a_keys D1 !! key = Some (ak_in ak (f x)) →
     ends w0 N' (body field o w) (out_of ak key D1 (g (f x)))) →
  ends w0 N' ((a ← arg args 1; b ← arg args 2;
               h ← get_if_exist E k a;
               match h with
               | inr ErrNotExist => mnone
               | inr e => addReplyError (err_text e)
               | inl o => body b o
               end) w) (on_existing ak E key none g D).
Proof.
  intros Hk Hkey Hfield Ha HN Hnone Hbody.
  pose proof (existing_frame k ak f E key none mnone (body field) g w0 N N' D w args Hk Hkey Ha HN Hnone Hbody) as HF.
  rewrite (bind_ok _ _ _ _ _ (arg_run args 1 key w Hkey)) in HF.
  rewrite (bind_ok _ _ _ _ _ (arg_run args 1 key w Hkey)).
  by rewrite (bind_ok _ _ _ _ _ (arg_run args 2 field w Hfield)).
Qed.

(** * Keys and strings *)
Section simple.
  Variable E : env.
  Lemma ref_ping : refines 1 pingCommand (λ args D o, o = Ok (Out D (RSimple (B "PONG")) 0)).
  Proof.
    intros args w0 N D w _ Ha _. eexists. split; [done|]. eapply ends_mono; [|by apply rSimple]. lia.
  Qed.

  Lemma expire_set_run w0 N D out n w key t : At w0 N D out n w → small N →
    ∃ w', on_expire (λ d, Set_ Hash d key t) w = Ok (w', bool_decide (a_ttl D !! key = None)) ∧
      At w0 (S N) (ADB (a_keys D) (<[key := t]> (a_ttl D))) out n w'.
  Proof.
    intros Ha Hsm. destruct (At_cur _ _ _ _ _ _ Ha) as (db & Hc & Hok & HD).
    destruct (on_expire_run w0 N (S N) D out n w (λ d, Set_ Hash d key t) (λ a, a = bool_decide (a_ttl D !! key = None))
      (<[key := t]> (a_ttl D)) db Ha Hc) as (w1 & a & d1 & E1 & -> & Ha1 & _); [lia| | |].
    - intros d Hd Hds Hm. destruct (iSet d key t Hd) as (d' & E' & Hd' & Hm'); [by eapply small_mono|].
      eexists d', _. split; [exact E'|]. by rewrite Hm', Hm.
    - etrans; [apply size_insert_le|]. rewrite HD. destruct Hok as (_ & _ & _ & ?). simpl. lia.
    - by exists w1.
  Qed.
  Lemma expire_del_run w0 N D out n w key : At w0 N D out n w →
    ∃ w' e, on_expire (λ d, Delete Hash d key) w = Ok (w', e) ∧
      At w0 N (ADB (a_keys D) (delete key (a_ttl D))) out n w'.
  Proof.
    intros Ha. destruct (At_cur _ _ _ _ _ _ Ha) as (db & Hc & Hok & HD).
    destruct (on_expire_run w0 N N D out n w (λ d, Delete Hash d key) (λ _, True)
      (delete key (a_ttl D)) db Ha Hc) as (w1 & a & d1 & E1 & _ & Ha1 & _); [lia| | |].
    - intros d Hd Hds Hm. destruct (iDelete d key Hd) as (d' & e & E' & _ & Hd' & Hm').
      eexists d', _. split; [exact E'|]. by rewrite Hm', Hm.
    - etrans; [apply size_delete_le|]. rewrite HD. apply Hok.
    - by exists w1, a.
  Qed.
  Lemma dict_set_str_run w0 N D out n w key s : At w0 N D out n w → small N →
    ∃ w' b, on_dict (λ d, Set_ Hash d key (VStr s)) w = Ok (w', b) ∧
      At w0 (S N) (ADB (<[key := AStr s]> (a_keys D)) (a_ttl D)) out n w'.
  Proof.
    intros Ha Hsm. destruct (At_cur _ _ _ _ _ _ Ha) as (db & Hc & Hok & HD).
    destruct (on_dict_run w0 N (S N) D out n w (λ d, Set_ Hash d key (VStr s)) (λ _ _, True)
      (<[key := VStr s]> (d_map (db_dict db))) db Ha Hc) as (w1 & a & d1 & E1 & _ & Ha1 & _); [lia| | | |].
    - intros d Hd Hds Hm. destruct (iSet d key (VStr s) Hd) as (d' & E' & Hd' & Hm'); [by eapply small_mono|].
      eexists d', _. split; [exact E'|]. by rewrite Hm', Hm.
    - etrans; [apply size_insert_le|]. destruct Hok as (_ & _ & ? & _). lia.
    - intros k o Hk. left. destruct (decide (k = key)) as [->|Hne].
      + by rewrite lookup_insert in Hk.
      + by rewrite lookup_insert_ne in Hk.
    - exists w1, a. split; [done|]. rewrite fmap_insert in Ha1. simpl in Ha1. rewrite HD in Ha1 |- *. exact Ha1.
  Qed.

  Lemma dirty_ok w0 N D n w k r m : At w0 N D [] n w → replies m r →
    ends w0 N ((_ ← add_dirty k; m) w) (Ok (Out D r (n + k))).
  Proof.
    intros Ha Hr. destruct (At_dirty _ _ _ _ _ _ k Ha) as (w' & E1 & Ha' & _).
    eapply ends_bind; [done|]. by apply Hr.
  Qed.

  Lemma ref_expire_gen at_ proc :
    (∀ args, proc args = (key ← arg args 1; a ← arg args 2;
       match Atoi a with
       | None => addReplyError (invalid (B "expire") a (lib_num_error (e_lib E) (B "ParseInt") a))
       | Some n => _ ← on_expire (λ d, Set_ Hash d key (at_ n)); _ ← add_dirty 1; addReplyOK
       end)) →
    refines 3 proc (sem_expire E at_).
  Proof.
    intros Hproc args w0 N D w Har Ha Hroom. args_pos 2%nat args Har.
    eexists. split; [done|]. rewrite Hproc.
    do 2 (eapply ends_bind; [by apply arg_run|]).
    destruct (Atoi b1) as [z|].
    - destruct (expire_set_run _ _ _ _ _ _ b0 (at_ z) Ha) as (w1 & E1 & Ha1); [by eapply room_small|].
      eapply ends_bind; [done|]. eapply ends_mono; [|apply (dirty_ok w0 _ _ 0 _ 1); [done|apply rOK]]. simpl. lia.
    - eapply ends_mono; [|by apply rError]. lia.
  Qed.
  Lemma ref_expire : refines 3 (expireCommand E) (sem_expire E (λ n, wrap64 (e_now E + ms n))).
  Proof. by apply ref_expire_gen. Qed.
  Lemma ref_expireat : refines 3 (expireAtCommand E) (sem_expire E ms).
  Proof. by apply ref_expire_gen. Qed.

  Lemma dict_find_run w0 N D out n w key : At w0 N D out n w →
    ∃ w' o, on_dict (λ d, FindEntry Hash d key) w = Ok (w', o) ∧ (o = None ↔ a_keys D !! key = None) ∧
      At w0 N D out n w'.
  Proof.
    intros Ha. destruct (At_cur _ _ _ _ _ _ Ha) as (db & Hc & Hok & HD).
    destruct (on_dict_run w0 N N D out n w (λ d, FindEntry Hash d key)
       (λ a _, a = (λ v, (key, v)) <$> d_map (db_dict db) !! key) (d_map (db_dict db)) db Ha Hc)
       as (w' & a & d' & E1 & -> & Ha' & _); [done| | | |].
    - intros d Hd _ Hm. destruct (iFindEntry d key Hd) as (d' & E1 & Hd' & Hm'). eexists d', _.
      split; [exact E1|]. by rewrite Hm', Hm.
    - apply Hok.
    - eauto.
    - eexists w', _. split; [exact E1|]. split.
      + rewrite HD. simpl. rewrite lookup_fmap. by destruct (d_map (db_dict db) !! key).
      + rewrite HD in Ha' |- *. exact Ha'.
  Qed.
  Lemma expire_find_run w0 N D out n w key : At w0 N D out n w →
    ∃ w', on_expire (λ d, FindEntry Hash d key) w = Ok (w', (λ v, (key, v)) <$> a_ttl D !! key) ∧
      At w0 N D out n w'.
  Proof.
    intros Ha. destruct (At_cur _ _ _ _ _ _ Ha) as (db & Hc & Hok & HD).
    destruct (on_expire_run w0 N N D out n w (λ d, FindEntry Hash d key)
       (λ a, a = (λ v, (key, v)) <$> a_ttl D !! key) (a_ttl D) db Ha Hc)
       as (w' & a & d' & E1 & -> & Ha' & _); [done| | |].
    - intros d Hd _ Hm. destruct (iFindEntry d key Hd) as (d' & E1 & Hd' & Hm'). eexists d', _.
      split; [exact E1|]. by rewrite Hm', Hm.
    - rewrite HD. apply Hok.
    - eexists w'. split; [exact E1|]. by destruct D.
  Qed.
  Lemma ref_ttl : refines 2 (ttlCommand E) (sem_ttl E).
  Proof.
    intros args w0 N D w Har Ha Hroom. args_pos 1%nat args Har. eexists. split; [done|].
    eapply (ends_mono _ N); [lia|].
    unfold ttlCommand. eapply ends_bind; [by apply arg_run|].
    destruct (dict_find_run _ _ _ _ _ _ b0 Ha) as (w1 & o & E1 & Ho & Ha1). eapply ends_bind; [done|].
    destruct o as [e|].
    - destruct (a_keys D !! b0) eqn:Ek; [|by destruct Ho as [_ ?]; specialize (H eq_refl)].
      destruct (expire_find_run _ _ _ _ _ _ b0 Ha1) as (w2 & E2 & Ha2). eapply ends_bind; [done|].
      destruct (a_ttl D !! b0) eqn:Et; simpl; by apply rInt.
    - destruct Ho as [Ho _]. rewrite (Ho eq_refl). by apply rInt.
  Qed.

  Lemma ref_set : refines (-3) setCommand sem_set.
  Proof.
    intros args w0 N D w Har Ha Hroom. args_neg3 args Har. eexists. split; [done|].
    unfold setCommand. do 2 (eapply ends_bind; [by apply arg_run|]).
    destruct (expire_del_run _ _ _ _ _ _ b0 Ha) as (w1 & e & E1 & Ha1). eapply ends_bind; [done|].
    destruct (dict_set_str_run _ _ _ _ _ _ b0 b1 Ha1) as (w2 & e2 & E2 & Ha2); [by eapply room_small|].
    eapply ends_bind; [done|]. eapply ends_mono; [|apply (dirty_ok w0 _ _ 0 _ 1); [exact Ha2|apply rOK]]. simpl. lia.
  Qed.
  Lemma ref_setex : refines 4 (setExCommand E) (sem_setex E).
  Proof.
    intros args w0 N D w Har Ha Hroom. args_pos 3%nat args Har. eexists. split; [done|].
    unfold setExCommand. do 3 (eapply ends_bind; [by apply arg_run|]).
    destruct (Atoi b1) as [z|].
    - destruct (expire_set_run _ _ _ _ _ _ b0 (wrap64 (e_now E + ms z)) Ha) as (w1 & E1 & Ha1); [by eapply room_small|].
      eapply ends_bind; [done|].
      destruct (dict_set_str_run _ _ _ _ _ _ b0 b2 Ha1) as (w2 & e2 & E2 & Ha2).
      { eapply small_mono; [|exact Hroom]. simpl. lia. }
      eapply ends_bind; [done|]. eapply ends_mono; [|apply (dirty_ok w0 _ _ 0 _ 1); [exact Ha2|apply rOK]]. simpl. lia.
    - eapply ends_mono; [|by apply rError]. lia.
  Qed.
  Lemma ref_get : refines 2 (getCommand E) (sem_get E).
  Proof.
    intros args w0 N D w Har Ha Hroom. args_pos 1%nat args Har. eexists. split; [done|].
    eapply (ends_mono _ N); [lia|].
    unfold getCommand. eapply ends_bind; [by apply arg_run|].
    destruct (expireIfNeeded_run E b0 _ _ _ _ _ _ Ha) as (w1 & E1 & Ha1 & _). eapply ends_bind; [done|].
    destruct (cur_get _ _ _ _ _ _ b0 Ha1) as (w2 & ov & E2 & Ha2 & _ & _ & Hov). eapply ends_bind; [done|].
    destruct ov as [[s|o]|].
    - rewrite Hov. by apply rBulk.
    - destruct Hov as (x & Hp & -> & Hx). destruct x; by apply rError.
    - rewrite Hov. by apply rNull.
  Qed.
End simple.

(** * Hashes *)
Section hashes.
  Variable E : env.
  Lemma pair_ind (P : list bytes → Prop) :
    P [] → (∀ a b l, Nat.Even (length l) → P l → P (a :: b :: l)) → ∀ l, Nat.Even (length l) → P l.
  Proof.
    intros H0 H2 l. remember (length l) as n eqn:Hn. revert l Hn.
    induction n as [n IH] using lt_wf_ind. intros l Hn Hev.
    destruct l as [|a [|b l]]; [done| |].
    - exfalso. subst n. destruct Hev as [k Hk]. simpl in Hk. lia.
    - assert (Nat.Even (length l)).
      { destruct Hev as [k Hk]. exists (k - 1)%nat. simpl in Hn. lia. }
      apply H2; [done|]. eapply (IH (length l)); [simpl in Hn; lia|done|done].
  Qed.
  Lemma hset_loop_run key o w0 l : Nat.Even (length l) → ∀ x created M D n w,
    At w0 M D [] n w → points w key o (OHash x) → obj_ok M (OHash x) → small (M + length l) →
    ∃ w', hset_loop o l created w = Ok (w', created + grown (d_map x) (hset_all l (d_map x))) ∧
      At w0 (M + length l) (put_val key (AHash (hset_all l (d_map x))) D) [] (n + zlen l / 2) w'.
  Proof.
    revert l. apply (pair_ind (λ l, ∀ x created M D n w,
      At w0 M D [] n w → points w key o (OHash x) → obj_ok M (OHash x) → small (M + length l) →
    ∃ w', hset_loop o l created w = Ok (w', created + grown (d_map x) (hset_all l (d_map x))) ∧
      At w0 (M + length l) (put_val key (AHash (hset_all l (d_map x))) D) [] (n + zlen l / 2) w')).
    - intros x created M D n w Ha Hp Hx Hsm. exists w. simpl. split.
      + unfold grown. rewrite Z.sub_diag, Z.add_0_r. done.
      + rewrite put_val_id; [|by destruct (At_points _ _ _ _ _ _ _ _ _ Ha Hp)].
        rewrite Nat.add_0_r. change (zlen (@nil bytes) / 2) with 0. by rewrite Z.add_0_r.
    - intros f v l Hev IH x created M D n w Ha Hp Hx Hsm. destruct Hx as [Hi Hs].
      cbn [hset_loop]. destruct (iSet x f v Hi) as (x' & Es & Hi' & Hm').
      { eapply small_mono; [|exact Hsm]. lia. }
      destruct (on_obj_upd KHash w0 M (S M) D [] n w key o x x' (λ h, Set_ Hash h f v)
        (bool_decide (d_map x !! f = None)) KHash_ok Ha Hp) as (w1 & E1 & Ha1 & Hp1 & _);
        [lia|exact Es| |done|].
      { simpl. split; [done|]. rewrite Hm'. etrans; [apply size_insert_le|]. lia. }
      rewrite (bind_ok _ _ _ _ _ E1).
      destruct (At_dirty_points _ _ _ _ _ _ 1 _ _ _ Ha1 Hp1) as (w2 & E2 & Ha2 & Hp2 & _).
      rewrite (bind_ok _ _ _ _ _ E2).
      destruct (IH x' (if bool_decide (d_map x !! f = None) then created + 1 else created) (S M) _ _ w2 Ha2 Hp2)
        as (w3 & E3 & Ha3).
      { split; [done|]. rewrite Hm'. etrans; [apply size_insert_le|]. lia. }
      { eapply small_mono; [|exact Hsm]. simpl. lia. }
      exists w3. split.
      + rewrite E3. cbn [hset_all]. rewrite Hm'. do 2 f_equal. unfold grown.
        rewrite map_size_insert. case_bool_decide as Hf; [rewrite Hf|]; [simpl; lia|].
        destruct (d_map x !! f); [simpl; lia|done].
      + rewrite put_val_twice, Hm' in Ha3. cbn [hset_all]. eapply At_mono; [|replace (n + zlen (f :: v :: l) / 2)
          with (n + 1 + zlen l / 2); [exact Ha3|]].
        * simpl. lia.
        * unfold zlen. cbn [length]. rewrite !Nat2Z.inj_succ.
          replace (Z.succ (Z.succ (Z.of_nat (length l)))) with (Z.of_nat (length l) + 1 * 2) by lia.
          rewrite Z.div_add by lia. lia.
  Qed.

  Lemma ref_hset : refines (-4) hSetCommand sem_hset.
  Proof.
    intros args w0 N D w Har Ha Hroom. args_neg4 args Har. eexists. split; [done|].
    unfold hSetCommand. set (all := b :: b0 :: b1 :: b2 :: args) in *.
    destruct (zlen all mod 2 =? 0) eqn:Hmod.
    2:{ eapply ends_mono; [|by apply rError]. lia. }
    simpl negb. cbn iota. eapply (new_frame KHash AKHash fHash ErrWrongType b0 _ _ _ N); try done.
    - apply relHash.
    - simpl. lia.
    - by eapply room_small.
    - intros w1 D1 o x Ha1 Hp1 Hx1 _. change (drop 2 all) with (b1 :: b2 :: args).
      assert (Hev : Nat.Even (length (b1 :: b2 :: args))).
      { unfold zlen in Hmod. subst all. apply Z.eqb_eq in Hmod. cbn [length] in Hmod |- *.
        apply Z.mod_divide in Hmod as [k Hk]; [|lia]. exists (Z.to_nat (k - 1)). lia. }
      destruct (hset_loop_run b0 o w0 _ Hev x 0 _ _ _ w1 Ha1 Hp1 Hx1) as (w2 & E2 & Ha2).
      { eapply small_mono; [|exact Hroom]. subst all. cbn [length]. lia. }
      eapply ends_bind; [done|]. unfold out_of. cbn [mbind res_bind].
      eapply ends_mono; [|rewrite Z.add_0_l in Ha2 |- *; by apply rInt]. subst all. cbn [length]. lia.
  Qed.

  Lemma ref_hget : refines 3 (hGetCommand E) (sem_hget E).
  Proof.
    intros args w0 N D w Har Ha Hroom. args_pos 2%nat args Har. eexists. split; [done|].
    eapply (ends_mono _ N); [lia|].
    apply (existing_frame_swap KHash AKHash fHash E b0 b1 RNull) with (N := N); try done; [apply relHash|apply rNull|].
    intros w1 D1 o x Ha1 Hp1 [Hi Hs] Hkey.
    destruct (iGet x b1 Hi) as (x' & Eg & Hi' & Hm').
    eapply (read_body KHash AKHash fHash); try done; [apply relHash|split; [done|by rewrite Hm']|].
    change (fHash x) with (d_map x). destruct (d_map x !! b1); [apply rBulk|apply rNull].
  Qed.
  Lemma hdel_loop_run key o w0 N l : ∀ x deleted D n w,
    At w0 N D [] n w → points w key o (OHash x) → obj_ok N (OHash x) →
    ∃ w', hdel_loop o l deleted w = Ok (w', deleted + grown (hdel_all l (d_map x)) (d_map x)) ∧
      At w0 N (put_val key (AHash (hdel_all l (d_map x))) D) [] (n + grown (hdel_all l (d_map x)) (d_map x)) w'.
  Proof.
    induction l as [|f l IH]; intros x deleted D n w Ha Hp Hx.
    - exists w. unfold grown. simpl. rewrite Z.sub_diag, !Z.add_0_r. split; [done|].
      rewrite put_val_id; [done|]. by destruct (At_points _ _ _ _ _ _ _ _ _ Ha Hp).
    - destruct Hx as [Hi Hs]. cbn [hdel_loop].
      destruct (iDelete x f Hi) as (x' & e & Ed & He & Hi' & Hm').
      assert (Hx' : obj_ok N (OHash x')).
      { split; [done|]. rewrite Hm'. etrans; [apply size_delete_le|done]. }
      destruct (on_obj_upd KHash w0 N N D [] n w key o x x' (λ h, Delete Hash h f) e KHash_ok Ha Hp)
        as (w1 & E1 & Ha1 & Hp1 & _); [lia|exact Ed|done|done|].
      rewrite (bind_ok _ _ _ _ _ E1).
      assert (Hgr : grown (hdel_all (f :: l) (d_map x)) (d_map x)
        = (if e then 0 else 1) + grown (hdel_all l (d_map x')) (d_map x')).
      { unfold hdel_all. cbn [foldl]. rewrite Hm'. unfold grown. rewrite (map_size_delete f (d_map x)).
        destruct e as [e|].
        - destruct (d_map x !! f) eqn:Ef; [|simpl; lia]. destruct He as [_ He]. by specialize (He (ex_intro _ _ eq_refl)).
        - destruct He as [He _]. destruct (He eq_refl) as [v Hv]. rewrite Hv. simpl.
          assert (size (d_map x) ≠ 0%nat); [|lia]. intros H0%map_size_empty_inv. by rewrite H0 in Hv. }
      replace (hdel_all (f :: l) (d_map x)) with (hdel_all l (d_map x')) in Hgr |- *
        by (by rewrite Hm').
      destruct e as [e|].
      + destruct (IH x' deleted _ _ w1 Ha1 Hp1 Hx') as (w2 & E2 & Ha2). exists w2.
        rewrite Hgr, Z.add_0_l. split; [done|]. by rewrite put_val_twice in Ha2.
      + destruct (At_dirty_points _ _ _ _ _ _ 1 _ _ _ Ha1 Hp1) as (w2 & E2 & Ha2 & Hp2 & _).
        rewrite (bind_ok _ _ _ _ _ E2).
        destruct (IH x' (deleted + 1) _ _ w2 Ha2 Hp2 Hx') as (w3 & E3 & Ha3). exists w3.
        rewrite Hgr, !Z.add_assoc. split; [done|]. by rewrite put_val_twice in Ha3.
  Qed.
  Lemma ref_hdel : refines (-3) (hDelCommand E) (sem_hdel E).
  Proof.
    intros args w0 N D w Har Ha Hroom. args_neg3 args Har. eexists. split; [done|].
    eapply (ends_mono _ N); [lia|].
    apply (existing_frame KHash AKHash fHash) with (N := N); try done; [apply relHash|apply rInt|].
    intros w1 D1 o x Ha1 Hp1 Hx Hkey. cbn [drop].
    destruct (hdel_loop_run b0 o w0 N (b1 :: args) x 0 _ _ w1 Ha1 Hp1 Hx) as (w2 & E2 & Ha2).
    eapply ends_bind; [done|]. rewrite Z.add_0_l in Ha2 |- *. by apply rInt.
  Qed.
  Lemma ref_hexists : refines 3 (hExistsCommand E) (sem_hexists E).
  Proof.
    intros args w0 N D w Har Ha Hroom. args_pos 2%nat args Har. eexists. split; [done|].
    eapply (ends_mono _ N); [lia|].
    apply (existing_frame_swap KHash AKHash fHash E b0 b1 (RInt 0)) with (N := N); try done; [apply relHash|apply rInt|].
    intros w1 D1 o x Ha1 Hp1 [Hi Hs] Hkey.
    destruct (iFind x b1 Hi) as (x' & r & Eg & Hr & Hi' & Hm').
    eapply (read_body KHash AKHash fHash); try done; [apply relHash|split; [done|by rewrite Hm']|].
    change (fHash x) with (d_map x). destruct r as [l|].
    - destruct (d_map x !! b1); [apply rInt|]. destruct Hr as [_ Hr]. by specialize (Hr eq_refl).
    - destruct Hr as [Hr _]. rewrite (Hr eq_refl). apply rInt.
  Qed.
  Lemma ref_hlen : refines 2 (hLenCommand E) (sem_hlen E).
  Proof.
    intros args w0 N D w Har Ha Hroom. args_pos 1%nat args Har. eexists. split; [done|].
    eapply (ends_mono _ N); [lia|].
    apply (existing_frame KHash AKHash fHash) with (N := N); try done; [apply relHash|apply rInt|].
    intros w1 D1 o x Ha1 Hp1 Hx Hkey. pose proof Hx as [Hi Hs].
    eapply (read_body KHash AKHash fHash); try done; [apply relHash|by rewrite (iSize x Hi)|].
    apply rInt.
  Qed.
  Lemma iKeys (x : dict bytes bytes) : dinv x →
    ∃ l, iterate (λ d acc e, Ok (d, acc ++ [e.1])) x [] = Ok (x, l) ∧ l ≡ₚ base.elements (dom (d_map x)).
  Proof.
    intros [Hok Hi].
    destruct (iterate_spec Hash (λ d acc e, Ok (d, acc ++ [e.1]))
        (λ d' acc vis, acc = vis.*1 ∧ d_ht0 d' = d_ht0 x ∧ d_ht1 d' = d_ht1 x ∧ d_rehashIndex d' = d_rehashIndex x) x [])
      as (s' & ms & -> & Hok' & Hi' & _ & -> & Hs1 & Hs2 & Hs3).
    - done.
    - intros d acc e vis rest _ Hokd Hn Hni [-> Hs]. eexists _, _. split; [done|].
      split; [by apply keeps_rest_refl|]. split; [|done]. by rewrite fmap_app.
    - done.
    - done.
    - exists (entries x).*1. split; [destruct x, s'; simpl in *; congruence|].
      destruct Hok as (Ht0 & Hnd & Hrest0). apply NoDup_Permutation; [done|apply NoDup_elements|].
      intros k. unfold d_map. rewrite dom_list_to_map_L, elem_of_elements, elem_of_list_to_set. done.
  Qed.
  Lemma ref_hkeys : refines 2 (hKeysCommand E) (sem_hkeys E).
  Proof.
    intros args w0 N D w Har Ha Hroom. args_pos 1%nat args Har.
    enough (∃ ro, sem_hkeys E [b; b0] D ro ∧ ends w0 N (hKeysCommand E [b; b0] w) ro) as (ro & ? & ?).
    { exists ro. split; [done|]. eapply ends_mono; [|done]. lia. }
    unfold hKeysCommand.
    destruct (get_if_exist_run KHash AKHash fHash E b0 _ _ _ _ _ _ relHash Ha) as (w1 & r & E1 & Ha1 & _ & _ & Hr).
    destruct Hr as [[Hn ->]|[(v & Hv & Hvo & ->)|(o & x & -> & Hp & Hv & Hvo & Hx)]].
    - eexists. simpl. rewrite Hn. split; [done|].
      eapply ends_bind; [by apply arg_run|]. eapply ends_bind; [done|]. by apply rEmpty.
    - exists (Ok (Out (purge E b0 D) RWrong 0)). split.
      + simpl. rewrite Hv. by destruct v.
      + eapply ends_bind; [by apply arg_run|]. eapply ends_bind; [done|]. by apply rError.
    - destruct Hx as [Hi Hs]. destruct (iKeys x Hi) as (l & El & Hl).
      exists (Ok (Out (purge E b0 D) (RArray l) 0)). split.
      + simpl. rewrite Hv. simpl. exists (RArray l). split; [|done]. by exists l.
      + eapply ends_bind; [by apply arg_run|]. eapply ends_bind; [done|]. cbn iota.
        destruct (on_obj_read KHash w0 N _ [] 0 w1 b0 o x x (λ h, n ← Size h; Ok (h, n)) (Z.of_nat (size (d_map x))) KHash_ok Ha1 Hp)
          as (w2 & E2 & Ha2 & Hp2 & _); [by rewrite (iSize x Hi)|done|done|].
        eapply ends_bind; [done|].
        destruct (on_obj_read KHash w0 N _ [] 0 w2 b0 o x x (λ h, iterate (λ d acc e, Ok (d, acc ++ [e.1])) h []) l KHash_ok Ha2 Hp2)
          as (w3 & E3 & Ha3 & Hp3 & _); [done|done|done|].
        eapply ends_bind; [done|]. by apply rArray.
  Qed.
End hashes.

(** * Lists *)
Section lists.
  Variable E : env.
  Lemma lpush_loop_run key o w0 N l : ∀ q D n w,
    At w0 N D [] n w → points w key o (OList q) → wf q →
    ∃ w' q', lpush_loop o l w = Ok (w', tt) ∧ lpush_all l q = Ok q' ∧ wf q' ∧ points w' key o (OList q') ∧
      At w0 N (put_val key (AList q') D) [] (n + zlen l) w'.
  Proof.
    induction l as [|v l IH]; intros q D n w Ha Hp Hq.
    - exists w, q. split; [done|]. split; [done|]. split; [done|]. split; [done|].
      rewrite put_val_id; [|by destruct (At_points _ _ _ _ _ _ _ _ _ Ha Hp)].
      change (zlen (@nil bytes)) with 0. by rewrite Z.add_0_r.
    - cbn [lpush_loop lpush_all].
      destruct (PushFront_spec q v Hq) as (q1 & Eq & Hq1 & _).
      destruct (on_obj_upd KList w0 N N D [] n w key o q q1 (λ q, q' ← PushFront q v; Ok (q', tt)) tt KList_ok Ha Hp)
        as (w1 & E1 & Ha1 & Hp1 & _); [lia|by rewrite Eq|done|done|].
      rewrite (bind_ok _ _ _ _ _ E1).
      destruct (At_dirty_points _ _ _ _ _ _ 1 _ _ _ Ha1 Hp1) as (w2 & E2 & Ha2 & Hp2 & _).
      rewrite (bind_ok _ _ _ _ _ E2). rewrite Eq. simpl.
      destruct (IH q1 _ _ w2 Ha2 Hp2 Hq1) as (w3 & q' & E3 & El & Hq' & Hp3 & Ha3).
      exists w3, q'. do 4 (split; [done|]). rewrite put_val_twice in Ha3.
      by rewrite zlen_cons, Z.add_assoc.
  Qed.
  Lemma rpush_loop_run key o w0 N l : ∀ q D n w,
    At w0 N D [] n w → points w key o (OList q) → wf q →
    ∃ w' q', rpush_loop o l w = Ok (w', tt) ∧ rpush_all l q = q' ∧ wf q' ∧ points w' key o (OList q') ∧
      At w0 N (put_val key (AList q') D) [] (n + zlen l) w'.
  Proof.
    induction l as [|v l IH]; intros q D n w Ha Hp Hq.
    - exists w, q. split; [done|]. split; [done|]. split; [done|]. split; [done|].
      rewrite put_val_id; [|by destruct (At_points _ _ _ _ _ _ _ _ _ Ha Hp)].
      change (zlen (@nil bytes)) with 0. by rewrite Z.add_0_r.
    - cbn [rpush_loop]. unfold rpush_all. cbn [foldl].
      destruct (PushBack_spec q v Hq) as (Hq1 & _).
      destruct (on_obj_upd KList w0 N N D [] n w key o q (PushBack q v) (λ q, Ok (PushBack q v, tt)) tt KList_ok Ha Hp)
        as (w1 & E1 & Ha1 & Hp1 & _); [lia|done|done|done|].
      rewrite (bind_ok _ _ _ _ _ E1).
      destruct (At_dirty_points _ _ _ _ _ _ 1 _ _ _ Ha1 Hp1) as (w2 & E2 & Ha2 & Hp2 & _).
      rewrite (bind_ok _ _ _ _ _ E2).
      destruct (IH _ _ _ w2 Ha2 Hp2 Hq1) as (w3 & q' & E3 & El & Hq' & Hp3 & Ha3).
      exists w3, q'. do 4 (split; [done|]). rewrite put_val_twice in Ha3.
      by rewrite zlen_cons, Z.add_assoc.
  Qed.

  Lemma list_read {A} (G : quicklist bytes → res A) (m : A → M unit) R key o q w0 N D n w :
    At w0 N D [] n w → points w key o (OList q) → wf q → (∀ a, replies (m a) (R a)) →
    ends w0 N ((a ← on_obj KList o (λ q, v ← G q; Ok (q, v)); m a) w)
      (v ← G q; Ok (Out D (R v) n)).
  Proof.
    intros Ha Hp Hq Hm. pose proof Hp as [_ Hx].
    destruct (on_obj_fail KList w o q (λ q, v ← G q; Ok (q, v)) KList_ok Hx) as [F1 F2].
    destruct (G q) as [a| |] eqn:EG.
    - destruct (on_obj_read KList w0 N D [] n w key o q q (λ q, v ← G q; Ok (q, v)) a KList_ok Ha Hp)
        as (w2 & E2 & Ha2 & Hp2 & _); [by rewrite EG|done|done|].
      eapply ends_bind; [done|]. by apply Hm.
    - simpl. rewrite bind_panic; [done|]. by apply F1.
    - simpl. rewrite bind_fuel; [done|]. by apply F2.
  Qed.

  Lemma ref_push arity_ proc all loop :
    arity_ = -3 →
    (∀ args, proc args = (key ← arg args 1;
       l ← get_or_new KList ErrNotExist key;
       match l with
       | inr e => addReplyError (err_text e)
       | inl o => _ ← loop o (drop 2 args); n ← on_obj KList o (λ q, Ok (q, Len q)); addReplyInt n
       end)) →
    (∀ key o w0 N l q D n w, At w0 N D [] n w → points w key o (OList q) → wf q →
      ∃ w' q', loop o l w = Ok (w', tt) ∧ all l q = Ok q' ∧ wf q' ∧ points w' key o (OList q') ∧
        At w0 N (put_val key (AList q') D) [] (n + zlen l) w') →
    refines arity_ proc (sem_push all).
  Proof.
    intros -> Hproc Hloop args w0 N D w Har Ha Hroom. args_neg3 args Har. eexists. split; [done|].
    rewrite Hproc. eapply (new_frame KList AKList fList ErrNotExist b0 _ _ _ N); try done.
    - apply relList.
    - simpl. lia.
    - by eapply room_small.
    - intros w1 D1 o q Ha1 Hp1 Hq1 _. change (drop 2 (b :: b0 :: b1 :: args)) with (b1 :: args).
      destruct (Hloop b0 o w0 _ (b1 :: args) q _ _ w1 Ha1 Hp1 Hq1) as (w2 & q' & E2 & El & Hq' & Hp2 & Ha2).
      eapply ends_bind; [done|]. unfold out_of. change (fList q) with q. rewrite El. cbn [mbind res_bind].
      rewrite Z.add_0_l in Ha2.
      eapply (ends_mono _ (S N)); [simpl; lia|].
      apply (list_read (λ q, Ok (Len q)) addReplyInt RInt b0 o q' w0 _ _ _ w2); [done..|apply rInt].
  Qed.
  Lemma ref_lpush : refines (-3) lPushCommand (sem_push lpush_all).
  Proof. eapply ref_push; [done|done|]. intros. by apply lpush_loop_run. Qed.
  Lemma ref_rpush : refines (-3) rPushCommand (sem_push (λ l q, Ok (rpush_all l q))).
  Proof.
    eapply ref_push; [done|done|]. intros key o w0 N l q D n w Ha Hp Hq.
    destruct (rpush_loop_run key o w0 N l q D n w Ha Hp Hq) as (w' & q' & E1 & <- & ?). eexists w', _. done.
  Qed.

  Lemma ref_pop proc (pop : quicklist bytes → res (quicklist bytes * option bytes)) :
    (∀ args, proc args = (key ← arg args 1;
       l ← get_if_exist E KList key;
       match l with
       | inr ErrNotExist => addReplyNull
       | inr e => addReplyError (err_text e)
       | inl o =>
           n ← on_obj KList o (λ q, Ok (q, Len q));
           if n =? 0 then addReplyNull else
           _ ← add_dirty 1;
           v ← on_obj KList o pop;
           v ← lift (deref v);
           addReplyBulkString v
       end)) →
    (∀ q, wf q → Len q ≠ 0 → pop q = Panic ∨ ∃ q' v, pop q = Ok (q', Some v) ∧ wf q') →
    refines 2 proc (sem_pop E pop).
  Proof.
    intros Hproc Hpop args w0 N D w Har Ha Hroom. args_pos 1%nat args Har. eexists. split; [done|].
    eapply (ends_mono _ N); [lia|]. rewrite Hproc.
    apply (existing_frame KList AKList fList) with (N := N); try done; [apply relList|apply rNull|].
    intros w1 D1 o q Ha1 Hp1 Hq Hkey.
    destruct (on_obj_read KList w0 N D1 [] 0 w1 b0 o q q (λ q, Ok (q, Len q)) (Len q) KList_ok Ha1 Hp1)
        as (w2 & E2 & Ha2 & Hp2 & _); [done|done|done|].
    eapply ends_bind; [done|]. change (fList q) with q. destruct (Len q =? 0) eqn:El.
    - unfold out_of. simpl. rewrite put_val_id; [|done]. by apply rNull.
    - destruct (At_dirty_points _ _ _ _ _ _ 1 _ _ _ Ha2 Hp2) as (w3 & E3 & Ha3 & Hp3 & _).
      eapply ends_bind; [done|]. destruct (Hpop q Hq) as [HP|(q' & v & HP & Hq')]; [lia| |].
      + rewrite HP. unfold out_of. simpl. rewrite bind_panic; [done|].
        apply (on_obj_fail KList w3 o q pop KList_ok); [apply Hp3|done].
      + rewrite HP. unfold out_of. simpl.
        destruct (on_obj_upd KList w0 N N _ [] _ w3 b0 o q q' pop (Some v) KList_ok Ha3 Hp3)
          as (w4 & E4 & Ha4 & Hp4 & _); [lia|done|done|done|].
        assert (Hend : ends w0 N (addReplyBulkString v w4) (Ok (Out (put_val b0 (AList q') D1) (RBulk v) 1))).
        { by apply rBulk. }
        simpl in Hend. destruct Hend as (w5 & E5 & Ha5). exists w5. split; [|done].
        rewrite (bind_ok _ _ _ _ _ E4). rewrite <-E5. done.
  Qed.
  Lemma ref_lpop : refines 2 (lPopCommand E) (sem_pop E PopFront).
  Proof.
    eapply ref_pop; [done|]. intros q Hq Hl. right. pose proof (PopFront_spec q Hq) as HP.
    destruct (QuicklistProofs.elements q) as [|v l] eqn:Eq.
    - destruct Hq as [Hq _]. rewrite Eq in Hq. unfold Len in Hl. done.
    - destruct HP as (q' & ? & ? & _). by exists q', v.
  Qed.
  Lemma ref_rpop : refines 2 (rPopCommand E) (sem_pop E PopBack).
  Proof.
    eapply ref_pop; [done|]. intros q Hq Hl. destruct (q_pages q) as [|p [|p2 ps]] eqn:Eq.
    - exfalso. apply Hl. destruct Hq as [Hq _]. unfold Len. rewrite Hq. unfold QuicklistProofs.elements. by rewrite Eq.
    - right. destruct (PopBack_one q p Hq Eq) as (q' & v & ? & ? & _). by exists q', v.
    - left. apply PopBack_many; [done|]. rewrite Eq. simpl. lia.
  Qed.

  Lemma list_reading {A} (G : quicklist bytes → res A) (R : A → reply) key q D :
    a_keys D !! key = Some (AList q) →
    (v ← G q; Ok (Out D (R v) 0)) = out_of AKList key D (reading (λ q, v ← G q; Ok (R v)) q).
  Proof.
    intros Hk. unfold out_of, reading. destruct (G q); simpl; try done. by rewrite put_val_id.
  Qed.
  Lemma list_read2 {A} (G : quicklist bytes → res A) (m : A → M unit) R key o q w0 N D w :
    At w0 N D [] 0 w → points w key o (OList q) → wf q → a_keys D !! key = Some (AList q) →
    (∀ a, replies (m a) (R a)) →
    ends w0 N ((a ← on_obj KList o (λ q, v ← G q; Ok (q, v)); m a) w)
      (out_of AKList key D (reading (λ q, v ← G q; Ok (R v)) q)).
  Proof. intros Ha Hp Hq Hk Hm. rewrite <-list_reading by done. by apply (list_read G m R key o q). Qed.
  Lemma ref_llen : refines 2 (lLenCommand E) (sem_llen E).
  Proof.
    intros args w0 N D w Har Ha Hroom. args_pos 1%nat args Har. eexists. split; [done|].
    eapply (ends_mono _ N); [lia|].
    apply (existing_frame KList AKList fList) with (N := N); try done; [apply relList|apply rInt|].
    intros w1 D1 o q Ha1 Hp1 Hq Hkey.
    exact (list_read2 (λ q, Ok (Len q)) addReplyInt RInt b0 o q w0 N D1 w1 Ha1 Hp1 Hq Hkey rInt).
  Qed.
  Lemma reading_const {Y} (ak : akind Y) key D (y : Y) r :
    a_keys D !! key = Some (ak_in ak y) → out_of ak key D (Ok (y, r, 0)) = Ok (Out D r 0).
  Proof. intros Hk. unfold out_of. simpl. by rewrite put_val_id. Qed.
  Lemma ref_lindex : refines 3 (lIndexCommand E) (sem_lindex E).
  Proof.
    intros args w0 N D w Har Ha Hroom. args_pos 2%nat args Har. eexists. split; [done|].
    eapply (ends_mono _ N); [lia|].
    apply (existing_frame KList AKList fList) with (N := N); try done; [apply relList|apply rNull|].
    intros w1 D1 o q Ha1 Hp1 Hq Hkey. eapply ends_bind; [by apply arg_run|].
    unfold reading. destruct (Atoi b1) as [i|].
    - apply (list_read2 (λ q, QGet q i)
        (λ v, match v with None => addReplyNull | Some v => addReplyBulkString v end)
        (λ v, match v with None => RNull | Some v => RBulk v end) b0 o q w0 N D1 w1 Ha1 Hp1 Hq Hkey). intros [v|]; [apply rBulk|apply rNull].
    - unfold out_of. cbn [mbind res_bind]. rewrite put_val_id by done. by apply rError.
  Qed.
  Lemma ref_lrange : refines (-4) (lRangeCommand E) (sem_lrange E).
  Proof.
    intros args w0 N D w Har Ha Hroom. args_neg4 args Har. eexists. split; [done|].
    eapply (ends_mono _ N); [lia|].
    apply (existing_frame KList AKList fList) with (N := N); try done; [apply relList|apply rEmpty|].
    intros w1 D1 o q Ha1 Hp1 Hq Hkey. eapply ends_bind; [by apply arg_run|].
    unfold reading. destruct (Atoi b1) as [i|].
    2:{ unfold out_of. cbn [mbind res_bind]. rewrite put_val_id by done. by apply rError. }
    eapply ends_bind; [by apply arg_run|]. destruct (Atoi b2) as [j|].
    2:{ unfold out_of. cbn [mbind res_bind]. rewrite put_val_id by done. by apply rError. }
    apply (list_read2 (λ q, QRange q i j)
      (λ v, match v with None => addReplyNull | Some v => addReplyArrays v end)
      (λ v, match v with None => RNull | Some v => RArray v end) b0 o q w0 N D1 w1 Ha1 Hp1 Hq Hkey). intros [v|]; [apply rArray|apply rNull].
  Qed.
End lists.
