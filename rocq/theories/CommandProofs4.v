(** Refinement: the sorted set commands. *)
From Verif Require Import Base Float DictModel DictProofs DictProofs2 DictProofs3 DictProofs4 DictRun
  DatabaseModel SetModel SetProofs QuicklistModel QuicklistProofs SkiplistModel ZsetModel
  Strconv RespSpec ServerModel CommandModel CommandSem CommandInv CommandInv2 CommandProofs1 CommandProofs2.
From Coq Require Import ZifyBool ZifyNat.

(** two runs that end the same way, with related results *)
Definition sim {A B} (R : A → B → Prop) (r1 : res A) (r2 : res B) : Prop :=
  match r1, r2 with
  | Ok a, Ok b => R a b
  | Panic, Panic => True
  | OutOfFuel, OutOfFuel => True
  | _, _ => False
  end.
Lemma sim_bind {A B A' B'} (R : A → B → Prop) (R' : A' → B' → Prop) r1 r2 (f : A → res A') (g : B → res B') :
  sim R r1 r2 → (∀ a b, R a b → sim R' (f a) (g b)) → sim R' (r1 ≫= f) (r2 ≫= g).
Proof. intros H1 H2. destruct r1, r2; simpl in *; try done. by apply H2. Qed.
Lemma sim_same {A A' B'} (R' : A' → B' → Prop) (r : res A) (f : A → res A') (g : A → res B') :
  (∀ a, sim R' (f a) (g a)) → sim R' (r ≫= f) (r ≫= g).
Proof. intros H. by destruct r; simpl. Qed.

(** [z'] shows as [a] and is well formed within [N] *)
Definition zrel (N : nat) (z' : zset) (a : azset) : Prop := fZset z' = a ∧ obj_ok N (OZset z').

Lemma randomLevel_suffix rs lv rs' : randomLevel rs = Ok (lv, rs') → ∃ rs0, rs = rs0 ++ rs'.
Proof.
  unfold randomLevel. destruct (randomLevel_loop 1 rs) as [[l r]| |] eqn:E; simpl; intros [= <- <-].
  revert E. generalize 1. induction rs as [|r0 rs IH]; intros n; simpl; [done|]. case_match.
  - intros H'. destruct (IH _ H') as [rs0 ->]. by exists (r0 :: rs0).
  - intros [= <- <-]. by exists [r0].
Qed.
Lemma sl_add_suffix s sc m rs s' rs' : sl_add s sc m rs = Ok (s', rs') → ∃ rs0, rs = rs0 ++ rs'.
Proof.
  unfold sl_add. destruct (randomLevel rs) as [[lv r]| |] eqn:E; simpl; try done.
  destruct (Insert s lv sc m) as [[s2 x]| |]; simpl; intros [= <- <-]. by eapply randomLevel_suffix.
Qed.
Lemma ZAdd_sim N z sc m rs : obj_ok N (OZset z) → small N → Forall (λ r, 0 ≤ r) rs →
  sim (λ x y, zrel (S N) x.1.1 y.1.1 ∧ x.1.2 = y.1.2 ∧ x.2 = y.2 ∧ Forall (λ r, 0 ≤ r) x.2)
    (ZAdd Hash z sc m rs) (zadd1 (fZset z) sc m rs).
Proof.
  intros [[Hok Hi] Hsz] Hsm Hrs. unfold ZAdd, zadd1.
  destruct (Find_spec Hash (z_dict z) m Hok) as (d' & o & -> & Hok' & Hm' & Hi' & Hn' & Ho).
  cbn [mbind res_bind]. unfold fZset. cbn [fst snd]. destruct o as [l|].
  - destruct Ho as (v & Hl & Hv). rewrite Hv. rewrite (entry_at_loc Hash d' l m v) by done. cbn [mbind res_bind fst snd].
    destruct (feq sc v) eqn:Ef; cbn [negb].
    + simpl. split; [|done]. split; [unfold fZset; simpl; by rewrite Hm'|]. simpl. rewrite Hm'. split; [by split; [|congruence]|lia].
    + destruct (write_value_spec Hash d' l m v sc Hok' Hl) as (d2 & -> & Hok2 & Hm2 & Hi2 & _).
      cbn [mbind res_bind fst snd]. apply sim_same. intros [s1 x].
      destruct (sl_add (s1, x).1 sc m rs) as [[s2 rs2]| |] eqn:EA; simpl; try done.
      split; [|split; [done|split; [done|]]].
      * split; [unfold fZset; simpl; by rewrite Hm2, Hm'|]. simpl. split; [split; [done|congruence]|].
        rewrite Hm2, Hm'. etrans; [apply size_insert_le|]. lia.
      * apply sl_add_suffix in EA as [rs0 ->]. by apply Forall_app in Hrs as [_ ?].
  - rewrite Ho. destruct (iSet d' m sc) as (d2 & -> & Hd2 & Hm2).
    { unfold DictRun.inv. split; [done|congruence]. }
    { rewrite Hm'. by eapply small_mono. }
    cbn [mbind res_bind fst snd].
    destruct (sl_add (z_sl z) sc m rs) as [[s2 rs2]| |] eqn:EA; simpl; try done.
    split; [|split; [done|split; [done|]]].
    + split; [unfold fZset; simpl; by rewrite Hm2, Hm'|]. simpl. split; [done|].
      rewrite Hm2, Hm'. etrans; [apply size_insert_le|]. lia.
    + apply sl_add_suffix in EA as [rs0 ->]. by apply Forall_app in Hrs as [_ ?].
Qed.
Lemma ZDelete_sim N z m : obj_ok N (OZset z) →
  sim (λ x y, zrel N x.1 y.1 ∧ x.2 = y.2) (ZDelete Hash z m) (zdel1 (fZset z) m).
Proof.
  intros [Hd Hsz]. unfold ZDelete, ZGet, zdel1.
  destruct (iFindEntry (z_dict z) m Hd) as (d' & -> & Hd' & Hm'). cbn [mbind res_bind fst snd].
  unfold fZset. cbn [fst snd]. destruct (d_map (z_dict z) !! m) as [sc|] eqn:Em.
  - cbn [fmap option_fmap option_map]. cbn [z_dict z_sl].
    destruct (iDelete d' m Hd') as (d2 & e & -> & _ & Hd2 & Hm2). cbn [mbind res_bind fst snd].
    apply sim_same. intros [s1 x]. simpl. split; [|done]. split; [unfold fZset; simpl; by rewrite Hm2, Hm'|].
    split; [done|]. simpl. rewrite Hm2, Hm'. etrans; [apply size_delete_le|done].
  - cbn [fmap option_fmap option_map]. simpl. split; [|done]. split; [unfold fZset; simpl; by rewrite Hm'|].
    simpl. by rewrite Hm'.
Qed.
Lemma elements_sim N ids : ∀ z, obj_ok N (OZset z) →
  sim (λ x y, zrel N x.1 (fZset z) ∧ x.2 = y) (elements Hash z ids) (zelems (d_map (z_dict z)) (z_sl z) ids).
Proof.
  induction ids as [|x ids IH]; intros z Hz; [done|]. cbn [elements zelems].
  apply sim_same. intros nd. unfold ZGet.
  pose proof Hz as [Hd Hsz]. destruct (iFindEntry (z_dict z) (n_member nd) Hd) as (d' & -> & Hd' & Hm').
  cbn [mbind res_bind fst snd].
  assert (Hz' : obj_ok N (OZset (MkZset d' (z_sl z)))) by (split; simpl; by rewrite ?Hm').
  pose proof (IH _ Hz') as HI. cbn [z_dict z_sl] in HI. rewrite Hm' in HI.
  unfold fZset in HI at 1. cbn [z_dict z_sl] in HI. rewrite Hm' in HI.
  eapply sim_bind; [exact HI|]. intros [z2 es] es' [Hr Hes]. simpl in *. subst es'. by split.
Qed.
Lemma elements_delete_sim N ids : ∀ z, obj_ok N (OZset z) →
  sim (λ x y, zrel N x.1 (y.1, z_sl z) ∧ x.2 = y.2) (elements_delete Hash z ids) (zelems_delete (d_map (z_dict z)) (z_sl z) ids).
Proof.
  induction ids as [|x ids IH]; intros z Hz; [done|]. cbn [elements_delete zelems_delete].
  apply sim_same. intros nd. unfold ZGet.
  pose proof Hz as [Hd Hsz]. destruct (iFindEntry (z_dict z) (n_member nd) Hd) as (d' & -> & Hd' & Hm').
  cbn [mbind res_bind fst snd z_dict z_sl].
  destruct (iDelete d' (n_member nd) Hd') as (d2 & e & -> & _ & Hd2 & Hm2). cbn [mbind res_bind fst snd].
  assert (Hz' : obj_ok N (OZset (MkZset d2 (z_sl z)))).
  { split; [done|]. simpl. rewrite Hm2, Hm'. etrans; [apply size_delete_le|done]. }
  pose proof (IH _ Hz') as HI. cbn [z_dict z_sl] in HI. rewrite Hm2, Hm' in HI.
  eapply sim_bind; [exact HI|]. intros [z2 es] [m' es'] [Hr Hes]. simpl in *. subst es'. by split.
Qed.
Lemma zrel_refl N z : obj_ok N (OZset z) → zrel N z (fZset z).
Proof. by split. Qed.

Section zsets.
  Variable E : env.
  (** a command that runs [F] on the sorted set, counts [c a] changes and replies [m a] *)
  Lemma zset_body {A} (F : zset → res (zset * A)) (G : azset → res (azset * A)) (c : A → Z) (m : A → M unit) (R : A → res reply)
      x key o w0 N D w :
    At w0 N D [] 0 w → points w key o (OZset x) →
    (∀ z, obj_ok N (OZset z) → sim (λ x y, zrel N x.1 y.1 ∧ x.2 = y.2) (F z) (G (fZset z))) →
    (∀ a w D1 n, At w0 N D1 [] n w → ends w0 N (m a w) (r ← R a; Ok (Out D1 r (n + c a)))) →
    ends w0 N ((a ← on_obj KZset o F; m a) w)
      (out_of AKZset key D (y ← G (fZset x); r ← R y.2; Ok (y.1, r, c y.2))).
  Proof.
    intros Ha Hp HF Hm. destruct (At_points _ _ _ _ _ _ _ _ _ Ha Hp) as (_ & Hx & _). pose proof Hp as [_ Hhx].
    pose proof (HF x Hx) as Hs. destruct (on_obj_fail KZset w o x F KZset_ok Hhx) as [F1 F2].
    destruct (F x) as [[x' a]| |] eqn:EF; destruct (G (fZset x)) as [[y' a']| |] eqn:EG; simpl in Hs; try done.
    - destruct Hs as [[Hy Hx'] <-].
      destruct (on_obj_upd KZset w0 N N D [] 0 w key o x x' F a KZset_ok Ha Hp) as (w1 & E1 & Ha1 & Hp1 & _); [lia|done|done|done|].
      eapply ends_bind; [done|]. pose proof (Hm a w1 _ _ Ha1) as HE.
      unfold out_of. cbn [mbind res_bind fst snd]. destruct (R a) as [r| |]; cbn [mbind res_bind] in *; [|done..].
      rewrite Z.add_0_l in HE. rewrite <-Hy. exact HE.
    - rewrite bind_panic; [done|]. by apply F1.
    - rewrite bind_fuel; [done|]. by apply F2.
  Qed.
  (** the same, read only *)
  Lemma zset_read {A} (F : zset → res (zset * A)) (G : azset → res A) (m : A → M unit) (R : A → res reply)
      x key o w0 N D w :
    At w0 N D [] 0 w → points w key o (OZset x) →
    (∀ z, obj_ok N (OZset z) → sim (λ x y, zrel N x.1 (fZset z) ∧ x.2 = y) (F z) (G (fZset z))) →
    (∀ a w D1 n, At w0 N D1 [] n w → ends w0 N (m a w) (r ← R a; Ok (Out D1 r n))) →
    ends w0 N ((a ← on_obj KZset o F; m a) w)
      (out_of AKZset key D (reading (λ z, a ← G z; R a) (fZset x))).
  Proof.
    intros Ha Hp HF Hm.
    pose proof (zset_body F (λ z, a ← G z; Ok (z, a)) (λ _, 0) m R x key o w0 N D w Ha Hp) as HB.
    replace (reading (λ z, a ← G z; R a) (fZset x)) with
      (y ← (a ← G (fZset x); Ok (fZset x, a)); r ← R y.2; Ok (y.1, r, 0)).
    - apply HB.
      + intros z Hz. pose proof (HF z Hz) as Hs. destruct (F z) as [[]| |], (G (fZset z)); simpl in *; done.
      + intros a w1 D1 n Ha1. rewrite Z.add_0_r. by apply Hm.
    - unfold reading. by destruct (G (fZset x)).
  Qed.
  Lemma zreplies {A} (m : A → M unit) (R : A → reply) : (∀ a, replies (m a) (R a)) →
    ∀ w0 N a w D1 n, At w0 N D1 [] n w → ends w0 N (m a w) (r ← Ok (R a); Ok (Out D1 r n)).
  Proof. intros Hm w0 N a w D1 n Ha. cbn [mbind res_bind]. by apply Hm. Qed.
  Lemma ZGet_sim N z m : obj_ok N (OZset z) →
    sim (λ x y, zrel N x.1 (fZset z) ∧ x.2 = y) (ZGet Hash z m) (Ok ((λ sc, (m, sc)) <$> d_map (z_dict z) !! m)).
  Proof.
    intros [Hd Hsz]. unfold ZGet. destruct (iFindEntry (z_dict z) m Hd) as (d' & -> & Hd' & Hm'). simpl.
    split; [|done]. split; [unfold fZset; simpl; by rewrite Hm'|]. split; simpl; by rewrite ?Hm'.
  Qed.

  Lemma ref_zcard : refines 2 (zCardCommand E) (sem_zcard E).
  Proof.
    intros args w0 N D w Har Ha Hroom. args_pos 1%nat args Har. eexists. split; [done|].
    eapply (ends_mono _ N); [lia|].
    apply (existing_frame KZset AKZset fZset) with (N := N); try done; [apply relZset|apply rInt|].
    intros w1 D1 o x Ha1 Hp1 Hx Hkey.
    apply (zset_read (λ z, Ok (z, ZSize z)) (λ z, Ok (sl_length z.2)) addReplyInt (λ n, Ok (RInt n))); try done.
    apply (zreplies addReplyInt RInt), rInt.
  Qed.
  Lemma ref_zscore : refines 3 (zScoreCommand E) (sem_zscore E).
  Proof.
    intros args w0 N D w Har Ha Hroom. args_pos 2%nat args Har. eexists. split; [done|].
    eapply (ends_mono _ N); [lia|].
    apply (existing_frame KZset AKZset fZset) with (N := N); try done; [apply relZset|apply rNull|].
    intros w1 D1 o x Ha1 Hp1 Hx Hkey. eapply ends_bind; [by apply arg_run|].
    set (m := λ e : option (bytes * float), match e with None => addReplyNull | Some (_, sc) => addReplySimpleString (lib_format_float (e_lib E) sc) end).
    set (R := λ e : option (bytes * float), match e with None => RNull | Some (_, sc) => RSimple (lib_format_float (e_lib E) sc) end).
    replace (reading _ (fZset x)) with
      (reading (λ z : azset, a ← Ok ((λ sc, (b1, sc)) <$> z.1 !! b1); Ok (R a)) (fZset x)).
    - eapply (zset_read (λ z, ZGet Hash z b1) (λ z, Ok ((λ sc, (b1, sc)) <$> z.1 !! b1)) m (λ e, Ok (R e))); try done.
      + intros z Hz. by apply ZGet_sim.
      + apply (zreplies m R). intros [[]|]; [apply rSimple|apply rNull].
    - unfold reading. simpl. by destruct (d_map (z_dict x) !! b1).
  Qed.

  Lemma ends_floats args a b w1 w2 D k km w0 N w : args !! 2%nat = Some a → args !! 3%nat = Some b →
    At w0 N D [] 0 w → (∀ x y, ends w0 N (km x y w) (k x y)) →
    ends w0 N (two_floats E args w1 w2 km w) (floats E a b w1 w2 D k).
  Proof.
    intros Ha1 Ha2 Ha Hk. unfold two_floats, floats. eapply ends_bind; [by apply arg_run|].
    destruct (lib_parse_float (e_lib E) a) as [x|] eqn:Ex.
    2:{ by apply rError. }
    eapply ends_bind; [by apply arg_run|].
    destruct (lib_parse_float (e_lib E) b) as [y|] eqn:Ey; [apply Hk|by apply rError].
  Qed.
  Lemma ends_ints args a b w1 w2 D k km w0 N w : args !! 2%nat = Some a → args !! 3%nat = Some b →
    At w0 N D [] 0 w → (∀ x y, ends w0 N (km x y w) (k x y)) →
    ends w0 N (two_ints E args w1 w2 km w) (ints E a b w1 w2 D k).
  Proof.
    intros Ha1 Ha2 Ha Hk. unfold two_ints, ints. eapply ends_bind; [by apply arg_run|].
    destruct (Atoi a) as [x|]; [|by apply rError]. eapply ends_bind; [by apply arg_run|].
    destruct (Atoi b) as [y|]; [apply Hk|by apply rError].
  Qed.
  (** [existing_frame] with the key already fetched *)
  Lemma existing_frame0 {X Y} (k : kind X) (ak : akind Y) f key none mnone body (g : Y → res (Y * reply * Z)) w0 N D w :
    rel_kind k ak f → At w0 N D [] 0 w → replies mnone none →
    (∀ w D1 o x, At w0 N D1 [] 0 w → points w key o (k_in k x) → obj_ok N (k_in k x) →
       a_keys D1 !! key = Some (ak_in ak (f x)) →
       ends w0 N (body o w) (out_of ak key D1 (g (f x)))) →
    ends w0 N ((h ← get_if_exist E k key;
                match h with
                | inr ErrNotExist => mnone
                | inr e => addReplyError (err_text e)
                | inl o => body o
                end) w) (on_existing ak E key none g D).
  Proof.
    intros Hk Ha Hnone Hbody.
    pose proof (existing_frame k ak f E key none mnone body g w0 N N D w [key; key] Hk eq_refl Ha (Nat.le_refl _) Hnone Hbody) as HF.
    by rewrite (bind_ok _ _ _ _ _ (arg_run [key; key] 1 key w eq_refl)) in HF.
  Qed.
  Lemma ref_zcount : refines (-4) (zCountCommand E) (sem_zcount E).
  Proof.
    intros args w0 N D w Har Ha Hroom. args_neg4 args Har. eexists. split; [done|].
    eapply (ends_mono _ N); [lia|]. eapply ends_bind; [by apply arg_run|].
    apply ends_floats; try done. intros min max.
    apply (existing_frame0 KZset AKZset fZset); try done; [apply relZset|apply rInt|].
    intros w1 D1 o x Ha1 Hp1 Hx Hkey.
    apply (zset_read (λ z, n ← ZCount z min max; Ok (z, n)) (λ z, Count z.2 min max) addReplyInt (λ n, Ok (RInt n))); try done.
    - intros z Hz. unfold ZCount. simpl. destruct (Count (z_sl z) min max); simpl; try done.
    - apply (zreplies addReplyInt RInt), rInt.
  Qed.
  Lemma elems_run withScore es : ∀ w0 N D out n w, At w0 N D out n w →
    match zarray E withScore es with
    | Ok l => ∃ w', addReplyElements E withScore es w = Ok (w', tt) ∧ At w0 N D (out ++ concat (map bulk l)) n w' ∧
                zlen l = (if withScore then zlen es * 2 else zlen es)
    | Panic => addReplyElements E withScore es w = Panic
    | OutOfFuel => False
    end.
  Proof.
    induction es as [|[[m sc]|] es IH]; intros w0 N D out n w Ha.
    - exists w. simpl. rewrite app_nil_r. split; [done|]. split; [done|]. by destruct withScore.
    - cbn [zarray addReplyElements].
      destruct (bulks_run [m] _ _ _ _ _ _ Ha) as (w1 & E1 & Ha1). cbn [addReplyBulks] in E1.
      assert (E1' : addReplyBulkString m w = Ok (w1, tt)).
      { unfold mbind, M_bind in E1. by destruct (addReplyBulkString m w) as [[? []]| |]. }
      rewrite (bind_ok _ _ _ _ _ E1').
      destruct withScore.
      + destruct (bulks_run [lib_format_float (e_lib E) sc] _ _ _ _ _ _ Ha1) as (w2 & E2 & Ha2). cbn [addReplyBulks] in E2.
        assert (E2' : addReplyBulkString (lib_format_float (e_lib E) sc) w1 = Ok (w2, tt)).
        { unfold mbind, M_bind in E2. by destruct (addReplyBulkString _ w1) as [[? []]| |]. }
        rewrite (bind_ok _ _ _ _ _ E2').
        pose proof (IH _ _ _ _ _ _ Ha2) as HI. destruct (zarray E true es) as [l| |]; cbn [mbind res_bind]; [|done..].
        destruct HI as (w' & E' & Ha' & Hl). exists w'. split; [done|]. split.
        * cbn [map concat] in Ha' |- *. rewrite !app_nil_r in Ha'. by rewrite !app_assoc.
        * rewrite !zlen_cons. lia.
      + rewrite (bind_ok _ _ _ w1 tt) by done.
        pose proof (IH _ _ _ _ _ _ Ha1) as HI. destruct (zarray E false es) as [l| |]; cbn [mbind res_bind]; [|done..].
        destruct HI as (w' & E' & Ha' & Hl). exists w'. split; [done|]. split.
        * cbn [map concat] in Ha' |- *. rewrite !app_nil_r in Ha'. by rewrite !app_assoc.
        * rewrite !zlen_cons. lia.
    - done.
  Qed.
  Lemma zelements_run args es w0 N D n w : At w0 N D [] n w →
    ends w0 N (addReplyZsetElements E args es 4 w) (r ← zreply E args es; Ok (Out D r n)).
  Proof.
    intros Ha. unfold addReplyZsetElements, zreply.
    assert (HH : ∀ ws k, k = (if ws : bool then zlen es * 2 else zlen es) →
      ends w0 N ((_ ← addReplyHeader k; addReplyElements E ws es) w) (r ← (l ← zarray E ws es; Ok (RArray l)); Ok (Out D r n))).
    { intros ws k Hk. destruct (header_run k _ _ _ _ _ _ Ha) as (w1 & E1 & Ha1 & _).
      eapply ends_bind; [done|]. pose proof (elems_run ws es _ _ _ _ _ _ Ha1) as HI.
      destruct (zarray E ws es) as [l| |]; cbn [mbind res_bind]; [|done..].
      destruct HI as (w' & E' & Ha' & Hl). exists w'. split; [done|].
      unfold enc, encode, array_header. by rewrite Hl, <-Hk. }
    destruct (args !! 4%nat) as [a|].
    - destruct (lib_withscores (e_lib E) a).
      + by apply (HH true).
      + cbn [mbind res_bind]. by apply rError.
    - by apply (HH false).
  Qed.
  Lemma ref_zrange : refines (-4) (zRangeCommand E) (sem_zrange E).
  Proof.
    intros args w0 N D w Har Ha Hroom. args_neg4 args Har. eexists. split; [done|].
    eapply (ends_mono _ N); [lia|]. eapply ends_bind; [by apply arg_run|].
    apply ends_ints; try done. intros start stop.
    apply (existing_frame0 KZset AKZset fZset); try done; [apply relZset|apply rNull|].
    intros w1 D1 o x Ha1 Hp1 Hx Hkey.
    apply (zset_read (λ z, ZRangeByRank Hash z start stop false) (λ z, zrange z start stop)
      (λ es, addReplyZsetElements E (b :: b0 :: b1 :: b2 :: args) es 4)); try done.
    - intros z Hz. unfold ZRangeByRank, zrange. apply sim_same. intros ids. by apply elements_sim.
    - intros es w2 D2 n Ha2. by apply zelements_run.
  Qed.
  Lemma ref_zrangebyscore : refines (-4) (zRangeByScoreCommand E) (sem_zrangebyscore E).
  Proof.
    intros args w0 N D w Har Ha Hroom. args_neg4 args Har. eexists. split; [done|].
    eapply (ends_mono _ N); [lia|]. eapply ends_bind; [by apply arg_run|].
    apply ends_floats; try done. intros min max.
    apply (existing_frame0 KZset AKZset fZset); try done; [apply relZset|apply rNull|].
    intros w1 D1 o x Ha1 Hp1 Hx Hkey.
    apply (zset_read (λ z, ZRangeByScore Hash z min max (-1) false) (λ z, zrangebyscore z min max)
      (λ es, addReplyZsetElements E (b :: b0 :: b1 :: b2 :: args) es 4)); try done.
    - intros z Hz. unfold ZRangeByScore, zrangebyscore. apply sim_same. intros ids. by apply elements_sim.
    - intros es w2 D2 n Ha2. by apply zelements_run.
  Qed.

  Lemma zrem_loop_run key o w0 N l : ∀ x deleted D n w, At w0 N D [] n w → points w key o (OZset x) →
    match zrem_all l (fZset x) deleted with
    | Ok (z, k) => ∃ w', zrem_loop o l deleted w = Ok (w', k) ∧ At w0 N (put_val key (AZset z.1 z.2) D) [] (n + (k - deleted)) w'
    | Panic => zrem_loop o l deleted w = Panic
    | OutOfFuel => zrem_loop o l deleted w = OutOfFuel
    end.
  Proof.
    induction l as [|m l IH]; intros x deleted D n w Ha Hp.
    - exists w. rewrite Z.sub_diag, Z.add_0_r. split; [done|].
      rewrite put_val_id; [done|]. by destruct (At_points _ _ _ _ _ _ _ _ _ Ha Hp).
    - destruct (At_points _ _ _ _ _ _ _ _ _ Ha Hp) as (_ & Hx & _). pose proof Hp as [_ Hhx].
      cbn [zrem_all zrem_loop]. pose proof (ZDelete_sim N x m Hx) as Hs.
      destruct (on_obj_fail KZset w o x (λ z, ZDelete Hash z m) KZset_ok Hhx) as [F1 F2].
      destruct (ZDelete Hash x m) as [[x' b]| |] eqn:EF; destruct (zdel1 (fZset x) m) as [[y' b']| |]; simpl in Hs; try done.
      + destruct Hs as [[Hy Hx'] <-].
        destruct (on_obj_upd KZset w0 N N D [] n w key o x x' (λ z, ZDelete Hash z m) b KZset_ok Ha Hp)
          as (w1 & E1 & Ha1 & Hp1 & _); [lia|done|done|done|].
        rewrite (bind_ok _ _ _ _ _ E1). cbn [mbind res_bind fst snd]. subst y'. destruct b.
        * destruct (At_dirty_points _ _ _ _ _ _ 1 _ _ _ Ha1 Hp1) as (w2 & E2 & Ha2 & Hp2 & _).
          rewrite (bind_ok _ _ _ _ _ E2). pose proof (IH x' (deleted + 1) _ _ w2 Ha2 Hp2) as HI.
          destruct (zrem_all l (fZset x') (deleted + 1)) as [[z k]| |]; [|done..].
          destruct HI as (w' & E' & Ha'). exists w'. split; [done|]. rewrite put_val_twice in Ha'.
          replace (n + (k - deleted)) with (n + 1 + (k - (deleted + 1))) by lia. done.
        * pose proof (IH x' deleted _ _ w1 Ha1 Hp1) as HI.
          destruct (zrem_all l (fZset x') deleted) as [[z k]| |]; [|done..].
          destruct HI as (w' & E' & Ha'). exists w'. split; [done|]. by rewrite put_val_twice in Ha'.
      + apply bind_panic. by apply F1.
      + apply bind_fuel. by apply F2.
  Qed.
  Lemma ref_zrem : refines (-3) (zRemCommand E) (sem_zrem E).
  Proof.
    intros args w0 N D w Har Ha Hroom. args_neg3 args Har. eexists. split; [done|].
    eapply (ends_mono _ N); [lia|].
    apply (existing_frame KZset AKZset fZset) with (N := N); try done; [apply relZset|apply rInt|].
    intros w1 D1 o x Ha1 Hp1 Hx Hkey. change (drop 2 (b :: b0 :: b1 :: args)) with (b1 :: args).
    pose proof (zrem_loop_run b0 o w0 N (b1 :: args) x 0 _ _ w1 Ha1 Hp1) as HI.
    destruct (zrem_all (b1 :: args) (fZset x) 0) as [[z k]| |]; unfold out_of; cbn [mbind res_bind fst snd].
    - destruct HI as (w2 & E2 & Ha2). eapply ends_bind; [done|]. rewrite Z.add_0_l, Z.sub_0_r in Ha2. by apply rInt.
    - by apply bind_panic.
    - by apply bind_fuel.
  Qed.
  Lemma zremrange_body (F : zset → res (zset * list (option (bytes * float)))) del x key o w0 N D w :
    At w0 N D [] 0 w → points w key o (OZset x) →
    (∀ z, F z = (r ← del (z_sl z); elements_delete Hash (MkZset (z_dict z) r.1) r.2)) →
    ends w0 N ((es ← on_obj KZset o F; _ ← add_dirty (zlen es); addReplyInt (zlen es)) w)
      (out_of AKZset key D (zremrange del (fZset x))).
  Proof.
    intros Ha Hp HF.
    pose proof (zset_body F (λ z, r ← del z.2; e ← zelems_delete z.1 r.1 r.2; Ok ((e.1, r.1), e.2)) zlen
      (λ es, _ ← add_dirty (zlen es); addReplyInt (zlen es)) (λ es, Ok (RInt (zlen es))) x key o w0 N D w Ha Hp) as HB.
    replace (zremrange del (fZset x)) with
      (y ← (r ← del (fZset x).2; e ← zelems_delete (fZset x).1 r.1 r.2; Ok ((e.1, r.1), e.2)); r ← Ok (RInt (zlen y.2)); Ok (y.1, r, zlen y.2)).
    - apply HB.
      + intros z Hz. rewrite HF. apply sim_same. intros [s ids]. cbn [fst snd].
        assert (Hz' : obj_ok N (OZset (MkZset (z_dict z) s))) by done.
        pose proof (elements_delete_sim N ids _ Hz') as HI. cbn [z_dict z_sl] in HI.
        simpl. destruct (elements_delete Hash _ ids) as [[]| |], (zelems_delete _ s ids) as [[]| |]; simpl in *; done.
      + intros es w1 D1 n Ha1. destruct (At_dirty _ _ _ _ _ _ (zlen es) Ha1) as (w2 & E2 & Ha2 & _).
        eapply ends_bind; [done|]. by apply rInt.
    - unfold zremrange. destruct (del (fZset x).2) as [[s ids]| |]; try done. cbn [mbind res_bind fst snd].
      by destruct (zelems_delete _ s ids) as [[]| |].
  Qed.
  Lemma ref_zremrangebyrank : refines (-4) (zRemRangeByRankCommand E) (sem_zremrangebyrank E).
  Proof.
    intros args w0 N D w Har Ha Hroom. args_neg4 args Har. eexists. split; [done|].
    eapply (ends_mono _ N); [lia|]. eapply ends_bind; [by apply arg_run|].
    apply ends_ints; try done. intros start stop.
    apply (existing_frame0 KZset AKZset fZset); try done; [apply relZset|apply rInt|].
    intros w1 D1 o x Ha1 Hp1 Hx Hkey. by apply zremrange_body.
  Qed.
  Lemma ref_zremrangebyscore : refines (-4) (zRemRangeByScoreCommand E) (sem_zremrangebyscore E).
  Proof.
    intros args w0 N D w Har Ha Hroom. args_neg4 args Har. eexists. split; [done|].
    eapply (ends_mono _ N); [lia|]. eapply ends_bind; [by apply arg_run|].
    apply ends_floats; try done. intros start stop.
    apply (existing_frame0 KZset AKZset fZset); try done; [apply relZset|apply rInt|].
    intros w1 D1 o x Ha1 Hp1 Hx Hkey. by apply zremrange_body.
  Qed.

  Lemma on_obj_rnd_fail {X A} (k : kind X) w o (x : X) (f : X → list Z → res (X * A * list Z)) :
    kind_ok k → s_heap (w_srv w) !! o = Some (k_in k x) →
    (f x (w_rnd w) = Panic → on_obj_rnd k o f w = Panic) ∧ (f x (w_rnd w) = OutOfFuel → on_obj_rnd k o f w = OutOfFuel).
  Proof.
    intros [Hk1 _] Hx. unfold on_obj_rnd. rewrite (bind_ok _ _ _ _ _ (load_run w o _ Hx)). rewrite Hk1.
    unfold mbind, M_bind, lift, with_rnd. simpl. split; by intros ->.
  Qed.
  Lemma zadd_loop_run key o w0 l : ∀ x created M D n w, At w0 M D [] n w → points w key o (OZset x) → small (M + length l) →
    match zadd_all E l (fZset x) created n (w_rnd w) with
    | Ok (z, r, k) => ∃ w' a, zadd_loop E o l created w = Ok (w', a) ∧
        At w0 (M + length l) (put_val key (AZset z.1 z.2) D) [] k w' ∧
        replies (match a with
                 | inl created => addReplyInt created
                 | inr a => addReplyError (invalid (B "score") a (lib_num_error (e_lib E) (B "ParseFloat") a))
                 end) r
    | Panic => zadd_loop E o l created w = Panic
    | OutOfFuel => zadd_loop E o l created w = OutOfFuel
    end.
  Proof.
    assert (Hind : ∀ P : list bytes → Prop, P [] → (∀ a, P [a]) → (∀ a b l, P l → P (a :: b :: l)) → ∀ l, P l).
    { intros P H0 H1 H2. fix IH 1. intros [|a [|b l']]; [done|apply H1|]. apply H2, IH. }
    induction l as [|a|a m l IH] using Hind; intros x created M D n w Ha Hp Hsm.
    - exists w, (inl created). split; [done|]. split; [|apply rInt]. rewrite Nat.add_0_r.
      rewrite put_val_id; [done|]. by destruct (At_points _ _ _ _ _ _ _ _ _ Ha Hp).
    - cbn [zadd_all zadd_loop]. destruct (lib_parse_float (e_lib E) a) as [sc|]; [done|].
      exists w, (inr a). split; [done|]. split; [|apply rError].
      eapply At_mono with (N := M); [lia|]. rewrite put_val_id; [done|]. by destruct (At_points _ _ _ _ _ _ _ _ _ Ha Hp).
    - cbn [zadd_all zadd_loop]. destruct (lib_parse_float (e_lib E) a) as [sc|].
      2:{ exists w, (inr a). split; [done|]. split; [|apply rError].
          eapply At_mono with (N := M); [lia|]. rewrite put_val_id; [done|]. by destruct (At_points _ _ _ _ _ _ _ _ _ Ha Hp). }
      destruct (At_points _ _ _ _ _ _ _ _ _ Ha Hp) as (_ & Hx & _). pose proof Hp as [_ Hhx].
      assert (Hrs : Forall (λ r, 0 ≤ r) (w_rnd w)) by apply (at_ok _ _ _ _ _ _ Ha).
      pose proof (ZAdd_sim M x sc m (w_rnd w) Hx) as Hs.
      assert (HsmM : small M) by (eapply small_mono; [|exact Hsm]; lia). specialize (Hs HsmM Hrs).
      destruct (on_obj_rnd_fail KZset w o x (λ z, ZAdd Hash z sc m) KZset_ok Hhx) as [F1 F2].
      destruct (ZAdd Hash x sc m (w_rnd w)) as [[[x' b] rs']| |] eqn:EF;
        destruct (zadd1 (fZset x) sc m (w_rnd w)) as [[[y' b'] rs'']| |]; simpl in Hs; try done.
      + destruct Hs as ([Hy Hx'] & <- & <- & Hrs'). cbn [mbind res_bind].
        set (w1 := with_heap_at (with_rs w rs') o (OZset x')).
        assert (E1 : on_obj_rnd KZset o (λ z, ZAdd Hash z sc m) w = Ok (w1, b)).
        { unfold on_obj_rnd. rewrite (bind_ok _ _ _ _ _ (load_run w o _ Hhx)). simpl.
          unfold mbind, M_bind, lift, with_rnd. simpl. by rewrite EF. }
        assert (Hp' : points (with_rs w rs') key o (OZset x)) by done.
        destruct (At_store w0 M (S M) _ [] n (with_rs w rs') key o (OZset x) (OZset x')
          (At_rnd _ _ _ _ _ _ _ Ha Hrs') Hp') as [Ha1 Hp1]; [lia|done| |].
        { simpl. rewrite (left_id_L ∅ (∪)). pose proof (At_members _ _ _ _ _ _ Ha). lia. }
        fold w1 in Ha1, Hp1. rewrite (bind_ok _ _ _ _ _ E1).
        destruct (At_dirty_points _ _ _ _ _ _ 1 _ _ _ Ha1 Hp1) as (w2 & E2 & Ha2 & Hp2 & Hr2).
        rewrite (bind_ok _ _ _ _ _ E2). subst y'.
        pose proof (IH x' (if b then created + 1 else created) (S M) _ _ w2 Ha2 Hp2) as HI.
        rewrite Hr2 in HI. change (w_rnd w1) with rs' in HI.
        assert (Hsm2 : small (S M + length l)) by (eapply small_mono; [|exact Hsm]; cbn [length]; lia).
        specialize (HI Hsm2).
        destruct (zadd_all E l (fZset x') (if b then created + 1 else created) (n + 1) rs') as [[[z r] k]| |]; [|done..].
        destruct HI as (w' & a' & E' & Ha' & Hr). exists w', a'. split; [done|]. split; [|done].
        rewrite put_val_twice in Ha'. eapply At_mono; [|exact Ha']. cbn [length]. lia.
      + apply bind_panic. by apply F1.
      + apply bind_fuel. by apply F2.
  Qed.
  Lemma new_frame_rnd {X Y} (k : kind X) (ak : akind Y) f wrong key body (g : Y → res (Y * reply * Z)) w0 N N' D w args :
    rel_kind k ak f → args !! 1%nat = Some key → At w0 N D [] 0 w → (S N ≤ N')%nat → small N →
    (∀ w1 D1 o x, w_rnd w1 = w_rnd w → At w0 (S N) D1 [] 0 w1 → points w1 key o (k_in k x) → obj_ok (S N) (k_in k x) →
       a_keys D1 !! key = Some (ak_in ak (f x)) →
       ends w0 N' (body o w1) (out_of ak key D1 (g (f x)))) →
    ends w0 N' ((a ← arg args 1;
                 h ← get_or_new k wrong a;
                 match h with
                 | inr e => addReplyError (err_text e)
                 | inl o => body o
                 end) w) (on_new ak (RError (err_text wrong)) key g D).
  Proof.
    intros Hk Hkey Ha HN Hsm Hbody. eapply ends_bind; [by apply arg_run|].
    destruct (get_or_new_run k ak f wrong key _ _ _ _ _ _ Hk Ha Hsm) as (w1 & r & E1 & Hr1 & Hr).
    eapply ends_bind; [done|]. unfold on_new.
    destruct Hr as [(o & Hn & -> & Ha1 & Hp & Hx)|[(v & Hv & Hvo & -> & Ha1)|(o & x & -> & Hp & Ha1 & Hv & Hvo & Hx)]].
    - rewrite Hn. pose proof (Hbody w1 _ o (k_new k) Hr1 Ha1 Hp Hx) as HB.
      rewrite (rk_new _ _ _ Hk) in HB. unfold out_of in HB.
      assert (Hlk : a_keys (put_val key (ak_in ak (ak_new ak)) D) !! key = Some (ak_in ak (ak_new ak))).
      { simpl. by rewrite lookup_insert. }
      specialize (HB Hlk). destruct (g (ak_new ak)) as [[[x' r] n]| |]; cbn [mbind res_bind] in *; [|done..].
      rewrite put_val_twice in HB. exact HB.
    - rewrite Hv, Hvo. eapply ends_mono; [exact HN|]. by apply rError.
    - rewrite Hv, Hvo. by apply Hbody.
  Qed.
  Lemma ref_zadd : refines (-4) (zAddCommand E) (sem_zadd E).
  Proof.
    intros args w0 N D w Har Ha Hroom. args_neg4 args Har. unfold zAddCommand, sem_zadd.
    set (l0 := b :: b0 :: b1 :: b2 :: args). destruct (negb (zlen l0 mod 2 =? 0)).
    { eexists. split; [done|]. eapply ends_mono; [|by apply rError]. lia. }
    assert (Hrs : Forall (λ r, 0 ≤ r) (w_rnd w)) by apply (at_ok _ _ _ _ _ _ Ha).
    eexists. split; [exists (w_rnd w); split; [done|reflexivity]|].
    eapply (new_frame_rnd KZset AKZset fZset ErrWrongType b0 _ _ _ N); try done.
    - apply relZset.
    - simpl. lia.
    - by eapply room_small.
    - intros w1 D1 o x Hr1 Ha1 Hp1 Hx1 Hkey. change (drop 2 l0) with (b1 :: b2 :: args).
      pose proof (zadd_loop_run b0 o w0 (b1 :: b2 :: args) x 0 _ _ _ w1 Ha1 Hp1) as HI.
      assert (Hsm : small (S N + length (b1 :: b2 :: args))).
      { eapply small_mono; [|exact Hroom]. subst l0. cbn [length]. lia. }
      specialize (HI Hsm). rewrite Hr1 in HI.
      destruct (zadd_all E (b1 :: b2 :: args) (fZset x) 0 0 (w_rnd w)) as [[[z r] k]| |]; unfold out_of; cbn [mbind res_bind fst snd].
      + destruct HI as (w' & a & E' & Ha' & Hr). eapply ends_bind; [done|].
        eapply ends_mono; [|by apply Hr]. subst l0. cbn [length]. lia.
      + by apply bind_panic.
      + by apply bind_fuel.
  Qed.
End zsets.
