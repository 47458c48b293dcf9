(** What an event does depends only on the random numbers that it draws. *)
From Verif Require Import Base Float DictModel DatabaseModel SetModel QuicklistModel SkiplistModel ZsetModel
  Strconv RespSpec ServerModel CommandModel CommandExt LoadModel AofModel SystemModel CommandProofs2 SystemProofs TermProofs TermDraw.
From Coq Require Import ZifyBool ZifyNat.

(** [f] leaves the numbers behind those that it draws *)
Definition ahead {A} (f : list Z → res (A * list Z)) : Prop := ∀ rs x, f rs ≠ OutOfFuel →
  f (rs ++ x) = match f rs with Ok (a, rs') => Ok (a, rs' ++ x) | Panic => Panic | OutOfFuel => OutOfFuel end.
Lemma ahead_bind {A C} (f : list Z → res (A * list Z)) (g : A → list Z → res (C * list Z)) :
  ahead f → (∀ a, ahead (g a)) → ahead (λ rs, r ← f rs; g r.1 r.2).
Proof.
  intros Hf Hg rs x. specialize (Hf rs x). destruct (f rs) as [[a rs1]| |]; cbn [mbind res_bind fst snd]; [|by rewrite Hf|done].
  rewrite Hf by done. cbn [mbind res_bind fst snd]. apply Hg.
Qed.
Lemma ahead_pure {A C} (f : A → C) (g : list Z → res (A * list Z)) : ahead g → ahead (λ rs, r ← g rs; Ok (f r.1, r.2)).
Proof. intros Hg. apply (ahead_bind g (λ a rs, Ok (f a, rs))); [done|]. by intros a rs x. Qed.

Section dicts.
  Context {K V : Type} `{EqDecision K} (hash : K → Z).
  Lemma draw_bucket_ahead (d : dict K V) : ahead (draw_bucket d).
  Proof.
    intros rs x. induction rs as [|r rs IH]; [done|]. cbn [draw_bucket app]. destruct (deref (d_ht0 d)) as [h0| |]; [|done..]. cbn [mbind res_bind].
    match goal with |- context [?m ≫= _] => destruct m as [[|e c]| |] end; try done.
  Qed.
  Lemma GetRandomKey_ahead (d : dict K V) : ahead (GetRandomKey hash d).
  Proof.
    intros rs x. unfold GetRandomKey. destruct (d_ht0 d); [|done]. destruct (Size d) as [n| |]; [|done..]. cbn [mbind res_bind].
    destruct (n =? 0); [done|]. destruct (maybe_step hash d) as [d1| |]; [|done..]. cbn [mbind res_bind].
    pose proof (draw_bucket_ahead d1 rs x) as Hd. destruct (draw_bucket d1 rs) as [[b rs2]| |]; [rewrite Hd by done|by rewrite Hd|done]. cbn [mbind res_bind fst snd].
    destruct rs2 as [|r rs2]; [done|]. cbn [app]. by destruct (go_index b _).
  Qed.
End dicts.
Lemma randomLevel_ahead : ahead randomLevel.
Proof.
  assert (H : ∀ lv, ahead (randomLevel_loop lv)).
  { intros lv rs x. revert lv. induction rs as [|r rs IH]; intros lv; [done|]. cbn [randomLevel_loop app]. destruct (_ <=? _); [apply IH|done]. }
  apply (ahead_pure (λ lv, if lv <? Z.of_nat maxLevel then lv else Z.of_nat maxLevel)), H.
Qed.
Lemma sl_add_ahead s sc m : ahead (sl_add s sc m).
Proof.
  apply (ahead_bind randomLevel (λ lv rs, r ← Insert s lv sc m; Ok (r.1, rs))); [apply randomLevel_ahead|].
  intros lv rs x. by destruct (Insert s lv sc m).
Qed.
Lemma ZAdd_ahead z sc m : ahead (ZAdd Hash z sc m).
Proof.
  intros rs x. unfold ZAdd. destruct (Find Hash (z_dict z) m) as [[d o]| |]; [|done..]. cbn [mbind res_bind]. destruct o as [l|].
  - destruct (entry_at d l) as [e| |]; [|done..]. cbn [mbind res_bind]. destruct (negb _); [|done].
    destruct (write_value d l sc) as [d'| |]; [|done..]. cbn [mbind res_bind]. destruct (SlDelete _ _ _) as [[s1 ?]| |]; [|done..]. cbn [mbind res_bind fst snd].
    apply (ahead_bind (sl_add s1 sc m) (λ s rs, Ok (MkZset d' s, false, rs))); [apply sl_add_ahead|done].
  - destruct (Set_ Hash d m sc) as [[d' ?]| |]; [|done..]. cbn [mbind res_bind fst snd].
    apply (ahead_bind (sl_add (z_sl z) sc m) (λ s rs, Ok (MkZset d' s, true, rs))); [apply sl_add_ahead|done].
Qed.
Lemma GetRandom_ahead (s : dict bytes unit) : ahead (GetRandom Hash s).
Proof.
  intros rs x. unfold GetRandom. pose proof (GetRandomKey_ahead Hash s rs x) as H.
  destruct (GetRandomKey Hash s rs) as [[[s' o] rs1]| |]; [rewrite H by done|by rewrite H|done]. cbn [mbind res_bind]. by destruct (deref o).
Qed.

(** * Commands *)
(** [w] with further random numbers *)
Definition more_w (w : world) (x : list Z) : world := with_rs w (w_rnd w ++ x).
Definition lift_w {A} (r : res (world * A)) (x : list Z) : res (world * A) :=
  match r with Ok (w, a) => Ok (more_w w x, a) | Panic => Panic | OutOfFuel => OutOfFuel end.
Definition more {A} (m : M A) : Prop := ∀ w x, m w ≠ OutOfFuel → m (more_w w x) = lift_w (m w) x.
Lemma more_bind {A C} (m : M A) (f : A → M C) : more m → (∀ a, more (f a)) → more (m ≫= f).
Proof.
  intros Hm Hf w x. specialize (Hm w x). unfold mbind, M_bind. destruct (m w) as [[w1 a]| |]; [|by rewrite Hm|done].
  rewrite Hm by done. cbn [lift_w]. apply Hf.
Qed.
Lemma more_bind2 {A C} (m : M A) (f g : A → M C) w x : more m →
  (∀ a w1, f a w1 ≠ OutOfFuel → g a (more_w w1 x) = lift_w (f a w1) x) → (m ≫= f) w ≠ OutOfFuel → (m ≫= g) (more_w w x) = lift_w ((m ≫= f) w) x.
Proof.
  intros Hm Hf. specialize (Hm w x). unfold mbind, M_bind. destruct (m w) as [[w1 a]| |]; [|by rewrite Hm|done].
  rewrite Hm by done. cbn [lift_w]. apply Hf.
Qed.
Lemma more_ret {A} (a : A) : more (ret a). Proof. by intros w x. Qed.
Lemma more_panic {A} : more (@panic A). Proof. by intros w x. Qed.
Lemma more_lift {A} (r : res A) : more (lift r). Proof. intros w x. unfold lift. by destruct r. Qed.
Lemma more_get_srv : more get_srv. Proof. by intros w x. Qed.
Lemma more_get_cl : more get_cl. Proof. by intros w x. Qed.
Lemma more_put_srv s : more (put_srv s). Proof. by intros w x. Qed.
Lemma more_put_cl c : more (put_cl c). Proof. by intros w x. Qed.
Lemma more_arg args i : more (arg args i). Proof. apply more_lift. Qed.
Lemma more_get_db : more get_db.
Proof. unfold get_db. apply more_bind; [apply more_get_cl|intros c]. apply more_bind; [apply more_get_srv|intros s]. apply more_lift. Qed.
Lemma more_put_db db : more (put_db db). Proof. by intros w x. Qed.
Lemma more_add_dirty n : more (add_dirty n). Proof. by intros w x. Qed.
Lemma more_addReply s : more (addReply s). Proof. by intros w x. Qed.
Lemma more_alloc o : more (alloc o). Proof. by intros w x. Qed.
Lemma more_store o v : more (store o v). Proof. by intros w x. Qed.
Lemma more_load o : more (load o).
Proof. unfold load. apply more_bind; [apply more_get_srv|intros s]. apply more_lift. Qed.
Lemma more_rnd {A} (f : list Z → res (A * list Z)) : ahead f → more (with_rnd f).
Proof.
  intros Hf w x. unfold with_rnd. specialize (Hf (w_rnd w) x). cbn [more_w with_rs w_rnd].
  destruct (f (w_rnd w)) as [[a rs]| |]; [by rewrite Hf|by rewrite Hf|done].
Qed.
Create HintDb more.
Global Hint Resolve more_ret more_panic more_lift more_get_srv more_get_cl more_put_srv more_put_cl more_arg more_get_db more_put_db more_add_dirty more_addReply
  more_alloc more_store more_load : more.
Ltac more_step :=
  match goal with
  | |- more (_ ≫= _) => apply more_bind; [|intros]
  | |- more (match ?x with _ => _ end) => destruct x
  | |- more (let '(_, _) := ?x in _) => destruct x
  | |- more _ => solve [auto with more]
  end.
Ltac more_tac := repeat more_step.
Section more2.
  Variable E : env.
  Lemma more_on_dict {A} (f : dict bytes value → res (dict bytes value * A)) : more (on_dict f).
  Proof. unfold on_dict. more_tac. Qed.
  Lemma more_on_expire {A} (f : dict bytes Z → res (dict bytes Z * A)) : more (on_expire f).
  Proof. unfold on_expire. more_tac. Qed.
  Hint Resolve more_on_dict more_on_expire : more.
  Lemma more_bulks l : more (addReplyBulks l).
  Proof. induction l as [|s l IH]; simpl; [more_tac|]. unfold addReplyBulkString. more_tac. Qed.
  Lemma more_elements b es : more (addReplyElements E b es).
  Proof. induction es as [|[[m sc]|] es IH]; simpl; unfold addReplyBulkString; more_tac. Qed.
  Lemma more_as_kind {X} (k : kind X) v : more (as_kind k v).
  Proof. unfold as_kind. more_tac. Qed.
  Hint Resolve more_bulks more_elements more_as_kind : more.
  Lemma more_expireIfNeeded key : more (expireIfNeeded E key).
  Proof. unfold expireIfNeeded. more_tac. Qed.
  Hint Resolve more_expireIfNeeded : more.
  Lemma more_get_or_new {X} (k : kind X) e key : more (get_or_new k e key).
  Proof. unfold get_or_new. more_tac. Qed.
  Lemma more_get_if_exist {X} (k : kind X) key : more (get_if_exist E k key).
  Proof. unfold get_if_exist. more_tac. Qed.
  Lemma more_on_obj {X A} (k : kind X) o (f : X → res (X * A)) : more (on_obj k o f).
  Proof. unfold on_obj. more_tac. Qed.
  Lemma more_on_obj_rnd {X A} (k : kind X) o (f : X → list Z → res (X * A * list Z)) : (∀ v, ahead (f v)) → more (on_obj_rnd k o f).
  Proof. intros Hf. unfold on_obj_rnd. apply more_bind; [more_tac|intros v]. apply more_bind; [more_tac|intros u]. apply more_bind; [by apply more_rnd|intros r]. more_tac. Qed.
End more2.
Global Hint Resolve more_on_dict more_on_expire more_bulks more_elements more_as_kind more_expireIfNeeded more_get_or_new more_get_if_exist more_on_obj : more.
Section more3.
  Variable E : env.
  Lemma more_hset o : ∀ l n, more (hset_loop o l n).
  Proof. fix IH 1. intros [|f [|v l]] n; cbn [hset_loop]; [more_tac..|]. pose proof (IH l) as Hl. clear IH. more_tac. Qed.
  Lemma more_hdel o l : ∀ n, more (hdel_loop o l n).
  Proof. induction l as [|x l IH]; intros n; cbn [hdel_loop]; more_tac. Qed.
  Lemma more_lpush o l : more (lpush_loop o l).
  Proof. induction l as [|x l IH]; cbn [lpush_loop]; more_tac. Qed.
  Lemma more_rpush o l : more (rpush_loop o l).
  Proof. induction l as [|x l IH]; cbn [rpush_loop]; more_tac. Qed.
  Lemma more_sadd o l : ∀ n, more (sadd_loop o l n).
  Proof. induction l as [|x l IH]; intros n; cbn [sadd_loop]; more_tac. Qed.
  Lemma more_srem o l : ∀ n, more (srem_loop o l n).
  Proof. induction l as [|x l IH]; intros n; cbn [srem_loop]; more_tac. Qed.
  Lemma more_zrem o l : ∀ n, more (zrem_loop o l n).
  Proof. induction l as [|x l IH]; intros n; cbn [zrem_loop]; more_tac. Qed.
  Lemma more_with_set {A} s (f : dict bytes unit → res (dict bytes unit * A)) : more (with_set s f).
  Proof. unfold with_set. more_tac. Qed.
  Hint Resolve more_with_set : more.
  Lemma more_set_op op op' s o : more (set_op op op' s o).
  Proof. unfold set_op. more_tac. Qed.
  Hint Resolve more_set_op : more.
  Lemma more_addReplySet s : more (addReplySet s).
  Proof. unfold addReplySet. ext_unfold. more_tac. Qed.
  Lemma more_set_loop op op' keys : ∀ s, more (set_loop E op op' s keys).
  Proof. induction keys as [|k keys IH]; intros s; cbn [set_loop]; more_tac. Qed.
  Lemma more_inter_loop keys : ∀ s, more (inter_loop E s keys).
  Proof. induction keys as [|k keys IH]; intros s; cbn [inter_loop]; more_tac. Qed.
  Lemma more_zadd_loop o : ∀ l n, more (zadd_loop E o l n).
  Proof.
    fix IH 1. intros [|a [|m l]] n; cbn [zadd_loop]; [more_tac..|]. pose proof (IH l) as Hl. clear IH.
    destruct (lib_parse_float _ _) as [sc|]; [|more_tac]. apply more_bind; [apply more_on_obj_rnd; intros; apply ZAdd_ahead|intros b]. more_tac.
  Qed.
  Lemma more_random_loop : ∀ fuel fuel' w x, (fuel ≤ fuel')%nat → random_loop E fuel w ≠ OutOfFuel →
    random_loop E fuel' (more_w w x) = lift_w (random_loop E fuel w) x.
  Proof.
    induction fuel as [|fuel IH]; [done|]. intros [|fuel'] w x Hle; [lia|]. cbn [random_loop].
    apply more_bind2; [apply more_get_db|]. intros db w1. apply more_bind2.
    { apply more_rnd. intros rs y. pose proof (GetRandomKey_ahead Hash (db_dict db) rs y) as H.
      destruct (GetRandomKey Hash (db_dict db) rs) as [[[s' o] rs1]| |]; [by rewrite H|by rewrite H|done]. }
    intros r w2. apply more_bind2; [apply more_put_db|]. intros _ w3. destruct r.2 as [e|]; [|apply more_addReply].
    apply more_bind2; [apply more_expireIfNeeded|]. intros b w4. destruct b; [apply IH; lia|]. unfold addReplyBulkString. apply more_addReply.
  Qed.
  Hint Resolve more_hset more_hdel more_lpush more_rpush more_sadd more_srem more_zrem more_addReplySet more_set_loop more_inter_loop more_zadd_loop : more.
  Lemma more_two_ints args w1 w2 (k : Z → Z → M unit) : (∀ a b, more (k a b)) → more (two_ints E args w1 w2 k).
  Proof. intros. unfold two_ints. ext_unfold. more_tac. Qed.
  Lemma more_two_floats args w1 w2 (k : float → float → M unit) : (∀ a b, more (k a b)) → more (two_floats E args w1 w2 k).
  Proof. intros. unfold two_floats. ext_unfold. more_tac. Qed.
  Lemma more_randomget args : more (randomGetCommand E args).
  Proof. intros w x. unfold randomGetCommand. apply more_random_loop. cbn [more_w with_rs w_rnd]. rewrite app_length. lia. Qed.
  Lemma more_spop args : more (sPopCommand E args).
  Proof.
    unfold sPopCommand. ext_unfold. apply more_bind; [more_tac|intros key]. apply more_bind; [more_tac|intros [o|e]]; [|more_tac].
    apply more_bind; [more_tac|intros n]. destruct (n =? 0); [more_tac|]. apply more_bind; [apply more_on_obj_rnd; intros; apply GetRandom_ahead|intros m]. more_tac.
  Qed.
  Hint Resolve more_randomget more_spop : more.
  Lemma more_table : Forall (λ c, ∀ args, more (cmd_proc c args)) (commandTable E).
  Proof.
    repeat (apply Forall_cons; split; [cbn [cmd_proc]; intros args|]); [..|by apply Forall_nil_2];
    first [solve [auto with more]|
    unfold pingCommand, expireCommand, expireAtCommand, ttlCommand, keysCommand, setCommand, setExCommand, getCommand, hSetCommand, hGetCommand,
      hDelCommand, hExistsCommand, hKeysCommand, hLenCommand, lPushCommand, rPushCommand, lPopCommand, rPopCommand, lLenCommand, lIndexCommand,
      lRangeCommand, sAddCommand, sRemCommand, sCardCommand, sIsMemberCommand, sMembersCommand, sDiffCommand, sInterCommand, sUnionCommand,
      set_command, zAddCommand, zRangeCommand, zRangeByScoreCommand, zRemCommand, zRemRangeByRankCommand, zRemRangeByScoreCommand, zCardCommand, zCountCommand, zScoreCommand,
      selectCommand, authCommand, bgRewriteAofCommand;
    ext_unfold]; try solve [more_tac].
    all: try solve [repeat (more_step || (apply more_two_ints; intros) || (apply more_two_floats; intros))].
  Qed.
  Lemma more_cmd name c args : lookupCommand E name = Some c → more (cmd_proc c args).
  Proof.
    unfold lookupCommand. destruct (list_find _ _) as [[i c']|] eqn:EF; [|done]. intros [= <-]. apply list_find_Some in EF as (Hi & _).
    exact (Forall_lookup_1 _ _ _ _ more_table Hi args).
  Qed.
  Lemma more_exec args : more (exec_logged E args).
  Proof.
    unfold exec_logged. apply more_bind; [more_tac|intros a]. destruct (lookupCommand _ _) as [c|] eqn:Ec; [|more_tac]. by eapply more_cmd.
  Qed.
  Lemma more_process args : more (processCommand E args).
  Proof.
    unfold processCommand. ext_unfold. apply more_bind; [more_tac|intros a]. destruct (lookupCommand _ _) as [c|] eqn:Ec; [|more_tac].
    destruct (bad_arity _ _); [more_tac|]. apply more_bind; [more_tac|intros cl]. destruct (_ && _ && _); [more_tac|].
    unfold call. apply more_bind; [more_tac|intros s]. apply more_bind; [by eapply more_cmd|intros _]. more_tac.
  Qed.
  (** * Background expiry *)
  Lemma expire_rounds_ahead n : ∀ db, ahead (expire_rounds E n db).
  Proof.
    induction n as [|n IH]; intros db rs x; cbn [expire_rounds]; [done|].
    pose proof (GetRandomKey_ahead Hash (db_expire db) rs x) as H.
    destruct (GetRandomKey Hash (db_expire db) rs) as [[[d o] rs1]| |]; [rewrite H by done|by rewrite H|done]. cbn [mbind res_bind].
    destruct o as [[key when]|]; [|done]. destruct (when <? e_now E); [|apply IH].
    destruct (Delete Hash (db_dict db) key) as [[d1 ?]| |]; [|done..]. cbn [mbind res_bind]. destruct (Delete Hash d key) as [[x1 ?]| |]; [|done..]. cbn [mbind res_bind]. apply IH.
  Qed.
  Lemma databasesCron_ahead dbs : ahead (databasesCron E dbs).
  Proof.
    induction dbs as [|db dbs IH]; [done|]. intros rs x. generalize (databasesCron_cons E db dbs). generalize checkExpireEntryCount. intros n Hcons.
    rewrite !Hcons. apply (ahead_bind (expire_rounds E n db) (λ d rs, r' ← databasesCron E dbs rs; Ok (d :: r'.1, r'.2))); [apply expire_rounds_ahead|].
    intros d. by apply (ahead_pure (λ l, d :: l)).
  Qed.
End more3.
(** * Restarts *)
Lemma more_load_loop cf clock fuel : ∀ j r w x, (load_loop (exec_at cf clock) fuel j r w).2 ≠ OutOfFuel →
  load_loop (exec_at cf clock) fuel j r (more_w w x) = (more_w (load_loop (exec_at cf clock) fuel j r w).1 x, (load_loop (exec_at cf clock) fuel j r w).2).
Proof.
  induction fuel as [|fuel IH]; intros j r w x; cbn [load_loop]; [done|]. destruct (read_command r) as [[r1 [args|]]| |]; [|done..].
  unfold exec_at at 1 3 5 7. pose proof (more_exec (env_at cf (clock j) 0) args w x) as H.
  destruct (exec_logged (env_at cf (clock j) 0) args w) as [[w1 u]| |]; [rewrite H by done|by rewrite H|done]. cbn [mbind res_bind fst lift_w]. apply IH.
Qed.
