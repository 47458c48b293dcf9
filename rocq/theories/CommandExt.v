(** What every piece of a command does to the parts of the state it does not own:
    the reply queue is extended, the log buffers are untouched, the background task
    is not ended. *)
From Verif Require Import Base Float DictModel DatabaseModel SetModel QuicklistModel SkiplistModel ZsetModel
  Strconv RespSpec ServerModel CommandModel.

Definition grows (w w' : world) : Prop :=
  c_out (w_cl w) `prefix_of` c_out (w_cl w') ∧ s_aofbuf (w_srv w') = s_aofbuf (w_srv w) ∧ s_rwbuf (w_srv w') = s_rwbuf (w_srv w) ∧
  s_select (w_srv w') = s_select (w_srv w) ∧ (s_task (w_srv w) = true → s_task (w_srv w') = true ∧ s_snap (w_srv w') = s_snap (w_srv w)).
Lemma grows_refl w : grows w w. Proof. by split_and!. Qed.
Lemma grows_trans w1 w2 w3 : grows w1 w2 → grows w2 w3 → grows w1 w3.
Proof.
  intros (A1 & A2 & A3 & A4 & A5) (B1 & B2 & B3 & B4 & B5). split_and!; try congruence; [by etrans|].
  intros H. destruct (A5 H) as [H1 H2]. destruct (B5 H1) as [H3 H4]. split; congruence.
Qed.
Definition ext {A} (m : M A) : Prop := ∀ w w' a, m w = Ok (w', a) → grows w w'.
Section ext.
  Variable E : env.
  Lemma ext_bind {A C} (m : M A) (f : A → M C) : ext m → (∀ a, ext (f a)) → ext (m ≫= f).
  Proof.
    intros Hm Hf w w' a. unfold mbind, M_bind. destruct (m w) as [[w1 b]| |] eqn:E1; try done. intros H.
    eapply grows_trans; [by eapply Hm|by eapply Hf].
  Qed.
  Lemma ext_ret {A} (a : A) : ext (ret a). Proof. intros w w' b [= <- _]. apply grows_refl. Qed.
  Lemma ext_panic {A} : ext (@panic A). Proof. by intros w w' b. Qed.
  Lemma ext_lift {A} (r : res A) : ext (lift r). Proof. intros w w' b. unfold lift. destruct r; try done. intros [= <- _]. apply grows_refl. Qed.
  Lemma ext_get_srv : ext get_srv. Proof. intros w w' b [= <- _]. apply grows_refl. Qed.
  Lemma ext_get_cl : ext get_cl. Proof. intros w w' b [= <- _]. apply grows_refl. Qed.
  Lemma ext_with_rnd {A} (f : list Z → res (A * list Z)) : ext (with_rnd f).
  Proof. intros w w' b. unfold with_rnd. destruct (f (w_rnd w)) as [[? ?]| |]; try done. intros [= <- _]. by split_and!. Qed.
  Lemma ext_arg args i : ext (arg args i). Proof. apply ext_lift. Qed.
  Lemma ext_get_db : ext get_db.
  Proof. unfold get_db. apply ext_bind; [apply ext_get_cl|intros c]. apply ext_bind; [apply ext_get_srv|intros s]. apply ext_lift. Qed.
  Lemma ext_put_db db : ext (put_db db).
  Proof. intros w w' a [= <- _]. by split_and!. Qed.
  Lemma ext_add_dirty n : ext (add_dirty n).
  Proof. intros w w' a [= <- _]. by split_and!. Qed.
  Lemma ext_addReply s : ext (addReply s).
  Proof. intros w w' a [= <- _]. split_and!; try done. by exists [s]. Qed.
  Lemma ext_alloc x : ext (alloc x).
  Proof. intros w w' a [= <- _]. by split_and!. Qed.
  Lemma ext_store o x : ext (store o x).
  Proof. intros w w' a [= <- _]. by split_and!. Qed.
  Lemma ext_load o : ext (load o).
  Proof. unfold load. apply ext_bind; [apply ext_get_srv|intros s]. apply ext_lift. Qed.
End ext.
Create HintDb ext.
Global Hint Resolve ext_ret ext_panic ext_lift ext_get_srv ext_get_cl ext_with_rnd ext_arg ext_get_db ext_put_db ext_add_dirty ext_addReply
  ext_alloc ext_store ext_load : ext.
Ltac ext_step :=
  match goal with
  | |- ext (_ ≫= _) => apply ext_bind; [|intros]
  | |- ext (match ?x with _ => _ end) => destruct x
  | |- ext (let '(_, _) := ?x in _) => destruct x
  | |- ext _ => solve [auto with ext]
  end.
Ltac ext_tac := repeat ext_step.
Section ext2.
  Variable E : env.
  Lemma ext_on_dict {A} (f : dict bytes value → res (dict bytes value * A)) : ext (on_dict f).
  Proof. unfold on_dict. ext_tac. Qed.
  Lemma ext_on_expire {A} (f : dict bytes Z → res (dict bytes Z * A)) : ext (on_expire f).
  Proof. unfold on_expire. ext_tac. Qed.
  Hint Resolve ext_on_dict ext_on_expire : ext.
  Lemma ext_bulks l : ext (addReplyBulks l).
  Proof. induction l as [|s l IH]; simpl; [ext_tac|]. unfold addReplyBulkString. ext_tac. Qed.
  Lemma ext_elements b es : ext (addReplyElements E b es).
  Proof. induction es as [|[[m sc]|] es IH]; simpl; unfold addReplyBulkString; ext_tac. Qed.
  Hint Resolve ext_bulks ext_elements : ext.
  Lemma ext_as_kind {X} (k : kind X) v : ext (as_kind k v).
  Proof. unfold as_kind. ext_tac. Qed.
  Hint Resolve ext_as_kind : ext.
  Lemma ext_expireIfNeeded key : ext (expireIfNeeded E key).
  Proof. unfold expireIfNeeded. ext_tac. Qed.
  Hint Resolve ext_expireIfNeeded : ext.
  Lemma ext_get_or_new {X} (k : kind X) e key : ext (get_or_new k e key).
  Proof. unfold get_or_new. ext_tac. Qed.
  Lemma ext_get_if_exist {X} (k : kind X) key : ext (get_if_exist E k key).
  Proof. unfold get_if_exist. ext_tac. Qed.
  Lemma ext_on_obj {X A} (k : kind X) o (f : X → res (X * A)) : ext (on_obj k o f).
  Proof. unfold on_obj. ext_tac. Qed.
  Lemma ext_on_obj_rnd {X A} (k : kind X) o (f : X → list Z → res (X * A * list Z)) : ext (on_obj_rnd k o f).
  Proof. unfold on_obj_rnd. ext_tac. Qed.
End ext2.
Global Hint Resolve ext_on_dict ext_on_expire ext_bulks ext_elements ext_as_kind ext_expireIfNeeded ext_get_or_new ext_get_if_exist ext_on_obj ext_on_obj_rnd : ext.
Global Hint Unfold addReplySimpleString addReplyBulkString addReplyInt addReplyError addReplyOK addReplyNull addReplyHeader addReplyArrays addReplyEmpty addReplyZsetElements : ext.
Ltac ext_unfold := unfold addReplyEmpty, addReplyArrays, addReplyZsetElements, addReplySimpleString, addReplyBulkString, addReplyInt, addReplyError, addReplyOK, addReplyNull, addReplyHeader.
Section ext3.
  Variable E : env.
  Lemma ext_random fuel : ext (random_loop E fuel).
  Proof. induction fuel; simpl; ext_unfold; ext_tac. Qed.
  Lemma ext_hset o : ∀ l n, ext (hset_loop o l n).
  Proof. fix IH 1. intros [|f [|v l]] n; cbn [hset_loop]; [ext_tac..|]. pose proof (IH l) as Hl. clear IH. ext_tac. Qed.
  Lemma ext_hdel o l : ∀ n, ext (hdel_loop o l n).
  Proof. induction l as [|x l IH]; intros n; cbn [hdel_loop]; ext_tac. Qed.
  Lemma ext_lpush o l : ext (lpush_loop o l).
  Proof. induction l as [|x l IH]; cbn [lpush_loop]; ext_tac. Qed.
  Lemma ext_rpush o l : ext (rpush_loop o l).
  Proof. induction l as [|x l IH]; cbn [rpush_loop]; ext_tac. Qed.
  Lemma ext_sadd o l : ∀ n, ext (sadd_loop o l n).
  Proof. induction l as [|x l IH]; intros n; cbn [sadd_loop]; ext_tac. Qed.
  Lemma ext_srem o l : ∀ n, ext (srem_loop o l n).
  Proof. induction l as [|x l IH]; intros n; cbn [srem_loop]; ext_tac. Qed.
  Lemma ext_with_set {A} s (f : dict bytes unit → res (dict bytes unit * A)) : ext (with_set s f).
  Proof. unfold with_set. ext_tac. Qed.
  Hint Resolve ext_with_set : ext.
  Lemma ext_set_op op op' s o : ext (set_op op op' s o).
  Proof. unfold set_op. ext_tac. Qed.
  Hint Resolve ext_set_op : ext.
  Lemma ext_addReplySet s : ext (addReplySet s).
  Proof. unfold addReplySet. ext_unfold. ext_tac. Qed.
  Lemma ext_set_loop op op' keys : ∀ s, ext (set_loop E op op' s keys).
  Proof. induction keys as [|k keys IH]; intros s; cbn [set_loop]; ext_tac. Qed.
  Lemma ext_inter_loop keys : ∀ s, ext (inter_loop E s keys).
  Proof. induction keys as [|k keys IH]; intros s; cbn [inter_loop]; ext_tac. Qed.
  Lemma ext_zadd o : ∀ l n, ext (zadd_loop E o l n).
  Proof. fix IH 1. intros [|f [|v l]] n; cbn [zadd_loop]; [ext_tac..|]. pose proof (IH l) as Hl. clear IH. ext_tac. Qed.
  Lemma ext_zrem o l : ∀ n, ext (zrem_loop o l n).
  Proof. induction l as [|x l IH]; intros n; cbn [zrem_loop]; ext_tac. Qed.
  Hint Resolve ext_random ext_hset ext_hdel ext_lpush ext_rpush ext_sadd ext_srem ext_addReplySet ext_set_loop ext_inter_loop ext_zadd ext_zrem : ext.
  Lemma ext_two_ints args w1 w2 (k : Z → Z → M unit) : (∀ a b, ext (k a b)) → ext (two_ints E args w1 w2 k).
  Proof. intros. unfold two_ints. ext_unfold. ext_tac. Qed.
  Lemma ext_two_floats args w1 w2 (k : float → float → M unit) : (∀ a b, ext (k a b)) → ext (two_floats E args w1 w2 k).
  Proof. intros. unfold two_floats. ext_unfold. ext_tac. Qed.
  Lemma ext_select args : ext (selectCommand E args).
  Proof.
    unfold selectCommand. ext_unfold. apply ext_bind; [auto with ext|intros p]. destruct (Atoi p) as [n|]; [|auto with ext].
    apply ext_bind; [auto with ext|intros s]. destruct (zlen (s_dbs s) <=? n); [auto with ext|]. destruct (n <? 0); [auto with ext|].
    intros w w' x. unfold mbind, M_bind, get_cl. cbn. intros [= <- _]. split_and!; try done; cbn; by apply prefix_app_r.
  Qed.
  Lemma ext_auth args : ext (authCommand E args).
  Proof.
    unfold authCommand. ext_unfold. apply ext_bind; [auto with ext|intros p]. intros w w' x. unfold mbind, M_bind, get_cl.
    case_decide; cbn; intros [= <- _]; (split_and!; try done; cbn; by apply prefix_app_r).
  Qed.
  Lemma ext_bgrewrite args : ext (bgRewriteAofCommand args).
  Proof.
    intros w w' x. unfold bgRewriteAofCommand, rewriteAppendOnlyFileBackground, mbind, M_bind, get_srv, lift, put_srv. cbn.
    destruct (s_task (w_srv w)) eqn:Ht.
    - by intros H%ext_addReply.
    - destruct (copy_dbs (s_dbs (w_srv w))) as [r| |]; try done. cbn. intros [= <- _]. split_and!; try done; cbn; [by apply prefix_app_r|congruence].
  Qed.
  Hint Resolve ext_select ext_auth ext_bgrewrite : ext.
  Lemma ext_table : Forall (λ c, ∀ args, ext (cmd_proc c args)) (commandTable E).
  Proof.
    repeat (apply Forall_cons; split; [cbn [cmd_proc]; intros args|]); [..|by apply Forall_nil_2];
    try solve [auto with ext];
    unfold pingCommand, expireCommand, expireAtCommand, ttlCommand, keysCommand, setCommand, setExCommand, getCommand, hSetCommand, hGetCommand,
      hDelCommand, hExistsCommand, hKeysCommand, hLenCommand, lPushCommand, rPushCommand, lPopCommand, rPopCommand, lLenCommand, lIndexCommand,
      lRangeCommand, sAddCommand, sRemCommand, sPopCommand, sCardCommand, sIsMemberCommand, sMembersCommand, sDiffCommand, sInterCommand, sUnionCommand,
      set_command, zAddCommand, zRangeCommand, zRangeByScoreCommand, zRemCommand, zRemRangeByRankCommand, zRemRangeByScoreCommand, zCardCommand, zCountCommand, zScoreCommand;
    ext_unfold; try solve [ext_tac].
    all: try solve [repeat (ext_step || (apply ext_two_ints; intros) || (apply ext_two_floats; intros))].
    intros w w' x. unfold randomGetCommand. apply ext_random.
  Qed.
  Lemma process_grows args w w' : processCommand E args w = Ok (w', tt) →
    c_out (w_cl w) `prefix_of` c_out (w_cl w') ∧
    (s_task (w_srv w) = true → s_task (w_srv w') = true ∧ s_snap (w_srv w') = s_snap (w_srv w)) ∧
    ∃ t, s_aofbuf (w_srv w') = s_aofbuf (w_srv w) ++ t ∧ s_rwbuf (w_srv w') = s_rwbuf (w_srv w) ++ (if s_task (w_srv w') then t else []).
  Proof.
    assert (Hq : ∀ w w', grows w w' → c_out (w_cl w) `prefix_of` c_out (w_cl w') ∧
      (s_task (w_srv w) = true → s_task (w_srv w') = true ∧ s_snap (w_srv w') = s_snap (w_srv w)) ∧
      ∃ t, s_aofbuf (w_srv w') = s_aofbuf (w_srv w) ++ t ∧ s_rwbuf (w_srv w') = s_rwbuf (w_srv w) ++ (if s_task (w_srv w') then t else [])).
    { clear w w'. intros w w' (H1 & H2 & H3 & _ & H4). split_and!; [done|done|]. exists []. rewrite H2, H3, !app_nil_r. split; [done|]. by destruct (s_task (w_srv w')); rewrite app_nil_r. }
    unfold processCommand. intros H.
    unfold mbind at 1, M_bind at 1 in H. destruct (arg args 0 w) as [[w0 a]| |] eqn:Ea; try done.
    assert (w0 = w) as ->. { unfold arg, lift in Ea. destruct (deref (args !! 0%nat)); try done. by injection Ea. }
    destruct (lookupCommand E (lib_lower (e_lib E) a)) as [cmd|] eqn:Ec; [|apply Hq; by eapply ext_addReply].
    assert (Hcmd : ∀ args, ext (cmd_proc cmd args)).
    { unfold lookupCommand in Ec. destruct (list_find _ _) as [[i c]|] eqn:Ef; [|done]. injection Ec as ->. apply list_find_Some in Ef as (Hi & _ & _).
      apply (Forall_lookup_1 _ _ _ _ ext_table Hi). }
    destruct (bad_arity (cmd_arity cmd) args); [apply Hq; by eapply ext_addReply|].
    unfold mbind at 1, M_bind at 1, get_cl at 1 in H.
    destruct (negb _ && _ && _); [apply Hq; by eapply ext_addReply|].
    unfold call in H. unfold mbind at 1, M_bind at 1, get_srv at 1 in H.
    unfold mbind at 1, M_bind at 1 in H. destruct (cmd_proc cmd args w) as [[w1 []]| |] eqn:Ep; try done. apply Hcmd in Ep.
    unfold mbind at 1, M_bind at 1, get_srv at 1 in H.
    destruct (e_aof E && negb (s_dirty (w_srv w1) - s_dirty (w_srv w) =? 0)).
    - unfold mbind at 1, M_bind at 1, get_cl at 1 in H. unfold feedAppendOnlyFile in H.
      set (body := if decide (cmd_name cmd = B "expire") then _ else _) in H. clearbody body. destruct body as [b| |]; try done.
      cbn in H. injection H as <-. destruct Ep as (H1 & H2 & H3 & H4 & H5). split_and!; [done|done|]. cbn.
      eexists. rewrite H2, H3. split; [done|]. by destruct (s_task (w_srv w1)); rewrite ?app_nil_r.
    - injection H as <-. by apply Hq.
  Qed.
End ext3.
