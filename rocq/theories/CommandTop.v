(** One request on one connection, on abstract databases, and its refinement by
    the model (processCommand). *)
From Verif Require Import Base Float DictModel DictProofs DictProofs2 DictProofs3 DictProofs4 DictRun
  DatabaseModel SetModel SetProofs QuicklistModel QuicklistProofs SkiplistModel ZsetModel
  Strconv RespSpec ServerModel CommandModel CommandSem CommandInv CommandInv2 CommandProofs1 CommandProofs2
  CommandProofs3 CommandProofs4.
From Coq Require Import ZifyBool ZifyNat.

(** what one connection sees: all databases, its selection, whether it is authorised *)
Record view := V { v_dbs : list adb; v_db : nat; v_auth : bool }.

(** number of arguments including the name; negative: at least that many *)
Definition arities : list (bytes * Z) := [
  (B "ping", 1); (B "select", 2); (B "auth", 2); (B "bgrewriteaof", 1);
  (B "expire", 3); (B "expireat", 3); (B "ttl", 2); (B "keys", 2);
  (B "set", -3); (B "setex", 4); (B "get", 2); (B "randomget", 1);
  (B "hset", -4); (B "hget", 3); (B "hdel", -3); (B "hexists", 3); (B "hkeys", 2); (B "hlen", 2);
  (B "lpush", -3); (B "rpush", -3); (B "lpop", 2); (B "rpop", 2); (B "llen", 2); (B "lindex", 3); (B "lrange", -4);
  (B "sadd", -3); (B "srem", -3); (B "spop", 2); (B "scard", 2); (B "sismember", 3); (B "smembers", 2);
  (B "sdiff", -3); (B "sinter", -3); (B "sunion", -3);
  (B "zadd", -4); (B "zrange", -4); (B "zrangebyscore", -4); (B "zrem", -3);
  (B "zremrangebyrank", -4); (B "zremrangebyscore", -4); (B "zcard", 2); (B "zcount", 4); (B "zscore", 3)].
Definition accepts (arity : Z) (n : Z) : Prop := if decide (0 < arity) then n = arity else - arity ≤ n.
(** the request is known, has an accepted number of arguments and is permitted *)
Definition allowed (E : env) (args : list bytes) (v : view) (name : bytes) : Prop :=
  (∃ a l ar, args = a :: l ∧ name = lib_lower (e_lib E) a ∧ (name, ar) ∈ arities ∧ accepts ar (zlen args)) ∧
  (e_password E = [] ∨ v_auth v = true ∨ name = B "auth").

Definition on_view (v : view) (o : res outcome) : res (view * reply * Z) :=
  x ← o; let '(Out D r n) := x in Ok (V (<[v_db v := D]> (v_dbs v)) (v_db v) (v_auth v), r, n).

Inductive top (E : env) (args : list bytes) (task : bool) (v : view) : res (view * reply * Z) → Prop :=
| top_unknown a l : args = a :: l → (∀ ar, (lib_lower (e_lib E) a, ar) ∉ arities) →
    top E args task v (Ok (v, RError (B "unknown command"), 0))
| top_arity a l ar : args = a :: l → (lib_lower (e_lib E) a, ar) ∈ arities → ¬ accepts ar (zlen args) →
    top E args task v (Ok (v, RError (B "wrong number of arguments"), 0))
| top_denied a l ar : args = a :: l → (lib_lower (e_lib E) a, ar) ∈ arities → accepts ar (zlen args) →
    e_password E ≠ [] → v_auth v = false → lib_lower (e_lib E) a ≠ B "auth" →
    top E args task v (Ok (v, RError (B "operation not permitted"), 0))
| top_data name D ro : allowed E args v name → v_dbs v !! v_db v = Some D → sem E name args D ro →
    top E args task v (on_view v ro)
| top_select_bad a : allowed E args v (B "select") → args !! 1%nat = Some a → Atoi a = None →
    top E args task v (Ok (v, RError (lib_num_error (e_lib E) (B "Atoi") a), 0))
| top_select_high a i : allowed E args v (B "select") → args !! 1%nat = Some a → Atoi a = Some i →
    zlen (v_dbs v) ≤ i →
    top E args task v (Ok (v, RError (B "invalid db index"), 0))
| top_select_neg a i : allowed E args v (B "select") → args !! 1%nat = Some a → Atoi a = Some i → i < 0 →
    top E args task v Panic
| top_select a i : allowed E args v (B "select") → args !! 1%nat = Some a → Atoi a = Some i →
    0 ≤ i < zlen (v_dbs v) →
    top E args task v (Ok (V (v_dbs v) (Z.to_nat i) (v_auth v), ROK, 0))
| top_auth a : allowed E args v (B "auth") → args !! 1%nat = Some a → e_password E = [] ∨ e_password E = a →
    top E args task v (Ok (V (v_dbs v) (v_db v) true, ROK, 0))
| top_auth_bad a : allowed E args v (B "auth") → args !! 1%nat = Some a → e_password E ≠ [] → e_password E ≠ a →
    top E args task v (Ok (V (v_dbs v) (v_db v) false, RError (B "invalid password"), 0))
| top_rewrite r : allowed E args v (B "bgrewriteaof") →
    r = RSimple (if task then B "Background append only file rewriting scheduled"
                 else B "Background append only file rewriting started") →
    top E args task v (Ok (v, r, 0)).

(** what is appended to the log for a command that counted changes *)
Definition log_text (E : env) (name : bytes) (args : list bytes) : option bytes :=
  if decide (name = B "expire") then
    match args with
    | [_; k; a] => n ← Atoi a; Some (encode [B "expireat"; k; itoa (wrap64 (e_unix E + n))])
    | _ => None
    end
  else if decide (name = B "setex") then
    match args with
    | [_; k; a; v] => n ← Atoi a;
        Some (encode [B "set"; k; v] ++ encode [B "expireat"; k; itoa (wrap64 (e_unix E + n))])
    | _ => None
    end
  else Some (encode args).
(** the log before and after a request: text appended to the log buffer, with a
    SELECT if the last logged command was in another database *)
Record logst := LS { l_select : Z; l_buf : bytes; l_rw : bytes }.
Definition log_add (task : bool) (db : nat) (text : bytes) (l : logst) : logst :=
  let t := (if l_select l =? Z.of_nat db then [] else encode [B "select"; itoa (Z.of_nat db)]) ++ text in
  LS (Z.of_nat db) (l_buf l ++ t) (if task then l_rw l ++ t else l_rw l).
Definition lst (s : server) : logst := LS (s_select s) (s_aofbuf s) (s_rwbuf s).

Definition view_of (w : world) : view := V (abs_dbs (w_srv w)) (c_db (w_cl w)) (c_auth (w_cl w)).

Section top.
  Variable E : env.

  Lemma refines_arity a b proc R : (∀ args, bad_arity b args = false → bad_arity a args = false) →
    refines a proc R → refines b proc R.
  Proof. intros Hab H args w0 N D w Hb. apply H. by apply Hab. Qed.
  Lemma arities_ok : (λ c : command, (cmd_name c, cmd_arity c)) <$> commandTable E = arities.
  Proof. reflexivity. Qed.
  (** a command that counts changes can be written to the log *)
  Definition loggable (arity : Z) (name : bytes) (R : list bytes → adb → res outcome → Prop) : Prop :=
    ∀ args D D' r n, bad_arity arity args = false → R args D (Ok (Out D' r n)) → n ≠ 0 →
      is_Some (log_text E name args).
  Lemma loggable_expire f : loggable 3 (B "expire") (sem_expire E f).
  Proof.
    intros args D D' r n Har HR Hn. args_pos 2%nat args Har. unfold sem_expire, fn in HR.
    injection HR as HR. unfold log_text. rewrite decide_True by done.
    destruct (Atoi b1) as [k|]; [by eexists|]. by injection HR as _ _ <-.
  Qed.
  Lemma loggable_setex : loggable 4 (B "setex") (sem_setex E).
  Proof.
    intros args D D' r n Har HR Hn. args_pos 3%nat args Har. unfold sem_setex, fn in HR.
    injection HR as HR. unfold log_text. rewrite decide_False by done. rewrite decide_True by done.
    destruct (Atoi b1) as [k|]; [by eexists|]. by injection HR as _ _ <-.
  Qed.
  Lemma loggable_other ar name R : name ≠ B "expire" → name ≠ B "setex" → loggable ar name R.
  Proof.
    intros H1 H2 args D D' r n _ _ _. unfold log_text. rewrite !decide_False by done. by eexists.
  Qed.
  Lemma data_table : Forall (λ c,
      (∃ R, (cmd_name c, R) ∈ semTable E ∧ refines (cmd_arity c) (cmd_proc c) R ∧ loggable (cmd_arity c) (cmd_name c) R) ∨
      c = Cmd (B "select") (selectCommand E) 2 ∨ c = Cmd (B "auth") (authCommand E) 2 ∨
      c = Cmd (B "bgrewriteaof") bgRewriteAofCommand 1) (commandTable E).
  Proof.
    assert (HT : ∀ i x R, semTable E !! i = Some (x, R) → (x, R) ∈ semTable E).
    { intros. by eapply elem_of_list_lookup_2. }
    assert (Hz : refines 4 (zCountCommand E) (sem_zcount E)).
    { eapply refines_arity; [|apply ref_zcount]. intros args. unfold bad_arity. lia. }
    unfold commandTable.
    apply Forall_cons; split; [left; eexists; split; [exact (HT 0%nat _ _ eq_refl)|split; [apply ref_ping|apply loggable_other; by vm_compute]]|].
    apply Forall_cons; split; [right; by auto|].
    apply Forall_cons; split; [right; by auto|].
    apply Forall_cons; split; [right; by auto|].
    apply Forall_cons; split; [left; eexists; split; [exact (HT 1%nat _ _ eq_refl)|split; [apply ref_expire|apply loggable_expire]]|].
    apply Forall_cons; split; [left; eexists; split; [exact (HT 2%nat _ _ eq_refl)|split; [apply ref_expireat|apply loggable_other; by vm_compute]]|].
    apply Forall_cons; split; [left; eexists; split; [exact (HT 3%nat _ _ eq_refl)|split; [apply ref_ttl|apply loggable_other; by vm_compute]]|].
    apply Forall_cons; split; [left; eexists; split; [exact (HT 4%nat _ _ eq_refl)|split; [apply ref_keys|apply loggable_other; by vm_compute]]|].
    apply Forall_cons; split; [left; eexists; split; [exact (HT 5%nat _ _ eq_refl)|split; [apply ref_set|apply loggable_other; by vm_compute]]|].
    apply Forall_cons; split; [left; eexists; split; [exact (HT 6%nat _ _ eq_refl)|split; [apply ref_setex|apply loggable_setex]]|].
    apply Forall_cons; split; [left; eexists; split; [exact (HT 7%nat _ _ eq_refl)|split; [apply ref_get|apply loggable_other; by vm_compute]]|].
    apply Forall_cons; split; [left; eexists; split; [exact (HT 8%nat _ _ eq_refl)|split; [apply ref_randomget|apply loggable_other; by vm_compute]]|].
    apply Forall_cons; split; [left; eexists; split; [exact (HT 9%nat _ _ eq_refl)|split; [apply ref_hset|apply loggable_other; by vm_compute]]|].
    apply Forall_cons; split; [left; eexists; split; [exact (HT 10%nat _ _ eq_refl)|split; [apply ref_hget|apply loggable_other; by vm_compute]]|].
    apply Forall_cons; split; [left; eexists; split; [exact (HT 11%nat _ _ eq_refl)|split; [apply ref_hdel|apply loggable_other; by vm_compute]]|].
    apply Forall_cons; split; [left; eexists; split; [exact (HT 12%nat _ _ eq_refl)|split; [apply ref_hexists|apply loggable_other; by vm_compute]]|].
    apply Forall_cons; split; [left; eexists; split; [exact (HT 13%nat _ _ eq_refl)|split; [apply ref_hkeys|apply loggable_other; by vm_compute]]|].
    apply Forall_cons; split; [left; eexists; split; [exact (HT 14%nat _ _ eq_refl)|split; [apply ref_hlen|apply loggable_other; by vm_compute]]|].
    apply Forall_cons; split; [left; eexists; split; [exact (HT 15%nat _ _ eq_refl)|split; [apply ref_lpush|apply loggable_other; by vm_compute]]|].
    apply Forall_cons; split; [left; eexists; split; [exact (HT 16%nat _ _ eq_refl)|split; [apply ref_rpush|apply loggable_other; by vm_compute]]|].
    apply Forall_cons; split; [left; eexists; split; [exact (HT 17%nat _ _ eq_refl)|split; [apply ref_lpop|apply loggable_other; by vm_compute]]|].
    apply Forall_cons; split; [left; eexists; split; [exact (HT 18%nat _ _ eq_refl)|split; [apply ref_rpop|apply loggable_other; by vm_compute]]|].
    apply Forall_cons; split; [left; eexists; split; [exact (HT 19%nat _ _ eq_refl)|split; [apply ref_llen|apply loggable_other; by vm_compute]]|].
    apply Forall_cons; split; [left; eexists; split; [exact (HT 20%nat _ _ eq_refl)|split; [apply ref_lindex|apply loggable_other; by vm_compute]]|].
    apply Forall_cons; split; [left; eexists; split; [exact (HT 21%nat _ _ eq_refl)|split; [apply ref_lrange|apply loggable_other; by vm_compute]]|].
    apply Forall_cons; split; [left; eexists; split; [exact (HT 22%nat _ _ eq_refl)|split; [apply ref_sadd|apply loggable_other; by vm_compute]]|].
    apply Forall_cons; split; [left; eexists; split; [exact (HT 23%nat _ _ eq_refl)|split; [apply ref_srem|apply loggable_other; by vm_compute]]|].
    apply Forall_cons; split; [left; eexists; split; [exact (HT 24%nat _ _ eq_refl)|split; [apply ref_spop|apply loggable_other; by vm_compute]]|].
    apply Forall_cons; split; [left; eexists; split; [exact (HT 25%nat _ _ eq_refl)|split; [apply ref_scard|apply loggable_other; by vm_compute]]|].
    apply Forall_cons; split; [left; eexists; split; [exact (HT 26%nat _ _ eq_refl)|split; [apply ref_sismember|apply loggable_other; by vm_compute]]|].
    apply Forall_cons; split; [left; eexists; split; [exact (HT 27%nat _ _ eq_refl)|split; [apply ref_smembers|apply loggable_other; by vm_compute]]|].
    apply Forall_cons; split; [left; eexists; split; [exact (HT 28%nat _ _ eq_refl)|split; [apply ref_sdiff|apply loggable_other; by vm_compute]]|].
    apply Forall_cons; split; [left; eexists; split; [exact (HT 29%nat _ _ eq_refl)|split; [apply ref_sinter|apply loggable_other; by vm_compute]]|].
    apply Forall_cons; split; [left; eexists; split; [exact (HT 30%nat _ _ eq_refl)|split; [apply ref_sunion|apply loggable_other; by vm_compute]]|].
    apply Forall_cons; split; [left; eexists; split; [exact (HT 31%nat _ _ eq_refl)|split; [apply ref_zadd|apply loggable_other; by vm_compute]]|].
    apply Forall_cons; split; [left; eexists; split; [exact (HT 32%nat _ _ eq_refl)|split; [apply ref_zrange|apply loggable_other; by vm_compute]]|].
    apply Forall_cons; split; [left; eexists; split; [exact (HT 33%nat _ _ eq_refl)|split; [apply ref_zrangebyscore|apply loggable_other; by vm_compute]]|].
    apply Forall_cons; split; [left; eexists; split; [exact (HT 34%nat _ _ eq_refl)|split; [apply ref_zrem|apply loggable_other; by vm_compute]]|].
    apply Forall_cons; split; [left; eexists; split; [exact (HT 35%nat _ _ eq_refl)|split; [apply ref_zremrangebyrank|apply loggable_other; by vm_compute]]|].
    apply Forall_cons; split; [left; eexists; split; [exact (HT 36%nat _ _ eq_refl)|split; [apply ref_zremrangebyscore|apply loggable_other; by vm_compute]]|].
    apply Forall_cons; split; [left; eexists; split; [exact (HT 37%nat _ _ eq_refl)|split; [apply ref_zcard|apply loggable_other; by vm_compute]]|].
    apply Forall_cons; split; [left; eexists; split; [exact (HT 38%nat _ _ eq_refl)|split; [exact Hz|apply loggable_other; by vm_compute]]|].
    apply Forall_cons; split; [left; eexists; split; [exact (HT 39%nat _ _ eq_refl)|split; [apply ref_zscore|apply loggable_other; by vm_compute]]|].
    by apply Forall_nil.
  Qed.

  Lemma accepts_bad ar args : bad_arity ar args = false ↔ accepts ar (zlen args).
  Proof. unfold bad_arity, accepts. case_decide; unfold zlen; lia. Qed.
  Lemma cat_encode args : catAppendOnlyGenericCommand args = encode args.
  Proof.
    unfold catAppendOnlyGenericCommand, encode, array_header. cbn [app]. rewrite <-!app_assoc. do 4 f_equal.
    apply map_ext. intros x. unfold bulk, bulk_header. cbn [app]. by rewrite <-!app_assoc.
  Qed.
  Lemma feed_run s name db args t : log_text E name args = Some t →
    ∃ s', feedAppendOnlyFile E s name (Z.of_nat db) args = Ok s' ∧
      lst s' = log_add (s_task s) db t (lst s) ∧
      s' = set_log s (s_select s') (s_aofbuf s') (s_rwbuf s').
  Proof.
    intros Ht. unfold feedAppendOnlyFile.
    match goal with |- context [?x ≫= _] => enough (x = Ok t) as -> end.
    { cbn [mbind res_bind]. eexists. split; [reflexivity|]. rewrite cat_encode. split; reflexivity. }
    unfold log_text in Ht. case_decide as H1.
    { destruct args as [|a0 [|k [|a [|]]]]; try done.
      destruct (Atoi a) as [n|] eqn:Ea; [|done]. injection Ht as <-. unfold catAppendOnlyExpireCommand.
      change (deref ([a0; k; a] !! 2%nat)) with (Ok a). cbn [mbind res_bind]. rewrite Ea. cbn [deref mbind res_bind].
      rewrite cat_encode. reflexivity. }
    case_decide as H2.
    { destruct args as [|a0 [|k [|a [|v [|]]]]]; try done.
      destruct (Atoi a) as [n|] eqn:Ea; [|done]. injection Ht as <-.
      change (deref ([a0; k; a; v] !! 1%nat)) with (Ok k). change (deref ([a0; k; a; v] !! 2%nat)) with (Ok a).
      change (deref ([a0; k; a; v] !! 3%nat)) with (Ok v). cbn [mbind res_bind]. unfold catAppendOnlyExpireCommand.
      change (deref ([B "expireat"; k; a] !! 2%nat)) with (Ok a). cbn [mbind res_bind]. rewrite Ea. cbn [deref mbind res_bind].
      rewrite !cat_encode. reflexivity. }
    rewrite cat_encode. by injection Ht as <-.
  Qed.

  (** the run of a request has the outcome [o] *)
  Definition tends (N : nat) (args : list bytes) (w : world) (run : res (world * unit)) (o : res (view * reply * Z)) : Prop :=
    match o with
    | Ok (v', r, n) => ∃ w', run = Ok (w', tt) ∧ w_ok N w' ∧ view_of w' = v' ∧
        mjoin (c_out (w_cl w')) = mjoin (c_out (w_cl w)) ++ enc r ∧
        s_dirty (w_srv w') = s_dirty (w_srv w) + n ∧
        (if e_aof E && negb (n =? 0)
         then ∃ a t, args !! 0%nat = Some a ∧ log_text E (lib_lower (e_lib E) a) args = Some t ∧
                lst (w_srv w') = log_add (s_task (w_srv w)) (v_db v') t (lst (w_srv w))
         else lst (w_srv w') = lst (w_srv w)) ∧
        (args !! 0%nat ≫= (λ a, Some (lib_lower (e_lib E) a)) ≠ Some (B "bgrewriteaof") →
         s_task (w_srv w') = s_task (w_srv w) ∧ s_snap (w_srv w') = s_snap (w_srv w))
    | Panic => run = Panic
    | OutOfFuel => run = OutOfFuel
    end.

  Lemma At_view w N D out n w' : At w N D out n w' →
    view_of w' = V (<[c_db (w_cl w) := D]> (abs_dbs (w_srv w))) (c_db (w_cl w)) (c_auth (w_cl w)).
  Proof. intros [H1 H2 H3 H4 H5 H6 H7]. unfold view_of. by rewrite H2, H3, H4. Qed.
  Lemma cur_view N w : w_ok N w → ∃ D, abs_dbs (w_srv w) !! c_db (w_cl w) = Some D ∧ At w N D [] 0 w.
  Proof.
    intros Hw. destruct (cur_exists _ _ Hw) as (db & Hc & Hok). exists (abs_db (s_heap (w_srv w)) db).
    split; [|by apply At_refl]. unfold abs_dbs. rewrite list_lookup_fmap. unfold cur in Hc. by rewrite Hc.
  Qed.
  Lemma log_of_lst s s' : log_of s' = log_of s →
    lst s' = lst s ∧ s_task s' = s_task s ∧ s_snap s' = s_snap s.
  Proof. unfold log_of, lst. intros [= -> -> -> -> ->]. done. Qed.
  Lemma tends_reply N args w m r : w_ok N w → replies m r →
    tends N args w (m w) (Ok (view_of w, r, 0)).
  Proof.
    intros Hw Hm. destruct (cur_view _ _ Hw) as (D & HD & Ha). destruct (Hm _ _ _ _ _ Ha) as (w' & Er & Ha').
    exists w'. split; [done|]. split; [apply Ha'|]. split.
    { rewrite (At_view _ _ _ _ _ _ Ha'). rewrite list_insert_id by done. done. }
    split; [apply Ha'|]. split; [apply Ha'|].
    destruct (log_of_lst _ _ (at_log _ _ _ _ _ _ Ha')) as (Hl & Ht & Hs).
    rewrite andb_false_r. done.
  Qed.

  (** a change of the client's own fields, then a reply *)
  Lemma tends_client N args w c m r : w_ok N w → (c_db c < length (s_dbs (w_srv w)))%nat → c_out c = c_out (w_cl w) →
    replies m r →
    tends N args w ((_ ← put_cl c; m) w) (Ok (V (abs_dbs (w_srv w)) (c_db c) (c_auth c), r, 0)).
  Proof.
    intros Hw Hc Ho Hm. set (w2 := W (w_srv w) c (w_rnd w)).
    assert (EP : put_cl c w = Ok (w2, tt)) by done. rewrite (bind_ok _ _ _ _ _ EP).
    assert (Hw2 : w_ok N w2).
    { destruct Hw as [H1 H2 H3 H4]. split; try done. simpl. by rewrite Ho. }
    destruct (tends_reply N args w2 m r Hw2 Hm) as (w' & Er & Hw' & Hv & Hout & Hd & Hl & Ht).
    exists w'. rewrite andb_false_r in *. split; [done|]. split; [done|]. split; [done|].
    split; [rewrite Hout; simpl; by rewrite Ho|]. done.
  Qed.
  Lemma copy_dbs_spec N dbs : Forall (db_ok N) dbs → small N →
    ∃ snap, copy_dbs dbs = Ok (dbs, snap) ∧
      Forall2 (λ db c, d_map (db_dict c) = d_map (db_dict db) ∧ d_map (db_expire c) = d_map (db_expire db) ∧ db_ok N c) dbs snap.
  Proof.
    intros Hdbs Hsm. induction Hdbs as [|db dbs Hdb Hdbs IH]; [by exists []|].
    destruct IH as (snap & ES & HS). destruct Hdb as ([Hok1 Hi1] & [Hok2 Hi2] & Hs1 & Hs2).
    destruct (DeepCopy_spec Hash (db_dict db) Hok1) as (c1 & E1 & Hc1 & Hm1 & Hic1).
    { eapply small_mono; [|exact Hsm]. rewrite <-d_map_size; [done|]. by destruct Hok1 as (_ & ? & _). }
    destruct (DeepCopy_spec Hash (db_expire db) Hok2) as (c2 & E2 & Hc2 & Hm2 & Hic2).
    { eapply small_mono; [|exact Hsm]. rewrite <-d_map_size; [done|]. by destruct Hok2 as (_ & ? & _). }
    exists (DB c1 c2 :: snap). split.
    - cbn [copy_dbs]. unfold db_DeepCopy. rewrite E1. cbn [mbind res_bind]. rewrite E2. cbn [mbind res_bind].
      rewrite ES. cbn [mbind res_bind fst snd]. by destruct db.
    - constructor; [|done]. simpl. split; [done|]. split; [done|].
      unfold db_ok. simpl. rewrite Hm1, Hm2. done.
  Qed.

  Theorem processCommand_top N w args : w_ok N w → args ≠ [] → room N args →
    ∃ o, top E args (s_task (w_srv w)) (view_of w) o ∧
         tends (N + length args) args w (processCommand E args w) o.
  Proof.
    intros Hw Hargs Hroom. destruct args as [|a args]; [done|].
    set (name := lib_lower (e_lib E) a).
    assert (HwS : w_ok (N + length (a :: args)) w) by (eapply w_ok_mono; [|exact Hw]; lia).
    unfold processCommand. rewrite (bind_ok _ _ _ _ _ (arg_run (a :: args) 0 a w eq_refl)). fold name.
    unfold lookupCommand. destruct (list_find (λ c, cmd_name c = name) (commandTable E)) as [[i cmd]|] eqn:EF.
    2:{ eexists. split; [eapply top_unknown; [done|]|].
        - intros ar Har. rewrite <-arities_ok in Har. apply elem_of_list_fmap in Har as (c & [= Hn _] & Hc).
          apply list_find_None in EF. rewrite Forall_forall in EF. by apply (EF c Hc).
        - cbn [fmap option_fmap option_map]. apply tends_reply; [done|apply rError]. }
    apply list_find_Some in EF as (Hi & Hn & _).
    assert (Hin : cmd ∈ commandTable E) by (by eapply elem_of_list_lookup_2).
    assert (Har : (name, cmd_arity cmd) ∈ arities).
    { rewrite <-arities_ok. apply elem_of_list_fmap. exists cmd. by rewrite Hn. }
    cbn [fmap option_fmap option_map snd]. destruct (bad_arity (cmd_arity cmd) (a :: args)) eqn:Ebad.
    { eexists. split; [eapply top_arity; [done|done|]|apply tends_reply; [done|apply rError]].
      intros Hacc. apply accepts_bad in Hacc. congruence. }
    assert (Hacc : accepts (cmd_arity cmd) (zlen (a :: args))) by (by apply accepts_bad).
    rewrite (bind_ok get_cl _ w w (w_cl w) eq_refl).
    destruct (negb (bool_decide (e_password E = [])) && negb (c_auth (w_cl w)) && negb (bool_decide (name = B "auth"))) eqn:Eperm.
    { apply andb_prop in Eperm as [[H1 H2]%andb_prop H3].
      apply negb_true_iff, bool_decide_eq_false in H1. apply negb_true_iff in H2.
      apply negb_true_iff, bool_decide_eq_false in H3.
      eexists. split; [by eapply top_denied|]. apply tends_reply; [done|apply rError]. }
    assert (Hal : allowed E (a :: args) (view_of w) name).
    { split; [by exists a, args, (cmd_arity cmd)|]. simpl.
      destruct (bool_decide_reflect (e_password E = [])); [by left|].
      destruct (c_auth (w_cl w)); [by auto|]. destruct (bool_decide_reflect (name = B "auth")); [by auto|done]. }
    clear Eperm. destruct (cur_view _ _ Hw) as (D & HD & Ha).
    pose proof data_table as HT. rewrite Forall_forall in HT. specialize (HT cmd Hin).
    unfold call. rewrite (bind_ok get_srv _ w w (w_srv w) eq_refl).
    (* the tail of call when the command counts nothing *)
    assert (Hquiet : ∀ m o, (∀ v r n, o = Ok (v, r, n) → n = 0) →
      tends (N + length (a :: args)) (a :: args) w (m w) o →
      tends (N + length (a :: args)) (a :: args) w ((_ ← m;
        s ← get_srv;
        if e_aof E && negb (s_dirty s - s_dirty (w_srv w) =? 0) then
          c ← get_cl;
          s ← lift (feedAppendOnlyFile E s (cmd_name cmd) (Z.of_nat (c_db c)) (a :: args));
          put_srv s
        else ret tt) w) o).
    { intros m o Ho Ht. destruct o as [[[v r] n]| |].
      - pose proof (Ho v r n eq_refl) as ->. destruct Ht as (w' & Em & Hw' & Hv & Hout & Hd & Hl & Htk).
        exists w'. rewrite (bind_ok _ _ _ _ _ Em). rewrite (bind_ok get_srv _ w' w' (w_srv w') eq_refl).
        replace (s_dirty (w_srv w') - s_dirty (w_srv w)) with 0 by lia. rewrite andb_false_r in *. done.
      - by apply bind_panic.
      - by apply bind_fuel. }
    destruct HT as [(R & HR & Href & Hlog)|[->|[->| ->]]].
    - destruct (Href _ _ _ _ _ Ebad Ha Hroom) as (ro & Hro & Hend).
      exists (on_view (view_of w) ro). split.
      { eapply top_data; [done|exact HD|]. exists R. rewrite Hn in HR. done. }
      destruct ro as [[D' r n]| |]; simpl in Hend; [|by apply bind_panic|by apply bind_fuel].
      destruct Hend as (w1 & E1 & Ha1). rewrite (bind_ok _ _ _ _ _ E1).
      rewrite (bind_ok get_srv _ w1 w1 (w_srv w1) eq_refl).
      assert (Hdn : s_dirty (w_srv w1) - s_dirty (w_srv w) = n).
      { rewrite (at_dirty _ _ _ _ _ _ Ha1). lia. }
      rewrite Hdn. destruct (log_of_lst _ _ (at_log _ _ _ _ _ _ Ha1)) as (Hl & Ht & Hs).
      cbn [on_view mbind res_bind tends].
      destruct (e_aof E && negb (n =? 0)) eqn:Eaof.
      + apply andb_prop in Eaof as [_ Hne]. apply negb_true_iff, Z.eqb_neq in Hne.
        destruct (Hlog _ _ _ _ _ Ebad Hro Hne) as [t Htx].
        destruct (feed_run (w_srv w1) (cmd_name cmd) (c_db (w_cl w1)) (a :: args) t Htx) as (s' & Ef & Hls & Hs').
        rewrite (bind_ok get_cl _ w1 w1 (w_cl w1) eq_refl).
        assert (EL : lift (feedAppendOnlyFile E (w_srv w1) (cmd_name cmd) (Z.of_nat (c_db (w_cl w1))) (a :: args)) w1 = Ok (w1, s')).
        { unfold lift. by rewrite Ef. }
        rewrite (bind_ok _ _ _ _ _ EL). exists (W s' (w_cl w1) (w_rnd w1)). split; [done|]. split.
        { pose proof (at_ok _ _ _ _ _ _ Ha1) as [[H1 H2 H3 H4] H5 H6 H7]. rewrite Hs'. split; done. }
        split; [etrans; [|exact (At_view _ _ _ _ _ _ Ha1)]; by rewrite Hs'|].
        split; [apply Ha1|]. split; [rewrite Hs'; apply Ha1|]. split.
        * exists a, t. split; [done|]. rewrite Hn in Htx. split; [done|]. simpl. rewrite Hls, Hl, Ht, (at_db _ _ _ _ _ _ Ha1). done.
        * rewrite Hs'. done.
      + exists w1. split; [done|]. split; [apply Ha1|]. split; [exact (At_view _ _ _ _ _ _ Ha1)|].
        split; [apply Ha1|]. split; [apply Ha1|]. done.
    - (* select *)
      simpl in Hn. rewrite <-Hn in Hal, Har. destruct args as [|a1 [|]]; [by vm_compute in Ebad| |].
      2:{ exfalso. by apply (arity_pos 1) in Ebad. }
      simpl cmd_proc. unfold selectCommand.
      destruct (Atoi a1) as [idx|] eqn:Ea.
      2:{ eexists. split; [by eapply top_select_bad|]. apply Hquiet; [by intros ??? [= _ _ <-]|].
          rewrite (bind_ok _ _ _ _ _ (arg_run [a; a1] 1 a1 w eq_refl)). rewrite Ea. apply tends_reply; [done|apply rError]. }
      destruct (Z.leb_spec (zlen (s_dbs (w_srv w))) idx) as [Hhi|Hlo].
      { eexists. split; [eapply top_select_high; try done; simpl; unfold abs_dbs, zlen in *; by rewrite fmap_length|].
        apply Hquiet; [by intros ??? [= _ _ <-]|].
        rewrite (bind_ok _ _ _ _ _ (arg_run [a; a1] 1 a1 w eq_refl)). rewrite Ea.
        rewrite (bind_ok get_srv _ w w (w_srv w) eq_refl). rewrite (proj2 (Z.leb_le _ _)) by done.
        apply tends_reply; [done|apply rError]. }
      destruct (Z.ltb_spec idx 0) as [Hneg|Hpos].
      { eexists. split; [by eapply top_select_neg|]. apply Hquiet; [done|].
        rewrite (bind_ok _ _ _ _ _ (arg_run [a; a1] 1 a1 w eq_refl)). rewrite Ea.
        rewrite (bind_ok get_srv _ w w (w_srv w) eq_refl). rewrite (proj2 (Z.leb_gt _ _)) by done.
        by rewrite (proj2 (Z.ltb_lt _ _)). }
      eexists. split; [eapply top_select; try done; simpl; unfold abs_dbs, zlen in *; rewrite fmap_length; lia|].
      apply Hquiet; [by intros ??? [= _ _ <-]|].
      rewrite (bind_ok _ _ _ _ _ (arg_run [a; a1] 1 a1 w eq_refl)). rewrite Ea.
      rewrite (bind_ok get_srv _ w w (w_srv w) eq_refl). rewrite (proj2 (Z.leb_gt _ _)) by done.
      rewrite (proj2 (Z.ltb_ge _ _)) by done. rewrite (bind_ok get_cl _ w w (w_cl w) eq_refl).
      apply (tends_client _ _ w (Cl (Z.to_nat idx) (c_auth (w_cl w)) (c_out (w_cl w))) addReplyOK ROK); try done; [|apply rOK].
      simpl. unfold zlen in *. lia.
    - (* auth *)
      simpl in Hn. rewrite <-Hn in Hal, Har. destruct args as [|a1 [|]]; [by vm_compute in Ebad| |].
      2:{ exfalso. by apply (arity_pos 1) in Ebad. }
      simpl cmd_proc. unfold authCommand.
      destruct (decide (e_password E = [] ∨ e_password E = a1)) as [Hp|Hp].
      + eexists. split; [by eapply top_auth|]. apply Hquiet; [by intros ??? [= _ _ <-]|].
        rewrite (bind_ok _ _ _ _ _ (arg_run [a; a1] 1 a1 w eq_refl)). rewrite (bind_ok get_cl _ w w (w_cl w) eq_refl).
        rewrite decide_True by done.
        apply (tends_client _ _ w (Cl (c_db (w_cl w)) true (c_out (w_cl w))) addReplyOK ROK); try done; [apply Hw|apply rOK].
      + eexists. split; [eapply top_auth_bad; try done; tauto|]. apply Hquiet; [by intros ??? [= _ _ <-]|].
        rewrite (bind_ok _ _ _ _ _ (arg_run [a; a1] 1 a1 w eq_refl)). rewrite (bind_ok get_cl _ w w (w_cl w) eq_refl).
        rewrite decide_False by done.
        apply (tends_client _ _ w (Cl (c_db (w_cl w)) false (c_out (w_cl w))) _ (RError (B "invalid password"))); try done; [apply Hw|apply rError].
    - (* bgrewriteaof *)
      simpl in Hn. rewrite <-Hn in Hal, Har. simpl cmd_proc. unfold bgRewriteAofCommand.
      eexists. split; [by eapply top_rewrite|]. apply Hquiet; [by intros ??? [= _ _ <-]|].
      rewrite (bind_ok get_srv _ w w (w_srv w) eq_refl). destruct (s_task (w_srv w)) eqn:Et.
      { apply tends_reply; [done|apply rSimple]. }
      destruct (copy_dbs_spec N (s_dbs (w_srv w)) (so_dbs _ _ (wo_srv _ _ Hw))) as (snap & EC & _); [by eapply room_small|].
      set (s' := set_task (set_dbs (w_srv w) (s_dbs (w_srv w))) true (Some snap)).
      assert (EL : lift (rewriteAppendOnlyFileBackground (w_srv w)) w = Ok (w, s')).
      { unfold lift, rewriteAppendOnlyFileBackground. rewrite Et, EC. done. }
      rewrite (bind_ok _ _ _ _ _ EL). set (w2 := W s' (w_cl w) (w_rnd w)).
      assert (EP : put_srv s' w = Ok (w2, tt)) by done. rewrite (bind_ok _ _ _ _ _ EP).
      assert (Hw2 : w_ok (N + length (a :: args)) w2).
      { destruct HwS as [[H1 H2 H3 H4] H5 H6 H7]. split; done. }
      destruct (tends_reply _ (a :: args) w2 _ _ Hw2 (rSimple (B "Background append only file rewriting started")))
        as (w' & Er & Hw' & Hv & Hout & Hd & Hl & _). rewrite andb_false_r in Hl.
      exists w'. split; [done|]. split; [done|]. split; [by rewrite Hv|]. split; [done|]. split; [done|].
      rewrite andb_false_r. split; [done|]. intros Hne. exfalso. apply Hne. simpl. fold name. by rewrite <-Hn.
  Qed.
End top.
