(** What commands take from the random source: only RANDOMGET, SPOP and ZADD draw from
    it, and ZADD draws at most one level per pair of arguments. *)
From Verif Require Import Base Float DictModel DatabaseModel SetModel QuicklistModel SkiplistModel ZsetModel
  Strconv RespSpec ServerModel CommandModel CommandExt AofModel SystemModel.
From Coq Require Import ZifyBool ZifyNat.

(** [n] levels can be drawn from [rs], none so high that the counter (int8) overflows *)
Fixpoint enough (n : nat) (rs : list Z) : Prop :=
  match n with
  | O => True
  | S n => ∃ lv rs', randomLevel rs = Ok (lv, rs') ∧ 1 ≤ lv ∧ enough n rs'
  end.
Lemma enough_le n m rs : (n ≤ m)%nat → enough m rs → enough n rs.
Proof.
  revert n rs. induction m as [|m IH]; intros [|n] rs Hle; try done; [lia|]. intros (lv & rs' & H1 & H2 & H3).
  exists lv, rs'. split; [done|]. split; [done|]. apply IH; [lia|done].
Qed.
(** [n] levels lead from [rs] to [rs'] *)
Fixpoint drew (n : nat) (rs rs' : list Z) : Prop :=
  match n with
  | O => rs' = rs
  | S n => ∃ lv rs1, randomLevel rs = Ok (lv, rs1) ∧ drew n rs1 rs'
  end.
Lemma drew_enough n k rs rs' : drew n rs rs' → enough (n + k) rs → enough k rs'.
Proof.
  revert rs. induction n as [|n IH]; intros rs; [by intros ->|]. intros (lv & rs1 & H1 & H2) (lv' & rs2 & H3 & _ & H4).
  rewrite H1 in H3. injection H3 as <- <-. by eapply IH.
Qed.
Lemma drew_app n m rs rs1 rs2 : drew n rs rs1 → drew m rs1 rs2 → drew (n + m) rs rs2.
Proof.
  revert rs. induction n as [|n IH]; intros rs; [by intros ->|]. intros (lv & rs' & H1 & H2) Hm. exists lv, rs'. split; [done|]. by apply IH.
Qed.
Definition drawn (n : nat) (rs rs' : list Z) : Prop := ∃ m, (m ≤ n)%nat ∧ drew m rs rs'.
Lemma drawn_refl n rs : drawn n rs rs.
Proof. exists 0%nat. split; [lia|done]. Qed.
Lemma drawn_app n m rs rs1 rs2 : drawn n rs rs1 → drawn m rs1 rs2 → drawn (n + m) rs rs2.
Proof. intros (a & Ha & H1) (b & Hb & H2). exists (a + b)%nat. split; [lia|]. by eapply drew_app. Qed.
Lemma drawn_le n m rs rs' : (n ≤ m)%nat → drawn n rs rs' → drawn m rs rs'.
Proof. intros Hle (a & Ha & H1). exists a. split; [lia|done]. Qed.
Lemma drawn_enough n k rs rs' : drawn n rs rs' → enough (n + k) rs → enough k rs'.
Proof. intros (a & Ha & H1) H. eapply drew_enough; [done|]. eapply enough_le; [|done]. lia. Qed.

Definition still {A} (m : M A) : Prop := ∀ w w' a, m w = Ok (w', a) → w_rnd w' = w_rnd w.
Lemma still_bind {A C} (m : M A) (f : A → M C) : still m → (∀ a, still (f a)) → still (m ≫= f).
Proof.
  intros Hm Hf w w' a. unfold mbind, M_bind. destruct (m w) as [[w1 b]| |] eqn:E1; try done. intros H.
  apply Hm in E1. apply Hf in H. congruence.
Qed.
Lemma still_ret {A} (a : A) : still (ret a). Proof. by intros w w' b [= <- _]. Qed.
Lemma still_panic {A} : still (@panic A). Proof. by intros w w' b. Qed.
Lemma still_lift {A} (r : res A) : still (lift r). Proof. intros w w' b. unfold lift. destruct r; try done. by intros [= <- _]. Qed.
Lemma still_get_srv : still get_srv. Proof. by intros w w' b [= <- _]. Qed.
Lemma still_get_cl : still get_cl. Proof. by intros w w' b [= <- _]. Qed.
Lemma still_arg args i : still (arg args i). Proof. apply still_lift. Qed.
Lemma still_get_db : still get_db.
Proof. unfold get_db. apply still_bind; [apply still_get_cl|intros c]. apply still_bind; [apply still_get_srv|intros s]. apply still_lift. Qed.
Lemma still_put_db db : still (put_db db). Proof. by intros w w' a [= <- _]. Qed.
Lemma still_add_dirty n : still (add_dirty n). Proof. by intros w w' a [= <- _]. Qed.
Lemma still_addReply s : still (addReply s). Proof. by intros w w' a [= <- _]. Qed.
Lemma still_alloc x : still (alloc x). Proof. by intros w w' a [= <- _]. Qed.
Lemma still_store o x : still (store o x). Proof. by intros w w' a [= <- _]. Qed.
Lemma still_load o : still (load o).
Proof. unfold load. apply still_bind; [apply still_get_srv|intros s]. apply still_lift. Qed.
Create HintDb still.
Global Hint Resolve still_ret still_panic still_lift still_get_srv still_get_cl still_arg still_get_db still_put_db still_add_dirty still_addReply
  still_alloc still_store still_load : still.
Ltac still_step :=
  match goal with
  | |- still (_ ≫= _) => apply still_bind; [|intros]
  | |- still (match ?x with _ => _ end) => destruct x
  | |- still (let '(_, _) := ?x in _) => destruct x
  | |- still _ => solve [auto with still]
  end.
Ltac still_tac := repeat still_step.
Section still2.
  Variable E : env.
  Lemma still_on_dict {A} (f : dict bytes value → res (dict bytes value * A)) : still (on_dict f).
  Proof. unfold on_dict. still_tac. Qed.
  Lemma still_on_expire {A} (f : dict bytes Z → res (dict bytes Z * A)) : still (on_expire f).
  Proof. unfold on_expire. still_tac. Qed.
  Hint Resolve still_on_dict still_on_expire : still.
  Lemma still_bulks l : still (addReplyBulks l).
  Proof. induction l as [|s l IH]; simpl; [still_tac|]. unfold addReplyBulkString. still_tac. Qed.
  Lemma still_elements b es : still (addReplyElements E b es).
  Proof. induction es as [|[[m sc]|] es IH]; simpl; unfold addReplyBulkString; still_tac. Qed.
  Lemma still_as_kind {X} (k : kind X) v : still (as_kind k v).
  Proof. unfold as_kind. still_tac. Qed.
  Hint Resolve still_bulks still_elements still_as_kind : still.
  Lemma still_expireIfNeeded key : still (expireIfNeeded E key).
  Proof. unfold expireIfNeeded. still_tac. Qed.
  Hint Resolve still_expireIfNeeded : still.
  Lemma still_get_or_new {X} (k : kind X) e key : still (get_or_new k e key).
  Proof. unfold get_or_new. still_tac. Qed.
  Lemma still_get_if_exist {X} (k : kind X) key : still (get_if_exist E k key).
  Proof. unfold get_if_exist. still_tac. Qed.
  Lemma still_on_obj {X A} (k : kind X) o (f : X → res (X * A)) : still (on_obj k o f).
  Proof. unfold on_obj. still_tac. Qed.
End still2.
Global Hint Resolve still_on_dict still_on_expire still_bulks still_elements still_as_kind still_expireIfNeeded still_get_or_new still_get_if_exist still_on_obj : still.
Section still3.
  Variable E : env.
  Lemma still_hset o : ∀ l n, still (hset_loop o l n).
  Proof. fix IH 1. intros [|f [|v l]] n; cbn [hset_loop]; [still_tac..|]. pose proof (IH l) as Hl. clear IH. still_tac. Qed.
  Lemma still_hdel o l : ∀ n, still (hdel_loop o l n).
  Proof. induction l as [|x l IH]; intros n; cbn [hdel_loop]; still_tac. Qed.
  Lemma still_lpush o l : still (lpush_loop o l).
  Proof. induction l as [|x l IH]; cbn [lpush_loop]; still_tac. Qed.
  Lemma still_rpush o l : still (rpush_loop o l).
  Proof. induction l as [|x l IH]; cbn [rpush_loop]; still_tac. Qed.
  Lemma still_sadd o l : ∀ n, still (sadd_loop o l n).
  Proof. induction l as [|x l IH]; intros n; cbn [sadd_loop]; still_tac. Qed.
  Lemma still_srem o l : ∀ n, still (srem_loop o l n).
  Proof. induction l as [|x l IH]; intros n; cbn [srem_loop]; still_tac. Qed.
  Lemma still_zrem o l : ∀ n, still (zrem_loop o l n).
  Proof. induction l as [|x l IH]; intros n; cbn [zrem_loop]; still_tac. Qed.
  Lemma still_with_set {A} s (f : dict bytes unit → res (dict bytes unit * A)) : still (with_set s f).
  Proof. unfold with_set. still_tac. Qed.
  Hint Resolve still_with_set : still.
  Lemma still_set_op op op' s o : still (set_op op op' s o).
  Proof. unfold set_op. still_tac. Qed.
  Hint Resolve still_set_op : still.
  Lemma still_addReplySet s : still (addReplySet s).
  Proof. unfold addReplySet. ext_unfold. still_tac. Qed.
  Lemma still_set_loop op op' keys : ∀ s, still (set_loop E op op' s keys).
  Proof. induction keys as [|k keys IH]; intros s; cbn [set_loop]; still_tac. Qed.
  Lemma still_inter_loop keys : ∀ s, still (inter_loop E s keys).
  Proof. induction keys as [|k keys IH]; intros s; cbn [inter_loop]; still_tac. Qed.
  Hint Resolve still_hset still_hdel still_lpush still_rpush still_sadd still_srem still_zrem still_addReplySet still_set_loop still_inter_loop : still.
  Lemma still_two_ints args w1 w2 (k : Z → Z → M unit) : (∀ a b, still (k a b)) → still (two_ints E args w1 w2 k).
  Proof. intros. unfold two_ints. ext_unfold. still_tac. Qed.
  Lemma still_two_floats args w1 w2 (k : float → float → M unit) : (∀ a b, still (k a b)) → still (two_floats E args w1 w2 k).
  Proof. intros. unfold two_floats. ext_unfold. still_tac. Qed.
  Lemma still_put_cl c : still (put_cl c). Proof. by intros w w' a [= <- _]. Qed.
  Lemma still_put_srv s : still (put_srv s). Proof. by intros w w' a [= <- _]. Qed.
  Hint Resolve still_put_cl still_put_srv : still.
  (** the commands that draw random numbers *)
  Definition drawers : list bytes := [B "randomget"; B "spop"; B "zadd"].
  Lemma still_table : Forall (λ c, cmd_name c ∈ drawers ∨ ∀ args, still (cmd_proc c args)) (commandTable E).
  Proof.
    assert (Hz : ∀ c, bool_decide (cmd_name c ∈ drawers) = true → cmd_name c ∈ drawers ∨ ∀ args, still (cmd_proc c args)).
    { intros c Hb. left. by apply bool_decide_eq_true in Hb. }
    repeat (apply Forall_cons; split; [first [apply Hz; by vm_compute|right; cbn [cmd_proc]; intros args]|]); [..|by apply Forall_nil_2];
    unfold pingCommand, expireCommand, expireAtCommand, ttlCommand, keysCommand, setCommand, setExCommand, getCommand, hSetCommand, hGetCommand,
      hDelCommand, hExistsCommand, hKeysCommand, hLenCommand, lPushCommand, rPushCommand, lPopCommand, rPopCommand, lLenCommand, lIndexCommand,
      lRangeCommand, sAddCommand, sRemCommand, sPopCommand, sCardCommand, sIsMemberCommand, sMembersCommand, sDiffCommand, sInterCommand, sUnionCommand,
      set_command, zAddCommand, zRangeCommand, zRangeByScoreCommand, zRemCommand, zRemRangeByRankCommand, zRemRangeByScoreCommand, zCardCommand, zCountCommand, zScoreCommand,
      selectCommand, authCommand, bgRewriteAofCommand;
    ext_unfold; try solve [still_tac].
    all: try solve [repeat (still_step || (apply still_two_ints; intros) || (apply still_two_floats; intros))].
  Qed.

  (** ZADD *)
  Lemma ZAdd_drawn z sc x rs z' b rs' : ZAdd Hash z sc x rs = Ok (z', b, rs') → drawn 1 rs rs'.
  Proof.
    assert (Hadd : ∀ s s' r, sl_add s sc x rs = Ok (s', r) → drawn 1 rs r).
    { intros s s' r. unfold sl_add. destruct (randomLevel rs) as [[lv rs1]| |] eqn:Er; try done. cbn [mbind res_bind fst snd].
      destruct (Insert s lv sc x) as [[? ?]| |]; try done. intros [= _ <-]. exists 1%nat. split; [lia|]. exists lv, rs1. done. }
    unfold ZAdd. destruct (Find Hash (z_dict z) x) as [[d o]| |]; try done. cbn [mbind res_bind]. destruct o as [l|].
    - destruct (entry_at d l) as [e| |]; try done. cbn [mbind res_bind]. destruct (negb _).
      + destruct (write_value d l sc) as [d'| |]; try done. cbn [mbind res_bind]. destruct (SlDelete _ _ _) as [[s1 ?]| |]; try done. cbn [mbind res_bind fst snd].
        destruct (sl_add s1 sc x rs) as [[s2 r2]| |] eqn:Ea; try done. intros [= _ _ <-]. by eapply Hadd.
      + intros [= _ _ <-]. apply drawn_refl.
    - destruct (Set_ Hash d x sc) as [[d' ?]| |]; try done. cbn [mbind res_bind fst snd].
      destruct (sl_add (z_sl z) sc x rs) as [[s2 r2]| |] eqn:Ea; try done. intros [= _ _ <-]. by eapply Hadd.
  Qed.
  Definition takes {A} (n : nat) (m : M A) : Prop := ∀ w w' a, m w = Ok (w', a) → drawn n (w_rnd w) (w_rnd w').
  Lemma takes_bind {A C} n k (m : M A) (f : A → M C) : takes n m → (∀ a, takes k (f a)) → takes (n + k) (m ≫= f).
  Proof.
    intros Hm Hf w w' a. unfold mbind, M_bind. destruct (m w) as [[w1 b]| |] eqn:E1; try done. intros H.
    eapply drawn_app; [by eapply Hm|by eapply Hf].
  Qed.
  Lemma takes_still {A} n (m : M A) : still m → takes n m.
  Proof. intros Hm w w' a H. rewrite (Hm _ _ _ H). apply drawn_refl. Qed.
  Lemma takes_le {A} n k (m : M A) : (n ≤ k)%nat → takes n m → takes k m.
  Proof. intros Hle Hm w w' a H. eapply drawn_le; [done|by eapply Hm]. Qed.
  Lemma takes_then {A C} k (m : M A) (f : A → M C) : still m → (∀ a, takes k (f a)) → takes k (m ≫= f).
  Proof. intros Hm Hf. apply (takes_bind 0 k); [by apply takes_still|done]. Qed.
  Lemma takes_one o sc x : takes 1 (on_obj_rnd KZset o (λ z, ZAdd Hash z sc x)).
  Proof.
    unfold on_obj_rnd. apply (takes_bind 0 1); [apply takes_still, still_load|intros v]. apply (takes_bind 0 1); [apply takes_still, still_lift|intros z].
    apply (takes_bind 1 0); [|intros r; apply takes_still; still_tac].
    intros w w' a. unfold with_rnd. destruct (ZAdd Hash z sc x (w_rnd w)) as [[[? ?] ?]| |] eqn:Ez; try done. intros [= <- _]. by eapply ZAdd_drawn.
  Qed.
  Lemma takes_zadd_loop o : ∀ l n, takes (length l / 2) (zadd_loop E o l n).
  Proof.
    fix IH 1. intros [|a [|x l]] n; cbn [zadd_loop].
    - apply takes_still. still_tac.
    - apply takes_still. still_tac.
    - pose proof (IH l) as Hl. clear IH. assert ((length (a :: x :: l) / 2)%nat = (1 + length l / 2)%nat) as ->.
      { cbn [length]. replace (S (S (length l))) with (length l + 1 * 2)%nat by lia. rewrite Nat.div_add by lia. lia. }
      destruct (lib_parse_float (e_lib E) a); [|apply takes_still; still_tac].
      apply takes_bind; [apply takes_one|intros b]. apply takes_then; [still_tac|intros _]. apply Hl.
  Qed.
  Lemma takes_zadd args : takes (length args / 2) (zAddCommand E args).
  Proof.
    unfold zAddCommand. ext_unfold. destruct (negb _); [apply takes_still; still_tac|].
    apply takes_then; [still_tac|intros key]. apply takes_then; [still_tac|intros [o|e]]; [|apply takes_still; still_tac].
    apply (takes_le (length (drop 2 args) / 2 + 0)).
    { rewrite drop_length. rewrite Nat.add_0_r. apply Nat.div_le_mono; lia. }
    apply takes_bind; [apply takes_zadd_loop|intros [c|a]; apply takes_still; still_tac].
  Qed.
  (** what executing a logged command draws *)
  Definition levels (name : bytes) (args : list bytes) : nat := if decide (name = B "zadd") then length args / 2 else 0.
  Lemma exec_takes a l : let name := lib_lower (e_lib E) a in name ∉ [B "randomget"; B "spop"] →
    takes (levels name (a :: l)) (exec_logged E (a :: l)).
  Proof.
    intros name Hn w w' u. unfold exec_logged, mbind, M_bind, arg, lift. cbn [lookup list_lookup deref]. fold name.
    unfold lookupCommand. destruct (list_find (λ c, cmd_name c = name) (commandTable E)) as [[i cmd]|] eqn:EF.
    2:{ intros [= <- _]. apply drawn_refl. }
    apply list_find_Some in EF as (Hi & Hc & _). cbn [fmap option_fmap option_map snd]. unfold levels.
    destruct (Forall_lookup_1 _ _ _ _ still_table Hi) as [Hd|Hs]; [|intros H; rewrite (Hs _ _ _ _ H); apply drawn_refl].
    rewrite Hc in Hd. unfold drawers in Hd. rewrite !elem_of_cons, elem_of_nil in Hd. destruct Hd as [Hd|[Hd|[Hd|[]]]]; [destruct Hn; rewrite Hd; by repeat constructor..|].
    rewrite decide_True by done.
    assert (cmd = Cmd (B "zadd") (zAddCommand E) (-4)) as ->; [|apply takes_zadd].
    assert (HF : Forall (λ c, cmd_name c ≠ B "zadd" ∨ c = Cmd (B "zadd") (zAddCommand E) (-4)) (commandTable E)).
    { repeat (apply Forall_cons; split; [first [by right|by left]|]). by apply Forall_nil_2. }
    destruct (Forall_lookup_1 _ _ _ _ HF Hi) as [Hx|Hx]; [congruence|done].
  Qed.
End still3.
