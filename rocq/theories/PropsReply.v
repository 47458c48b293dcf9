(** Replies (C24). *)
From Verif Require Import Base Float DictModel DictProofs DictProofs2
  DatabaseModel SetModel QuicklistModel QuicklistProofs SkiplistModel ZsetModel
  Strconv RespSpec ReplySpec ServerModel CommandModel CommandSem CommandInv CommandInv2 CommandProofs1 CommandProofs2
  CommandTop CommandFrame SystemModel SystemProofs CommandFacts ExampleLib.
From Coq Require Import ZifyBool ZifyNat.

(** text without line ends *)
Definition plain (s : bytes) : Prop := Forall (λ c, c ≠ CR ∧ c ≠ LF) s.
Lemma plain_app s t : plain (s ++ t) ↔ plain s ∧ plain t.
Proof. apply Forall_app. Qed.
Global Instance plain_dec s : Decision (plain s).
Proof. unfold plain. apply _. Defined.

(** ** The decoder on encoded replies *)
Lemma line_plain s rest : plain s → line (s ++ CRLF ++ rest) = Some (s, rest).
Proof.
  induction s as [|c s IH]; intros H; [done|]. apply Forall_cons in H as [[H1 H2] H]. cbn [app line].
  destruct (Ascii.eqb_spec c CR); [done|]. destruct (Ascii.eqb_spec c LF); [done|]. by rewrite IH.
Qed.
Lemma dec_nat_digits s acc : dec_nat acc s = parse_digits acc s.
Proof.
  revert acc. induction s as [|c s IH]; intros acc; [done|]. cbn [dec_nat parse_digits].
  change (dec_digit c) with (digit_val c). destruct (digit_val c); [|done]. rewrite IH. f_equal. lia.
Qed.
Lemma dec_int_itoa n : dec_int (itoa n) = Some n.
Proof.
  unfold itoa. destruct (n <? 0) eqn:En.
  - destruct (udigits_spec (S (Z.to_nat (Z.log2 (- n)))) (- n)) as (H1 & _ & H3); [lia|apply udigits_log; lia|].
    remember (udigits (S (Z.to_nat (Z.log2 (- n)))) (- n)) as u eqn:Hu. clear Hu. cbn [dec_int].
    change ("-" =? "-")%char with true. cbv iota. destruct u as [|c u]; [by destruct H3|].
    rewrite dec_nat_digits, H1. simpl. f_equal. lia.
  - destruct (udigits_spec (S (Z.to_nat (Z.log2 n))) n) as (H1 & H2 & H3); [lia|apply udigits_log; lia|].
    remember (udigits (S (Z.to_nat (Z.log2 n))) n) as u eqn:Hu. clear Hu. destruct u as [|c u]; [by destruct H3|].
    apply Forall_cons in H2 as [(d & Hd & ->) _]. unfold dec_int. destruct (digit_not_sign d Hd) as [-> _].
    by rewrite dec_nat_digits.
Qed.
Lemma payload_app s rest : payload (length s) (s ++ CRLF ++ rest) = Some (s, rest).
Proof.
  unfold payload. rewrite decide_True by (rewrite app_length; lia). rewrite drop_app, take_app. done.
Qed.
Lemma decode_bulk fuel s rest : decode (S fuel) (bulk s ++ rest) = Some (VBulk s, rest).
Proof.
  unfold bulk, bulk_header. rewrite <-!app_assoc. cbn [app decode]. rewrite <-!app_assoc.
  rewrite line_plain by apply itoa_plain. cbn -[dec_int itoa payload CRLF]. rewrite dec_int_itoa.
  unfold zlen. replace (Z.of_nat (length s) =? -1) with false by lia. replace (Z.of_nat (length s) <? 0) with false by lia.
  rewrite Nat2Z.id. by rewrite payload_app.
Qed.
Lemma decode_array fuel l rest : decode (S (S fuel)) (encode l ++ rest) = Some (VArray (VBulk <$> l), rest).
Proof.
  unfold encode, array_header. remember (S fuel) as f eqn:Hf. rewrite <-!app_assoc. cbn [app decode]. rewrite <-!app_assoc.
  rewrite line_plain by apply itoa_plain. cbn -[dec_int itoa decode CRLF bulk]. rewrite dec_int_itoa.
  unfold zlen. replace (Z.of_nat (length l) <? 0) with false by lia. rewrite Nat2Z.id.
  match goal with |- match ?m _ _ with _ => _ end = _ => assert (Hm : m (length l) (concat (map bulk l) ++ rest) = Some (VBulk <$> l, rest)) end.
  { induction l as [|x l IH]; [done|]. cbn [length map concat]. rewrite <-app_assoc. subst f. rewrite decode_bulk.
    rewrite IH. done. }
  by rewrite Hm.
Qed.

(** what a reply says *)
Definition meaning (r : reply) : rval :=
  match r with
  | RSimple s => VSimple s
  | RError s => VError (B "ERR " ++ s)
  | RInt n => VInt n
  | RBulk s => VBulk s
  | RNull => VNull
  | RArray l => VArray (VBulk <$> l)
  end.
Definition plain_reply (r : reply) : Prop := match r with RSimple s | RError s => plain s | _ => True end.
Lemma decode_enc r rest : plain_reply r → decode 8 (enc r ++ rest) = Some (meaning r, rest).
Proof.
  intros H. destruct r as [s|s|n|s| |l]; unfold enc.
  - cbn [app decode]. rewrite <-app_assoc, line_plain by done. done.
  - change (B "-ERR " ++ s ++ CRLF) with ("-"%char :: (B "ERR " ++ s) ++ CRLF). cbn [decode].
    rewrite <-app_comm_cons. cbn [decode]. rewrite <-(app_assoc (B "ERR " ++ s)), line_plain; [done|].
    apply plain_app. split; [|done]. apply (bool_decide_unpack _). by vm_compute.
  - cbn [app decode]. rewrite <-app_assoc, line_plain by apply itoa_plain. cbn -[dec_int itoa]. by rewrite dec_int_itoa.
  - apply decode_bulk.
  - done.
  - apply decode_array.
Qed.

(** ** Which replies are plain *)
(** assumptions on the library: strconv quotes the offending text in its errors,
    numbers are printed without line ends, the error of a regular expression
    contains nothing but fixed text and parts of the expression *)
Record lib_plain (L : lib) : Prop := {
  lp_num : ∀ f a, plain f → plain (lib_num_error L f a);
  lp_float : ∀ f, plain (lib_format_float L f);
  lp_regexp : ∀ p, plain p → plain (lib_regexp_error L p)
}.
(** plain apart from what an error repeats of the arguments *)
Definition echo (args : list bytes) (r : reply) : Prop :=
  match r with RSimple s => plain s | RError s => Forall plain args → plain s | _ => True end.

Ltac plain_const := apply (bool_decide_unpack _); by vm_compute.
Section echo.
  Variable E : env.
  Hypothesis HL : lib_plain (e_lib E).
  Notation args_rel := (list bytes → adb → res outcome → Prop).
  Definition echoes (R : args_rel) : Prop := ∀ args D D' r n, R args D (Ok (Out D' r n)) → echo args r.

  Lemma echo_num args what f a : a ∈ args → plain what → plain f → echo args (num_err E what f a).
  Proof.
    intros Ha Hw Hf Hargs. rewrite Forall_forall in Hargs. specialize (Hargs a Ha). unfold invalid.
    repeat (apply plain_app; split); try done; try plain_const. by apply (lp_num _ HL).
  Qed.
  Lemma echo_const args s : plain s → echo args (RError s).
  Proof. by intros H _. Qed.
  Lemma existing_echo {X} (k : akind X) key none (f : X → res (X * reply * Z)) D D' r n args :
    echo args none → (∀ x x' r n, f x = Ok (x', r, n) → echo args r) →
    on_existing k E key none f D = Ok (Out D' r n) → echo args r.
  Proof.
    intros H0 Hf H. unfold on_existing in H. destruct (a_keys _ !! key) as [v|]; [|by injection H as _ <- _].
    destruct (ak_out k v) as [x|]; [|injection H as _ <- _; apply echo_const; plain_const].
    destruct (f x) as [[[x' r'] n']| |] eqn:Ef; [|done..]. cbn in H. injection H as _ <- _. by eapply Hf.
  Qed.
  Lemma new_echo {X} (k : akind X) wrong key (f : X → res (X * reply * Z)) D D' r n args :
    echo args wrong → (∀ x x' r n, f x = Ok (x', r, n) → echo args r) →
    on_new k wrong key f D = Ok (Out D' r n) → echo args r.
  Proof.
    intros H0 Hf H. unfold on_new in H.
    assert (Hx : ∀ x, (y ← f x; let '(x', r, n) := y in Ok (Out (put_val key (ak_in k x') D) r n)) = Ok (Out D' r n) → echo args r).
    { intros x Hx. destruct (f x) as [[[x' r'] n']| |] eqn:Ef; [|done..]. cbn in Hx. injection Hx as _ <- _. by eapply Hf. }
    destruct (a_keys D !! key) as [v|]; [|by eapply Hx].
    destruct (ak_out k v) as [x|]; [by eapply Hx|]. by injection H as _ <- _.
  Qed.
  Lemma reading_echo {X} (f : X → res reply) args : (∀ x r, f x = Ok r → echo args r) →
    ∀ x x' r n, reading f x = Ok (x', r, n) → echo args r.
  Proof. intros Hf x x' r n H. unfold reading in H. destruct (f x) eqn:Ef; [|done..]. injection H as _ <- _. by eapply Hf. Qed.
  Ltac const := apply echo_const; plain_const.

  Lemma echoes_ping : echoes (λ args D o, o = Ok (Out D (RSimple (B "PONG")) 0)).
  Proof. intros args D D' r n [= -> -> ->]. plain_const. Qed.
  Ltac args_in := repeat first [apply elem_of_list_here | apply elem_of_list_further].
  Lemma echoes_expire f : echoes (sem_expire E f).
  Proof.
    intros args D D' r n H. unfold sem_expire, fn in H. destruct args as [|? [|key [|a ?]]]; try done.
    injection H as H. destruct (Atoi a); injection H as _ <- _; [plain_const|]. apply echo_num; [args_in|plain_const..].
  Qed.
  Lemma echoes_ttl : echoes (sem_ttl E).
  Proof. intros args D D' r n H. unfold sem_ttl, fn in H. destruct args as [|? [|key ?]]; try done. by injection H as _ <- _. Qed.
  Lemma echoes_keys : echoes (sem_keys E).
  Proof.
    intros args D D' r n H. unfold sem_keys in H. destruct args as [|? [|p ?]]; try done.
    destruct (pattern_of E p); [destruct H as (? & _ & _ & [= _ -> _]); done|]. injection H as _ -> _.
    case_decide; [done|]. intros Hargs. rewrite !Forall_cons in Hargs. destruct Hargs as (_ & Hp & _).
    unfold invalid. repeat (apply plain_app; split); try done; try plain_const. by apply (lp_regexp _ HL).
  Qed.
  Lemma echoes_set : echoes sem_set.
  Proof. intros args D D' r n H. unfold sem_set, fn in H. destruct args as [|? [|key [|v ?]]]; try done. injection H as _ <- _. plain_const. Qed.
  Lemma echoes_setex : echoes (sem_setex E).
  Proof.
    intros args D D' r n H. unfold sem_setex, fn in H. destruct args as [|? [|key [|a [|v ?]]]]; try done.
    injection H as H. destruct (Atoi a); injection H as _ <- _; [plain_const|]. apply echo_num; [args_in|plain_const..].
  Qed.
  Lemma echoes_get : echoes (sem_get E).
  Proof.
    intros args D D' r n H. unfold sem_get, fn in H. destruct args as [|? [|key ?]]; try done. injection H as _ <- _.
    destruct (a_keys _ !! key) as [[]|]; try done; const.
  Qed.
  Lemma echoes_randomget : echoes (sem_randomget E).
  Proof. intros args D D' r n [?|(X & _ & [[_ [= _ -> _]]|(k & _ & _ & [= _ -> _])])]; done. Qed.
  Lemma echoes_hset : echoes sem_hset.
  Proof.
    intros args D D' r n H. unfold sem_hset, fn in H. destruct args as [|a [|key l]]; try done.
    destruct (negb _); [injection H as _ <- _; const|injection H as H].
    eapply new_echo; [| |exact H]; [const|]. intros x x' r' n' [= _ <- _]. done.
  Qed.
  Lemma echoes_hdel : echoes (sem_hdel E).
  Proof.
    intros args D D' r n H. unfold sem_hdel, fn in H. destruct args as [|a [|key l]]; try done. injection H as H.
    eapply existing_echo; [| |exact H]; [done|]. intros x x' r' n' [= _ <- _]. done.
  Qed.
  Ltac reader H := eapply existing_echo; [| |exact H]; [done|]; apply reading_echo; intros x r' [= <-]; try done.
  Lemma echoes_hget : echoes (sem_hget E).
  Proof. intros args D D' r n H. unfold sem_hget, fn in H. destruct args as [|? [|key [|f ?]]]; try done. injection H as H. reader H. by destruct (x !! f). Qed.
  Lemma echoes_hexists : echoes (sem_hexists E).
  Proof. intros args D D' r n H. unfold sem_hexists, fn in H. destruct args as [|? [|key [|f ?]]]; try done. injection H as H. reader H. Qed.
  Lemma echoes_hlen : echoes (sem_hlen E).
  Proof. intros args D D' r n H. unfold sem_hlen, fn in H. destruct args as [|? [|key ?]]; try done. injection H as H. reader H. Qed.
  Lemma echoes_hkeys : echoes (sem_hkeys E).
  Proof.
    intros args D D' r n H. unfold sem_hkeys in H. destruct args as [|? [|key ?]]; try done.
    destruct (a_keys _ !! key) as [[]|]; try (injection H as _ -> _; try done; const).
    destruct H as (? & (? & -> & _) & [= _ -> _]). done.
  Qed.
  Lemma echoes_push all : echoes (sem_push all).
  Proof.
    intros args D D' r n H. unfold sem_push, fn in H. destruct args as [|a [|key l]]; try done. injection H as H.
    eapply new_echo; [| |exact H]; [const|]. intros x x' r' n' Hx. cbv beta in Hx. destruct (all l x) as [q| |]; [|discriminate Hx|discriminate Hx]. cbn in Hx. by injection Hx as _ <- _.
  Qed.
  Lemma echoes_pop pop : echoes (sem_pop E pop).
  Proof.
    intros args D D' r n H. unfold sem_pop, fn in H. destruct args as [|a [|key l]]; try done. injection H as H.
    eapply existing_echo; [| |exact H]; [done|]. intros x x' r' n' Hx. cbv beta in Hx. destruct (Len x =? 0); [by injection Hx as _ <- _|].
    destruct (pop x) as [[q o]| |]; [|done..]. cbn in Hx. destruct (deref o); [|done..]. by injection Hx as _ <- _.
  Qed.
  Lemma echoes_llen : echoes (sem_llen E).
  Proof. intros args D D' r n H. unfold sem_llen, fn in H. destruct args as [|? [|key ?]]; try done. injection H as H. reader H. Qed.
  Lemma echoes_lindex : echoes (sem_lindex E).
  Proof.
    intros args D D' r n H. unfold sem_lindex, fn in H. destruct args as [|? [|key [|a ?]]]; try done. injection H as H.
    eapply existing_echo; [| |exact H]; [done|]. apply reading_echo. intros x r' Hx. cbv beta in Hx. destruct (Atoi a).
    - destruct (QGet x z) as [[]| |]; try done; by injection Hx as <-.
    - injection Hx as <-. apply echo_num; [args_in|plain_const..].
  Qed.
  Lemma echoes_lrange : echoes (sem_lrange E).
  Proof.
    intros args D D' r n H. unfold sem_lrange, fn in H. destruct args as [|? [|key [|a [|b ?]]]]; try done. injection H as H.
    eapply existing_echo; [| |exact H]; [done|]. apply reading_echo. intros x r' Hx. cbv beta in Hx. destruct (Atoi a).
    2: { injection Hx as <-. apply echo_num; [args_in|plain_const..]. }
    destruct (Atoi b).
    - destruct (QRange x z z0) as [[]| |]; try done; by injection Hx as <-.
    - injection Hx as <-. apply echo_num; [args_in|plain_const..].
  Qed.
  Lemma echoes_sadd : echoes sem_sadd.
  Proof.
    intros args D D' r n H. unfold sem_sadd, fn in H. destruct args as [|a [|key l]]; try done. injection H as H.
    eapply new_echo; [| |exact H]; [const|]. intros x x' r' n' [= _ <- _]. done.
  Qed.
  Lemma echoes_srem : echoes (sem_srem E).
  Proof.
    intros args D D' r n H. unfold sem_srem, fn in H. destruct args as [|a [|key l]]; try done. injection H as H.
    eapply existing_echo; [| |exact H]; [done|]. intros x x' r' n' [= _ <- _]. done.
  Qed.
  Lemma echoes_spop : echoes (sem_spop E).
  Proof.
    intros args D D' r n H. unfold sem_spop in H. destruct args as [|a [|key l]]; try done.
    destruct (set_at _ key) as [[s|]|]; [|injection H as _ -> _; const|by injection H as _ -> _].
    destruct H as [[_ [= _ -> _]]|[_ [?|(m & _ & [= _ -> _])]]]; done.
  Qed.
  Lemma echoes_scard : echoes (sem_scard E).
  Proof. intros args D D' r n H. unfold sem_scard, fn in H. destruct args as [|? [|key ?]]; try done. injection H as H. reader H. Qed.
  Lemma echoes_sismember : echoes (sem_sismember E).
  Proof. intros args D D' r n H. unfold sem_sismember, fn in H. destruct args as [|? [|key [|m ?]]]; try done. injection H as H. reader H. Qed.
  Lemma algebra_echo fold key keys D D' r n args :
    (∀ s D D' r, fold E s keys D = (D', inr r) → echo args r) →
    set_algebra fold E key keys D (Ok (Out D' r n)) → echo args r.
  Proof.
    intros Hf H. unfold set_algebra in H. destruct (set_at _ key) as [[s|]|]; [|injection H as _ -> _; const|by injection H as _ -> _].
    destruct (fold E s keys (purge E key D)) as [D1 [s'|r']] eqn:Ef; simpl in H.
    - destruct H as (? & (? & -> & _) & [= _ -> _]). done.
    - injection H as _ -> _. by eapply Hf.
  Qed.
  Lemma echoes_smembers : echoes (sem_smembers E).
  Proof. intros args D D' r n H. unfold sem_smembers in H. destruct args as [|? [|key ?]]; try done. eapply algebra_echo; [|exact H]. done. Qed.
  Lemma echoes_fold op : echoes (sem_algebra E (set_fold op)).
  Proof.
    intros args D D' r n H. unfold sem_algebra in H. destruct args as [|? [|key keys]]; try done. eapply algebra_echo; [|exact H].
    generalize (b :: key :: keys). intros args. clear. induction keys as [|k keys IH]; intros s D D' r H; [done|]. cbn [set_fold] in H.
    destruct (set_at _ k) as [[]|]; [by eapply IH| |by eapply IH]. injection H as _ <-. const.
  Qed.
  Lemma echoes_sinter : echoes (sem_algebra E inter_fold).
  Proof.
    intros args D D' r n H. unfold sem_algebra in H. destruct args as [|? [|key keys]]; try done. eapply algebra_echo; [|exact H].
    generalize (b :: key :: keys). intros args. clear. induction keys as [|k keys IH]; intros s D D' r H; [done|]. cbn [inter_fold] in H.
    destruct (set_at _ k) as [[]|]; [by eapply IH| |by injection H as _ <-]. injection H as _ <-. const.
  Qed.
  Lemma zadd_all_echo args l : (∀ a, a ∈ l → a ∈ args) → ∀ z c n rs z' r n', zadd_all E l z c n rs = Ok (z', r, n') → echo args r.
  Proof.
    remember (length l) as k eqn:Hk. revert l Hk. induction (lt_wf k) as [k _ IH]. intros l -> Hl z c n rs z' r n' H.
    destruct l as [|a l]; [by injection H as _ <- _|]. cbn [zadd_all] in H.
    destruct (lib_parse_float (e_lib E) a) as [sc|].
    - destruct l as [|m l]; [done|]. destruct (zadd1 z sc m rs) as [[[z1 b] rs1]| |]; [|done..]. cbn in H.
      eapply (IH (length l)); [|done| |exact H]; [simpl; lia|]. intros x Hx. apply Hl. by do 2 apply elem_of_list_further.
    - injection H as _ <- _. apply echo_num; [apply Hl; args_in|plain_const..].
  Qed.
  Lemma echoes_zadd : echoes (sem_zadd E).
  Proof.
    intros args D D' r n H. unfold sem_zadd in H. destruct args as [|a [|key l]]; try done.
    destruct (negb _); [injection H as _ -> _; const|]. destruct H as (rs & _ & H). symmetry in H.
    eapply new_echo; [| |exact H]; [const|]. intros x x' r' n' Hx. cbv beta in Hx. eapply zadd_all_echo; [|exact Hx].
    intros y Hy. by do 2 apply elem_of_list_further.
  Qed.
  Lemma echoes_zcard : echoes (sem_zcard E).
  Proof. intros args D D' r n H. unfold sem_zcard, fn in H. destruct args as [|? [|key ?]]; try done. injection H as H. reader H. Qed.
  Lemma echoes_zscore : echoes (sem_zscore E).
  Proof.
    intros args D D' r n H. unfold sem_zscore, fn in H. destruct args as [|? [|key [|m ?]]]; try done. injection H as H. reader H.
    destruct (x.1 !! m); [|done]. apply (lp_float _ HL).
  Qed.
  Lemma floats_echo args a b w1 w2 D k D' r n : a ∈ args → b ∈ args → plain w1 → plain w2 →
    (∀ x y, k x y = Ok (Out D' r n) → echo args r) → floats E a b w1 w2 D k = Ok (Out D' r n) → echo args r.
  Proof.
    intros Ha Hb H1 H2 Hk H. unfold floats in H. destruct (lib_parse_float _ a).
    2: { injection H as _ <- _. apply echo_num; [done..|plain_const]. }
    destruct (lib_parse_float _ b); [by eapply Hk|]. injection H as _ <- _. apply echo_num; [done..|plain_const].
  Qed.
  Lemma ints_echo args a b w1 w2 D k D' r n : a ∈ args → b ∈ args → plain w1 → plain w2 →
    (∀ x y, k x y = Ok (Out D' r n) → echo args r) → ints E a b w1 w2 D k = Ok (Out D' r n) → echo args r.
  Proof.
    intros Ha Hb H1 H2 Hk H. unfold ints in H. destruct (Atoi a).
    2: { injection H as _ <- _. apply echo_num; [done..|plain_const]. }
    destruct (Atoi b); [by eapply Hk|]. injection H as _ <- _. apply echo_num; [done..|plain_const].
  Qed.
  Lemma zreply_echo args es r : zreply E args es = Ok r → echo args r.
  Proof.
    intros H. unfold zreply in H. destruct (args !! 4%nat) as [a|] eqn:Ha.
    - destruct (lib_withscores _ a).
      + destruct (zarray E true es); [|done..]. by injection H as <-.
      + injection H as <-. intros Hargs. rewrite Forall_forall in Hargs. apply (plain_app (B "invalid option: %s")). split; [plain_const|].
        apply Hargs. by eapply elem_of_list_lookup_2.
    - destruct (zarray E false es); [|done..]. by injection H as <-.
  Qed.
  Lemma echoes_zcount : echoes (sem_zcount E).
  Proof.
    intros args D D' r n H. unfold sem_zcount, fn in H. destruct args as [|? [|key [|a [|b ?]]]]; try done. injection H as H.
    eapply floats_echo; [..|exact H]; [args_in|args_in|plain_const|plain_const|]. intros x y Hk. cbv beta in Hk. eapply existing_echo; [| |exact Hk]; [done|].
    apply reading_echo. intros z r' Hz. cbv beta in Hz. destruct (Count z.2 x y); [|done..]. by injection Hz as <-.
  Qed.
  Lemma echoes_zrange : echoes (sem_zrange E).
  Proof.
    intros args D D' r n H. unfold sem_zrange, fn in H. destruct args as [|? [|key [|a [|b ?]]]]; try done. injection H as H.
    eapply ints_echo; [..|exact H]; [args_in|args_in|plain_const|plain_const|]. intros x y Hk. cbv beta in Hk. eapply existing_echo; [| |exact Hk]; [done|].
    apply reading_echo. intros z r' Hz. cbv beta in Hz. destruct (zrange z x y); [|done..]. by eapply zreply_echo.
  Qed.
  Lemma echoes_zrangebyscore : echoes (sem_zrangebyscore E).
  Proof.
    intros args D D' r n H. unfold sem_zrangebyscore, fn in H. destruct args as [|? [|key [|a [|b ?]]]]; try done. injection H as H.
    eapply floats_echo; [..|exact H]; [args_in|args_in|plain_const|plain_const|]. intros x y Hk. cbv beta in Hk. eapply existing_echo; [| |exact Hk]; [done|].
    apply reading_echo. intros z r' Hz. cbv beta in Hz. destruct (zrangebyscore z x y); [|done..]. by eapply zreply_echo.
  Qed.
  Lemma echoes_zrem : echoes (sem_zrem E).
  Proof.
    intros args D D' r n H. unfold sem_zrem, fn in H. destruct args as [|a [|key l]]; try done. injection H as H.
    eapply existing_echo; [| |exact H]; [done|]. intros x x' r' n' Hx. cbv beta in Hx. destruct (zrem_all l x 0); [|done..]. by injection Hx as _ <- _.
  Qed.
  Lemma zremrange_echo args del x x' r n : zremrange del x = Ok (x', r, n) → echo args r.
  Proof.
    intros Hx. unfold zremrange in Hx. destruct (del x.2) as [[s ids]| |]; [|done..]. cbn in Hx.
    destruct (zelems_delete x.1 s ids); [|done..]. by injection Hx as _ <- _.
  Qed.
  Lemma echoes_zremrangebyrank : echoes (sem_zremrangebyrank E).
  Proof.
    intros args D D' r n H. unfold sem_zremrangebyrank, fn in H. destruct args as [|? [|key [|a [|b ?]]]]; try done. injection H as H.
    eapply ints_echo; [..|exact H]; [args_in|args_in|plain_const|plain_const|]. intros x y Hk. cbv beta in Hk. eapply existing_echo; [| |exact Hk]; [done|].
    intros z z' r' n' Hz. cbv beta in Hz. by eapply zremrange_echo.
  Qed.
  Lemma echoes_zremrangebyscore : echoes (sem_zremrangebyscore E).
  Proof.
    intros args D D' r n H. unfold sem_zremrangebyscore, fn in H. destruct args as [|? [|key [|a [|b ?]]]]; try done. injection H as H.
    eapply floats_echo; [..|exact H]; [args_in|args_in|plain_const|plain_const|]. intros x y Hk. cbv beta in Hk. eapply existing_echo; [| |exact Hk]; [done|].
    intros z z' r' n' Hz. cbv beta in Hz. by eapply zremrange_echo.
  Qed.
  Lemma table_echoes : Forall (λ p, echoes p.2) (semTable E).
  Proof.
    unfold semTable.
    apply Forall_cons; split; [apply echoes_ping|].
    apply Forall_cons; split; [apply echoes_expire|].
    apply Forall_cons; split; [apply echoes_expire|].
    apply Forall_cons; split; [apply echoes_ttl|].
    apply Forall_cons; split; [apply echoes_keys|].
    apply Forall_cons; split; [apply echoes_set|].
    apply Forall_cons; split; [apply echoes_setex|].
    apply Forall_cons; split; [apply echoes_get|].
    apply Forall_cons; split; [apply echoes_randomget|].
    apply Forall_cons; split; [apply echoes_hset|].
    apply Forall_cons; split; [apply echoes_hget|].
    apply Forall_cons; split; [apply echoes_hdel|].
    apply Forall_cons; split; [apply echoes_hexists|].
    apply Forall_cons; split; [apply echoes_hkeys|].
    apply Forall_cons; split; [apply echoes_hlen|].
    apply Forall_cons; split; [apply echoes_push|].
    apply Forall_cons; split; [apply echoes_push|].
    apply Forall_cons; split; [apply echoes_pop|].
    apply Forall_cons; split; [apply echoes_pop|].
    apply Forall_cons; split; [apply echoes_llen|].
    apply Forall_cons; split; [apply echoes_lindex|].
    apply Forall_cons; split; [apply echoes_lrange|].
    apply Forall_cons; split; [apply echoes_sadd|].
    apply Forall_cons; split; [apply echoes_srem|].
    apply Forall_cons; split; [apply echoes_spop|].
    apply Forall_cons; split; [apply echoes_scard|].
    apply Forall_cons; split; [apply echoes_sismember|].
    apply Forall_cons; split; [apply echoes_smembers|].
    apply Forall_cons; split; [apply echoes_fold|].
    apply Forall_cons; split; [apply echoes_sinter|].
    apply Forall_cons; split; [apply echoes_fold|].
    apply Forall_cons; split; [apply echoes_zadd|].
    apply Forall_cons; split; [apply echoes_zrange|].
    apply Forall_cons; split; [apply echoes_zrangebyscore|].
    apply Forall_cons; split; [apply echoes_zrem|].
    apply Forall_cons; split; [apply echoes_zremrangebyrank|].
    apply Forall_cons; split; [apply echoes_zremrangebyscore|].
    apply Forall_cons; split; [apply echoes_zcard|].
    apply Forall_cons; split; [apply echoes_zcount|].
    apply Forall_cons; split; [apply echoes_zscore|].
    by apply Forall_nil.
  Qed.
  Lemma sem_echo name args D D' r n : sem E name args D (Ok (Out D' r n)) → echo args r.
  Proof.
    intros (R & HR & HD). pose proof table_echoes as Hc. rewrite Forall_forall in Hc. by eapply (Hc (name, R)).
  Qed.
  Lemma top_echo args task v v' r n : top E args task v (Ok (v', r, n)) → echo args r.
  Proof.
    intros H. inversion H; subst; try (by apply echo_const; plain_const); try plain_const.
    - match goal with H : on_view _ _ = _ |- _ => rename H into HE end.
      destruct ro as [[D' r' n']| |]; [|done..]. injection HE as _ <- _. by eapply sem_echo.
    - apply echo_const. apply (lp_num _ HL). plain_const.
    - destruct task; plain_const.
  Qed.
End echo.

(** * C24 *)
(** [sent]: the bytes queued for the client by this command are exactly one RESP
    value.  The only exception is an error reply that repeats an argument with a
    line end (see [C24_refuted]).  The full property has no such exception. *)
Theorem C24_one_reply_partial cf evs y i c args now unix rs y' :
  lib_plain (cf_lib cf) →
  reaches cf evs y → y_cls y !! i = Some c → cmd_ok cf evs args rs →
  step cf (EvCommand i args now unix rs) y = Ok y' →
  ∃ c' sent, y_cls y' !! i = Some c' ∧ mjoin (c_out c') = mjoin (c_out c) ++ sent ∧
    (∀ j, j ≠ i → y_cls y' !! j = y_cls y !! j) ∧
    ((∃ v, one_value sent v) ∨ (B "-ERR ") `prefix_of` sent ∧ ¬ Forall plain args).
Proof.
  intros HL Hr Hc Hok HS. destruct (command_step _ _ _ _ _ _ _ _ _ _ Hr Hc Hok HS) as (v' & r & n & Hd).
  destruct (did_client _ _ _ _ _ _ _ _ _ _ Hd Hc) as (c' & Hc' & _ & _ & Hout).
  exists c', (enc r). split; [done|]. split; [done|]. split; [intros j Hj; by eapply did_others|].
  pose proof (top_echo (env_at cf now unix) HL _ _ _ _ _ _ (di_top _ _ _ _ _ _ _ _ _ _ Hd)) as He.
  assert (Decision (plain_reply r)) as Hdec by (destruct r; apply _).
  destruct (decide (plain_reply r)) as [Hp|Hp].

  - left. exists (meaning r). unfold one_value. rewrite <-(app_nil_r (enc r)). by apply decode_enc.
  - right. destruct r; try done. split; [by eexists|]. intros Hargs. by apply Hp, He.
Qed.
Print Assumptions C24_one_reply_partial.

(** EXPIRE k "1\r\n+OK": the client receives an error and a second, forged reply *)
Definition inject : bytes := B "1" ++ CRLF ++ B "+OK".
Definition c24_run : res sys := run cf0 [EvConnect; EvCommand 0 [B "EXPIRE"; B "k"; inject] 0 0 []] (init_sys cf0).
Theorem C24_refuted : ∃ y c rest, reaches cf0 [EvConnect; EvCommand 0 [B "EXPIRE"; B "k"; inject] 0 0 []] y ∧
  y_cls y !! 0%nat = Some c ∧ decode 8 (mjoin (c_out c)) = Some (VError (B "ERR invalid expire: 1"), rest) ∧
  decode 8 rest = Some (VSimple (B "OK, error: strconv.ParseInt: parsing ""1\r\n+OK"": invalid syntax"), []).
Proof.
  destruct c24_run as [y| |] eqn:Hr; [|by vm_compute in Hr..].
  exists y. eexists. eexists. split; [split; [by apply history_check_ok; vm_compute|exact Hr]|].
  unfold c24_run in Hr. vm_compute in Hr. injection Hr as <-. split; [reflexivity|]. by vm_compute.
Qed.
Print Assumptions C24_refuted.
Lemma lib0_plain : lib_plain lib0.
Proof.
  split.
  - intros f a Hf. cbn [lib0 lib_num_error]. unfold num_error0. apply plain_app; split; [plain_const|]. apply plain_app; split; [done|].
    apply plain_app; split; [plain_const|]. apply plain_app; split; [|plain_const]. unfold quote0.
    change (plain (B """" ++ concat (map (λ c, if (c =? CR)%char then B "\r" else if (c =? LF)%char then B "\n" else [c]) a) ++ B """")).
    apply plain_app; split; [plain_const|]. apply plain_app; split; [|plain_const]. induction a as [|x a IH]; [by apply Forall_nil_2|]. cbn [map concat].
    apply plain_app. split; [|done]. destruct (Ascii.eqb_spec x CR); [plain_const|]. destruct (Ascii.eqb_spec x LF); [plain_const|].
    by apply Forall_singleton.
  - intros f. simpl. destruct f as [[]|[]| |s m e]; simpl; try plain_const. apply itoa_plain.
  - intros p Hp. simpl. unfold regexp_error0. repeat (apply plain_app; split); try done; try plain_const.
Qed.
Example C24_example : ∃ y y' c, reaches cf0 [EvConnect; cmd 0 5 "HSET h f 1 g 2"] y ∧
  step cf0 (cmd 0 6 "HKEYS h") y = Ok y' ∧ y_cls y' !! 0%nat = Some c ∧
  decode 8 (mjoin (c_out c)) = Some (VInt 2, encode [B "f"; B "g"]) ∧
  one_value (encode [B "f"; B "g"]) (VArray [VBulk (B "f"); VBulk (B "g")]).
Proof.
  eexists. eexists. eexists. split; [split; [by apply history_check_ok; vm_compute|vm_compute; reflexivity]|].
  split; [vm_compute; reflexivity|]. split; [reflexivity|]. split; [by vm_compute|by vm_compute].
Qed.
