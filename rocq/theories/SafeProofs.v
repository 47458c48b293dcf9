(** Commands that do not end the server. *)
From Verif Require Import Base Float DictModel DictProofs DictProofs2 DictProofs3 DictProofs4 DictRun
  DatabaseModel SetModel SetProofs QuicklistModel QuicklistProofs SkiplistModel SkiplistProofs SkiplistProofs2 SkiplistProofs3 SkiplistProofs4 SkiplistProofs5 ZsetModel ZsetProofs
  Strconv RespSpec ServerModel CommandModel CommandSem CommandInv CommandInv2 CommandProofs1 CommandProofs2 CommandProofs4
  CommandTop CommandFrame SystemModel SystemProofs CommandFacts ExampleLib PropsCommand PropsData PropsZset PropsSkiplist ZcmdProofs ListcmdProofs PropsZcmd PropsListcmd.
From Coq Require Import ZifyBool ZifyNat.

(** * How a command on a container can panic *)
Section panics.
  Variable E : env.
  Notation args_rel := (list bytes → adb → res outcome → Prop).
  Lemma purge_lookup key D k v : a_keys (purge E key D) !! k = Some v → a_keys D !! k = Some v.
  Proof. unfold purge. destruct (decide _); [|done]. simpl. intros H. by apply lookup_delete_Some in H as [_ H]. Qed.
  Lemma existing_panic {X} (k : akind X) key none f D : ak_law k → on_existing k E key none f D = Panic →
    ∃ x, a_keys D !! key = Some (ak_in k x) ∧ f x = Panic.
  Proof.
    intros Hk. unfold on_existing. cbn zeta. destruct (a_keys (purge E key D) !! key) as [v|] eqn:Hv; [|done].
    destruct (ak_out k v) as [x|] eqn:Ex; [|done]. apply Hk in Ex as ->. apply purge_lookup in Hv.
    intros H. exists x. split; [done|]. by destruct (f x) as [[[? ?] ?]| |].
  Qed.
  Lemma new_panic {X} (k : akind X) wrong key f D : ak_law k → on_new k wrong key f D = Panic →
    ∃ x, (a_keys D !! key = Some (ak_in k x) ∨ a_keys D !! key = None ∧ x = ak_new k) ∧ f x = Panic.
  Proof.
    intros Hk. unfold on_new. destruct (a_keys D !! key) as [v|] eqn:Hv.
    - destruct (ak_out k v) as [x|] eqn:Ex; [|done]. apply Hk in Ex as ->. intros H. exists x. split; [by left|]. by destruct (f x) as [[[? ?] ?]| |].
    - intros H. exists (ak_new k). split; [by right|]. by destruct (f (ak_new k)) as [[[? ?] ?]| |].
  Qed.
  (** commands that cannot panic at all *)
  Definition calm (R : args_rel) : Prop := ∀ args D, ¬ R args D Panic.
  Lemma algebra_calm fold key keys D : ¬ set_algebra fold E key keys D Panic.
  Proof.
    unfold set_algebra. cbn zeta. destruct (set_at (purge E key D) key) as [[s|]|]; [|done..].
    destruct ((fold E s keys (purge E key D)).2); [|done]. by intros (r & _ & ?).
  Qed.
  Definition risky : list bytes :=
    [B "lpush"; B "lpop"; B "rpop"; B "lindex"; B "lrange"; B "zadd"; B "zrange"; B "zrangebyscore"; B "zrem"; B "zremrangebyrank"; B "zremrangebyscore"; B "zcount"].
  Lemma table_calm : Forall (λ p, p.1 ∈ risky ∨ calm p.2) (semTable E).
  Proof.
    assert (Hz : ∀ name (R : args_rel), bool_decide (name ∈ risky) = true → (name, R).1 ∈ risky ∨ calm (name, R).2).
    { intros name R Hb. left. by apply bool_decide_eq_true in Hb. }
    unfold semTable.
    repeat (apply Forall_cons; split; [first [apply Hz; by vm_compute|right; cbn [snd]]|]); [..|by apply Forall_nil].
    all: intros args D H.
    all: try done.
    all: unfold sem_expire, sem_ttl, sem_set, sem_setex, sem_get, sem_hset, sem_hget, sem_hdel, sem_hexists, sem_hlen, sem_push, sem_llen, sem_sadd, sem_srem, sem_scard, sem_sismember, sem_zcard, sem_zscore, fn in H.
    all: try (repeat case_match; simplify_eq; done).
    all: try (repeat case_match; simplify_eq; first [
        match goal with H : on_existing _ _ _ _ _ _ = Panic |- _ => apply existing_panic in H as (? & _ & ?); [done|] end
      | match goal with H : on_new _ _ _ _ _ = Panic |- _ => apply new_panic in H as (? & _ & ?); [done|] end];
      first [apply AKHash_law|apply AKList_law|apply AKSet_law|apply AKZset_law]).
    - unfold sem_keys in H. repeat case_match; try done. by destruct H as (? & _ & _ & ?).
    - by destruct H as [?|(X & _ & [[_ ?]|(k & _ & _ & ?)])].
    - unfold sem_hkeys in H. repeat case_match; try done. by destruct H as (? & _ & ?).
    - unfold sem_spop in H. repeat case_match; try done. by destruct H as [[_ ?]|(_ & [?|(m & _ & ?)])].
    - unfold sem_smembers in H. destruct args as [|? [|? ?]]; try done. by eapply algebra_calm.
    - unfold sem_algebra in H. destruct args as [|? [|? ?]]; try done. by eapply algebra_calm.
    - unfold sem_algebra in H. destruct args as [|? [|? ?]]; try done. by eapply algebra_calm.
    - unfold sem_algebra in H. destruct args as [|? [|? ?]]; try done. by eapply algebra_calm.
  Qed.
  Lemma sem_calm name args D : sem E name args D Panic → name ∈ risky.
  Proof. intros (R & HR & H). pose proof table_calm as HT. rewrite Forall_forall in HT. destruct (HT _ HR) as [?|Hq]; [done|]. by apply Hq in H. Qed.
End panics.

(** * Lists *)
(** the stop of LRANGE is below 2^43 *)
Definition list_mild (name : bytes) (l : list bytes) : Prop :=
  name = B "lrange" → ∀ b j, l !! 1%nat = Some b → Atoi b = Some j → j < 2 ^ 43.
Lemma list_safe E name key a0 l D : name ∈ [B "lpush"; B "lpop"; B "rpop"; B "lindex"; B "lrange"] →
  (∀ q, a_keys D !! key = Some (AList q) → wf q ∧ onepage q) → list_mild name l → ¬ sem E name (a0 :: key :: l) D Panic.
Proof.
  intros Hn HD Hm H.
  assert (Hlong : ∀ q, wf q → onepage q → q_length q ≤ 1024).
  { intros q Hq Ho. rewrite (wf_length q Hq). destruct (decide (1024 < length (qels q))%nat) as [Hl|Hl]; [|lia]. apply long_pages in Hl; [|done]. unfold onepage in Ho. lia. }
  assert (Hfirst : ∀ q k, wf q → onepage q → k < q_length q → k < first_page (q_pages q)).
  { intros q k Hq Ho Hk. rewrite (wf_length q Hq) in Hk. destruct (onepage_cases q Ho) as [Hp|[p Hp]]; unfold QuicklistProofs.elements in Hk; rewrite Hp in *; simpl in *; [lia|].
    rewrite app_nil_r in Hk. unfold zlen. done. }
  rewrite !elem_of_cons, elem_of_nil in Hn. destruct Hn as [->|[->|[->|[->|[->|[]]]]]].
  - apply (sem_inv _ _ (sem_push lpush_all)) in H; [|in_table]. unfold sem_push, fn in H. injection H as H.
    apply new_panic in H as (q & Hq & H); [|apply AKList_law].
    assert (wf q) as Hw by (destruct Hq as [Hq|[_ ->]]; [by apply HD in Hq as [? _]|apply wf_New]).
    destruct (lpush_all_spec l q Hw) as (q' & E1 & _). by rewrite E1 in H.
  - apply (sem_inv _ _ (sem_pop E PopFront)) in H; [|in_table]. unfold sem_pop, fn in H. injection H as H.
    apply existing_panic in H as (q & Hq & H); [|apply AKList_law]. apply HD in Hq as [Hw Ho].
    pose proof (PopFront_spec q Hw) as HP. unfold Len in H. rewrite (wf_length q Hw) in H.
    destruct (qels q) as [|v x]; [done|]. destruct HP as (q' & E1 & _). cbn [length] in H.
    replace (Z.of_nat (S (length x)) =? 0) with false in H by lia. by rewrite E1 in H.
  - apply (sem_inv _ _ (sem_pop E PopBack)) in H; [|in_table]. unfold sem_pop, fn in H. injection H as H.
    apply existing_panic in H as (q & Hq & H); [|apply AKList_law]. apply HD in Hq as [Hw Ho].
    unfold Len in H. destruct (Z.eqb_spec (q_length q) 0) as [?|Hne]; [done|]. destruct (onepage_cases q Ho) as [Hp|[p Hp]].
    + apply Hne. rewrite (wf_length q Hw). unfold QuicklistProofs.elements. by rewrite Hp.
    + destruct (PopBack_one q p Hw Hp) as (q' & v & E1 & _). by rewrite E1 in H.
  - apply (sem_inv _ _ (sem_lindex E)) in H; [|in_table]. unfold sem_lindex, fn in H. destruct l as [|a l]; [done|]. injection H as H.
    apply existing_panic in H as (q & Hq & H); [|apply AKList_law]. apply HD in Hq as [Hw Ho]. unfold reading in H.
    destruct (Atoi a) as [k|]; [|done]. destruct (decide (0 ≤ k < q_length q)) as [Hk|Hk].
    + rewrite (Get_good q k Hw Hk) in H; [done|]. right. apply Hfirst; [done|done|lia].
    + by rewrite Get_out in H by lia.
  - apply (sem_inv _ _ (sem_lrange E)) in H; [|in_table]. unfold sem_lrange, fn in H. destruct l as [|a [|b l]]; try done. injection H as H.
    apply existing_panic in H as (q & Hq & H); [|apply AKList_law]. apply HD in Hq as [Hw Ho]. unfold reading in H.
    destruct (Atoi a) as [i|] eqn:Ea; [|done]. destruct (Atoi b) as [j|] eqn:Eb; [|done].
    specialize (Hm eq_refl b j eq_refl Eb). specialize (Hlong q Hw Ho).
    destruct (decide (norm (q_length q) i < 0 ∨ norm (q_length q) j < norm (q_length q) i ∨ q_length q ≤ norm (q_length q) i)) as [Hout|Hin].
    + by rewrite (Range_empty q i j Hw) in H by lia.
    + rewrite (Range_good q i j Hw) in H; [done|lia|lia|right; apply Hfirst; [done|done|lia]|].
      assert (norm (q_length q) j < 2 ^ 43) by (unfold norm; destruct (Z.ltb_spec j 0); lia). lia.
Qed.

(** * Sorted sets *)
(** no 127 successive draws that raise the level *)
Definition level_ok (rs : list Z) : Prop := ∀ r0 r1 r2, rs = r0 ++ r1 ++ r2 → Forall success r1 → (length r1 < 127)%nat.
Lemma level_ok_suffix r0 rs : level_ok (r0 ++ rs) → level_ok rs.
Proof. intros H a b c -> Hb. apply (H (r0 ++ a) b c); [by rewrite app_assoc|done]. Qed.
Lemma level_ok_random rs : level_ok rs → randomLevel rs = OutOfFuel ∨ ∃ l rs', randomLevel rs = Ok (l, rs') ∧ 1 ≤ l ≤ Z.of_nat maxLevel ∧ level_ok rs'.
Proof.
  intros H. destruct (decide (Forall (λ r, (Z.land r 65535 <=? 16383) = true) (take 127 rs))) as [Hs|Hs].
  - left. assert (Hs' : Forall success (take 127 rs)) by (eapply Forall_impl; [exact Hs|]; unfold success; intros; simpl in *; lia).
    pose proof (H [] (take 127 rs) (drop 127 rs)) as Hl. rewrite take_drop in Hl. specialize (Hl eq_refl Hs'). rewrite take_length in Hl.
    rewrite take_ge in Hs by lia. unfold randomLevel. generalize 1. clear -Hs. induction rs as [|r rs IH]; intros n; simpl; [done|].
    apply Forall_cons in Hs as [Hr Hs]. rewrite Hr. by apply IH.
  - right. destruct (C12_levels rs) as (l & rs' & E1 & Hl).
    { intros Hs'. apply Hs. eapply Forall_impl; [exact Hs'|]. unfold success. intros; simpl in *; lia. }
    exists l, rs'. split; [done|]. split; [unfold maxLevel; lia|]. destruct (randomLevel_suffix _ _ _ E1) as [r0 ->]. by eapply level_ok_suffix.
Qed.
Lemma sl_add_safe m s sc x rs : tame m s → m !! x = None → not_nan sc → level_ok rs →
  sl_add s sc x rs = OutOfFuel ∨ ∃ s' rs', sl_add s sc x rs = Ok (s', rs') ∧ level_ok rs'.
Proof.
  intros (L & HL & HP) Hx Hn Hr. unfold sl_add. destruct (level_ok_random rs Hr) as [-> |(lv & rs' & -> & Hlv & Hr')]; [by left|right].
  cbn [mbind res_bind fst snd]. destruct (Insert_sinv s L lv sc x HL Hlv Hn) as (A & Bb & s1 & HAB & Ei' & Hs' & _).
  { apply Forall_forall. intros e He. destruct (esame (e_key e) (sc, x)) eqn:Es; [|done]. exfalso. apply esame_member in Es. simpl in Es.
    assert ((e_score e, x) ∈ ZsetProofs.pairs m) as Hin by (rewrite <-HP; apply elem_of_list_fmap; exists e; unfold e_key; by rewrite <-Es).
    apply elem_of_pairs in Hin. congruence. }
  rewrite Ei'. cbn [mbind res_bind fst snd]. by eexists _, _.
Qed.
Lemma zadd_all_safe E l : ∀ m s c n rs, tame m s → scores_stay (scored (e_lib E) l) m → level_ok rs → Nat.Even (length l) →
  zadd_all E l (m, s) c n rs ≠ Panic.
Proof.
  remember (length l) as k eqn:Hk. revert l Hk. induction (lt_wf k) as [k _ IH]. intros l -> m s c n rs Ht Hst Hr Hev.
  destruct l as [|a [|x l]]; cbn [zadd_all scored] in Hst |- *; [done| |].
  { destruct Hev as [j Hj]. simpl in Hj. lia. }
  assert (Hev' : Nat.Even (length l)) by (destruct Hev as [[|j] Hj]; simpl in Hj; [lia|exists j; lia]).
  destruct (lib_parse_float (e_lib E) a) as [sc|] eqn:Ea; [|done].
  unfold zadd1. cbn [fst snd]. destruct (m !! x) as [sc0|] eqn:Ex.
  - destruct (feq sc sc0) eqn:Ef.
    + cbn [negb mbind res_bind]. eapply (IH (length l)); [simpl; lia|done|done| |done|done].
      intros sc2 x2 Hin. rewrite <-(with_new_old sc x) by (by rewrite Ex). apply Hst. by right.
    + exfalso. destruct (Hst sc x) as (sc' & H1 & H2); [left|]. unfold with_new in H1. erewrite lookup_union_Some_l in H1 by exact Ex. congruence.
  - assert (Hn : not_nan sc).
    { destruct (Hst sc x) as (sc' & _ & H2); [left|]. by apply feq_not_nan in H2 as [? _]. }
    destruct (sl_add_safe m s sc x rs Ht Ex Hn Hr) as [-> |(s2 & rs2 & Ea2 & Hr2)]; [done|]. rewrite Ea2. cbn [mbind res_bind fst snd].
    eapply (IH (length l)); [simpl; lia|done|by eapply sl_add_tame| |done|done].
    intros sc2 x2 Hin. rewrite <-with_new_cons by done. apply Hst. by right.
Qed.
Lemma zset_safe E N name key a0 l D : name ∈ zset_commands → Z.of_nat N ≤ 2 ^ 44 →
  (∀ m s, a_keys D !! key = Some (AZset m s) → tame m s ∧ ∃ z, held N m s z) → fair (e_lib E) name l → ¬ sem E name (a0 :: key :: l) D Panic.
Proof.
  intros Hname HN HD (Hf1 & Hf2 & Hf3) H.
  unfold zset_commands in Hname. rewrite !elem_of_cons, elem_of_nil in Hname. destruct Hname as [->|[->|[->|[->|[->|[->|[->|[->|[]]]]]]]]].
  - apply sem_calm in H. revert H. apply (bool_decide_unpack _). by vm_compute.
  - apply sem_calm in H. revert H. apply (bool_decide_unpack _). by vm_compute.
  - apply (sem_inv _ _ (sem_zcount E)) in H; [|in_table]. unfold sem_zcount, fn in H. destruct l as [|a [|b l]]; try done. injection H as H. unfold floats in H.
    destruct (lib_parse_float (e_lib E) a) as [mn|] eqn:Ea; [|done]. destruct (lib_parse_float (e_lib E) b) as [mx|] eqn:Eb; [|done].
    apply existing_panic in H as ([m s] & Hk & H); [|apply AKZset_law]. cbn [ak_in AKZset fst snd] in Hk. apply HD in Hk as [Ht (z & Hh)]. unfold reading in H.
    cbn [snd] in H. rewrite (zcount_tame _ _ _ _ mn mx Hh Ht HN) in H; [done|]. by apply (Hf3 ltac:(left) a mn).
  - apply (sem_inv _ _ (sem_zrange E)) in H; [|in_table]. unfold sem_zrange, fn in H. destruct l as [|a [|b l]]; try done. injection H as H. unfold ints in H.
    destruct (Atoi a) as [start|] eqn:Ea; [|done]. destruct (Atoi b) as [stop|] eqn:Eb; [|done].
    apply existing_panic in H as ([m s] & Hk & H); [|apply AKZset_law]. cbn [ak_in AKZset fst snd] in Hk. apply HD in Hk as [Ht (z & Hh)]. unfold reading in H.
    destruct (zrange_tame _ _ _ _ start stop Hh Ht HN) as (S & HS & E1); [by apply (Atoi_int64 a)|by apply (Atoi_int64 b)|by apply (Hf1 eq_refl a b)|].
    rewrite E1 in H. cbn [mbind res_bind] in H. destruct (zreply_shown E a0 key a b l (ranks start stop S)) as (r & E2 & _). by rewrite E2 in H.
  - apply (sem_inv _ _ (sem_zrangebyscore E)) in H; [|in_table]. unfold sem_zrangebyscore, fn in H. destruct l as [|a [|b l]]; try done. injection H as H. unfold floats in H.
    destruct (lib_parse_float (e_lib E) a) as [mn|] eqn:Ea; [|done]. destruct (lib_parse_float (e_lib E) b) as [mx|] eqn:Eb; [|done].
    apply existing_panic in H as ([m s] & Hk & H); [|apply AKZset_law]. cbn [ak_in AKZset fst snd] in Hk. apply HD in Hk as [Ht (z & Hh)]. unfold reading in H.
    destruct (zrangebyscore_tame _ _ _ _ mn mx Hh Ht HN) as (S & HS & E1); [by apply (Hf3 ltac:(right; left) a mn)|].
    rewrite E1 in H. cbn [mbind res_bind] in H. destruct (zreply_shown E a0 key a b l (filter (λ k, within mn mx k = true) S)) as (r & E2 & _). by rewrite E2 in H.
  - apply (sem_inv _ _ (sem_zrem E)) in H; [|in_table]. unfold sem_zrem, fn in H. injection H as H.
    apply existing_panic in H as ([m s] & Hk & H); [|apply AKZset_law]. cbn [ak_in AKZset fst snd] in Hk. apply HD in Hk as [Ht (z & Hh)].
    destruct (zrem_all_tame _ l m s z 0 Hh Ht HN) as (s' & E1 & _). cbn zeta in E1. by rewrite E1 in H.
  - apply (sem_inv _ _ (sem_zremrangebyrank E)) in H; [|in_table]. unfold sem_zremrangebyrank, fn in H. destruct l as [|a [|b l]]; try done. injection H as H. unfold ints in H.
    destruct (Atoi a) as [start|] eqn:Ea; [|done]. destruct (Atoi b) as [stop|] eqn:Eb; [|done].
    pose proof (Atoi_int64 _ _ Ea) as Ba. pose proof (Atoi_int64 _ _ Eb) as Bb. pose proof (Hf2 eq_refl a start eq_refl Ea) as Bs.
    apply existing_panic in H as ([m s] & Hk & H); [|apply AKZset_law]. cbn [ak_in AKZset fst snd] in Hk. apply HD in Hk as [Ht (z & Hh)].
    destruct (zremrangebyrank_tame _ m s z start stop Hh Ht HN) as (S & s' & HS & E1 & _); [lia|lia|]. cbn zeta in E1. by rewrite E1 in H.
  - apply (sem_inv _ _ (sem_zremrangebyscore E)) in H; [|in_table]. unfold sem_zremrangebyscore, fn in H. destruct l as [|a [|b l]]; try done. injection H as H. unfold floats in H.
    destruct (lib_parse_float (e_lib E) a) as [mn|] eqn:Ea; [|done]. destruct (lib_parse_float (e_lib E) b) as [mx|] eqn:Eb; [|done].
    apply existing_panic in H as ([m s] & Hk & H); [|apply AKZset_law]. cbn [ak_in AKZset fst snd] in Hk. apply HD in Hk as [Ht (z & Hh)].
    destruct (zremrangebyscore_tame _ m s z mn mx Hh Ht HN) as (s' & E1 & _); [by apply (Hf3 ltac:(right; right; left) a mn)|]. cbn zeta in E1. by rewrite E1 in H.
Qed.

(** ** ZADD uses the random source of the event *)
Section zadd.
  Variable E : env.
  Definition zadd_out (args : list bytes) (rs : list Z) (D : adb) : res outcome :=
    match args with
    | _ :: key :: l =>
        if negb (zlen args mod 2 =? 0) then Ok (Out D (RError (B "wrong number of arguments for 'zadd' command")) 0)
        else on_new AKZset RWrong key (λ z, zadd_all E l z 0 0 rs) D
    | _ => Panic
    end.
  (** as [ref_zadd], with the random numbers *)
  Lemma zadd_run args w0 N D w : bad_arity (-4) args = false → At w0 N D [] 0 w → room N args →
    ends w0 (N + length args) (zAddCommand E args w) (zadd_out args (w_rnd w) D).
  Proof.
    intros Har Ha Hroom. args_neg4 args Har. unfold zAddCommand, zadd_out.
    set (l0 := b :: b0 :: b1 :: b2 :: args). destruct (negb (zlen l0 mod 2 =? 0)).
    { eapply ends_mono; [|by apply rError]. lia. }
    eapply (new_frame_rnd ServerModel.KZset AKZset fZset ErrWrongType b0 _ _ _ N); try done.
    - apply relZset.
    - simpl. lia.
    - by eapply room_small.
    - intros w1 D1 o x Hr1 Ha1 Hp1 Hx1 Hkey. change (drop 2 l0) with (b1 :: b2 :: args).
      pose proof (zadd_loop_run E b0 o w0 (b1 :: b2 :: args) x 0 _ _ _ w1 Ha1 Hp1) as HI.
      assert (Hsm : small (S N + length (b1 :: b2 :: args))).
      { eapply small_mono; [|exact Hroom]. subst l0. cbn [length]. lia. }
      specialize (HI Hsm). rewrite Hr1 in HI.
      destruct (zadd_all E (b1 :: b2 :: args) (fZset x) 0 0 (w_rnd w)) as [[[z r] k]| |]; unfold out_of; cbn [mbind res_bind fst snd].
      + destruct HI as (w' & a & E' & Ha' & Hr). eapply ends_bind; [done|].
        eapply ends_mono; [|by apply Hr]. subst l0. cbn [length]. lia.
      + by apply bind_panic.
      + by apply bind_fuel.
  Qed.
  Lemma zadd_cmd : lookupCommand E (B "zadd") = Some (Cmd (B "zadd") (zAddCommand E) (-4)).
  Proof. unfold lookupCommand. reflexivity. Qed.
  Lemma zadd_process N w a l D : w_ok N w → room N (a :: l) → lib_lower (e_lib E) a = B "zadd" →
    abs_dbs (w_srv w) !! c_db (w_cl w) = Some D → (bad_arity (-4) (a :: l) = false → zadd_out (a :: l) (w_rnd w) D ≠ Panic) →
    processCommand E (a :: l) w ≠ Panic.
  Proof.
    intros Hw Hroom Hn HD Hout. unfold processCommand. rewrite (bind_ok _ _ _ _ _ (arg_run (a :: l) 0 a w eq_refl)). rewrite Hn.
    rewrite zadd_cmd. cbn [cmd_arity].
    destruct (bad_arity (-4) (a :: l)) eqn:Eb; [done|]. specialize (Hout eq_refl).
    rewrite (bind_ok get_cl _ w w (w_cl w) eq_refl). destruct (_ && _ && _); [done|].
    destruct (cur_view _ _ Hw) as (D' & HD' & Ha). rewrite HD in HD'. injection HD' as <-.
    pose proof (zadd_run (a :: l) w N D w Eb Ha Hroom) as Hend. unfold call. cbn [cmd_proc cmd_name].
    rewrite (bind_ok get_srv _ w w (w_srv w) eq_refl).
    destruct (zadd_out (a :: l) (w_rnd w) D) as [[D' r n]| |]; simpl in Hend; [|done|].
    - destruct Hend as (w1 & E1 & Ha1). rewrite (bind_ok _ _ _ _ _ E1).
      rewrite (bind_ok get_srv _ w1 w1 (w_srv w1) eq_refl). destruct (e_aof E && _); [|done].
      rewrite (bind_ok get_cl _ w1 w1 (w_cl w1) eq_refl).
      destruct (feed_run E (w_srv w1) (B "zadd") (c_db (w_cl w1)) (a :: l) (encode (a :: l))) as (s' & Ef & _); [done|].
      assert (EL : lift (feedAppendOnlyFile E (w_srv w1) (B "zadd") (Z.of_nat (c_db (w_cl w1))) (a :: l)) w1 = Ok (w1, s')).
      { unfold lift. by rewrite Ef. }
      by rewrite (bind_ok _ _ _ _ _ EL).
    - by rewrite (bind_fuel _ _ _ Hend).
  Qed.
End zadd.

(** * Histories that do not end the server *)
Definition mild (cf : config) (e : event) : Prop :=
  match e with
  | EvCommand i (a :: key :: l) _ _ rs => let name := lib_lower (cf_lib cf) a in
      (name = B "select" → ∀ k, Atoi key = Some k → 0 ≤ k) ∧
      list_mild name l ∧ fair (cf_lib cf) name l ∧ (name = B "zadd" → level_ok rs)
  | EvBoot file clock rs => cf_aof cf = true → (restart cf clock file rs).2 ≠ Panic
  | _ => True
  end.
Lemma step_safe cf evs y e : reaches cf evs y → history_ok cf (evs ++ [e]) → careful_history cf evs → short_lists cf evs →
  careful cf y e → mild cf e → step cf e y ≠ Panic.
Proof.
  intros Hr (Hev & Hpos & Htot) Hcare Hshort He Hm. rewrite total_app in Htot.
  apply Forall_app in Hev as [_ Hev]. apply Forall_cons in Hev as [Hev _].
  pose proof (reaches_ok cf evs y Hr) as Hy.
  destruct e as [|i args now unix rs|i n|now rs| | |dump|file clock rs]; try done.
  - destruct (y_cls y !! i) as [c|] eqn:Hc; [|cbn [step]; by rewrite Hc]. destruct Hev as [Hargs Hrs].
    assert (Hok : cmd_ok cf evs args rs).
    { split; [done|]. split; [done|]. unfold total in *. simpl in *. lia. }
    destruct args as [|a l]; [done|]. clear Hargs.
    intros HS. destruct (decide (lib_lower (cf_lib cf) a = B "zadd")) as [Hz|Hz].
    { cbn [step] in HS. rewrite Hc in HS.
      destruct (Forall_lookup_1 _ _ _ _ (yo_cls _ _ _ Hy) Hc) as [Hdb _].
      assert (is_Some (abs_dbs (y_srv y) !! c_db c)) as [D HD].
      { apply lookup_lt_is_Some. by rewrite abs_dbs_len. }
      assert (Hw : w_ok (total evs) (W (y_srv y) c rs)) by (by eapply client_world).
      destruct Hok as (_ & _ & Hlen).
      refine (zadd_process (env_at cf now unix) (total evs) (W (y_srv y) c rs) a l D Hw (room_total _ _ Hlen) Hz HD _ _).
      2:{ by destruct (processCommand _ _ _) as [[? ?]| |]. }
      intros Hbad. destruct l as [|key l]; [done|]. cbn [w_rnd zadd_out]. destruct (Z.eqb_spec (zlen (a :: key :: l) mod 2) 0) as [Hmod|]; [|done]. cbn [negb].
      destruct Hm as (_ & _ & _ & Hlv). specialize (Hlv Hz).
      assert (Heven : Nat.Even (length l)).
      { unfold zlen in Hmod. cbn [length] in Hmod. apply Z.mod_divide in Hmod as [z Hz2]; [|done]. exists (Z.to_nat (z - 1)). lia. }
      intros Hp. apply new_panic in Hp as ([m s] & Hk & Hp); [|apply AKZset_law].
      revert Hp. assert (tame m s ∧ zset_at D key = Some m) as [Ht Hat].
      { unfold zset_at. destruct Hk as [Hk|[Hk [= -> ->]]]; rewrite Hk; [|split; [apply tame_new|done]]. split; [|done].
        pose proof (careful_tame _ _ _ Hr Hcare) as HT. pose proof (Forall_lookup_1 _ _ _ _ HT HD) as HT1. by eapply HT1. }
      destruct (He c D m Hc HD Hat) as (Hst & _). apply zadd_all_safe; try done. by apply Hst. }
    destruct (command_did cf evs y i c (a :: l) now unix rs Hr Hc Hok) as (o & Ht & HT).
    destruct o as [[[v' r] n]| |]; [by destruct HT as (y' & HS' & _); congruence| |congruence]. clear HT HS.
    remember Panic as o eqn:Eo in Ht. destruct Ht; try done.
    + destruct ro as [[D' r' n']| |]; try done. match goal with H : CommandTop.allowed _ _ _ _ |- _ => destruct H as ((a' & l' & ar & Ha & -> & Har & Hacc) & _) end.
      injection Ha as <- <-. cbn [view_at v_dbs v_db v_auth e_lib env_at] in *.
      match goal with H : abs_dbs (y_srv y) !! _ = Some D |- _ => rename H into HD end.
      match goal with H : sem _ _ _ D Panic |- _ => rename H into Hs end. pose proof (sem_calm _ _ _ _ Hs) as Hrisk.
      destruct l as [|key l].
      { assert (Hmin : ∀ n ar, n ∈ risky → (n, ar) ∈ arities → ¬ accepts ar 1).
        { intros n0 ar0 Hin Har0 Hac. assert (Hall : Forall (λ p, p.1 ∉ risky ∨ ¬ (if 0 <? p.2 then 1 =? p.2 else - p.2 <=? 1) = true) arities).
          { apply (bool_decide_unpack _). by vm_compute. }
          rewrite Forall_forall in Hall. destruct (Hall _ Har0) as [?|Hx]; [done|]. apply Hx. cbn [snd]. unfold accepts in Hac. clear -Hac. destruct (0 <? ar0) eqn:?, (decide (0 < ar0)); try lia. }
        by eapply Hmin. }
      destruct Hm as (_ & Hlm & Hfair & _).
      destruct (decide (lib_lower (cf_lib cf) a ∈ [B "lpush"; B "lpop"; B "rpop"; B "lindex"; B "lrange"])) as [Hl|Hl].
      { revert Hs. apply list_safe; [done| |done]. intros q Hq. split; [by eapply reaches_list|].
        pose proof (short_onepage cf evs y Hr Hshort) as HF. by eapply (Forall_lookup_1 _ _ _ _ HF). }
      revert Hs. apply (zset_safe _ (total evs)).
      * assert (Hall : Forall (λ n, n ∈ [B "lpush"; B "lpop"; B "rpop"; B "lindex"; B "lrange"] ∨ n = B "zadd" ∨ n ∈ zset_commands) risky).
        { apply (bool_decide_unpack _). by vm_compute. }
        rewrite Forall_forall in Hall. destruct (Hall _ Hrisk) as [?|[?|?]]; done.
      * unfold total in *; simpl in *; lia.
      * intros m s Hk. split; [|by eapply reaches_zset].
        pose proof (careful_tame _ _ _ Hr Hcare) as HT. pose proof (Forall_lookup_1 _ _ _ _ HT HD) as HT1. by eapply HT1.
      * done.
    + match goal with H : CommandTop.allowed _ _ _ _ |- _ => destruct H as ((a' & l' & ar & Ha & Hn & _) & _) end. injection Ha as <- <-.
      destruct l as [|key l]; [done|]. match goal with H : (_ :: _) !! 1%nat = Some _ |- _ => injection H as -> end. destruct Hm as (Hsel & _).
      specialize (Hsel (eq_sym Hn) _ ltac:(eassumption)). lia.
  - cbn [step]. by destruct (y_cls y !! i).
  - cbn [step]. destruct Hy as [[S1 S2 S3 S4] _ _].
    pose proof (databasesCron_no_panic (env_at cf now 0) _ _ rs S1 Hev) as Hnp. by destruct (databasesCron _ _ _).
  - cbn [step]. unfold rewriteAppendOnlyFileBackground. destruct (s_task (y_srv y)); [done|].
    destruct Hy as [[S1 S2 S3 S4] _ _].
    destruct (copy_dbs_spec _ (s_dbs (y_srv y)) S1) as (snap & EC & _); [unfold small, max_entries; simpl in *; lia|].
    by rewrite EC.
  - cbn [step]. by destruct (s_task (y_srv y)).
  - cbn [step]. destruct (cf_aof cf) eqn:Ea; [|done]. specialize (Hm Ea). by destruct (restart cf clock file rs).2.
Qed.
