(** Lists at the level of commands: in a history that never makes a list longer than
    one page, every list is one page. *)
From Verif Require Import Base Float DictModel DictProofs DictProofs2 DictRun
  DatabaseModel SetModel QuicklistModel QuicklistProofs SkiplistModel ZsetModel
  Strconv RespSpec ServerModel CommandModel CommandSem CommandInv CommandInv2 CommandProofs1 CommandProofs2
  CommandTop CommandFrame SystemModel SystemProofs CommandFacts ExampleLib PropsCommand PropsData ZcmdProofs.
From Coq Require Import ZifyBool ZifyNat.

(** * Pages *)
(** at most one page *)
Definition onepage (q : quicklist bytes) : Prop := (length (q_pages q) ≤ 1)%nat.
Lemma onepage_new : onepage NewQuicklist. Proof. unfold onepage. simpl. lia. Qed.
Lemma onepage_cases q : onepage q → q_pages q = [] ∨ ∃ p, q_pages q = [p].
Proof. unfold onepage. destruct (q_pages q) as [|p [|]]; simpl; [by left|right; by exists p|lia]. Qed.
Lemma wf_length (q : quicklist bytes) : wf q → q_length q = Z.of_nat (length (qels q)).
Proof. by intros [H _]. Qed.
Lemma PushBack_onepage q v : wf q → onepage q → (length (qels q) < 1024)%nat → onepage (PushBack q v).
Proof.
  intros Hq Ho Hl. unfold onepage, PushBack in *. destruct (onepage_cases q Ho) as [Hp|[p Hp]]; rewrite Hp; simpl; [lia|].
  assert (zlen p = Z.of_nat (length (qels q))) as Hz.
  { unfold QuicklistProofs.elements, zlen. rewrite Hp. simpl. by rewrite app_nil_r. }
  unfold pageSize. replace (zlen p =? 1024) with false by lia. simpl. lia.
Qed.
Lemma PushFront_onepage q v q' : wf q → onepage q → (length (qels q) < 1024)%nat → PushFront q v = Ok q' → onepage q'.
Proof.
  intros Hq Ho Hl. pose proof (wf_length q Hq) as HL. unfold PushFront, QuicklistModel.Insert.
  replace ((0 <? 0) || (q_length q <? 0)) with false by lia.
  destruct (0 =? q_length q) eqn:E0; [cbn; intros [= <-]; by apply PushBack_onepage|].
  destruct (onepage_cases q Ho) as [Hp|[p Hp]]; [exfalso; unfold QuicklistProofs.elements in HL; rewrite Hp in HL; simpl in HL; lia|].
  assert (zlen p = Z.of_nat (length (qels q))) as Hz.
  { unfold QuicklistProofs.elements, zlen. rewrite Hp. simpl. by rewrite app_nil_r. }
  destruct (get _ 0) as [it|] eqn:Eg; [|done]. cbn [deref mbind res_bind].
  destruct it as [nd off]. unfold it_page. cbn [qi_node qi_offset q_pages]. rewrite Hp.
  destruct nd as [nd|]; [|done]. cbn [deref mbind res_bind]. destruct nd as [|nd]; [|done]. cbn [deref mbind res_bind lookup list_lookup].
  unfold pageSize. replace (zlen p <? 1024) with true by lia.
  destruct (page_insert p off v) as [p'| |]; try done. cbn. intros [= <-]. unfold onepage. simpl. lia.
Qed.
Lemma Remove_onepage q i q' v : onepage q → Remove q i = Ok (q', v) → onepage q'.
Proof.
  intros Ho. unfold Remove. destruct (get q i) as [it|]; [|by intros [= <- _]].
  destruct (it_page q it) as [p| |] eqn:Ep; try done. cbn [mbind res_bind].
  destruct (deref (qi_node it)) as [j| |]; try done. cbn [mbind res_bind]. destruct (go_index p (qi_offset it)) as [x| |]; try done. cbn [mbind res_bind].
  intros [= <- _]. unfold onepage in *. cbn [q_pages]. destruct (take _ p ++ drop _ p).
  - rewrite app_length, take_length, drop_length. lia.
  - by rewrite insert_length.
Qed.
Lemma lpush_all_onepage l : ∀ q q', wf q → onepage q → (length (qels q) + length l ≤ 1024)%nat → lpush_all l q = Ok q' → onepage q'.
Proof.
  induction l as [|x l IH]; intros q q' Hq Ho Hl; cbn [lpush_all]; [by intros [= <-]|].
  destruct (PushFront_spec q x Hq) as (q1 & E1 & Hq1 & He). rewrite E1. cbn [mbind res_bind]. intros H2. cbn [length] in Hl.
  eapply IH; [exact Hq1| | |exact H2]; [eapply PushFront_onepage; [exact Hq|done| |done]; lia|]. rewrite He. simpl. lia.
Qed.
Lemma rpush_all_onepage l : ∀ q, wf q → onepage q → (length (qels q) + length l ≤ 1024)%nat → onepage (rpush_all l q).
Proof.
  induction l as [|x l IH]; intros q Hq Ho Hl; unfold rpush_all; simpl; [done|]. cbn [length] in Hl.
  destruct (PushBack_spec q x Hq) as [Hq1 He]. apply IH; [done|apply PushBack_onepage; [done..|lia]|].
  rewrite He, app_length. simpl. lia.
Qed.

(** * Commands that leave lists alone *)
Section quiet.
  Variable E : env.
  Notation args_rel := (list bytes → adb → res outcome → Prop).
  (** every list of [D'] is one of [D], at the same key *)
  Definition lsub (D D' : adb) : Prop := ∀ k q, a_keys D' !! k = Some (AList q) → a_keys D !! k = Some (AList q).
  Definition lquiet (R : args_rel) : Prop := ∀ args D D' r n, R args D (Ok (Out D' r n)) → lsub D D'.
  Lemma lsub_refl D : lsub D D. Proof. by intros k q. Qed.
  Hint Resolve lsub_refl : core.
  Lemma purged_lsub E' D D' : purged E' D D' → lsub D D'.
  Proof. intros (X & _ & ->) k q Hk. simpl in Hk. by apply map_filter_lookup_Some in Hk as [? _]. Qed.
  Lemma reads_lquiet R : reads E R → lquiet R.
  Proof. intros H args D D' r n HR. apply H in HR as [_ Hp]. by eapply purged_lsub. Qed.
  Lemma put_lsub key v D D' : lsub D D' → (∀ q, v ≠ AList q) → lsub D (put_val key v D').
  Proof.
    intros H Hv k q Hk. simpl in Hk. destruct (decide (k = key)) as [->|Hne].
    - rewrite lookup_insert in Hk. injection Hk as Hk. by destruct (Hv q).
    - rewrite lookup_insert_ne in Hk by done. by apply H.
  Qed.
  Lemma existing_lsub {X} (k : akind X) key none f D D' r n : ak_law k → (∀ x q, ak_in k x ≠ AList q) →
    on_existing k E key none f D = Ok (Out D' r n) → lsub D D'.
  Proof.
    intros Hl Hk H. apply existing_cases in H as [(-> & _)|(x & x' & _ & _ & ->)]; [| |done].
    - eapply purged_lsub, purge_purged.
    - apply put_lsub; [eapply purged_lsub, purge_purged|apply Hk].
  Qed.
  Lemma new_lsub {X} (k : akind X) wrong key f D D' r n : ak_law k → (∀ x q, ak_in k x ≠ AList q) →
    on_new k wrong key f D = Ok (Out D' r n) → lsub D D'.
  Proof.
    intros Hl Hk H. apply new_cases in H as [(-> & _)|(x & x' & _ & _ & ->)]; [done| |done].
    apply put_lsub; [done|apply Hk].
  Qed.
  Lemma lquiet_expire f : lquiet (sem_expire E f).
  Proof. intros args D D' r n H. unfold sem_expire, fn in H. destruct args as [|? [|? [|a ?]]]; try done. destruct (Atoi a); injection H as <- _ _; by intros k q. Qed.
  Lemma lquiet_set : lquiet sem_set.
  Proof.
    intros args D D' r n H. unfold sem_set, fn in H. destruct args as [|? [|key [|v ?]]]; try done. injection H as <- _ _.
    by apply (put_lsub key (AStr v) D D).
  Qed.
  Lemma lquiet_setex : lquiet (sem_setex E).
  Proof.
    intros args D D' r n H. unfold sem_setex, fn in H. destruct args as [|? [|key [|a [|v ?]]]]; try done. destruct (Atoi a); injection H as <- _ _; [|done].
    by apply (put_lsub key (AStr v) D D).
  Qed.
  Lemma lquiet_hset : lquiet sem_hset.
  Proof.
    intros args D D' r n H. unfold sem_hset, fn in H. destruct args as [|? [|key ?]]; try done.
    destruct (negb _); [by injection H as <- _ _|]. injection H as H. by eapply new_lsub; [apply AKHash_law| |exact H].
  Qed.
  Lemma lquiet_hdel : lquiet (sem_hdel E).
  Proof.
    intros args D D' r n H. unfold sem_hdel, fn in H. destruct args as [|? [|key ?]]; try done.
    injection H as H. by eapply existing_lsub; [apply AKHash_law| |exact H].
  Qed.
  Lemma lquiet_sadd : lquiet sem_sadd.
  Proof.
    intros args D D' r n H. unfold sem_sadd, fn in H. destruct args as [|? [|key ?]]; try done.
    injection H as H. by eapply new_lsub; [apply AKSet_law| |exact H].
  Qed.
  Lemma lquiet_srem : lquiet (sem_srem E).
  Proof.
    intros args D D' r n H. unfold sem_srem, fn in H. destruct args as [|? [|key ?]]; try done.
    injection H as H. by eapply existing_lsub; [apply AKSet_law| |exact H].
  Qed.
  Lemma lquiet_spop : lquiet (sem_spop E).
  Proof.
    intros args D D' r n H. unfold sem_spop in H. destruct args as [|? [|key ?]]; try done.
    assert (Hp : lsub D (purge E key D)) by (eapply purged_lsub, purge_purged).
    destruct (set_at (purge E key D) key) as [[s|]|].
    - destruct H as [(-> & [= -> -> ->])|(Hs & [?|(m & Hm & [= -> -> ->])])]; [done|done|by apply put_lsub].
    - by injection H as -> -> ->.
    - by injection H as -> -> ->.
  Qed.
  Lemma lquiet_zadd : lquiet (sem_zadd E).
  Proof.
    intros args D D' r n H. unfold sem_zadd in H. destruct args as [|a [|key l]]; try done.
    destruct (negb _); [by injection H as -> -> ->|]. destruct H as (rs & _ & Hs). symmetry in Hs.
    by eapply new_lsub; [apply AKZset_law| |exact Hs].
  Qed.
  Lemma lquiet_zrem : lquiet (sem_zrem E).
  Proof.
    intros args D D' r n H. unfold sem_zrem, fn in H. destruct args as [|? [|key ?]]; try done.
    injection H as H. by eapply existing_lsub; [apply AKZset_law| |exact H].
  Qed.
  Lemma lquiet_zremrangebyrank : lquiet (sem_zremrangebyrank E).
  Proof.
    intros args D D' r n H. unfold sem_zremrangebyrank, fn in H. destruct args as [|? [|key [|b1 [|b2 ?]]]]; try done.
    injection H as H. unfold ints in H. destruct (Atoi b1); [|by injection H as <- _ _]. destruct (Atoi b2); [|by injection H as <- _ _].
    by eapply existing_lsub; [apply AKZset_law| |exact H].
  Qed.
  Lemma lquiet_zremrangebyscore : lquiet (sem_zremrangebyscore E).
  Proof.
    intros args D D' r n H. unfold sem_zremrangebyscore, fn in H. destruct args as [|? [|key [|b1 [|b2 ?]]]]; try done.
    injection H as H. unfold floats in H. destruct (lib_parse_float _ b1); [|by injection H as <- _ _]. destruct (lib_parse_float _ b2); [|by injection H as <- _ _].
    by eapply existing_lsub; [apply AKZset_law| |exact H].
  Qed.
  Definition lwriters : list bytes := [B "lpush"; B "rpush"; B "lpop"; B "rpop"].
  Lemma table_lquiet : Forall (λ p, p.1 ∈ lwriters ∨ lquiet p.2) (semTable E).
  Proof.
    assert (Hz : ∀ name (R : args_rel), bool_decide (name ∈ lwriters) = true → (name, R).1 ∈ lwriters ∨ lquiet (name, R).2).
    { intros name R Hb. left. by apply bool_decide_eq_true in Hb. }
    unfold semTable.
    repeat (apply Forall_cons; split; [
      first [ right; first [ apply lquiet_expire | apply lquiet_set | apply lquiet_setex | apply lquiet_hset | apply lquiet_hdel
        | apply lquiet_sadd | apply lquiet_srem | apply lquiet_spop | apply lquiet_zadd | apply lquiet_zrem | apply lquiet_zremrangebyrank | apply lquiet_zremrangebyscore
        | apply reads_lquiet; first [apply reads_ping | apply reads_get | apply reads_ttl | apply reads_keys | apply reads_randomget
           | apply reads_hget | apply reads_hexists | apply reads_hlen | apply reads_hkeys | apply reads_llen | apply reads_lindex | apply reads_lrange
           | apply reads_scard | apply reads_sismember | apply reads_smembers | apply reads_fold | apply reads_sinter
           | apply reads_zcard | apply reads_zscore | apply reads_zcount | apply reads_zrange | apply reads_zrangebyscore ] ]
      | apply Hz; by vm_compute ]|]).
    by apply Forall_nil.
  Qed.
  Lemma sem_lquiet name args D D' r n : name ∉ lwriters → sem E name args D (Ok (Out D' r n)) → lsub D D'.
  Proof.
    intros Hn (R & HR & H). pose proof table_lquiet as HT. rewrite Forall_forall in HT. destruct (HT _ HR) as [?|Hq]; [done|].
    by eapply Hq.
  Qed.
End quiet.

(** * Histories with short lists *)
Definition onepage_db (D : adb) : Prop := ∀ key q, a_keys D !! key = Some (AList q) → onepage q.
Lemma onepage_lsub D D' : lsub D D' → onepage_db D → onepage_db D'.
Proof. intros H HD key q Hk. by eapply HD, H. Qed.
Lemma put_onepage key q D : onepage_db D → onepage q → onepage_db (put_val key (AList q) D).
Proof.
  intros HD Hq k q' Hk. simpl in Hk. destruct (decide (k = key)) as [->|Hne].
  - rewrite lookup_insert in Hk. by injection Hk as <-.
  - rewrite lookup_insert_ne in Hk by done. by eapply HD.
Qed.
(** a push that keeps the list within 1024 elements; a restart from a log that leads to
    lists of one page; any other event *)
Definition fits (cf : config) (y : sys) (e : event) : Prop :=
  match e with
  | EvCommand i (a :: key :: l) now unix rs => ∀ c D x,
      y_cls y !! i = Some c → abs_dbs (y_srv y) !! c_db c = Some D → list_at D key = Some x →
      lib_lower (cf_lib cf) a = B "lpush" ∨ lib_lower (cf_lib cf) a = B "rpush" → (length x + length l ≤ 1024)%nat
  | EvBoot _ _ _ => ∀ y', step cf e y = Ok y' → Forall onepage_db (abs_dbs (y_srv y'))
  | _ => True
  end.
Definition short_lists (cf : config) (evs : list event) : Prop := along cf (fits cf) evs (init_sys cf).
Lemma qels_mjoin (q : quicklist bytes) : qels q = mjoin (q_pages q).
Proof. done. Qed.
Lemma short_onepage cf evs y : reaches cf evs y → short_lists cf evs → Forall onepage_db (abs_dbs (y_srv y)).
Proof.
  apply history_inv.
  - by intros key q Hk.
  - intros E D D' Hp. apply onepage_lsub. by eapply purged_lsub.
  - intros evs0 y0 i c a l now unix rs ar D D' r n E name Hr Hc Hok Har Hacc HD Ht Hs.
    destruct (decide (name ∈ lwriters)) as [Hz|Hz]; [|by eapply onepage_lsub; [eapply sem_lquiet|]].
    assert (Hpush : ∀ all, (∀ q q' k l, wf q → onepage q → (length (qels q) + length l ≤ 1024)%nat → all l q = Ok q' → k ∈ [B "lpush"; B "rpush"] → onepage q') →
      name ∈ [B "lpush"; B "rpush"] → sem_push all (a :: l) D (Ok (Out D' r n)) → onepage_db D').
    { intros all Hall Hn H. unfold sem_push, fn in H. destruct l as [|key l]; [done|]. injection H as H.
      apply new_cases in H as [(-> & _)|(x & x' & H1 & H2 & ->)]; [done| |apply AKList_law]. apply put_onepage; [done|].
      destruct (all l x) as [q'| |] eqn:Ea; try done. cbn in H2. injection H2 as <- _ _.
      assert (Hx : wf x ∧ onepage x ∧ list_at D key = Some (mjoin (q_pages x))).
      { unfold list_at. destruct H1 as [H1|[H1 ->]]; rewrite H1; [|split_and!; [apply wf_New|apply onepage_new|done]].
        split_and!; [by eapply (reaches_list cf evs0 y0)|by eapply Ht|done]. }
      destruct Hx as (Hw & Ho & Hat). eapply Hall; [exact Hw|exact Ho| |exact Ea|exact Hn]. rewrite qels_mjoin.
      eapply (Hok c D _ Hc HD Hat). rewrite !elem_of_cons, elem_of_nil in Hn. naive_solver. }
    assert (Hpop : ∀ pop, (∀ q q' v, onepage q → pop q = Ok (q', v) → onepage q') → sem_pop E pop (a :: l) D (Ok (Out D' r n)) → onepage_db D').
    { intros pop Hall H. unfold sem_pop, fn in H. destruct l as [|key l]; [done|]. injection H as H.
      assert (Hp : onepage_db (purge E key D)) by (eapply onepage_lsub; [eapply purged_lsub, purge_purged|done]).
      apply existing_cases in H as [(-> & _)|(x & x' & H1 & H2 & ->)]; [done| |apply AKList_law]. apply put_onepage; [done|].
      assert (Ho : onepage x) by (by eapply Hp). destruct (Len x =? 0); [by injection H2 as <- _ _|].
      destruct (pop x) as [[q' v]| |] eqn:Ea; try done. cbn [mbind res_bind fst snd] in H2. destruct (deref v); try done. injection H2 as <- _ _. by eapply Hall. }
    clearbody name. unfold lwriters in Hz. rewrite !elem_of_cons, elem_of_nil in Hz. destruct Hz as [->|[->|[->|[->|[]]]]].
    + eapply (sem_inv _ _ (sem_push lpush_all)) in Hs; [|in_table]. eapply Hpush; [|by left|exact Hs]. intros. by eapply lpush_all_onepage.
    + eapply (sem_inv _ _ (sem_push (λ l q, Ok (rpush_all l q)))) in Hs; [|in_table]. eapply Hpush; [|by right; left|exact Hs].
      intros q q' k l' Hq Ho Hl [= <-] _. by apply rpush_all_onepage.
    + eapply (sem_inv _ _ (sem_pop E PopFront)) in Hs; [|in_table]. eapply Hpop; [|exact Hs]. intros q q' v Ho. by apply Remove_onepage.
    + eapply (sem_inv _ _ (sem_pop E PopBack)) in Hs; [|in_table]. eapply Hpop; [|exact Hs]. intros q q' v Ho. by apply Remove_onepage.
  - intros y0 file clock rs y' Hok. apply Hok.
Qed.
