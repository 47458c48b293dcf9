(** What every command leaves alone (on abstract databases). *)
From Verif Require Import Base Float DictModel DatabaseModel SetModel QuicklistModel SkiplistModel ZsetModel
  Strconv RespSpec ServerModel CommandModel CommandSem CommandInv CommandInv2 CommandProofs2 CommandTop.
From Coq Require Import ZifyBool ZifyNat.

(** [D'] is [D] without some keys whose deadline has passed *)
Definition purged (E : env) (D D' : adb) : Prop :=
  ∃ X, (∀ k, k ∈ X → expired E D k) ∧ D' = drop_keys X D.
(** keys and deadlines other than those of [key] are the same *)
Definition same_but (key : bytes) (D D' : adb) : Prop :=
  ∀ k, k ≠ key → a_keys D' !! k = a_keys D !! k ∧ a_ttl D' !! k = a_ttl D !! k.
Definition is_error (r : reply) : Prop := match r with RError _ => True | _ => False end.

Definition readers : list bytes := [
  B "ping"; B "get"; B "ttl"; B "keys"; B "randomget"; B "hget"; B "hexists"; B "hkeys"; B "hlen"; B "llen"; B "lindex";
  B "lrange"; B "scard"; B "sismember"; B "smembers"; B "sdiff"; B "sinter"; B "sunion"; B "zrange"; B "zrangebyscore";
  B "zcard"; B "zcount"; B "zscore"].
Definition writers : list bytes := [
  B "expire"; B "expireat"; B "set"; B "setex"; B "hset"; B "hdel"; B "lpush"; B "rpush"; B "lpop"; B "rpop";
  B "sadd"; B "srem"; B "spop"; B "zrem"; B "zremrangebyrank"; B "zremrangebyscore"].

Section frame.
  Variable E : env.
  Notation args_rel := (list bytes → adb → res outcome → Prop).

  Lemma adb_eq D D' : a_keys D = a_keys D' → a_ttl D = a_ttl D' → D = D'.
  Proof. destruct D, D'; simpl; by intros -> ->. Qed.
  Lemma purged_refl D : purged E D D.
  Proof. exists ∅. split; [set_solver|]. by rewrite drop_keys_empty. Qed.
  Lemma purged_trans D D1 D2 : purged E D D1 → purged E D1 D2 → purged E D D2.
  Proof.
    intros (X & HX & ->) (Y & HY & ->). exists (X ∪ Y). split.
    - intros k [Hk|Hk]%elem_of_union; [by apply HX|]. destruct (HY k Hk) as (when & Hw & Hlt).
      exists when. split; [|done]. simpl in Hw. by apply map_filter_lookup_Some in Hw as [? _].
    - apply adb_eq; simpl; rewrite map_filter_filter; apply map_filter_ext; intros i x _; simpl; set_solver.
  Qed.
  Lemma remove_drop key D : remove_key key D = drop_keys {[key]} D.
  Proof.
    apply adb_eq; simpl; apply map_eq; intros k; destruct (decide (k = key)) as [->|Hne].
    - rewrite lookup_delete. symmetry. apply map_filter_lookup_None. right. intros ? _. simpl. set_solver.
    - rewrite lookup_delete_ne by done. symmetry. destruct (a_keys D !! k) eqn:Hk.
      + apply map_filter_lookup_Some. split; [done|]. simpl. set_solver.
      + apply map_filter_lookup_None. by left.
    - rewrite lookup_delete. symmetry. apply map_filter_lookup_None. right. intros ? _. simpl. set_solver.
    - rewrite lookup_delete_ne by done. symmetry. destruct (a_ttl D !! k) eqn:Hk.
      + apply map_filter_lookup_Some. split; [done|]. simpl. set_solver.
      + apply map_filter_lookup_None. by left.
  Qed.
  Lemma purge_purged key D : purged E D (purge E key D).
  Proof.
    unfold purge. case_decide as H; [|apply purged_refl]. exists {[key]}. split; [|apply remove_drop].
    by intros k ->%elem_of_singleton.
  Qed.
  Lemma purge_same_but key D : same_but key D (purge E key D).
  Proof.
    unfold purge. case_decide; [|done]. intros k Hk. simpl. by rewrite !lookup_delete_ne.
  Qed.
  Lemma put_same_but key v D D' : same_but key D D' → same_but key D (put_val key v D').
  Proof. intros H k Hk. simpl. rewrite lookup_insert_ne by done. by apply H. Qed.

  Definition reads (R : args_rel) : Prop := ∀ args D D' r n,
    R args D (Ok (Out D' r n)) → n = 0 ∧ purged E D D'.
  Definition writes (ar : Z) (R : args_rel) : Prop := ∀ args D D' r n,
    accepts ar (zlen args) → R args D (Ok (Out D' r n)) →
    ∃ key, args !! 1%nat = Some key ∧ same_but key D D' ∧ 0 ≤ n ∧ (n = 0 → purged E D D') ∧ (is_error r → n = 0).

  (** ** Containers *)
  Definition ak_law {X} (k : akind X) : Prop := ∀ v x, ak_out k v = Some x → v = ak_in k x.
  Lemma AKHash_law : ak_law AKHash. Proof. by intros [] ? [= ->]. Qed.
  Lemma AKList_law : ak_law AKList. Proof. by intros [] ? [= ->]. Qed.
  Lemma AKSet_law : ak_law AKSet. Proof. by intros [] ? [= ->]. Qed.
  Lemma AKZset_law : ak_law AKZset. Proof. by intros [] ? [= <-]. Qed.
  Lemma existing_cases {X} (k : akind X) key none f D D' r n : ak_law k →
    on_existing k E key none f D = Ok (Out D' r n) →
    (D' = purge E key D ∧ (r = none ∨ r = RWrong) ∧ n = 0) ∨
    ∃ x x', a_keys (purge E key D) !! key = Some (ak_in k x) ∧ f x = Ok (x', r, n) ∧
      D' = put_val key (ak_in k x') (purge E key D).
  Proof.
    intros Hk. unfold on_existing. destruct (a_keys (purge E key D) !! key) as [v|]; [|intros [= <- <- <-]; by auto].
    destruct (ak_out k v) as [x|] eqn:Ex; [|intros [= <- <- <-]; by auto]. apply Hk in Ex as ->.
    destruct (f x) as [[[x' r'] n']| |] eqn:Ef; simpl; intros [= <- <- <-]. right. by exists x, x'.
  Qed.
  Lemma new_cases {X} (k : akind X) wrong key f D D' r n : ak_law k →
    on_new k wrong key f D = Ok (Out D' r n) →
    (D' = D ∧ r = wrong ∧ n = 0) ∨
    ∃ x x', (a_keys D !! key = Some (ak_in k x) ∨ a_keys D !! key = None ∧ x = ak_new k) ∧ f x = Ok (x', r, n) ∧
      D' = put_val key (ak_in k x') D.
  Proof.
    intros Hk. unfold on_new. destruct (a_keys D !! key) as [v|].
    - destruct (ak_out k v) as [x|] eqn:Ex; [|intros [= <- <- <-]; by auto]. apply Hk in Ex as ->.
      destruct (f x) as [[[x' r'] n']| |] eqn:Ef; simpl; intros [= <- <- <-]. right. exists x, x'. by auto.
    - destruct (f (ak_new k)) as [[[x' r'] n']| |] eqn:Ef; simpl; intros [= <- <- <-]. right. exists (ak_new k), x'. by auto.
  Qed.
  Lemma reading_frame {X} (k : akind X) key none (f : X → res reply) D D' r n : ak_law k →
    on_existing k E key none (reading f) D = Ok (Out D' r n) → n = 0 ∧ D' = purge E key D.
  Proof.
    intros Hk H. apply existing_cases in H as [(-> & _ & ->)|(x & x' & Hx & Hf & ->)]; [done| |done].
    unfold reading in Hf. destruct (f x) as [r'| |]; simpl in Hf; try done. injection Hf as <- <- <-.
    by rewrite put_val_id.
  Qed.
  (** a command on an existing container that changes nothing when it counts nothing *)
  Lemma existing_frame_writes {X} (k : akind X) key none (f : X → res (X * reply * Z)) D D' r n :
    ak_law k → ¬ is_error none →
    (∀ x x' r n, f x = Ok (x', r, n) → 0 ≤ n ∧ (n = 0 → x' = x) ∧ ¬ is_error r) →
    on_existing k E key none f D = Ok (Out D' r n) →
    same_but key D D' ∧ 0 ≤ n ∧ (n = 0 → purged E D D') ∧ (is_error r → n = 0).
  Proof.
    intros Hk Hn Hf H. apply existing_cases in H as [(-> & Hr & ->)|(x & x' & Hx & Hfx & ->)]; [| |done].
    - split; [apply purge_same_but|]. split; [done|]. split; [intros _; apply purge_purged|done].
    - apply Hf in Hfx as (H1 & H2 & H3). split; [apply put_same_but, purge_same_but|]. split; [done|].
      split; [|done]. intros Hn0. rewrite H2 by done. rewrite put_val_id by done. apply purge_purged.
  Qed.
  Lemma new_frame_writes {X} (k : akind X) wrong key (f : X → res (X * reply * Z)) D D' r n :
    ak_law k → (∀ x x' r n, f x = Ok (x', r, n) → 0 < n) →
    on_new k wrong key f D = Ok (Out D' r n) →
    same_but key D D' ∧ 0 ≤ n ∧ (n = 0 → purged E D D') ∧ (n = 0 ∨ ∃ x x', f x = Ok (x', r, n)).
  Proof.
    intros Hk Hf H. apply new_cases in H as [(-> & Hr & ->)|(x & x' & Hx & Hfx & ->)]; [| |done].
    - split; [done|]. split; [done|]. split; [intros _; apply purged_refl|by left].
    - pose proof (Hf _ _ _ _ Hfx). split; [by apply put_same_but|]. split; [lia|]. split; [lia|]. right. eauto.
  Qed.

  (** ** Readers *)
  Lemma reads_ping : reads (λ args D o, o = Ok (Out D (RSimple (B "PONG")) 0)).
  Proof. intros args D D' r n [= -> -> ->]. split; [done|apply purged_refl]. Qed.
  Ltac reading_tac law := let H := fresh "H" in
    intros args D D' r n H; repeat (destruct args as [|? args]; try done); injection H as H;
    apply reading_frame in H as [-> ->]; [split; [done|apply purge_purged]|apply law].
  Lemma reads_get : reads (sem_get E).
  Proof.
    intros args D D' r n H. destruct args as [|a [|k args]]; try done. injection H as <- _ <-.
    split; [done|apply purge_purged].
  Qed.
  Lemma reads_ttl : reads (sem_ttl E).
  Proof.
    intros args D D' r n H. destruct args as [|a [|k args]]; try done. injection H as <- _ <-.
    split; [done|apply purged_refl].
  Qed.
  Lemma reads_keys : reads (sem_keys E).
  Proof.
    intros args D D' r n H. destruct args as [|a [|p args]]; try done. unfold sem_keys in H.
    destruct (pattern_of E p) as [f|].
    - destruct H as (l & _ & _ & [= -> -> ->]). split; [done|].
      eexists. split; [|reflexivity]. intros k Hk. apply elem_of_filter in Hk as [[_ ?] _]. done.
    - injection H as -> _ ->. split; [done|apply purged_refl].
  Qed.
  Lemma reads_randomget : reads (sem_randomget E).
  Proof.
    intros args D D' r n [H|(X & HX & [[_ H]|(k & _ & _ & H)])]; try done; injection H as -> _ ->;
      (split; [done|]; by exists X).
  Qed.
  Lemma hash_reader key none (f : gmap bytes bytes → res reply) D D' r n :
    Some (on_existing AKHash E key none (reading f) D) = Some (Ok (Out D' r n)) → n = 0 ∧ purged E D D'.
  Proof. intros [= H]. apply reading_frame in H as [-> ->]; [|apply AKHash_law]. split; [done|apply purge_purged]. Qed.
  Lemma list_reader key none (f : quicklist bytes → res reply) D D' r n :
    Some (on_existing AKList E key none (reading f) D) = Some (Ok (Out D' r n)) → n = 0 ∧ purged E D D'.
  Proof. intros [= H]. apply reading_frame in H as [-> ->]; [|apply AKList_law]. split; [done|apply purge_purged]. Qed.
  Lemma set_reader key none (f : gset bytes → res reply) D D' r n :
    Some (on_existing AKSet E key none (reading f) D) = Some (Ok (Out D' r n)) → n = 0 ∧ purged E D D'.
  Proof. intros [= H]. apply reading_frame in H as [-> ->]; [|apply AKSet_law]. split; [done|apply purge_purged]. Qed.
  Lemma zset_reader key none (f : azset → res reply) D D' r n :
    on_existing AKZset E key none (reading f) D = Ok (Out D' r n) → n = 0 ∧ purged E D D'.
  Proof. intros H. apply reading_frame in H as [-> ->]; [|apply AKZset_law]. split; [done|apply purge_purged]. Qed.
  Lemma reads_hget : reads (sem_hget E).
  Proof. intros [|? [|? [|? args]]] D D' r n H; try done. exact (hash_reader _ _ _ _ _ _ _ H). Qed.
  Lemma reads_hexists : reads (sem_hexists E).
  Proof. intros [|? [|? [|? args]]] D D' r n H; try done. exact (hash_reader _ _ _ _ _ _ _ H). Qed.
  Lemma reads_hlen : reads (sem_hlen E).
  Proof. intros [|? [|? args]] D D' r n H; try done. exact (hash_reader _ _ _ _ _ _ _ H). Qed.
  Lemma reads_hkeys : reads (sem_hkeys E).
  Proof.
    intros [|? [|key args]] D D' r n H; try done. unfold sem_hkeys in H.
    assert (D' = purge E key D ∧ n = 0) as [-> ->]; [|split; [done|apply purge_purged]].
    destruct (a_keys (purge E key D) !! key) as [[]|]; try (by injection H as -> _ ->).
    destruct H as (? & _ & [= -> _ ->]). done.
  Qed.
  Lemma reads_llen : reads (sem_llen E).
  Proof. intros [|? [|? args]] D D' r n H; try done. exact (list_reader _ _ _ _ _ _ _ H). Qed.
  Lemma reads_lindex : reads (sem_lindex E).
  Proof. intros [|? [|? [|? args]]] D D' r n H; try done. exact (list_reader _ _ _ _ _ _ _ H). Qed.
  Lemma reads_lrange : reads (sem_lrange E).
  Proof. intros [|? [|? [|? [|? args]]]] D D' r n H; try done. exact (list_reader _ _ _ _ _ _ _ H). Qed.
  Lemma reads_scard : reads (sem_scard E).
  Proof. intros [|? [|? args]] D D' r n H; try done. exact (set_reader _ _ _ _ _ _ _ H). Qed.
  Lemma reads_sismember : reads (sem_sismember E).
  Proof. intros [|? [|? [|? args]]] D D' r n H; try done. exact (set_reader _ _ _ _ _ _ _ H). Qed.
  Lemma fold_purged op keys : ∀ s D, purged E D (set_fold op E s keys D).1.
  Proof.
    induction keys as [|key keys IH]; intros s D; [apply purged_refl|]. cbn [set_fold].
    destruct (set_at (purge E key D) key) as [[s2|]|]; simpl; eapply purged_trans; try apply purge_purged;
      try apply IH; apply purged_refl.
  Qed.
  Lemma inter_purged keys : ∀ s D, purged E D (inter_fold E s keys D).1.
  Proof.
    induction keys as [|key keys IH]; intros s D; [apply purged_refl|]. cbn [inter_fold].
    destruct (set_at (purge E key D) key) as [[s2|]|]; simpl; eapply purged_trans; try apply purge_purged;
      try apply IH; apply purged_refl.
  Qed.
  Lemma algebra_reads fold key keys D D' r n : (∀ s D, purged E D (fold E s keys D).1) →
    set_algebra fold E key keys D (Ok (Out D' r n)) → n = 0 ∧ purged E D D'.
  Proof.
    intros Hf. unfold set_algebra. destruct (set_at (purge E key D) key) as [[s|]|].
    - destruct (fold E s keys (purge E key D)) as [D2 [s2|r2]] eqn:Ef; simpl.
      + intros (r' & _ & [= -> -> ->]). split; [done|]. eapply purged_trans; [apply purge_purged|].
        replace D2 with (fold E s keys (purge E key D)).1 by (by rewrite Ef). apply Hf.
      + intros [= -> -> ->]. split; [done|]. eapply purged_trans; [apply purge_purged|].
        replace D2 with (fold E s keys (purge E key D)).1 by (by rewrite Ef). apply Hf.
    - intros [= -> -> ->]. split; [done|apply purge_purged].
    - intros [= -> -> ->]. split; [done|apply purge_purged].
  Qed.
  Lemma reads_smembers : reads (sem_smembers E).
  Proof.
    intros [|? [|? args]] D D' r n H; try done. eapply algebra_reads; [|exact H]. intros. apply purged_refl.
  Qed.
  Lemma reads_fold op : reads (sem_algebra E (set_fold op)).
  Proof. intros [|? [|? args]] D D' r n H; try done. eapply algebra_reads; [|exact H]. intros. apply fold_purged. Qed.
  Lemma reads_sinter : reads (sem_algebra E inter_fold).
  Proof. intros [|? [|? args]] D D' r n H; try done. eapply algebra_reads; [|exact H]. intros. apply inter_purged. Qed.
  Lemma floats_cases a b w1 w2 D k D' r n : floats E a b w1 w2 D k = Ok (Out D' r n) →
    (D' = D ∧ n = 0 ∧ is_error r) ∨ ∃ x y, lib_parse_float (e_lib E) a = Some x ∧ lib_parse_float (e_lib E) b = Some y ∧
      k x y = Ok (Out D' r n).
  Proof.
    unfold floats. destruct (lib_parse_float (e_lib E) a) as [x|]; [|intros [= <- <- <-]; by left].
    destruct (lib_parse_float (e_lib E) b) as [y|]; [|intros [= <- <- <-]; by left]. intros. right. eauto.
  Qed.
  Lemma ints_cases a b w1 w2 D k D' r n : ints E a b w1 w2 D k = Ok (Out D' r n) →
    (D' = D ∧ n = 0 ∧ is_error r) ∨ ∃ x y, Atoi a = Some x ∧ Atoi b = Some y ∧ k x y = Ok (Out D' r n).
  Proof.
    unfold ints. destruct (Atoi a) as [x|]; [|intros [= <- <- <-]; by left].
    destruct (Atoi b) as [y|]; [|intros [= <- <- <-]; by left]. intros. right. eauto.
  Qed.
  Lemma reads_zcard : reads (sem_zcard E).
  Proof. intros [|? [|? args]] D D' r n H; try done. injection H as H. exact (zset_reader _ _ _ _ _ _ _ H). Qed.
  Lemma reads_zscore : reads (sem_zscore E).
  Proof. intros [|? [|? [|? args]]] D D' r n H; try done. injection H as H. exact (zset_reader _ _ _ _ _ _ _ H). Qed.
  Lemma reads_zcount : reads (sem_zcount E).
  Proof.
    intros [|? [|? [|? [|? args]]]] D D' r n H; try done. injection H as H.
    apply floats_cases in H as [(-> & -> & _)|(x & y & _ & _ & H)]; [split; [done|apply purged_refl]|]. exact (zset_reader _ _ _ _ _ _ _ H).
  Qed.
  Lemma reads_zrange : reads (sem_zrange E).
  Proof.
    intros [|? [|? [|? [|? args]]]] D D' r n H; try done. injection H as H.
    apply ints_cases in H as [(-> & -> & _)|(x & y & _ & _ & H)]; [split; [done|apply purged_refl]|]. exact (zset_reader _ _ _ _ _ _ _ H).
  Qed.
  Lemma reads_zrangebyscore : reads (sem_zrangebyscore E).
  Proof.
    intros [|? [|? [|? [|? args]]]] D D' r n H; try done. injection H as H.
    apply floats_cases in H as [(-> & -> & _)|(x & y & _ & _ & H)]; [split; [done|apply purged_refl]|]. exact (zset_reader _ _ _ _ _ _ _ H).
  Qed.

  (** ** Writers *)
  Ltac arg_tac H := unfold accepts in H; case_decide; [|]; unfold zlen in H; simpl in H; lia.
  Lemma pos1 ar (args : list bytes) : accepts ar (zlen args) → 2 ≤ Z.abs ar → ∃ a key l, args = a :: key :: l ∧ Z.abs ar - 2 ≤ zlen l.
  Proof.
    unfold accepts, zlen. destruct args as [|a [|key l]]; case_decide; simpl; try lia;
      intros; eexists _, _, _; (split; [reflexivity|lia]).
  Qed.
  Lemma zlen_cons {A} (x : A) l : zlen (x :: l) = zlen l + 1.
  Proof. unfold zlen. simpl. lia. Qed.
  Lemma zlen_nonneg {A} (l : list A) : 0 ≤ zlen l. Proof. unfold zlen. lia. Qed.
  Ltac pos H := let a := fresh "a" in let key := fresh "key" in let l := fresh "l" in let Hl := fresh "Hl" in
    apply pos1 in H as (a & key & l & -> & Hl); [|done]; exists key; split; [done|].

  Lemma writes_expire f : writes 3 (sem_expire E f).
  Proof.
    intros args D D' r n Ha H. pos Ha. unfold sem_expire, fn in H. destruct l as [|b l]; [done|].
    injection H as H. destruct (Atoi b); injection H as <- <- <-.
    - split; [|done]. intros k Hk. simpl. by rewrite lookup_insert_ne.
    - split; [done|]. split; [done|]. split; [intros _; apply purged_refl|done].
  Qed.
  Lemma writes_set : writes (-3) (sem_set).
  Proof.
    intros args D D' r n Ha H. pos Ha. unfold sem_set, fn in H. destruct l as [|b l]; [done|].
    injection H as <- <- <-. split; [|done]. intros k Hk. simpl. by rewrite lookup_insert_ne, lookup_delete_ne.
  Qed.
  Lemma writes_setex : writes 4 (sem_setex E).
  Proof.
    intros args D D' r n Ha H. pos Ha. unfold sem_setex, fn in H. destruct l as [|b [|v l]]; try done.
    injection H as H. destruct (Atoi b); injection H as <- <- <-.
    - split; [|done]. intros k Hk. simpl. by rewrite !lookup_insert_ne.
    - split; [done|]. split; [done|]. split; [intros _; apply purged_refl|done].
  Qed.
  Lemma writes_hset : writes (-4) (sem_hset).
  Proof.
    intros args D D' r n Ha H. pos Ha. unfold sem_hset, fn in H. injection H as H.
    destruct (negb _).
    - injection H as <- <- <-. split; [done|]. split; [done|]. split; [intros _; apply purged_refl|done].
    - apply new_frame_writes in H as (H1 & H2 & H3 & H4); [|apply AKHash_law|].
      + do 3 (split; [done|]). destruct H4 as [->|(x & x' & [= _ <- _])]; done.
      + intros x x' r' n' [= _ _ <-]. simpl in Hl. assert (1 ≤ zlen l / 2); [|lia]. apply Z.div_le_lower_bound; lia.
  Qed.
  Lemma hdel_sub l : ∀ h : gmap bytes bytes, hdel_all l h ⊆ h.
  Proof.
    induction l as [|f l IH]; intros h; [done|]. unfold hdel_all in *. simpl. etrans; [apply IH|]. apply delete_subseteq.
  Qed.
  Lemma map_sub_size (h h' : gmap bytes bytes) : h' ⊆ h → (size h' ≤ size h)%nat ∧ (size h' = size h → h' = h).
  Proof.
    intros Hs. pose proof (subseteq_dom _ _ Hs) as Hd. split; [rewrite <-!size_dom; by apply subseteq_size|].
    intros Hsz. apply map_eq. intros i. destruct (h' !! i) as [v|] eqn:Hi; [symmetry; by eapply lookup_weaken|].
    destruct (h !! i) as [v|] eqn:Hh; [|done]. exfalso.
    assert (dom h' ⊂ dom h) as Hss.
    { split; [done|]. intros Hx. apply elem_of_dom_2 in Hh. apply Hx in Hh. by apply not_elem_of_dom in Hi. }
    apply subset_size in Hss. rewrite !size_dom in Hss. lia.
  Qed.
  Lemma writes_hdel : writes (-3) (sem_hdel E).
  Proof.
    intros args D D' r n Ha H. pos Ha. unfold sem_hdel, fn in H. injection H as H.
    eapply existing_frame_writes; [apply AKHash_law| | |exact H]; [by intros []|].
    intros x x' r' n' [= <- <- <-]. destruct (map_sub_size x (hdel_all l x) (hdel_sub _ _)) as [H1 H2].
    unfold grown. split; [lia|]. split; [|by intros []]. intros ?. apply H2. lia.
  Qed.
  Lemma writes_push all : writes (-3) (sem_push all).
  Proof.
    intros args D D' r n Ha H. pos Ha. unfold sem_push, fn in H. injection H as H.
    apply new_frame_writes in H as (H1 & H2 & H3 & H4); [|apply AKList_law|].
    - do 3 (split; [done|]). destruct H4 as [->|(x & x' & Hx)]; [done|].
      destruct (all l x); simpl in Hx; try done. injection Hx as _ <- _. done.
    - intros x x' r' n' Hx. destruct (all l x); simpl in Hx; try done. injection Hx as _ _ <-. simpl in Hl. lia.
  Qed.
  Lemma writes_pop pop : writes 2 (sem_pop E pop).
  Proof.
    intros args D D' r n Ha H. pos Ha. unfold sem_pop, fn in H. injection H as H.
    eapply existing_frame_writes; [apply AKList_law| | |exact H]; [by intros []|].
    intros x x' r' n' Hx. simpl in Hx. destruct (Len x =? 0).
    - injection Hx as <- <- <-. split; [done|]. split; [done|by intros []].
    - destruct (pop x) as [[q [v|]]| |]; simpl in Hx; try done. injection Hx as <- <- <-. split; [done|].
      split; [done|by intros []].
  Qed.
  Lemma writes_sadd : writes (-3) (sem_sadd).
  Proof.
    intros args D D' r n Ha H. pos Ha. unfold sem_sadd, fn in H. injection H as H.
    apply new_frame_writes in H as (H1 & H2 & H3 & H4); [|apply AKSet_law|].
    - do 3 (split; [done|]). destruct H4 as [->|(x & x' & [= _ <- _])]; done.
    - intros x x' r' n' [= _ _ <-]. simpl in Hl. lia.
  Qed.
  Lemma writes_srem : writes (-3) (sem_srem E).
  Proof.
    intros args D D' r n Ha H. pos Ha. unfold sem_srem, fn in H. injection H as H.
    eapply existing_frame_writes; [apply AKSet_law| | |exact H]; [by intros []|].
    intros x x' r' n' [= <- <- <-]. unfold grown, srem_all.
    assert (x ∖ list_to_set l ⊆ x) as Hs by set_solver. split; [pose proof (subseteq_size _ _ Hs); lia|].
    split; [|by intros []]. intros Hn. apply leibniz_equiv. intros i. split; [apply Hs|]. intros Hi.
    destruct (decide (i ∈ x ∖ list_to_set l)) as [|Hni]; [done|]. exfalso.
    assert (x ∖ list_to_set l ⊂ x) as Hss by (split; [done|]; intros Hx; by apply Hni, Hx).
    apply subset_size in Hss. lia.
  Qed.
  Lemma writes_spop : writes 2 (sem_spop E).
  Proof.
    intros args D D' r n Ha H. pos Ha. unfold sem_spop in H.
    destruct (set_at (purge E key D) key) as [[s|]|].
    - destruct H as [(-> & [= -> -> ->])|(Hs & [?|(m & Hm & [= -> -> ->])])]; [|done|].
      + split; [apply purge_same_but|]. split; [done|]. split; [intros _; apply purge_purged|done].
      + split; [apply put_same_but, purge_same_but|]. done.
    - injection H as -> -> ->. split; [apply purge_same_but|]. split; [done|]. split; [intros _; apply purge_purged|done].
    - injection H as -> -> ->. split; [apply purge_same_but|]. split; [done|]. split; [intros _; apply purge_purged|done].
  Qed.
  Lemma zrem_all_count l : ∀ z n z' n', zrem_all l z n = Ok (z', n') → n ≤ n' ∧ (n' = n → z' = z).
  Proof.
    induction l as [|m l IH]; intros z n z' n'; [intros [= -> ->]; split; [lia|done]|]. cbn [zrem_all].
    unfold zdel1. destruct (z.1 !! m).
    - destruct (SlDelete z.2 _ m) as [x| |]; try done. cbn. intros H. apply IH in H. lia.
    - cbn. apply IH.
  Qed.
  Lemma writes_zrem : writes (-3) (sem_zrem E).
  Proof.
    intros args D D' r n Ha H. pos Ha. unfold sem_zrem, fn in H. injection H as H.
    eapply existing_frame_writes; [apply AKZset_law| | |exact H]; [by intros []|].
    intros x x' r' n' Hx. simpl in Hx. destruct (zrem_all l x 0) as [[z k]| |] eqn:Ez; try done.
    injection Hx as <- <- <-. simpl. apply zrem_all_count in Ez as [? Hz]. split; [done|]. split; [|by intros []]. by intros ->%Hz.
  Qed.
  Lemma delete_loop_none cond : ∀ fuel s update i x del s' del',
    delete_loop fuel s update cond i x del = Ok (s', del') →
    (length del ≤ length del')%nat ∧ (length del' = length del → s' = s).
  Proof.
    induction fuel as [|fuel IH]; intros s update i x del s' del'; [done|]. cbn [delete_loop].
    destruct x as [x|]; [|intros [= -> ->]; by split].
    destruct (node s x) as [nd| |]; try done. cbn. destruct (cond i nd); [|intros [= -> ->]; by split].
    destruct (level_of nd 0) as [lv| |]; try done. cbn. destruct (deleteNode s x update) as [s1| |]; try done. cbn.
    intros H. apply IH in H as [H _]. rewrite app_length in H. simpl in H. split; lia.
  Qed.
  Lemma zelems_delete_len s : ∀ ids m m' es, zelems_delete m s ids = Ok (m', es) →
    length es = length ids ∧ (ids = [] → m' = m).
  Proof.
    induction ids as [|x ids IH]; intros m m' es; [by intros [= -> <-]|]. cbn [zelems_delete].
    destruct (node s x) as [nd| |]; try done. cbn.
    destruct (zelems_delete (delete (n_member nd) m) s ids) as [[m1 es1]| |] eqn:Ez; try done.
    intros [= <- <-]. apply IH in Ez as [Ez _]. simpl. by rewrite Ez.
  Qed.
  Lemma zremrange_frame del x x' r n :
    (∀ s s', del s = Ok (s', []) → s' = s) → zremrange del x = Ok (x', r, n) → 0 ≤ n ∧ (n = 0 → x' = x) ∧ ¬ is_error r.
  Proof.
    intros Hd. unfold zremrange. destruct (del x.2) as [[s ids]| |] eqn:Ed; try done. cbn.
    destruct (zelems_delete x.1 s ids) as [[m es]| |] eqn:Ez; try done. intros [= <- <- <-].
    apply zelems_delete_len in Ez as [Hl Hm]. simpl. unfold zlen. split; [lia|]. split; [|by intros []]. intros Hn.
    assert (ids = []) as -> by (apply nil_length_inv; lia). rewrite Hm by done. rewrite (Hd _ _ Ed). by destruct x.
  Qed.
  Lemma writes_zremrangebyrank : writes (-4) (sem_zremrangebyrank E).
  Proof.
    intros args D D' r n Ha H. pos Ha. unfold sem_zremrangebyrank, fn in H. destruct l as [|b [|c l]]; try done.
    injection H as H. apply ints_cases in H as [(-> & -> & He)|(x & y & _ & _ & H)].
    { split; [done|]. split; [done|]. split; [intros _; apply purged_refl|done]. }
    eapply existing_frame_writes; [apply AKZset_law| | |exact H]; [by intros []|].
    intros z z' r' n'. apply zremrange_frame. intros s s'. unfold DeleteRangeByRank.
    destruct (_ || _); [by intros [= ->]|].
    destruct (search s _ true) as [us| |]; try done. cbn [mbind res_bind]. destruct (deref _) as [u0| |]; try done. cbn [mbind res_bind].
    destruct (level_at s _ 0) as [lv| |]; try done. cbn [mbind res_bind]. intros Hx. apply delete_loop_none in Hx as [_ Hx]. by apply Hx.
  Qed.
  Lemma writes_zremrangebyscore : writes (-4) (sem_zremrangebyscore E).
  Proof.
    intros args D D' r n Ha H. pos Ha. unfold sem_zremrangebyscore, fn in H. destruct l as [|b [|c l]]; try done.
    injection H as H. apply floats_cases in H as [(-> & -> & He)|(x & y & _ & _ & H)].
    { split; [done|]. split; [done|]. split; [intros _; apply purged_refl|done]. }
    eapply existing_frame_writes; [apply AKZset_law| | |exact H]; [by intros []|].
    intros z z' r' n'. apply zremrange_frame. intros s s'. unfold DeleteRangeByScore.
    destruct (search s _ false) as [us| |]; try done. cbn [mbind res_bind]. destruct (deref _) as [u0| |]; try done. cbn [mbind res_bind].
    destruct (level_at s _ 0) as [lv| |]; try done. cbn [mbind res_bind]. intros Hx. apply delete_loop_none in Hx as [_ Hx]. by apply Hx.
  Qed.

  (** ** ZADD: a bad score after the first pair leaves the earlier pairs added, a
      bad first score leaves a new empty sorted set *)
  Lemma zadd_all_count l : ∀ z c n rs z' r n', zadd_all E l z c n rs = Ok (z', r, n') →
    n ≤ n' ∧ (n' = n → z' = z ∧ (l = [] ∨ is_error r)) ∧ ((∀ i, l !! (2 * i)%nat ≫= lib_parse_float (e_lib E) = None → l !! (2 * i)%nat = None) → ¬ is_error r).
  Proof.
    induction l as [l IH] using (induction_ltof1 _ length). unfold ltof in IH. intros z c n rs z' r n'.
    destruct l as [|a l]; [intros [= -> <- ->]; split; [lia|]; split; [by auto|by intros _ []]|]. cbn [zadd_all].
    destruct (lib_parse_float (e_lib E) a) as [sc|] eqn:Ea.
    - destruct l as [|m l]; [done|]. destruct (zadd1 z sc m rs) as [[[z1 b] rs1]| |]; try done. cbn.
      intros H. apply IH in H as (H1 & H2 & H3); [|simpl; lia]. split; [lia|]. split; [lia|]. intros Hp. apply H3.
      intros i Hi. specialize (Hp (S i)).
      assert ((a :: m :: l) !! (2 * S i)%nat = l !! (2 * i)%nat) as Hx.
      { replace (2 * S i)%nat with (S (S (2 * i))) by lia. done. }
      etrans; [symmetry; exact Hx|]. apply Hp. etrans; [|exact Hi]. f_equal. exact Hx.
    - intros [= -> <- ->]. split; [lia|]. split; [split; [done|right; done]|]. intros Hp. specialize (Hp 0%nat). simpl in Hp.
      rewrite Ea in Hp. by specialize (Hp eq_refl).
  Qed.
  (** every score parses *)
  Definition scores_ok (args : list bytes) : Prop :=
    ∀ i a, args !! (2 * i + 2)%nat = Some a → is_Some (lib_parse_float (e_lib E) a).
  Definition writes_if (P : list bytes → Prop) (ar : Z) (R : args_rel) : Prop := ∀ args D D' r n,
    accepts ar (zlen args) → P args → R args D (Ok (Out D' r n)) →
    ∃ key, args !! 1%nat = Some key ∧ same_but key D D' ∧ 0 ≤ n ∧ (n = 0 → purged E D D') ∧ (is_error r → n = 0).
  Lemma zadd_same_but args D D' r n : accepts (-4) (zlen args) → sem_zadd E args D (Ok (Out D' r n)) →
    ∃ key, args !! 1%nat = Some key ∧ same_but key D D' ∧ 0 ≤ n.
  Proof.
    intros Ha H. pos Ha. unfold sem_zadd in H. destruct (negb _); [injection H as -> -> ->; by split|].
    destruct H as (rs & _ & H). symmetry in H. apply new_cases in H as [(-> & -> & ->)|(x & x' & _ & H & ->)]; [done| |apply AKZset_law].
    apply zadd_all_count in H as (? & _). split; [by apply put_same_but|done].
  Qed.
  Lemma writes_zadd : writes_if scores_ok (-4) (sem_zadd E).
  Proof.
    intros args D D' r n Ha Hs H. pos Ha. unfold sem_zadd in H. destruct (negb _).
    { injection H as -> -> ->. split; [done|]. split; [done|]. split; [intros _; apply purged_refl|done]. }
    destruct H as (rs & _ & H). symmetry in H. simpl in Hl.
    assert (Hp : ∀ i, l !! (2 * i)%nat ≫= lib_parse_float (e_lib E) = None → l !! (2 * i)%nat = None).
    { intros i Hi. destruct (l !! (2 * i)%nat) as [b|] eqn:Hb; [|done]. simpl in Hi. exfalso.
      destruct (Hs i b) as [? Hx]; [|congruence]. replace (2 * i + 2)%nat with (S (S (2 * i))) by lia. done. }
    apply new_cases in H as [(-> & -> & ->)|(x & x' & _ & H & ->)]; [| |apply AKZset_law].
    { split; [done|]. split; [done|]. split; [intros _; apply purged_refl|done]. }
    apply zadd_all_count in H as (H1 & H2 & H3). specialize (H3 Hp). split; [by apply put_same_but|]. split; [done|].
    split; [|done]. intros ->. destruct (H2 eq_refl) as [-> [->|?]]; [|done]. unfold zlen in Hl. simpl in Hl. lia.
  Qed.

  (** ** No command removes a key, except by expiry *)
  Definition keeps (D D' : adb) : Prop := ∀ k, is_Some (a_keys D !! k) → is_Some (a_keys D' !! k) ∨ expired E D k.
  Lemma keeps_refl D : keeps D D. Proof. intros k. by left. Qed.
  Lemma purged_keeps D D' : purged E D D' → keeps D D'.
  Proof.
    intros (X & HX & ->) k [v Hv]. destruct (decide (k ∈ X)) as [Hk|Hk]; [right; by apply HX|]. left.
    exists v. simpl. rewrite lookup_drop. by rewrite decide_False.
  Qed.
  Lemma put_keeps key v D D' : keeps D D' → keeps D (put_val key v D').
  Proof.
    intros H k Hk. destruct (decide (k = key)) as [->|Hne]; [left; simpl; rewrite lookup_insert; by eexists|].
    simpl. rewrite lookup_insert_ne by done. by apply H.
  Qed.
  Lemma insert_keeps key v D D' : a_keys D' = <[key := v]> (a_keys D) → keeps D D'.
  Proof.
    intros H k Hk. left. rewrite H. destruct (decide (k = key)) as [->|Hne]; [rewrite lookup_insert; by eexists|].
    by rewrite lookup_insert_ne.
  Qed.
  Lemma existing_keeps {X} (k : akind X) key none f D D' r n : ak_law k →
    on_existing k E key none f D = Ok (Out D' r n) → keeps D D'.
  Proof.
    intros Hk H. apply existing_cases in H as [(-> & _ & _)|(x & x' & _ & _ & ->)]; [| |done].
    - apply purged_keeps, purge_purged.
    - apply put_keeps, purged_keeps, purge_purged.
  Qed.
  Lemma new_keeps {X} (k : akind X) wrong key f D D' r n : ak_law k →
    on_new k wrong key f D = Ok (Out D' r n) → keeps D D'.
  Proof.
    intros Hk H. apply new_cases in H as [(-> & _ & _)|(x & x' & _ & _ & ->)]; [apply keeps_refl| |done].
    apply put_keeps, keeps_refl.
  Qed.
  Definition keeping (R : args_rel) : Prop := ∀ args D D' r n, R args D (Ok (Out D' r n)) → keeps D D'.
  Lemma reads_keeping R : reads R → keeping R.
  Proof. intros HR args D D' r n H. apply HR in H as [_ H]. by apply purged_keeps. Qed.
  Lemma keeping_expire f : keeping (sem_expire E f).
  Proof.
    intros [|a [|key [|b l]]] D D' r n H; try done. unfold sem_expire, fn in H. injection H as H.
    destruct (Atoi b); injection H as <- _ _; intros k; by left.
  Qed.
  Lemma keeping_set : keeping sem_set.
  Proof.
    intros [|a [|key [|b l]]] D D' r n H; try done. unfold sem_set, fn in H. injection H as <- _ _.
    by eapply insert_keeps.
  Qed.
  Lemma keeping_setex : keeping (sem_setex E).
  Proof.
    intros [|a [|key [|b [|v l]]]] D D' r n H; try done. unfold sem_setex, fn in H. injection H as H.
    destruct (Atoi b); injection H as <- _ _; [by eapply insert_keeps|apply keeps_refl].
  Qed.
  Lemma keeping_hset : keeping sem_hset.
  Proof.
    intros [|a [|key l]] D D' r n H; try done. unfold sem_hset, fn in H. injection H as H. destruct (negb _).
    - injection H as <- _ _. apply keeps_refl.
    - eapply new_keeps; [apply AKHash_law|exact H].
  Qed.
  Lemma keeping_hdel : keeping (sem_hdel E).
  Proof.
    intros [|a [|key l]] D D' r n H; try done. unfold sem_hdel, fn in H. injection H as H.
    eapply existing_keeps; [apply AKHash_law|exact H].
  Qed.
  Lemma keeping_push all : keeping (sem_push all).
  Proof.
    intros [|a [|key l]] D D' r n H; try done. unfold sem_push, fn in H. injection H as H.
    eapply new_keeps; [apply AKList_law|exact H].
  Qed.
  Lemma keeping_pop pop : keeping (sem_pop E pop).
  Proof.
    intros [|a [|key l]] D D' r n H; try done. unfold sem_pop, fn in H. injection H as H.
    eapply existing_keeps; [apply AKList_law|exact H].
  Qed.
  Lemma keeping_sadd : keeping sem_sadd.
  Proof.
    intros [|a [|key l]] D D' r n H; try done. unfold sem_sadd, fn in H. injection H as H.
    eapply new_keeps; [apply AKSet_law|exact H].
  Qed.
  Lemma keeping_srem : keeping (sem_srem E).
  Proof.
    intros [|a [|key l]] D D' r n H; try done. unfold sem_srem, fn in H. injection H as H.
    eapply existing_keeps; [apply AKSet_law|exact H].
  Qed.
  Lemma keeping_spop : keeping (sem_spop E).
  Proof.
    intros [|a [|key l]] D D' r n H; try done. unfold sem_spop in H.
    destruct (set_at (purge E key D) key) as [[s|]|].
    - destruct H as [(_ & [= -> _ _])|(_ & [?|(m & _ & [= -> _ _])])]; [|done|].
      + apply purged_keeps, purge_purged.
      + apply put_keeps, purged_keeps, purge_purged.
    - injection H as -> _ _. apply purged_keeps, purge_purged.
    - injection H as -> _ _. apply purged_keeps, purge_purged.
  Qed.
  Lemma keeping_zadd : keeping (sem_zadd E).
  Proof.
    intros [|a [|key l]] D D' r n H; try done. unfold sem_zadd in H. destruct (negb _).
    - injection H as -> _ _. apply keeps_refl.
    - destruct H as (rs & _ & H). symmetry in H. eapply new_keeps; [apply AKZset_law|exact H].
  Qed.
  Lemma keeping_zrem : keeping (sem_zrem E).
  Proof.
    intros [|a [|key l]] D D' r n H; try done. unfold sem_zrem, fn in H. injection H as H.
    eapply existing_keeps; [apply AKZset_law|exact H].
  Qed.
  Lemma keeping_zremrangebyrank : keeping (sem_zremrangebyrank E).
  Proof.
    intros [|a [|key [|b [|c l]]]] D D' r n H; try done. unfold sem_zremrangebyrank, fn in H. injection H as H.
    apply ints_cases in H as [(-> & _)|(x & y & _ & _ & H)]; [apply keeps_refl|].
    eapply existing_keeps; [apply AKZset_law|exact H].
  Qed.
  Lemma keeping_zremrangebyscore : keeping (sem_zremrangebyscore E).
  Proof.
    intros [|a [|key [|b [|c l]]]] D D' r n H; try done. unfold sem_zremrangebyscore, fn in H. injection H as H.
    apply floats_cases in H as [(-> & _)|(x & y & _ & _ & H)]; [apply keeps_refl|].
    eapply existing_keeps; [apply AKZset_law|exact H].
  Qed.

  (** ** All commands *)
  Definition classified (p : bytes * args_rel) : Prop :=
    (p.1 ∈ readers ∧ p.1 ∉ writers ∧ p.1 ≠ B "zadd" ∧ reads p.2) ∨
    (∃ ar, p.1 ∈ writers ∧ p.1 ∉ readers ∧ p.1 ≠ B "zadd" ∧ (p.1, ar) ∈ arities ∧ writes ar p.2) ∨
    (p = (B "zadd", sem_zadd E)).
  Lemma classify : Forall classified (semTable E).
  Proof.
    assert (HR : ∀ name R, bool_decide (name ∈ readers ∧ name ∉ writers ∧ name ≠ B "zadd") = true → reads R → classified (name, R)).
    { intros name R Hb HR. apply bool_decide_eq_true in Hb as (? & ? & ?). by left. }
    assert (HW : ∀ name ar R, bool_decide (name ∈ writers ∧ name ∉ readers ∧ name ≠ B "zadd" ∧ (name, ar) ∈ arities) = true → writes ar R → classified (name, R)).
    { intros name ar R Hb HW. apply bool_decide_eq_true in Hb as (? & ? & ? & ?). right; left. by exists ar. }
    unfold semTable.
    apply Forall_cons; split; [apply HR; [by vm_compute|apply reads_ping]|].
    apply Forall_cons; split; [eapply HW; [|apply writes_expire]; by vm_compute|].
    apply Forall_cons; split; [eapply HW; [|apply writes_expire]; by vm_compute|].
    apply Forall_cons; split; [apply HR; [by vm_compute|apply reads_ttl]|].
    apply Forall_cons; split; [apply HR; [by vm_compute|apply reads_keys]|].
    apply Forall_cons; split; [eapply HW; [|apply writes_set]; by vm_compute|].
    apply Forall_cons; split; [eapply HW; [|apply writes_setex]; by vm_compute|].
    apply Forall_cons; split; [apply HR; [by vm_compute|apply reads_get]|].
    apply Forall_cons; split; [apply HR; [by vm_compute|apply reads_randomget]|].
    apply Forall_cons; split; [eapply HW; [|apply writes_hset]; by vm_compute|].
    apply Forall_cons; split; [apply HR; [by vm_compute|apply reads_hget]|].
    apply Forall_cons; split; [eapply HW; [|apply writes_hdel]; by vm_compute|].
    apply Forall_cons; split; [apply HR; [by vm_compute|apply reads_hexists]|].
    apply Forall_cons; split; [apply HR; [by vm_compute|apply reads_hkeys]|].
    apply Forall_cons; split; [apply HR; [by vm_compute|apply reads_hlen]|].
    apply Forall_cons; split; [eapply HW; [|apply writes_push]; by vm_compute|].
    apply Forall_cons; split; [eapply HW; [|apply writes_push]; by vm_compute|].
    apply Forall_cons; split; [eapply HW; [|apply writes_pop]; by vm_compute|].
    apply Forall_cons; split; [eapply HW; [|apply writes_pop]; by vm_compute|].
    apply Forall_cons; split; [apply HR; [by vm_compute|apply reads_llen]|].
    apply Forall_cons; split; [apply HR; [by vm_compute|apply reads_lindex]|].
    apply Forall_cons; split; [apply HR; [by vm_compute|apply reads_lrange]|].
    apply Forall_cons; split; [eapply HW; [|apply writes_sadd]; by vm_compute|].
    apply Forall_cons; split; [eapply HW; [|apply writes_srem]; by vm_compute|].
    apply Forall_cons; split; [eapply HW; [|apply writes_spop]; by vm_compute|].
    apply Forall_cons; split; [apply HR; [by vm_compute|apply reads_scard]|].
    apply Forall_cons; split; [apply HR; [by vm_compute|apply reads_sismember]|].
    apply Forall_cons; split; [apply HR; [by vm_compute|apply reads_smembers]|].
    apply Forall_cons; split; [apply HR; [by vm_compute|apply reads_fold]|].
    apply Forall_cons; split; [apply HR; [by vm_compute|apply reads_sinter]|].
    apply Forall_cons; split; [apply HR; [by vm_compute|apply reads_fold]|].
    apply Forall_cons; split; [by right; right|].
    apply Forall_cons; split; [apply HR; [by vm_compute|apply reads_zrange]|].
    apply Forall_cons; split; [apply HR; [by vm_compute|apply reads_zrangebyscore]|].
    apply Forall_cons; split; [eapply HW; [|apply writes_zrem]; by vm_compute|].
    apply Forall_cons; split; [eapply HW; [|apply writes_zremrangebyrank]; by vm_compute|].
    apply Forall_cons; split; [eapply HW; [|apply writes_zremrangebyscore]; by vm_compute|].
    apply Forall_cons; split; [apply HR; [by vm_compute|apply reads_zcard]|].
    apply Forall_cons; split; [apply HR; [by vm_compute|apply reads_zcount]|].
    apply Forall_cons; split; [apply HR; [by vm_compute|apply reads_zscore]|].
    by apply Forall_nil.
  Qed.
  Lemma table_keeping : Forall (λ p, keeping p.2) (semTable E).
  Proof.
    unfold semTable.
    apply Forall_cons; split; [apply reads_keeping, reads_ping|].
    apply Forall_cons; split; [apply keeping_expire|].
    apply Forall_cons; split; [apply keeping_expire|].
    apply Forall_cons; split; [apply reads_keeping, reads_ttl|].
    apply Forall_cons; split; [apply reads_keeping, reads_keys|].
    apply Forall_cons; split; [apply keeping_set|].
    apply Forall_cons; split; [apply keeping_setex|].
    apply Forall_cons; split; [apply reads_keeping, reads_get|].
    apply Forall_cons; split; [apply reads_keeping, reads_randomget|].
    apply Forall_cons; split; [apply keeping_hset|].
    apply Forall_cons; split; [apply reads_keeping, reads_hget|].
    apply Forall_cons; split; [apply keeping_hdel|].
    apply Forall_cons; split; [apply reads_keeping, reads_hexists|].
    apply Forall_cons; split; [apply reads_keeping, reads_hkeys|].
    apply Forall_cons; split; [apply reads_keeping, reads_hlen|].
    apply Forall_cons; split; [apply keeping_push|].
    apply Forall_cons; split; [apply keeping_push|].
    apply Forall_cons; split; [apply keeping_pop|].
    apply Forall_cons; split; [apply keeping_pop|].
    apply Forall_cons; split; [apply reads_keeping, reads_llen|].
    apply Forall_cons; split; [apply reads_keeping, reads_lindex|].
    apply Forall_cons; split; [apply reads_keeping, reads_lrange|].
    apply Forall_cons; split; [apply keeping_sadd|].
    apply Forall_cons; split; [apply keeping_srem|].
    apply Forall_cons; split; [apply keeping_spop|].
    apply Forall_cons; split; [apply reads_keeping, reads_scard|].
    apply Forall_cons; split; [apply reads_keeping, reads_sismember|].
    apply Forall_cons; split; [apply reads_keeping, reads_smembers|].
    apply Forall_cons; split; [apply reads_keeping, reads_fold|].
    apply Forall_cons; split; [apply reads_keeping, reads_sinter|].
    apply Forall_cons; split; [apply reads_keeping, reads_fold|].
    apply Forall_cons; split; [apply keeping_zadd|].
    apply Forall_cons; split; [apply reads_keeping, reads_zrange|].
    apply Forall_cons; split; [apply reads_keeping, reads_zrangebyscore|].
    apply Forall_cons; split; [apply keeping_zrem|].
    apply Forall_cons; split; [apply keeping_zremrangebyrank|].
    apply Forall_cons; split; [apply keeping_zremrangebyscore|].
    apply Forall_cons; split; [apply reads_keeping, reads_zcard|].
    apply Forall_cons; split; [apply reads_keeping, reads_zcount|].
    apply Forall_cons; split; [apply reads_keeping, reads_zscore|].
    by apply Forall_nil.
  Qed.
  Lemma sem_keeping name args D D' r n : sem E name args D (Ok (Out D' r n)) → keeps D D'.
  Proof.
    intros (R & HR & HD). pose proof table_keeping as Hc. rewrite Forall_forall in Hc. by eapply (Hc (name, R)).
  Qed.
  Lemma sem_class name args D o : sem E name args D o → ∃ R, classified (name, R) ∧ R args D o.
  Proof.
    intros (R & HR & HD). exists R. split; [|done]. pose proof classify as Hc. rewrite Forall_forall in Hc. by apply Hc.
  Qed.
  Lemma arities_fun name ar ar' : (name, ar) ∈ arities → (name, ar') ∈ arities → ar = ar'.
  Proof.
    assert (NoDup (arities.*1)) as Hn by (apply (bool_decide_unpack _); by vm_compute).
    intros [i Hi]%elem_of_list_lookup [j Hj]%elem_of_list_lookup.
    assert (i = j) as ->; [|congruence]. eapply NoDup_lookup; [exact Hn| |]; by rewrite list_lookup_fmap, ?Hi, ?Hj.
  Qed.
  Lemma sem_reads name args D D' r n : name ∈ readers → sem E name args D (Ok (Out D' r n)) → n = 0 ∧ purged E D D'.
  Proof.
    intros Hr HH. apply sem_class in HH as (R & Hc & H). destruct Hc as [(_ & _ & _ & HR)|[(ar & _ & Hn & _)|[= -> _]]]; [by eapply HR|done|].
    exfalso. revert Hr. apply (bool_decide_unpack _). by vm_compute.
  Qed.
  Lemma sem_writes name ar args D D' r n : name ∈ writers ∨ name = B "zadd" ∧ scores_ok args →
    (name, ar) ∈ arities → accepts ar (zlen args) → sem E name args D (Ok (Out D' r n)) →
    ∃ key, args !! 1%nat = Some key ∧ same_but key D D' ∧ 0 ≤ n ∧ (n = 0 → purged E D D') ∧ (is_error r → n = 0).
  Proof.
    intros Hw Har Ha HH. apply sem_class in HH as (R & Hc & H). destruct Hw as [Hw|[-> Hs]].
    - destruct Hc as [(_ & Hn & _)|[(ar' & _ & _ & _ & Har' & HW)|[= -> _]]]; [done| |].
      + rewrite (arities_fun _ _ _ Har' Har) in HW. by eapply HW.
      + exfalso. revert Hw. apply (bool_decide_unpack _). by vm_compute.
    - destruct Hc as [(_ & _ & Hn & _)|[(ar' & _ & _ & Hn & _)|[= ->]]]; [done..|].
      rewrite (arities_fun (B "zadd") ar (-4) Har) in Ha by (apply (bool_decide_unpack _); by vm_compute).
      by eapply writes_zadd.
  Qed.
  Lemma sem_kinds name args D o : sem E name args D o → name ∈ readers ∨ name ∈ writers ∨ name = B "zadd".
  Proof.
    intros HH. apply sem_class in HH as (R & Hc & H). destruct Hc as [(? & _)|[(ar & ? & _)|[= -> _]]]; by auto.
  Qed.
End frame.
