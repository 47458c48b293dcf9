(** Refinement: KEYS, RANDOMGET and the set commands. *)
From Verif Require Import Base Float DictModel DictProofs DictProofs2 DictProofs3 DictProofs4 DictRun
  DatabaseModel SetModel SetProofs QuicklistModel QuicklistProofs SkiplistModel ZsetModel
  Strconv RespSpec ServerModel CommandModel CommandSem CommandInv CommandInv2 CommandProofs1.
From Coq Require Import ZifyBool ZifyNat.

Lemma iFirst {V} (d : dict bytes V) : dinv d →
  ∃ o, (r ← DictModel.Next d NewDictIterator; let '(d', it, e) := r in Ok (Release d' it, e)) = Ok (d, o) ∧
       (o = None ↔ d_map d = ∅).
Proof.
  intros [Hok Hi]. pose proof Hok as (Ht & Hnd & Hh & _). destruct (d_ht0 d) as [h|] eqn:E0.
  - destruct (Next_first_spec Hash d Ht) as (it' & o & EN & Hit' & Ho); [by rewrite E0|].
    rewrite EN. cbn [mbind res_bind]. exists o. rewrite remaining_init in Ho by (by rewrite E0). split.
    + rewrite Release_loop by (by destruct Hit'). simpl. rewrite Z.add_simpl_r. by destruct d.
    + rewrite <-map_size_empty_iff, (d_map_size d Hnd). destruct o as [e|].
      * rewrite Ho. done.
      * destruct Ho as [-> _]. done.
  - exists None. unfold DictModel.Next. rewrite E0. simpl. split.
    + unfold Release. rewrite Hi. by destruct d.
    + split; [|done]. intros _. by apply (d_map_uninit Hash).
Qed.

Lemma drop_keys_empty D : drop_keys ∅ D = D.
Proof.
  destruct D as [K T]. unfold drop_keys. simpl. f_equal; apply map_filter_id; intros; set_solver.
Qed.
Lemma lookup_drop (X : gset bytes) {A} (m : gmap bytes A) k :
  filter (λ p, p.1 ∉ X) m !! k = if decide (k ∈ X) then None else m !! k.
Proof.
  destruct (decide (k ∈ X)) as [Hk|Hk].
  - apply map_filter_lookup_None. right. intros x _. simpl. by intros ?.
  - destruct (m !! k) as [v|] eqn:Ek.
    + by apply map_filter_lookup_Some.
    + apply map_filter_lookup_None. by left.
Qed.
Lemma drop_add (X : gset bytes) {A} (m : gmap bytes A) k :
  filter (λ p, p.1 ∉ X ∪ {[k]}) m = delete k (filter (λ p, p.1 ∉ X) m).
Proof.
  apply map_eq. intros i. rewrite lookup_drop. destruct (decide (i = k)) as [->|Hne].
  - rewrite lookup_delete. rewrite decide_True by set_solver. done.
  - rewrite lookup_delete_ne by done. rewrite lookup_drop.
    destruct (decide (i ∈ X)); [rewrite decide_True by set_solver|rewrite decide_False by set_solver]; done.
Qed.

Section keys.
  Variable E : env.
  Variable f : bytes → bool.
  (** the keys of a prefix of the iteration that are matched and expired, that are matched and alive *)
  Definition dead (T : gmap bytes Z) (k : bytes) : bool :=
    match T !! k with Some when => when <? e_now E | None => false end.
  Definition gone (T : gmap bytes Z) (l : list bytes) : gset bytes :=
    list_to_set (filter (λ k, f k && dead T k = true) l).
  Definition live (T : gmap bytes Z) (l : list bytes) : list bytes :=
    filter (λ k, f k && negb (dead T k) = true) l.
  Lemma gone_snoc T l k : gone T (l ++ [k]) = if f k && dead T k then gone T l ∪ {[k]} else gone T l.
  Proof.
    unfold gone. rewrite filter_app, list_to_set_app_L. cbn [filter list_filter].
    destruct (f k && dead T k) eqn:Eb.
    - rewrite decide_True by done. simpl. set_solver.
    - rewrite decide_False by done. simpl. set_solver.
  Qed.
  Lemma live_snoc T l k : live T (l ++ [k]) = if f k && negb (dead T k) then live T l ++ [k] else live T l.
  Proof.
    unfold live. rewrite filter_app. cbn [filter list_filter].
    destruct (f k && negb (dead T k)) eqn:Eb.
    - by rewrite decide_True by done.
    - rewrite decide_False by done. by rewrite app_nil_r.
  Qed.
  Lemma keys_iterate (d : dict bytes value) (x : dict bytes Z) : dinv d → dinv x →
    ∃ d' x', iterate (keys_body E f) d (x, []) = Ok (d', (x', live (d_map x) (entries d).*1)) ∧
      dinv d' ∧ dinv x' ∧
      d_map d' = filter (λ p, p.1 ∉ gone (d_map x) (entries d).*1) (d_map d) ∧
      d_map x' = filter (λ p, p.1 ∉ gone (d_map x) (entries d).*1) (d_map x).
  Proof.
    intros [Hok Hi] Hx. set (T := d_map x).
    destruct (iterate_spec Hash (keys_body E f) (λ d1 st vis,
        dinv st.1 ∧ st.2 = live T vis.*1 ∧
        d_map d1 = filter (λ p, p.1 ∉ gone T vis.*1) (d_map d) ∧
        d_map st.1 = filter (λ p, p.1 ∉ gone T vis.*1) T) d (x, []))
      as (d' & [x' ks] & EI & Hok' & Hi' & _ & Hx' & Hks & Hd' & HT').
    - done.
    - intros d1 [x1 ks] e vis rest Hvis Hok1 Hn1 Hni1 (Hx1 & Hks & Hd1 & HT1). simpl in *. subst ks.
      assert (Hfresh : e.1 ∉ vis.*1).
      { destruct Hok as (_ & Hnd & _). rewrite <-Hvis, fmap_app in Hnd. simpl in Hnd.
        apply NoDup_app in Hnd as (_ & Hnd & _). intros Hin. eapply (Hnd _ Hin). by left. }
      assert (Hlook : d_map x1 !! e.1 = T !! e.1).
      { rewrite HT1, lookup_drop. rewrite decide_False; [done|].
        unfold gone. rewrite elem_of_list_to_set, elem_of_list_filter. by intros [_ ?]. }
      unfold keys_body. rewrite fmap_app. simpl fmap. rewrite gone_snoc, live_snoc. destruct (f e.1) eqn:Hf; simpl.
      2:{ eexists _, _. split; [done|]. split; [by apply keeps_rest_refl|]. done. }
      destruct (iFindEntry x1 e.1 Hx1) as (x2 & EF & Hx2 & Hm2). rewrite EF. simpl. rewrite Hlook.
      unfold dead. destruct (T !! e.1) as [when|] eqn:Et; simpl.
      2:{ eexists _, _. split; [done|]. split; [by apply keeps_rest_refl|]. simpl. by rewrite Hm2. }
      destruct (when <? e_now E) eqn:Ew; simpl.
      2:{ eexists _, _. split; [done|]. split; [by apply keeps_rest_refl|]. simpl. by rewrite Hm2. }
      destruct (Delete_spec Hash d1 e.1 Hok1) as (d2 & ED & Hok2 & Hmd2 & _). rewrite ED. simpl.
      destruct (iDelete x2 e.1 Hx2) as (x3 & r & ED3 & _ & Hx3 & Hm3). rewrite ED3. simpl.
      eexists _, _. split; [done|]. split.
      { destruct e as [k v]. eapply (Delete_keeps_rest Hash d1 k v); try done. }
      simpl. split; [done|]. split; [done|]. rewrite !drop_add. split; [by rewrite Hmd2, Hd1|].
      by rewrite Hm3, Hm2, HT1.
    - intros d1 st vis n HI. exact HI.
    - simpl. split; [done|]. split; [done|]. split; symmetry; apply map_filter_id; intros; set_solver.
    - simpl in *. subst ks. exists d', x'. rewrite EI. split; [done|]. split; [split; [done|congruence]|]. done.
  Qed.

  Lemma dead_spec D k : dead (a_ttl D) k = true ↔ expired E D k.
  Proof.
    unfold dead. rewrite expired_spec. by rewrite bool_decide_eq_true.
  Qed.
End keys.

Section keys2.
  Variable E : env.
  Lemma dict_size_run w0 N D out n w : At w0 N D out n w →
    ∃ w', on_dict (λ d, n ← Size d; Ok (d, n)) w = Ok (w', Z.of_nat (size (a_keys D))) ∧ At w0 N D out n w'.
  Proof.
    intros Ha. destruct (At_cur _ _ _ _ _ _ Ha) as (db & Hc & Hok & HD).
    destruct (on_dict_run w0 N N D out n w (λ d, n ← Size d; Ok (d, n)) (λ a _, a = Z.of_nat (size (d_map (db_dict db))))
      (d_map (db_dict db)) db Ha Hc) as (w1 & a & d1 & E1 & -> & Ha1 & _); [done| | | |].
    - intros d Hd _ Hm. eexists d, _. rewrite (iSize d Hd). rewrite Hm. done.
    - apply Hok.
    - eauto.
    - exists w1. split; [|by rewrite HD in Ha1 |- *]. rewrite E1, HD. simpl. by rewrite map_size_fmap.
  Qed.
  Lemma fmap_drop {A B} (g : A → B) (X : gset bytes) (m : gmap bytes A) :
    g <$> filter (λ p, p.1 ∉ X) m = filter (λ p, p.1 ∉ X) (g <$> m).
  Proof.
    apply map_eq. intros k. rewrite lookup_fmap, !lookup_drop, lookup_fmap. by destruct (decide (k ∈ X)).
  Qed.
  Lemma size_drop_le {A} (X : gset bytes) (m : gmap bytes A) : (size (filter (λ p, p.1 ∉ X) m) ≤ size m)%nat.
  Proof.
    rewrite <-!size_dom. apply subseteq_size. apply subseteq_dom, map_filter_subseteq.
  Qed.
  Lemma entries_keys {V} (d : dict bytes V) k : dinv d → k ∈ (entries d).*1 ↔ is_Some (d_map d !! k).
  Proof.
    intros [(_ & Hnd & _) _]. rewrite <-elem_of_dom. unfold d_map. by rewrite dom_list_to_map_L, elem_of_list_to_set.
  Qed.
  Lemma ref_keys : refines 2 (keysCommand E) (sem_keys E).
  Proof.
    intros args w0 N D w Har Ha Hroom. args_pos 1%nat args Har.
    enough (∃ ro, sem_keys E [b; b0] D ro ∧ ends w0 N (keysCommand E [b; b0] w) ro) as (ro & ? & ?).
    { exists ro. split; [done|]. eapply ends_mono; [|done]. lia. }
    destruct (dict_size_run _ _ _ _ _ _ Ha) as (w1 & E1 & Ha1).
    destruct (At_cur _ _ _ _ _ _ Ha1) as (db & Hc & Hok & HD).
    unfold keysCommand, sem_keys. fold (pattern_of E b0).
    destruct (pattern_of E b0) as [f|] eqn:Ep.
    - pose proof Hok as (Hd & Hx & Hds & Hxs).
      destruct (keys_iterate E f (db_dict db) (db_expire db) Hd Hx) as (d' & x' & EI & Hd' & Hx' & Hdm & Hxm).
      set (X := gone E f (d_map (db_expire db)) (entries (db_dict db)).*1) in *.
      set (ks := live E f (d_map (db_expire db)) (entries (db_dict db)).*1) in *.
      destruct (At_with_db w0 N N D [] 0 w1 db (DB d' x') Ha1 Hc) as (Ha2 & _ & _ & _); [done| | |].
      { split_and!; simpl; try done; rewrite ?Hdm, ?Hxm; (etrans; [apply size_drop_le|done]). }
      { simpl. rewrite Hdm. intros k o Hk. left. rewrite lookup_drop in Hk. by destruct (decide (k ∈ X)). }
      assert (HDX : abs_db (s_heap (w_srv w1)) (DB d' x') = drop_keys X D).
      { rewrite HD. unfold abs_db, drop_keys. simpl. by rewrite Hdm, Hxm, fmap_drop. }
      assert (HT : d_map (db_expire db) = a_ttl D) by (by rewrite HD).
      assert (HK : ∀ k, k ∈ (entries (db_dict db)).*1 ↔ is_Some (a_keys D !! k)).
      { intros k. rewrite entries_keys by done. rewrite HD. simpl. by rewrite lookup_fmap, fmap_is_Some. }
      assert (HX : X = filter (λ k, f k = true ∧ expired E D k) (dom (a_keys D))).
      { apply set_eq. intros k. unfold X, gone. rewrite elem_of_list_to_set, elem_of_list_filter, elem_of_filter, HK, elem_of_dom.
        rewrite HT, andb_true_iff, dead_spec. done. }
      eexists. split.
      { exists ks. split; [|split; [|reflexivity]].
        - apply NoDup_filter. by destruct Hd as [(_ & ? & _) _].
        - intros k. unfold ks, live. rewrite elem_of_list_filter, HK, HT, andb_true_iff, negb_true_iff.
          rewrite <-not_true_iff_false, dead_spec. tauto. }
      rewrite <-HX. eapply ends_bind; [by apply arg_run|]. eapply ends_bind; [done|].
      change (if decide (b0 = B "*") then Some (λ _, true) else lib_regexp (e_lib E) b0) with (pattern_of E b0). rewrite Ep.
      eapply ends_bind; [by apply get_db_run|].
      eapply ends_bind; [unfold lift; by rewrite EI|]. simpl fst. simpl snd.
      eapply ends_bind; [by apply put_db_run|]. rewrite HDX in Ha2. by apply rArray.
    - destruct (on_dict_run w0 N N D [] 0 w1 (λ d, r ← DictModel.Next d NewDictIterator;
                          let '(d', it, e) := r in Ok (Release d' it, e)) (λ a _, a = None ↔ d_map (db_dict db) = ∅)
      (d_map (db_dict db)) db Ha1 Hc) as (w2 & a & d1 & E2 & Hemp & Ha2 & _); [done| | | |].
      { intros d Hd _ Hm. destruct (iFirst d Hd) as (o & EF & Ho). exists d, o. rewrite Hm in Ho. done. }
      { apply Hok. }
      { eauto. }
      assert (Ha2' : At w0 N D [] 0 w2) by (by rewrite HD in Ha2 |- *).
      assert (Hemp' : a = None ↔ a_keys D = ∅).
      { rewrite Hemp, HD. simpl. by rewrite fmap_empty_iff. }
      eexists. split; [reflexivity|].
      eapply ends_bind; [by apply arg_run|]. eapply ends_bind; [done|].
      change (if decide (b0 = B "*") then Some (λ _, true) else lib_regexp (e_lib E) b0) with (pattern_of E b0). rewrite Ep.
      eapply ends_bind; [done|]. destruct a as [e|].
      + rewrite decide_False by (rewrite <-Hemp'; done). by apply rError.
      + rewrite decide_True by (by rewrite <-Hemp'). by apply rArray.
  Qed.

  (** * RANDOMGET *)
  Definition with_rs (w : world) (rs : list Z) : world := W (w_srv w) (w_cl w) rs.
  Lemma At_rnd w0 N D out n w rs : At w0 N D out n w → Forall (λ r, 0 ≤ r) rs → At w0 N D out n (with_rs w rs).
  Proof.
    intros [[H1 H2 H3 H4] H5 H6 H7 H8 H9 H10] Hrs. by split.
  Qed.
  Lemma drop_keys_purge X k D : expired E (drop_keys X D) k →
    purge E k (drop_keys X D) = drop_keys (X ∪ {[k]}) D.
  Proof.
    intros Hx. unfold purge. rewrite decide_True by done. unfold remove_key, drop_keys. simpl. by rewrite !drop_add.
  Qed.
  Lemma expired_drop X k D : expired E (drop_keys X D) k → expired E D k.
  Proof.
    intros (when & Hw & Hlt). exists when. split; [|done]. simpl in Hw. rewrite lookup_drop in Hw.
    by destruct (decide (k ∈ X)).
  Qed.
  Lemma random_loop_run w0 N D fuel : ∀ X w,
    (∀ k, k ∈ X → expired E D k) → At w0 N (drop_keys X D) [] 0 w →
    ∃ ro, sem_randomget E [] D ro ∧ ends w0 N (random_loop E fuel w) ro.
  Proof.
    induction fuel as [|fuel IH]; intros X w HX Ha.
    { exists OutOfFuel. split; [by left|done]. }
    cbn [random_loop].
    destruct (At_cur _ _ _ _ _ _ Ha) as (db & Hc & Hok & HD). pose proof Hok as (Hd & Hx & Hds & Hxs).
    destruct Hd as [Hokd Hid].
    assert (Hrs : Forall (λ r, 0 ≤ r) (w_rnd w)) by apply (at_ok _ _ _ _ _ _ Ha).
    rewrite (bind_ok _ _ _ _ _ (get_db_run w db Hc)).
    destruct (GetRandomKey_spec Hash (db_dict db) (w_rnd w) Hokd Hrs) as [G1 G2].
    assert (Hkeys : a_keys (drop_keys X D) = abs_val (s_heap (w_srv w)) <$> d_map (db_dict db)) by (by rewrite HD).
    destruct (decide (d_map (db_dict db) = ∅)) as [He|Hne].
    - specialize (G1 He).
      assert (EW : with_rnd (λ rs, r ← GetRandomKey Hash (db_dict db) rs; Ok (r.1.1, r.1.2, r.2)) w
                   = Ok (with_rs w (w_rnd w), (db_dict db, None))).
      { unfold with_rnd. rewrite G1. done. }
      rewrite (bind_ok _ _ _ _ _ EW). simpl fst. simpl snd.
      rewrite (bind_ok _ _ _ _ _ (put_db_run _ _)).
      destruct (At_with_db w0 N N _ [] 0 (with_rs w (w_rnd w)) db (DB (db_dict db) (db_expire db))
        (At_rnd _ _ _ _ _ _ _ Ha Hrs) Hc) as (Ha2 & _ & _ & _); [done|done|eauto|].
      eexists. split; [right; exists X; split; [done|]; left; split; [|reflexivity]|].
      + rewrite Hkeys, He. apply fmap_empty.
      + rewrite HD. exact (rNull _ _ _ _ _ Ha2).
    - destruct (G2 Hne) as [G|(d' & k & v & rs' & G & Hk & Hok' & Hm' & Hi' & _ & rs0 & Hrs0)].
      { exists OutOfFuel. split; [by left|]. simpl. apply bind_fuel. unfold with_rnd. by rewrite G. }
      assert (EW : with_rnd (λ rs, r ← GetRandomKey Hash (db_dict db) rs; Ok (r.1.1, r.1.2, r.2)) w
                   = Ok (with_rs w rs', (d', Some (k, v)))).
      { unfold with_rnd. rewrite G. done. }
      rewrite (bind_ok _ _ _ _ _ EW). simpl fst. simpl snd.
      assert (Hrs' : Forall (λ r, 0 ≤ r) rs') by (rewrite Hrs0 in Hrs; by apply Forall_app in Hrs as [_ ?]).
      destruct (At_with_db w0 N N _ [] 0 (with_rs w rs') db (DB d' (db_expire db))
        (At_rnd _ _ _ _ _ _ _ Ha Hrs') Hc) as (Ha2 & _ & _ & _); [done| | |].
      { split; [split; simpl; [done|congruence]|]. simpl. by rewrite Hm'. }
      { simpl. rewrite Hm'. eauto. }
      rewrite (bind_ok _ _ _ _ _ (put_db_run _ _)).
      assert (HD2 : abs_db (s_heap (w_srv (with_rs w rs'))) (DB d' (db_expire db)) = drop_keys X D).
      { rewrite HD. unfold abs_db. simpl. by rewrite Hm'. }
      rewrite HD2 in Ha2.
      destruct (expireIfNeeded_run E k _ _ _ _ _ _ Ha2) as (w3 & E3 & Ha3 & _). simpl fst.
      rewrite (bind_ok _ _ _ _ _ E3). case_bool_decide as Hexp.
      + rewrite drop_keys_purge in Ha3 by done. apply (IH (X ∪ {[k]})); [|done].
        intros k' Hk'. apply elem_of_union in Hk' as [?| ->%elem_of_singleton]; [by apply HX|by eapply expired_drop].
      + unfold purge in Ha3. rewrite decide_False in Ha3 by done.
        eexists. split; [right; exists X; split; [done|]; right; exists k; split; [|split; [done|reflexivity]]|].
        * rewrite Hkeys, lookup_fmap, Hk. by eexists.
        * by apply rBulk.
  Qed.
  Lemma ref_randomget : refines 1 (randomGetCommand E) (sem_randomget E).
  Proof.
    intros args w0 N D w Har Ha Hroom.
    destruct (random_loop_run w0 N D (S (length (w_rnd w))) ∅ w) as (ro & H1 & H2).
    - set_solver.
    - by rewrite drop_keys_empty.
    - exists ro. split; [done|]. unfold randomGetCommand. eapply ends_mono; [|exact H2]. lia.
  Qed.
End keys2.
