(** Refinement: the set commands. *)
From Verif Require Import Base Float DictModel DictProofs DictProofs2 DictProofs3 DictProofs4 DictRun
  DatabaseModel SetModel SetProofs QuicklistModel QuicklistProofs SkiplistModel ZsetModel
  Strconv RespSpec ServerModel CommandModel CommandSem CommandInv CommandInv2 CommandProofs1 CommandProofs2.
From Coq Require Import ZifyBool ZifyNat.

(** an object replaced by one with the same abstract value *)
Lemma At_store_same w0 N D out n w o x x' : At w0 N D out n w → s_heap (w_srv w) !! o = Some x →
  obj_ok N x' → abs_obj x' = abs_obj x → At w0 N D out n (with_heap_at w o x').
Proof.
  intros Ha Hx Hx' Habs. pose proof (at_ok _ _ _ _ _ _ Ha) as [[H1 H2 H3 H4] H5 H6 H7].
  assert (Hlt : (o < length (s_heap (w_srv w)))%nat) by (by eapply lookup_lt_Some).
  split; try (by destruct Ha).
  - split; try done. split; simpl; try done.
    + by apply Forall_insert.
    + etrans; [apply subseteq_size, all_members_insert|]. eapply members_same_size; [exact Hx|done|].
      destruct x, x'; try done. simpl in *. by injection Habs as ->.
    + by rewrite insert_length.
  - rewrite <-(at_dbs _ _ _ _ _ _ Ha). unfold abs_dbs. simpl. apply list_fmap_ext. intros i db _.
    unfold abs_db. f_equal. apply map_fmap_ext. intros k v _. destruct v as [s|o']; [done|]. simpl.
    destruct (decide (o' = o)) as [->|Hne].
    + rewrite list_lookup_insert by done. by rewrite Hx.
    + by rewrite list_lookup_insert_ne.
Qed.
Lemma on_obj_same {X A} (k : kind X) w0 N D out n w o (x x' : X) (f : X → res (X * A)) a :
  kind_ok k → At w0 N D out n w → s_heap (w_srv w) !! o = Some (k_in k x) → f x = Ok (x', a) →
  obj_ok N (k_in k x') → abs_obj (k_in k x') = abs_obj (k_in k x) →
  on_obj k o f w = Ok (with_heap_at w o (k_in k x'), a) ∧ At w0 N D out n (with_heap_at w o (k_in k x')).
Proof.
  intros [Hk1 _] Ha Hx Hf Hx' Habs. split; [|by eapply At_store_same].
  unfold on_obj. rewrite (bind_ok _ _ _ _ _ (load_run w o _ Hx)).
  rewrite Hk1. unfold mbind, M_bind, lift. simpl. rewrite Hf. done.
Qed.

Section sets.
  Variable E : env.
  Lemma set_in_all w0 N D out n w key o x : At w0 N D out n w → points w key o (OSet x) →
    members x ⊆ all_members (s_heap (w_srv w)) ∧ (size (members x) ≤ N)%nat ∧ dinv x.
  Proof.
    intros Ha Hp. pose proof Hp as [_ Hx]. pose proof (all_members_lookup _ _ _ Hx) as Hs. simpl in Hs.
    split; [done|]. split; [|by destruct (At_points _ _ _ _ _ _ _ _ _ Ha Hp) as (_ & ? & _)].
    etrans; [by apply subseteq_size|]. by eapply At_members.
  Qed.
  Lemma sadd_loop_run key o w0 l : ∀ x created M D n w,
    At w0 M D [] n w → points w key o (OSet x) → small (M + length l) →
    ∃ w', sadd_loop o l created w = Ok (w', created + grown (members x) (sadd_all l (members x))) ∧
      At w0 (M + length l) (put_val key (ASet (sadd_all l (members x))) D) [] (n + zlen l) w'.
  Proof.
    induction l as [|m l IH]; intros x created M D n w Ha Hp Hsm.
    - exists w. unfold sadd_all. simpl. rewrite (left_id_L ∅ (∪)). unfold grown. rewrite Z.sub_diag, Z.add_0_r.
      split; [done|]. rewrite put_val_id; [|by destruct (At_points _ _ _ _ _ _ _ _ _ Ha Hp)].
      rewrite Nat.add_0_r. change (zlen (@nil bytes)) with 0. by rewrite Z.add_0_r.
    - destruct (set_in_all _ _ _ _ _ _ _ _ _ Ha Hp) as (Hin & Hsz & Hi).
      cbn [sadd_loop]. destruct (Add_spec Hash x m Hi) as (x' & Es & Hi' & Hm' & _).
      { eapply small_mono; [|exact Hsm]. lia. }
      destruct (on_obj_run KSet w0 M (S M) D [] n w key o x x' (λ s, Add Hash s m)
        (bool_decide (m ∉ members x)) KSet_ok Ha Hp) as (w1 & E1 & Ha1 & Hp1 & _); [lia|exact Es|done| |].
      { simpl. rewrite Hm'. pose proof (At_members _ _ _ _ _ _ Ha).
        etrans; [apply (subseteq_size _ ({[m]} ∪ all_members (s_heap (w_srv w)))); set_solver|].
        rewrite size_union_alt, size_singleton.
        assert (size (all_members (s_heap (w_srv w)) ∖ {[m]}) ≤ size (all_members (s_heap (w_srv w))))%nat
          by (apply subseteq_size; set_solver). lia. }
      rewrite (bind_ok _ _ _ _ _ E1).
      destruct (At_dirty_points _ _ _ _ _ _ 1 _ _ _ Ha1 Hp1) as (w2 & E2 & Ha2 & Hp2 & _).
      rewrite (bind_ok _ _ _ _ _ E2).
      destruct (IH x' (if bool_decide (m ∉ members x) then created + 1 else created) (S M) _ _ w2 Ha2 Hp2)
        as (w3 & E3 & Ha3).
      { eapply small_mono; [|exact Hsm]. simpl. lia. }
      assert (Hall : sadd_all l (members x') = sadd_all (m :: l) (members x)).
      { unfold sadd_all. rewrite Hm'. cbn [list_to_set]. set_solver. }
      exists w3. split.
      + rewrite E3. rewrite Hall. do 2 f_equal. unfold grown.
        case_bool_decide as Hf.
        * rewrite Hm', size_union by set_solver. rewrite size_singleton. lia.
        * rewrite Hm'. replace ({[m]} ∪ members x) with (members x) by set_solver. done.
      + rewrite put_val_twice, Hall in Ha3. eapply At_mono; [|rewrite zlen_cons, Z.add_assoc; exact Ha3].
        simpl. lia.
  Qed.
  Lemma ref_sadd : refines (-3) sAddCommand sem_sadd.
  Proof.
    intros args w0 N D w Har Ha Hroom. args_neg3 args Har. eexists. split; [done|].
    eapply (new_frame KSet AKSet fSet ErrWrongType b0 _ _ _ N); try done.
    - apply relSet.
    - simpl. lia.
    - by eapply room_small.
    - intros w1 D1 o x Ha1 Hp1 Hx1 _. change (drop 2 (b :: b0 :: b1 :: args)) with (b1 :: args).
      destruct (sadd_loop_run b0 o w0 (b1 :: args) x 0 _ _ _ w1 Ha1 Hp1) as (w2 & E2 & Ha2).
      { eapply small_mono; [|exact Hroom]. cbn [length]. lia. }
      eapply ends_bind; [done|]. unfold out_of. cbn [mbind res_bind].
      eapply ends_mono; [|rewrite Z.add_0_l in Ha2 |- *; by apply rInt]. cbn [length]. lia.
  Qed.

  Lemma members_del_size (x : gset bytes) h N m : x ⊆ all_members h → (size (all_members h) ≤ N)%nat →
    (size ((x ∖ {[m]}) ∪ all_members h) ≤ N)%nat.
  Proof. intros Hx HN. etrans; [|exact HN]. apply subseteq_size. set_solver. Qed.
  Lemma srem_loop_run key o w0 N l : ∀ x deleted D n w,
    At w0 N D [] n w → points w key o (OSet x) →
    ∃ w', srem_loop o l deleted w = Ok (w', deleted + grown (srem_all l (members x)) (members x)) ∧
      At w0 N (put_val key (ASet (srem_all l (members x))) D) [] (n + grown (srem_all l (members x)) (members x)) w'.
  Proof.
    induction l as [|m l IH]; intros x deleted D n w Ha Hp.
    - exists w. unfold srem_all. simpl. rewrite difference_empty_L. unfold grown. rewrite Z.sub_diag, !Z.add_0_r.
      split; [done|]. rewrite put_val_id; [done|]. by destruct (At_points _ _ _ _ _ _ _ _ _ Ha Hp).
    - destruct (set_in_all _ _ _ _ _ _ _ _ _ Ha Hp) as (Hin & Hsz & Hi).
      cbn [srem_loop]. destruct (SDelete_spec Hash x m Hi) as (x' & e & Ed & He & Hi' & Hm' & _).
      destruct (on_obj_run KSet w0 N N D [] n w key o x x' (λ s, SDelete Hash s m) e KSet_ok Ha Hp)
        as (w1 & E1 & Ha1 & Hp1 & _); [lia|exact Ed|done| |].
      { simpl. rewrite Hm'. apply members_del_size; [done|]. by eapply At_members. }
      rewrite (bind_ok _ _ _ _ _ E1).
      assert (Hall : srem_all (m :: l) (members x) = srem_all l (members x')).
      { unfold srem_all. rewrite Hm'. cbn [list_to_set]. set_solver. }
      rewrite Hall.
      assert (Hgr : grown (srem_all l (members x')) (members x)
        = (if e then 0 else 1) + grown (srem_all l (members x')) (members x')).
      { unfold grown. rewrite Hm'. destruct e as [e|].
        - assert (m ∉ members x) by (intros Hc%He; done).
          replace (members x ∖ {[m]}) with (members x) by set_solver. lia.
        - assert (Hmx : m ∈ members x) by (by apply He).
          rewrite (size_difference (members x) {[m]}) by set_solver. rewrite size_singleton.
          assert (size (members x) ≠ 0%nat); [|lia]. intros H0%size_empty_inv. set_solver. }
      rewrite Hgr. destruct e as [e|].
      + destruct (IH x' deleted _ _ w1 Ha1 Hp1) as (w2 & E2 & Ha2). exists w2.
        rewrite Z.add_0_l. split; [done|]. by rewrite put_val_twice in Ha2.
      + destruct (At_dirty_points _ _ _ _ _ _ 1 _ _ _ Ha1 Hp1) as (w2 & E2 & Ha2 & Hp2 & _).
        rewrite (bind_ok _ _ _ _ _ E2).
        destruct (IH x' (deleted + 1) _ _ w2 Ha2 Hp2) as (w3 & E3 & Ha3). exists w3.
        rewrite !Z.add_assoc. split; [done|]. by rewrite put_val_twice in Ha3.
  Qed.
  Lemma ref_srem : refines (-3) (sRemCommand E) (sem_srem E).
  Proof.
    intros args w0 N D w Har Ha Hroom. args_neg3 args Har. eexists. split; [done|].
    eapply (ends_mono _ N); [lia|].
    apply (existing_frame KSet AKSet fSet) with (N := N); try done; [apply relSet|apply rInt|].
    intros w1 D1 o x Ha1 Hp1 Hx Hkey. cbn [drop].
    destruct (srem_loop_run b0 o w0 N (b1 :: args) x 0 _ _ w1 Ha1 Hp1) as (w2 & E2 & Ha2).
    eapply ends_bind; [done|]. rewrite Z.add_0_l in Ha2 |- *. by apply rInt.
  Qed.
  Lemma ref_scard : refines 2 (sCardCommand E) (sem_scard E).
  Proof.
    intros args w0 N D w Har Ha Hroom. args_pos 1%nat args Har. eexists. split; [done|].
    eapply (ends_mono _ N); [lia|].
    apply (existing_frame KSet AKSet fSet) with (N := N); try done; [apply relSet|apply rInt|].
    intros w1 D1 o x Ha1 Hp1 Hi Hkey.
    eapply (read_body KSet AKSet fSet); try done; [apply relSet|by rewrite (SSize_spec Hash x Hi)|].
    apply rInt.
  Qed.
  Lemma ref_sismember : refines 3 (sIsMemberCommand E) (sem_sismember E).
  Proof.
    intros args w0 N D w Har Ha Hroom. args_pos 2%nat args Har. eexists. split; [done|].
    eapply (ends_mono _ N); [lia|].
    apply (existing_frame KSet AKSet fSet) with (N := N); try done; [apply relSet|apply rInt|].
    intros w1 D1 o x Ha1 Hp1 [Hok Hi] Hkey. eapply ends_bind; [by apply arg_run|].
    destruct (Contains_spec Hash x b1 Hok) as (x' & EC & Hok' & Hm' & Hi' & _).
    eapply (read_body KSet AKSet fSet); try done; [apply relSet|split; [done|congruence]| |].
    - unfold fSet, members. by rewrite Hm'.
    - unfold fSet. case_bool_decide as Hb; [rewrite decide_True by done|rewrite decide_False by done]; apply rInt.
  Qed.

  Lemma set_at_cases D key v : a_keys D !! key = Some v → ak_out AKSet v = None → set_at D key = Some (inr tt).
  Proof. unfold set_at. intros ->. by destruct v. Qed.

  Lemma ref_spop : refines 2 (sPopCommand E) (sem_spop E).
  Proof.
    intros args w0 N D w Har Ha Hroom. args_pos 1%nat args Har.
    enough (∃ ro, sem_spop E [b; b0] D ro ∧ ends w0 N (sPopCommand E [b; b0] w) ro) as (ro & ? & ?).
    { exists ro. split; [done|]. eapply ends_mono; [|done]. lia. }
    unfold sPopCommand.
    destruct (get_if_exist_run KSet AKSet fSet E b0 _ _ _ _ _ _ relSet Ha) as (w1 & r & E1 & Ha1 & _ & _ & Hr).
    destruct Hr as [[Hn ->]|[(v & Hv & Hvo & ->)|(o & x & -> & Hp & Hv & Hvo & Hi)]].
    - eexists. simpl. unfold set_at. rewrite Hn. split; [done|].
      eapply ends_bind; [by apply arg_run|]. eapply ends_bind; [done|]. by apply rNull.
    - exists (Ok (Out (purge E b0 D) RWrong 0)). split.
      + simpl. by rewrite (set_at_cases _ _ _ Hv Hvo).
      + eapply ends_bind; [by apply arg_run|]. eapply ends_bind; [done|]. by apply rError.
    - simpl in Hi.
      destruct (on_obj_read KSet w0 N _ [] 0 w1 b0 o x x (λ s, n ← SSize s; Ok (s, n)) (Z.of_nat (size (members x))) KSet_ok Ha1 Hp)
          as (w2 & E2 & Ha2 & Hp2 & _); [by rewrite (SSize_spec Hash x Hi)|done|done|].
      assert (Hsem : ∀ ro, (members x = ∅ ∧ ro = Ok (Out (purge E b0 D) RNull 0) ∨
            members x ≠ ∅ ∧ (ro = OutOfFuel ∨
                     ∃ m, m ∈ members x ∧ ro = Ok (Out (put_val b0 (ASet (members x ∖ {[m]})) (purge E b0 D)) (RBulk m) 1)))
            → sem_spop E [b; b0] D ro).
      { intros ro Hro. simpl. unfold set_at. rewrite Hv. exact Hro. }
      destruct (decide (members x = ∅)) as [He|Hne].
      { eexists. split; [apply Hsem; left; done|].
        eapply ends_bind; [by apply arg_run|]. eapply ends_bind; [done|]. cbn iota.
        eapply ends_bind; [done|]. rewrite He, size_empty. by apply rNull. }
      assert (Hpos : (Z.of_nat (size (members x)) =? 0) = false).
      { apply Z.eqb_neq. intros H0. apply Hne. apply leibniz_equiv, size_empty_inv. lia. }
      assert (Hrs : Forall (λ r, 0 ≤ r) (w_rnd w2)) by apply (at_ok _ _ _ _ _ _ Ha2).
      pose proof Hp2 as [_ Hx2].
      destruct (GetRandom_spec Hash x (w_rnd w2) Hi Hrs Hne) as [HG|(x' & m & rs' & HG & Hm & Hi' & Hmx & _ & rs0 & Hrs0)].
      { exists OutOfFuel. split; [apply Hsem; right; split; [done|by left]|].
        eapply ends_bind; [by apply arg_run|]. eapply ends_bind; [done|]. cbn iota.
        eapply ends_bind; [done|]. rewrite Hpos. simpl. apply bind_fuel.
        unfold on_obj_rnd. rewrite (bind_ok _ _ _ _ _ (load_run w2 o _ Hx2)). simpl.
        unfold mbind, M_bind, lift, with_rnd. simpl. by rewrite HG. }
      assert (Hrs' : Forall (λ r, 0 ≤ r) rs') by (rewrite Hrs0 in Hrs; by apply Forall_app in Hrs as [_ ?]).
      set (w3 := with_heap_at (with_rs w2 rs') o (OSet x')).
      assert (E3 : on_obj_rnd KSet o (GetRandom Hash) w2 = Ok (w3, m)).
      { unfold on_obj_rnd. rewrite (bind_ok _ _ _ _ _ (load_run w2 o _ Hx2)). simpl.
        unfold mbind, M_bind, lift, with_rnd. simpl. by rewrite HG. }
      assert (Hp2' : points (with_rs w2 rs') b0 o (OSet x)) by done.
      destruct (At_store w0 N N _ [] 0 (with_rs w2 rs') b0 o (OSet x) (OSet x')
        (At_rnd _ _ _ _ _ _ _ Ha2 Hrs') Hp2') as [Ha3 Hp3]; [done|done| |].
      { eapply members_same_size; [exact Hx2|exact (At_members _ _ _ _ _ _ Ha2)|by simpl; rewrite Hmx]. }
      fold w3 in Ha3, Hp3. simpl abs_obj in Ha3. rewrite Hmx in Ha3. rewrite put_val_id in Ha3 by done.
      destruct (SDelete_spec Hash x' m Hi') as (x4 & e & Ed & He & Hi4 & Hm4 & _).
      destruct (set_in_all _ _ _ _ _ _ _ _ _ Ha3 Hp3) as (Hin & Hsz & _).
      destruct (on_obj_run KSet w0 N N _ [] 0 w3 b0 o x' x4 (λ s, SDelete Hash s m) e KSet_ok Ha3 Hp3)
        as (w4 & E4 & Ha4 & Hp4 & _); [lia|exact Ed|done| |].
      { simpl. rewrite Hm4. exact (members_del_size _ _ _ _ Hin (At_members _ _ _ _ _ _ Ha3)). }
      assert (e = None) as -> by (apply He; by rewrite Hmx).
      simpl abs_obj in Ha4. rewrite Hm4, Hmx in Ha4.
      eexists. split; [apply Hsem; right; split; [done|]; right; exists m; split; [done|reflexivity]|].
      eapply ends_bind; [by apply arg_run|]. eapply ends_bind; [done|]. cbn iota.
      eapply ends_bind; [done|]. rewrite Hpos. eapply ends_bind; [done|]. eapply ends_bind; [done|]. cbn iota.
      apply (dirty_ok w0 _ _ 0 _ 1); [done|apply rBulk].
  Qed.

  (** * Set algebra *)
  Definition sref_ok (w : world) (s : sref) (S : gset bytes) : Prop :=
    match s with
    | SHeap o => ∃ x, s_heap (w_srv w) !! o = Some (OSet x) ∧ members x = S
    | SLocal d => dinv d ∧ members d = S
    end.
  (** all sets involved lie within A *)
  Definition within (A : gset bytes) (N : nat) (w : world) (S : gset bytes) : Prop :=
    S ⊆ A ∧ all_members (s_heap (w_srv w)) ⊆ A ∧ (size A ≤ N)%nat.
  Lemma all_members_same h o x x' : h !! o = Some x → obj_members x' = obj_members x →
    all_members (<[o := x']> h) ⊆ all_members h.
  Proof.
    intros Hx Hm. etrans; [apply all_members_insert|]. pose proof (all_members_lookup _ _ _ Hx). set_solver.
  Qed.
  Lemma heap_obj_ok w0 N D out n w o x : At w0 N D out n w → s_heap (w_srv w) !! o = Some x → obj_ok N x.
  Proof.
    intros Ha Hx. pose proof (at_ok _ _ _ _ _ _ Ha) as Hw.
    apply (Forall_lookup_1 _ _ _ _ (so_heap _ _ (wo_srv _ _ Hw)) Hx).
  Qed.

  Definition op_spec (op : dict bytes unit → dict bytes unit → res (dict bytes unit * dict bytes unit * dict bytes unit))
      (op_self : dict bytes unit → res (dict bytes unit * dict bytes unit)) (opS : gset bytes → gset bytes → gset bytes) : Prop :=
    (∀ d d2, dinv d → dinv d2 → small (size (members d) + size (members d2)) →
       ∃ d2' r, op d d2 = Ok (d, d2', r) ∧ dinv r ∧ members r = opS (members d) (members d2) ∧
                dinv d2' ∧ members d2' = members d2) ∧
    (∀ d, dinv d → small (size (members d) + size (members d)) →
       ∃ r, op_self d = Ok (d, r) ∧ dinv r ∧ members r = opS (members d) (members d)) ∧
    (∀ X Y, opS X Y ⊆ X ∪ Y).

  Lemma set_op_run op op_self opS w0 N D w s S A o2 x2 :
    op_spec op op_self opS → At w0 N D [] 0 w → small (2 * N) → sref_ok w s S → within A N w S →
    s_heap (w_srv w) !! o2 = Some (OSet x2) →
    ∃ w' s', set_op op op_self s o2 w = Ok (w', s') ∧ At w0 N D [] 0 w' ∧
      sref_ok w' s' (opS S (members x2)) ∧ within A N w' (opS S (members x2)).
  Proof.
    intros (Hop & Hself & Hsub) Ha Hsm Hs (HA1 & HA2 & HA3) Hx2.
    pose proof (heap_obj_ok _ _ _ _ _ _ _ _ Ha Hx2) as Hi2. simpl in Hi2.
    pose proof (all_members_lookup _ _ _ Hx2) as Hsub2. simpl in Hsub2.
    assert (Hsz2 : (size (members x2) ≤ N)%nat).
    { etrans; [|exact HA3]. apply subseteq_size. set_solver. }
    assert (HszS : (size S ≤ N)%nat).
    { etrans; [|exact HA3]. by apply subseteq_size. }
    assert (HoA : opS S (members x2) ⊆ A).
    { etrans; [apply Hsub|]. set_solver. }
    destruct s as [o|d]; simpl in Hs.
    - destruct Hs as (x & Hx & <-). pose proof (heap_obj_ok _ _ _ _ _ _ _ _ Ha Hx) as Hi. simpl in Hi.
      unfold set_op. destruct (decide (o = o2)) as [->|Hne].
      + assert (x2 = x) as -> by congruence.
        destruct (Hself x Hi) as (r & ER & Hr & Hmr); [eapply small_mono; [|exact Hsm]; lia|].
        destruct (on_obj_same KSet w0 N D [] 0 w o2 x x op_self r KSet_ok Ha Hx ER) as [E1 Ha1]; [done|done|].
        rewrite (bind_ok _ _ _ _ _ E1). eexists _, _. split; [done|]. split; [done|]. split; [done|].
        split; [done|]. split; [|done]. simpl. etrans; [by eapply all_members_same|done].
      + destruct (Hop x x2 Hi Hi2) as (d2' & r & ER & Hr & Hmr & Hi2' & Hm2'); [eapply small_mono; [|exact Hsm]; lia|].
        rewrite (bind_ok _ _ _ _ _ (load_run w o _ Hx)). simpl k_out.
        change (lift (deref (Some x)) ≫= ?f) with (λ w, f x w). cbv beta.
        destruct (on_obj_same KSet w0 N D [] 0 w o2 x2 d2' (λ d2, r ← op x d2; let '(d', d2', res) := r in Ok (d2', (d', res)))
          (x, r) KSet_ok Ha Hx2) as [E1 Ha1]; [by rewrite ER|done|simpl; by rewrite Hm2'|].
        rewrite (bind_ok _ _ _ _ _ E1). simpl fst. simpl snd.
        set (w1 := with_heap_at w o2 (k_in KSet d2')) in *.
        assert (Hx1 : s_heap (w_srv w1) !! o = Some (OSet x)).
        { simpl. by rewrite list_lookup_insert_ne. }
        rewrite (bind_ok _ _ _ _ _ (store_run w1 o (OSet x))).
        eexists _, _. split; [done|]. split; [by eapply At_store_same|]. split; [done|].
        split; [done|]. split; [|done].
        etrans; [by eapply (all_members_same (s_heap (w_srv w1)))|].
        etrans; [eapply (all_members_same (s_heap (w_srv w))); [exact Hx2|by simpl]|done].
    - destruct Hs as [Hi <-]. unfold set_op.
      destruct (Hop d x2 Hi Hi2) as (d2' & r & ER & Hr & Hmr & Hi2' & Hm2'); [eapply small_mono; [|exact Hsm]; lia|].
      destruct (on_obj_same KSet w0 N D [] 0 w o2 x2 d2' (λ d2, r ← op d d2; let '(d', d2', res) := r in Ok (d2', res))
          r KSet_ok Ha Hx2) as [E1 Ha1]; [by rewrite ER|done|simpl; by rewrite Hm2'|].
      rewrite (bind_ok _ _ _ _ _ E1). eexists _, _. split; [done|]. split; [done|]. split; [done|].
      split; [done|]. split; [|done].
      etrans; [eapply (all_members_same (s_heap (w_srv w))); [exact Hx2|by simpl]|done].
  Qed.

  Lemma sref_ok_heap w w' s S : s_heap (w_srv w') = s_heap (w_srv w) → sref_ok w s S → sref_ok w' s S.
  Proof. intros Hh. destruct s; simpl; by rewrite ?Hh. Qed.
  Lemma within_heap A N w w' S : s_heap (w_srv w') = s_heap (w_srv w) → within A N w S → within A N w' S.
  Proof. unfold within. by intros ->. Qed.

  Lemma set_loop_run op op_self opS w0 N A keys : op_spec op op_self opS → small (2 * N) → ∀ w D s S,
    At w0 N D [] 0 w → sref_ok w s S → within A N w S →
    ∃ w' r, set_loop E op op_self s keys w = Ok (w', r) ∧ At w0 N (set_fold opS E S keys D).1 [] 0 w' ∧
      match (set_fold opS E S keys D).2 with
      | inl S' => ∃ s', r = inl s' ∧ sref_ok w' s' S' ∧ within A N w' S'
      | inr rep => rep = RWrong ∧ r = inr ErrWrongType
      end.
  Proof.
    intros Hop Hsm. induction keys as [|key keys IH]; intros w D s S Ha Hs HA.
    { exists w, (inl s). split; [done|]. split; [done|]. by exists s. }
    cbn [set_loop set_fold].
    destruct (get_if_exist_run KSet AKSet fSet E key _ _ _ _ _ _ relSet Ha) as (w1 & r & E1 & Ha1 & Hh1 & _ & Hr).
    rewrite (bind_ok _ _ _ _ _ E1).
    apply (sref_ok_heap _ w1) in Hs; [|done]. apply (within_heap _ _ _ w1) in HA; [|done].
    destruct Hr as [[Hn ->]|[(v & Hv & Hvo & ->)|(o & x & -> & Hp & Hv & Hvo & Hi)]].
    - unfold set_at. rewrite Hn. by apply IH.
    - rewrite (set_at_cases _ _ _ Hv Hvo). by eexists w1, _.
    - pose proof Hp as [_ Hx].
      destruct (set_op_run op op_self opS w0 N _ w1 s S A o x Hop Ha1 Hsm Hs HA Hx) as (w2 & s2 & E2 & Ha2 & Hs2 & HA2).
      rewrite (bind_ok _ _ _ _ _ E2). unfold set_at. rewrite Hv. simpl. by apply IH.
  Qed.
  Lemma inter_loop_run w0 N A keys : op_spec (Intersect Hash) (Intersect_self Hash) (∩) → small (2 * N) → ∀ w D s S,
    At w0 N D [] 0 w → sref_ok w s S → within A N w S →
    ∃ w' r, inter_loop E s keys w = Ok (w', r) ∧ At w0 N (inter_fold E S keys D).1 [] 0 w' ∧
      match (inter_fold E S keys D).2 with
      | inl S' => ∃ s', r = inl s' ∧ sref_ok w' s' S' ∧ within A N w' S'
      | inr rep => rep = RWrong ∧ r = inr (Some ErrWrongType) ∨ rep = RArray [] ∧ r = inr None
      end.
  Proof.
    intros Hop Hsm. induction keys as [|key keys IH]; intros w D s S Ha Hs HA.
    { exists w, (inl s). split; [done|]. split; [done|]. by exists s. }
    cbn [inter_loop inter_fold].
    destruct (get_if_exist_run KSet AKSet fSet E key _ _ _ _ _ _ relSet Ha) as (w1 & r & E1 & Ha1 & Hh1 & _ & Hr).
    rewrite (bind_ok _ _ _ _ _ E1).
    apply (sref_ok_heap _ w1) in Hs; [|done]. apply (within_heap _ _ _ w1) in HA; [|done].
    destruct Hr as [[Hn ->]|[(v & Hv & Hvo & ->)|(o & x & -> & Hp & Hv & Hvo & Hi)]].
    - unfold set_at. rewrite Hn. eexists w1, _. split; [done|]. split; [done|]. by right.
    - rewrite (set_at_cases _ _ _ Hv Hvo). eexists w1, _. split; [done|]. split; [done|]. by left.
    - pose proof Hp as [_ Hx].
      destruct (set_op_run _ _ (∩) w0 N _ w1 s S A o x Hop Ha1 Hsm Hs HA Hx) as (w2 & s2 & E2 & Ha2 & Hs2 & HA2).
      rewrite (bind_ok _ _ _ _ _ E2). unfold set_at. rewrite Hv. simpl. by apply IH.
  Qed.

  Lemma rSet w0 N D w s S : At w0 N D [] 0 w → sref_ok w s S →
    ∃ r, members_reply S r ∧ ends w0 N (addReplySet s w) (Ok (Out D r 0)).
  Proof.
    intros Ha Hs. unfold addReplySet.
    assert (HR : ∃ d, dinv d ∧ members d = S ∧
      (∀ B (F : dict bytes unit → res (dict bytes unit * B)) a w out, F d = Ok (d, a) →
         At w0 N D out 0 w → sref_ok w s S → (match s with SHeap o => s_heap (w_srv w) !! o = Some (OSet d) | SLocal d' => d' = d end) →
         ∃ w', with_set s F w = Ok (w', (s, a)) ∧ At w0 N D out 0 w' ∧ sref_ok w' s S ∧
           (match s with SHeap o => s_heap (w_srv w') !! o = Some (OSet d) | SLocal d' => d' = d end)) ∧
      (match s with SHeap o => s_heap (w_srv w) !! o = Some (OSet d) | SLocal d' => d' = d end)).
    { destruct s as [o|d]; simpl in Hs.
      - destruct Hs as (x & Hx & Hm). exists x. split; [exact (heap_obj_ok _ _ _ _ _ _ _ _ Ha Hx)|]. split; [done|].
        split; [|done]. intros B F a w' out HF Ha' Hs' Hx'.
        destruct (on_obj_same KSet w0 N D out 0 w' o x x F a KSet_ok Ha' Hx' HF) as [E1 Ha1];
          [exact (heap_obj_ok _ _ _ _ _ _ _ _ Ha' Hx')|done|].
        exists (with_heap_at w' o (OSet x)). simpl with_set. rewrite (bind_ok _ _ _ _ _ E1). split; [done|]. split; [done|].
        assert (HX : s_heap (w_srv (with_heap_at w' o (OSet x))) !! o = Some (OSet x)).
        { simpl. apply list_lookup_insert. by eapply lookup_lt_Some. }
        split; [by exists x|done].
      - destruct Hs as [Hi Hm]. exists d. split; [done|]. split; [done|]. split; [|done].
        intros B F a w' out HF Ha' Hs' _. exists w'. split; [|done]. simpl. unfold mbind, M_bind, lift. by rewrite HF. }
    destruct HR as (d & Hi & Hm & HR & Hd).
    destruct (HR _ (λ d, n ← SSize d; Ok (d, n)) (Z.of_nat (size (members d))) w []) as (w1 & E1 & Ha1 & Hs1 & Hd1); try done.
    { by rewrite (SSize_spec Hash d Hi). }
    destruct (Range_spec Hash d) as (ms & ER & Hnd & Hms & _); [by destruct Hi|].
    assert (Hperm : ms ≡ₚ base.elements (members d)).
    { apply NoDup_Permutation; [done|apply NoDup_elements|]. intros k. by rewrite Hms, elem_of_elements. }
    exists (RArray ms). split; [exists ms; by rewrite <-Hm|].
    eapply ends_bind; [done|]. simpl snd. simpl fst.
    destruct (header_run (Z.of_nat (size (members d))) _ _ _ _ _ _ Ha1) as (w2 & E2 & Ha2 & Hsrv2 & _).
    eapply ends_bind; [done|].
    destruct (HR _ Range ms w2 _ ER Ha2) as (w3 & E3 & Ha3 & Hs3 & _).
    { eapply sref_ok_heap; [|done]. by rewrite Hsrv2. }
    { by rewrite Hsrv2. }
    eapply ends_bind; [done|]. simpl snd.
    destruct (bulks_run ms _ _ _ _ _ _ Ha3) as (w4 & E4 & Ha4). exists w4. split; [done|].
    unfold enc, encode, array_header. replace (zlen ms) with (Z.of_nat (size (members d))); [done|].
    unfold zlen. rewrite Hperm. done.
  Qed.

  Lemma set_algebra_frame fold body w0 N D w (args : list bytes) key keys :
    args !! 1%nat = Some key → At w0 N D [] 0 w →
    (∀ w1 D1 o x, At w0 N D1 [] 0 w1 → points w1 key o (OSet x) →
       ∃ ro, match (fold E (members x) keys D1).2 with
             | inl s => ∃ r, members_reply s r ∧ ro = Ok (Out (fold E (members x) keys D1).1 r 0)
             | inr r => ro = Ok (Out (fold E (members x) keys D1).1 r 0)
             end ∧ ends w0 N (body o w1) ro) →
    ∃ ro, set_algebra fold E key keys D ro ∧
      ends w0 N ((key ← arg args 1; s ← get_if_exist E KSet key;
         match s with
         | inr ErrNotExist => addReplyEmpty
         | inr e => addReplyError (err_text e)
         | inl o => body o
         end) w) ro.
  Proof.
    intros Hkey Ha Hbody.
    destruct (get_if_exist_run KSet AKSet fSet E key _ _ _ _ _ _ relSet Ha) as (w1 & r & E1 & Ha1 & _ & _ & Hr).
    unfold set_algebra.
    destruct Hr as [[Hn ->]|[(v & Hv & Hvo & ->)|(o & x & -> & Hp & Hv & Hvo & Hi)]].
    - unfold set_at. rewrite Hn. eexists. split; [done|].
      eapply ends_bind; [by apply arg_run|]. eapply ends_bind; [done|]. by apply rEmpty.
    - rewrite (set_at_cases _ _ _ Hv Hvo). eexists. split; [done|].
      eapply ends_bind; [by apply arg_run|]. eapply ends_bind; [done|]. by apply rError.
    - unfold set_at. rewrite Hv. simpl. destruct (Hbody w1 _ o x Ha1 Hp) as (ro & Hro & Hend).
      exists ro. split; [exact Hro|].
      eapply ends_bind; [by apply arg_run|]. eapply ends_bind; [done|]. exact Hend.
  Qed.
  Lemma start_within w0 N D w key o x : At w0 N D [] 0 w → points w key o (OSet x) →
    sref_ok w (SHeap o) (members x) ∧ within (all_members (s_heap (w_srv w))) N w (members x).
  Proof.
    intros Ha Hp. destruct (set_in_all _ _ _ _ _ _ _ _ _ Ha Hp) as (Hin & Hsz & Hi).
    split; [exists x; split; [apply Hp|done]|]. split; [done|]. split; [done|]. by eapply At_members.
  Qed.
  Lemma ref_smembers : refines 2 (sMembersCommand E) (sem_smembers E).
  Proof.
    intros args w0 N D w Har Ha Hroom. args_pos 1%nat args Har.
    destruct (set_algebra_frame (λ _ s _ D, (D, inl s)) (λ o, addReplySet (SHeap o)) w0 N D w [b; b0] b0 [])
      as (ro & Hro & Hend); try done.
    - intros w1 D1 o x Ha1 Hp1. destruct (start_within _ _ _ _ _ _ _ Ha1 Hp1) as [Hs _].
      destruct (rSet _ _ _ _ _ _ Ha1 Hs) as (r & Hr & Hend). eexists. split; [simpl; exists r; split; [done|reflexivity]|].
      exact Hend.
    - exists ro. split; [exact Hro|]. eapply ends_mono; [|exact Hend]. lia.
  Qed.
  Lemma ref_set_command op op_self opS : op_spec op op_self opS →
    refines (-3) (set_command E op op_self) (sem_algebra E (set_fold opS)).
  Proof.
    intros Hop args w0 N D w Har Ha Hroom. args_neg3 args Har.
    destruct (set_algebra_frame (set_fold opS) (λ o, r ← set_loop E op op_self (SHeap o) (drop 2 (b :: b0 :: b1 :: args));
        match r with
        | inl s => addReplySet s
        | inr e => addReplyError (err_text e)
        end) w0 N D w (b :: b0 :: b1 :: args) b0 (b1 :: args))
      as (ro & Hro & Hend); try done.
    - intros w1 D1 o x Ha1 Hp1. destruct (start_within _ _ _ _ _ _ _ Ha1 Hp1) as [Hs HA].
      destruct (set_loop_run op op_self opS w0 N (all_members (s_heap (w_srv w1))) (b1 :: args) Hop) with (w := w1) (D := D1) (s := SHeap o) (S := members x)
        as (w2 & r & E2 & Ha2 & Hr); try done.
      { eapply small_mono; [|exact Hroom]. lia. }
      change (drop 2 (b :: b0 :: b1 :: args)) with (b1 :: args).
      destruct (set_fold opS E (members x) (b1 :: args) D1) as [D2 [S2|rep]]; simpl fst in *; simpl snd in *.
      + destruct Hr as (s' & -> & Hs' & _). destruct (rSet _ _ _ _ _ _ Ha2 Hs') as (r & Hr & Hend).
        eexists. split; [exists r; split; [done|reflexivity]|]. eapply ends_bind; [done|]. exact Hend.
      + destruct Hr as [-> ->]. eexists. split; [reflexivity|]. eapply ends_bind; [done|]. by apply rError.
    - exists ro. split; [exact Hro|]. eapply ends_mono; [|exact Hend]. lia.
  Qed.
  Lemma union_op : op_spec (Union Hash) (Union_self Hash) (∪).
  Proof.
    split; [|split].
    - intros d d2 H1 H2 Hs. destruct (Union_spec Hash d d2 H1 H2 Hs) as (r & ? & ? & ?). by exists d2, r.
    - intros d H1 Hs. destruct (Union_self_spec Hash d H1 Hs) as (r & ? & ? & Hm). exists r.
      split; [done|]. split; [done|]. rewrite Hm. set_solver.
    - set_solver.
  Qed.
  Lemma diff_op : op_spec (Difference Hash) (Difference_self Hash) (∖).
  Proof.
    split; [|split].
    - intros d d2 H1 H2 Hs. destruct (Difference_spec Hash d d2 H1 H2) as (o' & r & ? & ? & ? & ? & Hm & _).
      { eapply small_mono; [|done]. lia. }
      exists o', r. do 4 (split; [done|]). unfold members. by rewrite Hm.
    - intros d H1 Hs. destruct (Difference_self_spec Hash d H1) as (r & ? & ? & Hm).
      { eapply small_mono; [|done]. lia. }
      exists r. split; [done|]. split; [done|]. rewrite Hm. set_solver.
    - set_solver.
  Qed.
  Lemma inter_op : op_spec (Intersect Hash) (Intersect_self Hash) (∩).
  Proof.
    split; [|split].
    - intros d d2 H1 H2 Hs. destruct (Intersect_spec Hash d d2 H1 H2) as (o' & r & ? & ? & ? & ? & Hm & _).
      { eapply small_mono; [|done]. lia. }
      exists o', r. do 4 (split; [done|]). unfold members. by rewrite Hm.
    - intros d H1 Hs. destruct (Intersect_self_spec Hash d H1) as (r & ? & ? & Hm).
      { eapply small_mono; [|done]. lia. }
      exists r. split; [done|]. split; [done|]. rewrite Hm. set_solver.
    - set_solver.
  Qed.
  Lemma ref_sunion : refines (-3) (sUnionCommand E) (sem_algebra E (set_fold (∪))).
  Proof. apply ref_set_command, union_op. Qed.
  Lemma ref_sdiff : refines (-3) (sDiffCommand E) (sem_algebra E (set_fold (∖))).
  Proof. apply ref_set_command, diff_op. Qed.
  Lemma ref_sinter : refines (-3) (sInterCommand E) (sem_algebra E inter_fold).
  Proof.
    intros args w0 N D w Har Ha Hroom. args_neg3 args Har.
    destruct (set_algebra_frame inter_fold (λ o, r ← inter_loop E (SHeap o) (drop 2 (b :: b0 :: b1 :: args));
        match r with
        | inl s => addReplySet s
        | inr None => addReplyEmpty
        | inr (Some e) => addReplyError (err_text e)
        end) w0 N D w (b :: b0 :: b1 :: args) b0 (b1 :: args))
      as (ro & Hro & Hend); try done.
    - intros w1 D1 o x Ha1 Hp1. destruct (start_within _ _ _ _ _ _ _ Ha1 Hp1) as [Hs HA].
      destruct (inter_loop_run w0 N (all_members (s_heap (w_srv w1))) (b1 :: args) inter_op) with (w := w1) (D := D1) (s := SHeap o) (S := members x)
        as (w2 & r & E2 & Ha2 & Hr); try done.
      { eapply small_mono; [|exact Hroom]. lia. }
      change (drop 2 (b :: b0 :: b1 :: args)) with (b1 :: args).
      destruct (inter_fold E (members x) (b1 :: args) D1) as [D2 [S2|rep]]; simpl fst in *; simpl snd in *.
      + destruct Hr as (s' & -> & Hs' & _). destruct (rSet _ _ _ _ _ _ Ha2 Hs') as (r & Hr & Hend).
        eexists. split; [exists r; split; [done|reflexivity]|]. eapply ends_bind; [done|]. exact Hend.
      + eexists. split; [reflexivity|]. destruct Hr as [[-> ->]|[-> ->]].
        * eapply ends_bind; [done|]. by apply rError.
        * eapply ends_bind; [done|]. by apply rEmpty.
    - exists ro. split; [exact Hro|]. eapply ends_mono; [|exact Hend]. lia.
  Qed.
End sets.
