(** Invariant of the server state, the abstract databases of a state, and the
    effect of the building blocks of the commands on both. *)
From Verif Require Import Base Float DictModel DictProofs DictProofs2 DictProofs3 DictProofs4 DictRun
  DatabaseModel SetModel SetProofs QuicklistModel QuicklistProofs SkiplistModel ZsetModel
  Strconv RespSpec ServerModel CommandModel CommandSem.
From Coq Require Import ZifyBool ZifyNat.

Notation dinv := (DictRun.inv Hash).

(** * Dict operations, in terms of the map *)
Section dicts.
  Context {V : Type}.
  Implicit Types d : dict bytes V.
  Lemma iGet d k : dinv d → ∃ d', Get Hash d k = Ok (d', d_map d !! k) ∧ dinv d' ∧ d_map d' = d_map d.
  Proof.
    intros [Hok Hi]. destruct (Get_spec Hash d k Hok) as (d' & E & Hok' & Hm & Hi' & _).
    exists d'. split; [done|]. split; [|done]. split; [done|congruence].
  Qed.
  Lemma iFindEntry d k : dinv d →
    ∃ d', FindEntry Hash d k = Ok (d', (λ v, (k, v)) <$> d_map d !! k) ∧ dinv d' ∧ d_map d' = d_map d.
  Proof.
    intros [Hok Hi]. destruct (FindEntry_spec Hash d k Hok) as (d' & E & Hok' & Hm & Hi' & _).
    exists d'. split; [done|]. split; [|done]. split; [done|congruence].
  Qed.
  Lemma iFind d k : dinv d →
    ∃ d' o, Find Hash d k = Ok (d', o) ∧ (o = None ↔ d_map d !! k = None) ∧ dinv d' ∧ d_map d' = d_map d.
  Proof.
    intros [Hok Hi]. destruct (Find_spec Hash d k Hok) as (d' & o & E & Hok' & Hm & Hi' & _ & Ho).
    exists d', o. split; [done|]. split.
    - destruct o as [l|]; [|done]. destruct Ho as (v & _ & Hv). rewrite Hv. done.
    - split; [|done]. split; [done|congruence].
  Qed.
  Lemma iSet d k v : dinv d → small (size (d_map d)) →
    ∃ d', Set_ Hash d k v = Ok (d', bool_decide (d_map d !! k = None)) ∧ dinv d' ∧ d_map d' = <[k := v]> (d_map d).
  Proof.
    intros [Hok Hi] Hsm. destruct (Set_spec Hash d k v Hok) as (d' & E & Hok' & Hm & Hi' & _).
    { destruct Hok as (_ & Hnd & _). by rewrite <-(d_map_size _ Hnd). }
    exists d'. split; [done|]. split; [|done]. split; [done|congruence].
  Qed.
  Lemma iDelete d k : dinv d →
    ∃ d' e, Delete Hash d k = Ok (d', e) ∧ (e = None ↔ is_Some (d_map d !! k)) ∧ dinv d' ∧
            d_map d' = delete k (d_map d).
  Proof.
    intros [Hok Hi]. destruct (Delete_spec Hash d k Hok) as (d' & E & Hok' & Hm & Hi' & _).
    exists d', (delete_result d k). split; [done|]. split.
    - unfold delete_result. destruct (d_ht0 d) eqn:E0.
      + destruct (d_map d !! k) as [v0|]; simpl; (split; [try done; intros _; by eexists|try done; by intros []]).
      + rewrite (d_map_uninit Hash d Hok E0). rewrite lookup_empty. split; [done|by intros []].
    - split; [|done]. split; [done|congruence].
  Qed.
  Lemma iSize d : dinv d → Size d = Ok (Z.of_nat (size (d_map d))).
  Proof. intros [Hok _]. by apply (Size_spec Hash). Qed.
  Lemma dinv_New : dinv (NewDict (K:=bytes) (V:=V)).
  Proof. apply inv_New. Qed.
  Lemma size_insert_le (m : gmap bytes V) k v : (size (<[k := v]> m) ≤ S (size m))%nat.
  Proof. rewrite map_size_insert. destruct (m !! k); simpl; lia. Qed.
  Lemma size_delete_le (m : gmap bytes V) k : (size (delete k m) ≤ size m)%nat.
  Proof. rewrite map_size_delete. destruct (m !! k); simpl; lia. Qed.
End dicts.
Lemma small_mono n m : (n ≤ m)%nat → small m → small n.
Proof. unfold small. lia. Qed.

(** * Abstraction *)
Definition abs_obj (x : obj) : aval :=
  match x with
  | OHash d => AHash (d_map d)
  | OList q => AList q
  | OSet s => ASet (members s)
  | OZset z => AZset (d_map (z_dict z)) (z_sl z)
  end.
(** a dangling pointer (excluded by the invariant) is mapped to some string *)
Definition abs_val (h : list obj) (v : value) : aval :=
  match v with
  | VStr s => AStr s
  | VObj o => match h !! o with Some x => abs_obj x | None => AStr [] end
  end.
Definition abs_db (h : list obj) (db : database) : adb :=
  ADB (abs_val h <$> d_map (db_dict db)) (d_map (db_expire db)).
Definition abs_dbs (s : server) : list adb := abs_db (s_heap s) <$> s_dbs s.

(** * Invariant.  [N] bounds the sizes of all dicts. *)
Definition obj_members (x : obj) : gset bytes := match x with OSet s => members s | _ => ∅ end.
Definition all_members (h : list obj) : gset bytes := ⋃ (obj_members <$> h).
Definition obj_ok (N : nat) (x : obj) : Prop :=
  match x with
  | OHash d => dinv d ∧ (size (d_map d) ≤ N)%nat
  | OList q => wf q
  | OSet s => dinv s
  | OZset z => dinv (z_dict z) ∧ (size (d_map (z_dict z)) ≤ N)%nat
  end.
Definition db_ok (N : nat) (db : database) : Prop :=
  dinv (db_dict db) ∧ dinv (db_expire db) ∧
  (size (d_map (db_dict db)) ≤ N)%nat ∧ (size (d_map (db_expire db)) ≤ N)%nat.
Definition holds (dbs : list database) (i : nat) (k : bytes) (o : nat) : Prop :=
  ∃ db, dbs !! i = Some db ∧ d_map (db_dict db) !! k = Some (VObj o).
(** every pointer of a database leads to an object, no object has two holders *)
Definition refs_ok (dbs : list database) (len : nat) : Prop :=
  (∀ i k o, holds dbs i k o → (o < len)%nat) ∧
  (∀ i k o i' k', holds dbs i k o → holds dbs i' k' o → i' = i ∧ k' = k).
Record srv_ok (N : nat) (s : server) : Prop := {
  so_dbs : Forall (db_ok N) (s_dbs s);
  so_heap : Forall (obj_ok N) (s_heap s);
  so_members : (size (all_members (s_heap s)) ≤ N)%nat;
  so_refs : refs_ok (s_dbs s) (length (s_heap s))
}.
Record w_ok (N : nat) (w : world) : Prop := {
  wo_srv : srv_ok N (w_srv w);
  wo_db : (c_db (w_cl w) < length (s_dbs (w_srv w)))%nat;
  wo_rnd : Forall (λ r, 0 ≤ r) (w_rnd w);
  wo_out : Forall (λ o, o ≠ []) (c_out (w_cl w))
}.

Definition log_of (s : server) : Z * bytes * bytes * bool * option (list database) :=
  (s_select s, s_aofbuf s, s_rwbuf s, s_task s, s_snap s).
(** [w] is reached from [w0] within a command: the selected database is now [D],
    the bytes [out] have been queued, [n] changes counted, all else unchanged *)
Record At (w0 : world) (N : nat) (D : adb) (out : bytes) (n : Z) (w : world) : Prop := {
  at_ok : w_ok N w;
  at_dbs : abs_dbs (w_srv w) = <[c_db (w_cl w0) := D]> (abs_dbs (w_srv w0));
  at_db : c_db (w_cl w) = c_db (w_cl w0);
  at_auth : c_auth (w_cl w) = c_auth (w_cl w0);
  at_out : mjoin (c_out (w_cl w)) = mjoin (c_out (w_cl w0)) ++ out;
  at_dirty : s_dirty (w_srv w) = s_dirty (w_srv w0) + n;
  at_log : log_of (w_srv w) = log_of (w_srv w0)
}.

Definition cur (w : world) (db : database) : Prop := s_dbs (w_srv w) !! c_db (w_cl w) = Some db.
Definition points (w : world) (key : bytes) (o : nat) (x : obj) : Prop :=
  holds (s_dbs (w_srv w)) (c_db (w_cl w)) key o ∧ s_heap (w_srv w) !! o = Some x.

Lemma bind_ok {A B} (m : M A) (f : A → M B) w w' a : m w = Ok (w', a) → (m ≫= f) w = f a w'.
Proof. unfold mbind, M_bind. by intros ->. Qed.
Lemma bind_panic {A B} (m : M A) (f : A → M B) w : m w = Panic → (m ≫= f) w = Panic.
Proof. unfold mbind, M_bind. by intros ->. Qed.
Lemma bind_fuel {A B} (m : M A) (f : A → M B) w : m w = OutOfFuel → (m ≫= f) w = OutOfFuel.
Proof. unfold mbind, M_bind. by intros ->. Qed.

Lemma obj_ok_mono N N' x : (N ≤ N')%nat → obj_ok N x → obj_ok N' x.
Proof. destruct x; simpl; intros; intuition lia. Qed.
Lemma db_ok_mono N N' x : (N ≤ N')%nat → db_ok N x → db_ok N' x.
Proof. unfold db_ok. intros; intuition lia. Qed.
Lemma dbs_ok_mono N N' l : (N ≤ N')%nat → Forall (db_ok N) l → Forall (db_ok N') l.
Proof. intros HN Hl. eapply Forall_impl; [exact Hl|]. intros x Hx. by eapply db_ok_mono. Qed.
Lemma heap_ok_mono N N' l : (N ≤ N')%nat → Forall (obj_ok N) l → Forall (obj_ok N') l.
Proof. intros HN Hl. eapply Forall_impl; [exact Hl|]. intros x Hx. by eapply obj_ok_mono. Qed.
Lemma srv_ok_mono N N' s : (N ≤ N')%nat → srv_ok N s → srv_ok N' s.
Proof.
  intros HN [H1 H2 H3 H4]. split; [| |lia|done].
  - by apply (dbs_ok_mono N).
  - by apply (heap_ok_mono N).
Qed.
Lemma w_ok_mono N N' w : (N ≤ N')%nat → w_ok N w → w_ok N' w.
Proof. intros HN [H1 H2 H3 H4]. split; try done. by eapply srv_ok_mono. Qed.
Lemma At_mono w0 N N' D out n w : (N ≤ N')%nat → At w0 N D out n w → At w0 N' D out n w.
Proof. intros HN [H1 H2 H3 H4 H5 H6 H7]. split; try done. by eapply w_ok_mono. Qed.

Lemma cur_exists N w : w_ok N w → ∃ db, cur w db ∧ db_ok N db.
Proof.
  intros Hw. destruct (lookup_lt_is_Some_2 _ _ (wo_db _ _ Hw)) as [db Hdb]. exists db. split; [done|].
  apply (Forall_lookup_1 _ _ _ _ (so_dbs _ _ (wo_srv _ _ Hw)) Hdb).
Qed.
Lemma At_refl N w : w_ok N w → ∀ db, cur w db → At w N (abs_db (s_heap (w_srv w)) db) [] 0 w.
Proof.
  intros Hw db Hdb. split; try done.
  - symmetry. apply list_insert_id. unfold abs_dbs. rewrite list_lookup_fmap. unfold cur in Hdb. by rewrite Hdb.
  - by rewrite app_nil_r.
  - lia.
Qed.
Lemma At_cur w0 N D out n w : At w0 N D out n w →
  ∃ db, cur w db ∧ db_ok N db ∧ D = abs_db (s_heap (w_srv w)) db.
Proof.
  intros Ha. destruct (cur_exists N w (at_ok _ _ _ _ _ _ Ha)) as (db & Hc & Hok).
  exists db. split; [done|]. split; [done|].
  pose proof (at_dbs _ _ _ _ _ _ Ha) as Hd.
  assert (Hl : abs_dbs (w_srv w) !! c_db (w_cl w) = Some (abs_db (s_heap (w_srv w)) db)).
  { unfold abs_dbs. rewrite list_lookup_fmap. unfold cur in Hc. by rewrite Hc. }
  rewrite Hd, (at_db _ _ _ _ _ _ Ha) in Hl.
  assert (c_db (w_cl w0) < length (abs_dbs (w_srv w0)))%nat as Hlt.
  { apply lookup_lt_Some in Hl. by rewrite insert_length in Hl. }
  rewrite list_lookup_insert in Hl by done. congruence.
Qed.

Lemma get_db_run w db : cur w db → get_db w = Ok (w, db).
Proof. unfold get_db, cur. intros Hc. unfold mbind, M_bind. simpl. rewrite Hc. done. Qed.

(** * Replacing the selected database *)
Definition with_dbs (w : world) (dbs : list database) : world :=
  W (set_dbs (w_srv w) dbs) (w_cl w) (w_rnd w).
Definition with_db (w : world) (db : database) : world :=
  with_dbs w (<[c_db (w_cl w) := db]> (s_dbs (w_srv w))).
Lemma put_db_run w db : put_db db w = Ok (with_db w db, tt).
Proof. done. Qed.
Lemma At_with_db w0 N N' D out n w db db' :
  At w0 N D out n w → cur w db → (N ≤ N')%nat → db_ok N' db' →
  (∀ k o, d_map (db_dict db') !! k = Some (VObj o) →
     d_map (db_dict db) !! k = Some (VObj o) ∨
     (o < length (s_heap (w_srv w)))%nat ∧ (∀ i k', ¬ holds (s_dbs (w_srv w)) i k' o) ∧
     (∀ k', d_map (db_dict db') !! k' = Some (VObj o) → k' = k)) →
  At w0 N' (abs_db (s_heap (w_srv w)) db') out n (with_db w db') ∧
  cur (with_db w db') db' ∧ s_heap (w_srv (with_db w db')) = s_heap (w_srv w) ∧ w_rnd (with_db w db') = w_rnd w.
Proof.
  intros Ha Hc HN Hdb' Hrefs. pose proof (at_ok _ _ _ _ _ _ Ha) as Hw. destruct Hw as [[H1 H2 H3 [R1 R2]] H5 H6 H7].
  assert (Hcur : cur (with_db w db') db').
  { unfold cur, with_db. simpl. by apply list_lookup_insert. }
  split; [|done]. split; try (by destruct Ha).
  - split; try done; [split; simpl|].
    + apply Forall_insert; [|done]. by apply (dbs_ok_mono N).
    + by apply (heap_ok_mono N).
    + lia.
    + assert (Hh : ∀ i k o, holds (<[c_db (w_cl w):=db']> (s_dbs (w_srv w))) i k o →
          holds (s_dbs (w_srv w)) i k o ∨
          i = c_db (w_cl w) ∧ (o < length (s_heap (w_srv w)))%nat ∧ (∀ i k', ¬ holds (s_dbs (w_srv w)) i k' o) ∧
          (∀ k', d_map (db_dict db') !! k' = Some (VObj o) → k' = k)).
      { intros i k o (db1 & Hi & Hk). destruct (decide (i = c_db (w_cl w))) as [->|Hne].
        - rewrite list_lookup_insert in Hi by done. injection Hi as <-.
          destruct (Hrefs k o Hk) as [Hold|Hnew]; [left; by exists db|right; by destruct_and!].
        - rewrite list_lookup_insert_ne in Hi by done. left. by exists db1. }
      split.
      * intros i k o Ho. destruct (Hh i k o Ho) as [?|(? & ? & _)]; [by eapply R1|done].
      * intros i k o i' k' Ho Ho'. destruct (Hh _ _ _ Ho) as [Hx|(-> & Hlt & Hnone & Huniq)], (Hh _ _ _ Ho') as [Hy|(-> & _ & Hnone' & Huniq')].
        -- by eapply R2.
        -- by destruct (Hnone' i k).
        -- by destruct (Hnone i' k').
        -- split; [done|]. destruct Ho' as (db2 & Hi2 & Hk2). rewrite list_lookup_insert in Hi2 by done.
           injection Hi2 as <-. by apply Huniq.
    + simpl. by rewrite insert_length.
  - simpl. unfold abs_dbs. simpl. rewrite list_fmap_insert.
    pose proof (at_dbs _ _ _ _ _ _ Ha) as Hd. unfold abs_dbs in Hd. rewrite Hd.
    rewrite (at_db _ _ _ _ _ _ Ha). by rewrite list_insert_insert.
Qed.

(** on_dict / on_expire in terms of what happens to the maps *)
Lemma on_dict_run {A} w0 N N' D out n w (f : dict bytes value → res (dict bytes value * A)) (Q : A → dict bytes value → Prop)
    (m : gmap bytes value) db :
  At w0 N D out n w → cur w db → (N ≤ N')%nat →
  (∀ d, dinv d → (size (d_map d) ≤ N)%nat → d_map d = d_map (db_dict db) →
     ∃ d' a, f d = Ok (d', a) ∧ dinv d' ∧ d_map d' = m ∧ Q a d') →
  (size m ≤ N')%nat →
  (∀ k o, m !! k = Some (VObj o) →
     d_map (db_dict db) !! k = Some (VObj o) ∨
     (o < length (s_heap (w_srv w)))%nat ∧ (∀ i k', ¬ holds (s_dbs (w_srv w)) i k' o) ∧
     (∀ k', m !! k' = Some (VObj o) → k' = k)) →
  ∃ w' a d', on_dict f w = Ok (w', a) ∧ Q a d' ∧ At w0 N' (ADB (abs_val (s_heap (w_srv w)) <$> m) (a_ttl D)) out n w' ∧
    cur w' (DB d' (db_expire db)) ∧ d_map d' = m ∧ s_heap (w_srv w') = s_heap (w_srv w) ∧ w_rnd w' = w_rnd w.
Proof.
  intros Ha Hc HN Hf Hsz Hrefs. destruct (At_cur _ _ _ _ _ _ Ha) as (db1 & Hc1 & Hok & HD).
  assert (db1 = db) as -> by (unfold cur in *; congruence).
  destruct Hok as (I1 & I2 & S1 & S2). destruct (Hf (db_dict db)) as (d' & a & Ef & I1' & Hm & HQ); try done.
  destruct (At_with_db w0 N N' D out n w db (DB d' (db_expire db)) Ha Hc HN) as (Ha' & Hc' & Hh & Hr).
  { split_and!; simpl; try done; [by rewrite Hm|lia]. }
  { simpl. rewrite Hm. done. }
  exists (with_db w (DB d' (db_expire db))), a, d'. split.
  { unfold on_dict. rewrite (bind_ok _ _ _ _ _ (get_db_run w db Hc)).
    unfold mbind at 1, M_bind at 1, lift. rewrite Ef. simpl. done. }
  split; [done|]. split; [|done]. unfold abs_db in Ha'. simpl in Ha'. rewrite Hm in Ha'. by rewrite HD.
Qed.
Lemma on_expire_run {A} w0 N N' D out n w (f : dict bytes Z → res (dict bytes Z * A)) (Q : A → Prop)
    (m : gmap bytes Z) db :
  At w0 N D out n w → cur w db → (N ≤ N')%nat →
  (∀ d, dinv d → (size (d_map d) ≤ N)%nat → d_map d = a_ttl D →
     ∃ d' a, f d = Ok (d', a) ∧ dinv d' ∧ d_map d' = m ∧ Q a) →
  (size m ≤ N')%nat →
  ∃ w' a d', on_expire f w = Ok (w', a) ∧ Q a ∧ At w0 N' (ADB (a_keys D) m) out n w' ∧
    cur w' (DB (db_dict db) d') ∧ s_heap (w_srv w') = s_heap (w_srv w) ∧ w_rnd w' = w_rnd w.
Proof.
  intros Ha Hc HN Hf Hsz. destruct (At_cur _ _ _ _ _ _ Ha) as (db1 & Hc1 & Hok & HD).
  assert (db1 = db) as -> by (unfold cur in *; congruence).
  destruct Hok as (I1 & I2 & S1 & S2). destruct (Hf (db_expire db)) as (d' & a & Ef & I1' & Hm & HQ); try done.
  { by rewrite HD. }
  destruct (At_with_db w0 N N' D out n w db (DB (db_dict db) d') Ha Hc HN) as (Ha' & Hc' & Hh & Hr).
  { split_and!; simpl; try done; [lia|by rewrite Hm]. }
  { simpl. eauto. }
  exists (with_db w (DB (db_dict db) d')), a, d'. split.
  { unfold on_expire. rewrite (bind_ok _ _ _ _ _ (get_db_run w db Hc)).
    unfold mbind at 1, M_bind at 1, lift. rewrite Ef. simpl. done. }
  split; [done|]. split; [|done]. unfold abs_db in Ha'. simpl in Ha'. rewrite Hm in Ha'. by rewrite HD.
Qed.

(** * Replies and counters *)
Lemma At_reply w0 N D out n w (r : bytes) : At w0 N D out n w → r ≠ [] →
  ∃ w', addReply r w = Ok (w', tt) ∧ At w0 N D (out ++ r) n w' ∧ w_srv w' = w_srv w ∧ w_rnd w' = w_rnd w ∧
    c_db (w_cl w') = c_db (w_cl w).
Proof.
  intros Ha Hr. eexists. split; [done|]. split; [|done].
  destruct Ha as [[H1 H2 H3 H4] H5 H6 H7 H8 H9 H10]. split; try done.
  - split; try done. simpl. apply Forall_app. split; [done|]. by constructor.
  - cbn [w_cl c_out get_cl mbind M_bind put_cl]. etrans; [apply (join_app (c_out (w_cl w)) [r])|]. rewrite H8. simpl. by rewrite app_nil_r, app_assoc.
Qed.
Lemma At_dirty w0 N D out n w k : At w0 N D out n w →
  ∃ w', add_dirty k w = Ok (w', tt) ∧ At w0 N D out (n + k) w' ∧ s_heap (w_srv w') = s_heap (w_srv w) ∧
    s_dbs (w_srv w') = s_dbs (w_srv w) ∧ w_rnd w' = w_rnd w ∧ w_cl w' = w_cl w.
Proof.
  intros Ha. eexists. split; [done|]. split; [|done].
  destruct Ha as [[[S1 S2 S3 S4] H2 H3 H4] H5 H6 H7 H8 H9 H10]. split; simpl; try done; try (cbn; lia).
Qed.
Lemma arg_run args i a w : args !! i = Some a → arg args i w = Ok (w, a).
Proof. unfold arg. by intros ->. Qed.

(** * Objects *)
Lemma all_members_app h x : all_members (h ++ [x]) = all_members h ∪ obj_members x.
Proof.
  unfold all_members. rewrite fmap_app, union_list_app_L. simpl. by rewrite (right_id_L ∅ (∪)).
Qed.
Lemma all_members_lookup h o x : h !! o = Some x → obj_members x ⊆ all_members h.
Proof.
  intros Hx m Hm. apply elem_of_union_list. exists (obj_members x). split; [|done].
  apply elem_of_list_fmap. exists x. split; [done|]. by eapply elem_of_list_lookup_2.
Qed.
Lemma all_members_insert h o x : all_members (<[o := x]> h) ⊆ obj_members x ∪ all_members h.
Proof.
  intros m Hm. apply elem_of_union_list in Hm as (X & HX & Hm).
  apply elem_of_list_fmap in HX as (y & -> & Hy). apply elem_of_list_lookup in Hy as [j Hy].
  apply list_lookup_insert_Some in Hy as [(-> & <- & _)|(_ & Hy)].
  - by apply elem_of_union_l.
  - apply elem_of_union_r. by eapply all_members_lookup.
Qed.

Lemma holds_lt N s i k o : srv_ok N s → holds (s_dbs s) i k o → (o < length (s_heap s))%nat.
Proof. intros Hs. by apply (proj1 (so_refs _ _ Hs)). Qed.

Lemma At_points w0 N D out n w key o x : At w0 N D out n w → points w key o x →
  a_keys D !! key = Some (abs_obj x) ∧ obj_ok N x ∧ c_db (w_cl w) = c_db (w_cl w0).
Proof.
  intros Ha [(db & Hi & Hk) Hx]. destruct (At_cur _ _ _ _ _ _ Ha) as (db1 & Hc1 & Hok & ->).
  assert (db1 = db) as -> by (unfold cur in *; congruence). split_and!.
  - simpl. rewrite lookup_fmap, Hk. simpl. by rewrite Hx.
  - pose proof (at_ok _ _ _ _ _ _ Ha) as Hw. apply (Forall_lookup_1 _ _ _ _ (so_heap _ _ (wo_srv _ _ Hw)) Hx).
  - by destruct Ha.
Qed.

Definition with_heap_at (w : world) (o : nat) (x : obj) : world :=
  W (set_heap (w_srv w) (<[o := x]> (s_heap (w_srv w)))) (w_cl w) (w_rnd w).
Lemma store_run w o x : store o x w = Ok (with_heap_at w o x, tt).
Proof. done. Qed.
Lemma load_run w o x : s_heap (w_srv w) !! o = Some x → load o w = Ok (w, x).
Proof. unfold load, mbind, M_bind. simpl. by intros ->. Qed.
Lemma abs_val_other h o x v : v ≠ VObj o → abs_val (<[o := x]> h) v = abs_val h v.
Proof.
  destruct v as [s|o']; [done|]. intros Hne. simpl. rewrite list_lookup_insert_ne by congruence. done.
Qed.
Lemma At_store w0 N N' D out n w key o x x' : At w0 N D out n w → points w key o x → (N ≤ N')%nat →
  obj_ok N' x' → (size (obj_members x' ∪ all_members (s_heap (w_srv w))) ≤ N')%nat →
  At w0 N' (put_val key (abs_obj x') D) out n (with_heap_at w o x') ∧ points (with_heap_at w o x') key o x'.
Proof.
  intros Ha Hp HN Hx' Hms. pose proof (at_ok _ _ _ _ _ _ Ha) as [[H1 H2 H3 H4] H5 H6 H7].
  pose proof Hp as [Hh Hx]. assert (Hlt : (o < length (s_heap (w_srv w)))%nat) by (by eapply lookup_lt_Some).
  split.
  2:{ split; [done|]. simpl. by apply list_lookup_insert. }
  split; try (by destruct Ha).
  - split; try done. split; simpl.
    + by apply (dbs_ok_mono N).
    + apply Forall_insert; [|done]. by apply (heap_ok_mono N).
    + etrans; [|exact Hms]. apply subseteq_size, all_members_insert.
    + by rewrite insert_length.
  - pose proof (at_dbs _ _ _ _ _ _ Ha) as Hd.
    destruct (At_cur _ _ _ _ _ _ Ha) as (db & Hc & _ & HD).
    destruct Hh as (db1 & Hi & Hk). assert (db1 = db) as -> by (unfold cur in *; congruence).
    transitivity (<[c_db (w_cl w0) := put_val key (abs_obj x') D]> (abs_dbs (w_srv w))).
    2:{ rewrite Hd. by rewrite list_insert_insert. }
    unfold abs_dbs. simpl. apply list_eq. intros i. rewrite list_lookup_fmap.
    rewrite <-(at_db _ _ _ _ _ _ Ha). destruct (decide (i = c_db (w_cl w))) as [->|Hne].
    + rewrite Hi. simpl. rewrite list_lookup_insert by (by rewrite fmap_length). f_equal.
      rewrite HD. unfold abs_db, put_val. simpl. f_equal. apply map_eq. intros k.
      rewrite lookup_fmap. destruct (decide (k = key)) as [->|Hnk].
      * rewrite lookup_insert, Hk. simpl. by rewrite list_lookup_insert.
      * rewrite lookup_insert_ne by done. rewrite lookup_fmap.
        destruct (d_map (db_dict db) !! k) as [v|] eqn:Ev; [|done]. simpl. f_equal.
        apply abs_val_other. intros ->. destruct H4 as [_ R2].
        destruct (R2 (c_db (w_cl w)) key o (c_db (w_cl w)) k) as [_ ?]; [by exists db|by exists db|done].
    + rewrite list_lookup_insert_ne by done. rewrite list_lookup_fmap.
      destruct (s_dbs (w_srv w) !! i) as [db2|] eqn:E2; [|done]. simpl. f_equal.
      unfold abs_db. f_equal. apply map_fmap_ext. intros k v Ev.
      apply abs_val_other. intros ->. destruct H4 as [_ R2].
      destruct (R2 (c_db (w_cl w)) key o i k) as [? _]; [by exists db|by exists db2|done].
Qed.

Definition kind_ok {X} (k : kind X) : Prop :=
  (∀ x, k_out k (k_in k x) = Some x) ∧ (∀ y x, k_out k y = Some x → y = k_in k x).
Lemma KHash_ok : kind_ok KHash. Proof. split; [done|]. by intros [] ? [= ->]. Qed.
Lemma KList_ok : kind_ok KList. Proof. split; [done|]. by intros [] ? [= ->]. Qed.
Lemma KSet_ok : kind_ok KSet. Proof. split; [done|]. by intros [] ? [= ->]. Qed.
Lemma KZset_ok : kind_ok KZset. Proof. split; [done|]. by intros [] ? [= ->]. Qed.

Lemma on_obj_run {X A} (k : kind X) w0 N N' D out n w key o (x x' : X) (f : X → res (X * A)) a :
  kind_ok k →
  At w0 N D out n w → points w key o (k_in k x) → (N ≤ N')%nat → f x = Ok (x', a) →
  obj_ok N' (k_in k x') → (size (obj_members (k_in k x') ∪ all_members (s_heap (w_srv w))) ≤ N')%nat →
  ∃ w', on_obj k o f w = Ok (w', a) ∧ At w0 N' (put_val key (abs_obj (k_in k x')) D) out n w' ∧
    points w' key o (k_in k x') ∧ w' = with_heap_at w o (k_in k x').
Proof.
  intros [Hk1 _] Ha Hp HN Hf Hx' Hms. destruct (At_store _ _ _ _ _ _ _ _ _ _ _ Ha Hp HN Hx' Hms) as [Ha' Hp'].
  eexists. split; [|split; [exact Ha'|split; [exact Hp'|done]]].
  unfold on_obj. destruct Hp as [_ Hx]. rewrite (bind_ok _ _ _ _ _ (load_run w o _ Hx)).
  rewrite Hk1. unfold mbind, M_bind, lift. simpl. rewrite Hf. done.
Qed.
Lemma on_obj_fail {X A} (k : kind X) w o (x : X) (f : X → res (X * A)) :
  kind_ok k → s_heap (w_srv w) !! o = Some (k_in k x) →
  (f x = Panic → on_obj k o f w = Panic) ∧ (f x = OutOfFuel → on_obj k o f w = OutOfFuel).
Proof.
  intros [Hk1 _] Hx. unfold on_obj. rewrite (bind_ok _ _ _ _ _ (load_run w o _ Hx)). rewrite Hk1.
  unfold mbind, M_bind, lift. simpl. split; by intros ->.
Qed.

(** reading an object: nothing visible changes *)
Lemma put_val_id key v D : a_keys D !! key = Some v → put_val key v D = D.
Proof. destruct D as [K T]. unfold put_val. simpl. intros. by rewrite insert_id. Qed.
Lemma members_same_size h o x x' N : h !! o = Some x → (size (all_members h) ≤ N)%nat → obj_members x' ⊆ obj_members x →
  (size (obj_members x' ∪ all_members h) ≤ N)%nat.
Proof.
  intros Hx HN Hs. etrans; [|exact HN]. apply subseteq_size. pose proof (all_members_lookup h o x Hx). set_solver.
Qed.
Lemma At_members w0 N D out n w : At w0 N D out n w → (size (all_members (s_heap (w_srv w))) ≤ N)%nat.
Proof. intros Ha. by destruct (at_ok _ _ _ _ _ _ Ha) as [[] _ _ _]. Qed.
Lemma on_obj_read {X A} (k : kind X) w0 N D out n w key o (x x' : X) (f : X → res (X * A)) a :
  kind_ok k →
  At w0 N D out n w → points w key o (k_in k x) → f x = Ok (x', a) →
  obj_ok N (k_in k x') → abs_obj (k_in k x') = abs_obj (k_in k x) →
  ∃ w', on_obj k o f w = Ok (w', a) ∧ At w0 N D out n w' ∧ points w' key o (k_in k x') ∧
     w' = with_heap_at w o (k_in k x').
Proof.
  intros Hk Ha Hp Hf Hx' Habs.
  destruct (on_obj_run k w0 N N D out n w key o x x' f a) as (w' & E & Ha' & Hp' & Hw'); try done.
  - pose proof (At_members _ _ _ _ _ _ Ha). destruct Hp as [_ Hx]. eapply members_same_size; [done|done|].
    destruct (k_in k x), (k_in k x'); try done. simpl in *. by injection Habs as ->.
  - exists w'. split; [done|]. split; [|done]. rewrite Habs in Ha'.
    destruct (At_points _ _ _ _ _ _ _ _ _ Ha Hp) as [Hkey _]. rewrite put_val_id in Ha'; done.
Qed.

(** * expireIfNeeded *)
Lemma expired_spec E D key :
  (match a_ttl D !! key with Some when => when <? e_now E | None => false end) = bool_decide (expired E D key).
Proof.
  symmetry. destruct (a_ttl D !! key) as [when|] eqn:Et.
  - destruct (Z.ltb_spec when (e_now E)); [apply bool_decide_eq_true|apply bool_decide_eq_false]; [by exists when|].
    intros (? & [= <-]%(eq_trans (eq_sym Et)) & ?). lia.
  - apply bool_decide_eq_false. intros (? & ? & _). congruence.
Qed.

Lemma expireIfNeeded_run E key w0 N D out n w : At w0 N D out n w →
  ∃ w', expireIfNeeded E key w = Ok (w', bool_decide (expired E D key)) ∧ At w0 N (purge E key D) out n w' ∧
    s_heap (w_srv w') = s_heap (w_srv w) ∧ w_rnd w' = w_rnd w.
Proof.
  intros Ha. destruct (At_cur _ _ _ _ _ _ Ha) as (db & Hc & Hok & HD).
  destruct Hok as (I1 & I2 & S1 & S2).
  destruct (on_expire_run w0 N N D out n w (λ d, FindEntry Hash d key)
     (λ a, a = (λ v, (key, v)) <$> a_ttl D !! key) (a_ttl D) db) as (w1 & a & d1 & E1 & -> & Ha1 & Hc1 & Hh1 & Hr1); try done.
  { intros d Hd _ Hm. destruct (iFindEntry d key Hd) as (d' & Ef & Hd' & Hm').
    exists d', ((λ v, (key, v)) <$> d_map d !! key). rewrite Hm in Ef, Hm' |- *. done. }
  { by rewrite HD. }
  unfold expireIfNeeded. rewrite (bind_ok _ _ _ _ _ E1).
  assert (Ha1' : At w0 N D out n w1) by (by destruct D). clear Ha1.
  rewrite <-expired_spec. unfold purge.
  destruct (a_ttl D !! key) as [when|] eqn:Et; simpl.
  2:{ exists w1. split; [done|]. split; [|done]. rewrite decide_False; [done|]. intros (? & ? & _). congruence. }
  destruct (Z.ltb_spec when (e_now E)) as [Hlt|Hge].
  2:{ exists w1. split; [done|]. split; [|done]. rewrite decide_False; [done|].
      intros (? & [= <-]%(eq_trans (eq_sym Et)) & ?). lia. }
  rewrite decide_True by (eexists; eauto).
  destruct (on_dict_run w0 N N D out n w1 (λ d, Delete Hash d key) (λ _ _, True)
     (delete key (d_map (db_dict db))) _ Ha1' Hc1) as (w2 & a2 & d2 & E2 & _ & Ha2 & Hc2 & Hm2 & Hh2 & Hr2); try done.
  { intros d Hd _ Hm. destruct (iDelete d key Hd) as (d' & e & Ed & _ & Hd' & Hm').
    exists d', e. rewrite Hm in Hm'. done. }
  { etrans; [apply size_delete_le|done]. }
  { intros k o Hk. left. by apply lookup_delete_Some in Hk as [_ ?]. }
  rewrite (bind_ok _ _ _ _ _ E2).
  destruct (on_expire_run w0 N N _ out n w2 (λ d, Delete Hash d key) (λ _, True)
     (delete key (a_ttl D)) _ Ha2 Hc2) as (w3 & a3 & d3 & E3 & _ & Ha3 & Hc3 & Hh3 & Hr3); try done.
  { intros d Hd _ Hm. destruct (iDelete d key Hd) as (d' & e & Ed & _ & Hd' & Hm').
    exists d', e. simpl in Hm. rewrite Hm in Hm'. done. }
  { etrans; [apply size_delete_le|]. by rewrite HD. }
  rewrite (bind_ok _ _ _ _ _ E3). exists w3. split; [done|]. split; [|split; congruence].
  unfold remove_key. simpl in Ha3. rewrite fmap_delete in Ha3. rewrite Hh1 in Ha3.
  by rewrite HD in Ha3 |- *.
Qed.
