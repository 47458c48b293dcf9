(** Replies, lookup of containers, and the frames of the commands. *)
From Verif Require Import Base Float DictModel DictProofs DictProofs2 DictProofs3 DictProofs4 DictRun
  DatabaseModel SetModel SetProofs QuicklistModel QuicklistProofs SkiplistModel ZsetModel
  Strconv RespSpec ServerModel CommandModel CommandSem CommandInv.
From Coq Require Import ZifyBool ZifyNat.

(** a run of a command from a state over [w0] that ends as the abstract outcome [o] *)
Definition ends (w0 : world) (N : nat) (run : res (world * unit)) (o : res outcome) : Prop :=
  match o with
  | Ok (Out D r n) => ∃ w', run = Ok (w', tt) ∧ At w0 N D (enc r) n w'
  | Panic => run = Panic
  | OutOfFuel => run = OutOfFuel
  end.
Lemma ends_bind {A} w0 N (m : M A) (f : A → M unit) w w1 a o :
  m w = Ok (w1, a) → ends w0 N (f a w1) o → ends w0 N ((m ≫= f) w) o.
Proof. intros E. by rewrite (bind_ok _ _ _ _ _ E). Qed.
Lemma ends_mono w0 N N' run o : (N ≤ N')%nat → ends w0 N run o → ends w0 N' run o.
Proof.
  destruct o as [[D r n]| |]; [|done..]. intros HN (w' & E & Ha). exists w'. split; [done|]. by eapply At_mono.
Qed.

(** * Replies *)
Definition replies (m : M unit) (r : reply) : Prop := ∀ w0 N D n w,
  At w0 N D [] n w → ends w0 N (m w) (Ok (Out D r n)).
Lemma replies_one (s : bytes) r : enc r = s → s ≠ [] → replies (addReply s) r.
Proof.
  intros He Hs w0 N D n w Ha. destruct (At_reply w0 N D [] n w s Ha Hs) as (w' & E & Ha' & _).
  exists w'. split; [done|]. by rewrite He.
Qed.
Lemma rSimple s : replies (addReplySimpleString s) (RSimple s).
Proof. by apply replies_one. Qed.
Lemma rOK : replies addReplyOK ROK.
Proof. by apply replies_one. Qed.
Lemma rBulk s : replies (addReplyBulkString s) (RBulk s).
Proof. apply replies_one; [|done]. simpl. unfold bulk, bulk_header. simpl. by rewrite <-!app_assoc. Qed.
Lemma rInt n : replies (addReplyInt n) (RInt n).
Proof. by apply replies_one. Qed.
Lemma rError s : replies (addReplyError s) (RError s).
Proof. by apply replies_one. Qed.
Lemma rNull : replies addReplyNull RNull.
Proof. by apply replies_one. Qed.

Lemma bulks_run l w0 N D out n w : At w0 N D out n w →
  ∃ w', addReplyBulks l w = Ok (w', tt) ∧ At w0 N D (out ++ concat (map bulk l)) n w'.
Proof.
  revert out w. induction l as [|a l IH]; intros out w Ha.
  - exists w. split; [done|]. simpl. by rewrite app_nil_r.
  - cbn [addReplyBulks]. unfold addReplyBulkString.
    destruct (At_reply w0 N D out n w ("$"%char :: itoa (zlen a) ++ CRLF ++ a ++ CRLF) Ha) as (w1 & E1 & Ha1 & _); [done|].
    rewrite (bind_ok _ _ _ _ _ E1). destruct (IH _ _ Ha1) as (w2 & E2 & Ha2). exists w2. split; [done|].
    replace (out ++ concat (map bulk (a :: l)))
      with ((out ++ "$"%char :: itoa (zlen a) ++ CRLF ++ a ++ CRLF) ++ concat (map bulk l)); [done|].
    cbn [map concat]. unfold bulk, bulk_header. cbn [app]. rewrite <-!app_assoc. cbn [app]. by rewrite <-!app_assoc.
Qed.
Lemma header_run k w0 N D out n w : At w0 N D out n w →
  ∃ w', addReplyHeader k w = Ok (w', tt) ∧ At w0 N D (out ++ "*"%char :: itoa k ++ CRLF) n w' ∧
    w_srv w' = w_srv w ∧ c_db (w_cl w') = c_db (w_cl w).
Proof.
  intros Ha. destruct (At_reply w0 N D out n w ("*"%char :: itoa k ++ CRLF) Ha) as (w1 & E1 & Ha1 & ? & ? & ?); [done|].
  by exists w1.
Qed.
Lemma rArray l : replies (addReplyArrays l) (RArray l).
Proof.
  intros w0 N D n w Ha. unfold addReplyArrays.
  destruct (header_run (zlen l) _ _ _ _ _ _ Ha) as (w1 & E1 & Ha1 & _).
  eapply ends_bind; [done|]. destruct (bulks_run l _ _ _ _ _ _ Ha1) as (w2 & E2 & Ha2).
  exists w2. done.
Qed.
Lemma rEmpty : replies addReplyEmpty (RArray []).
Proof. apply rArray. Qed.

(** * Kinds *)
Record rel_kind {X Y} (k : kind X) (ak : akind Y) (f : X → Y) : Prop := {
  rk_ok : kind_ok k;
  rk_in : ∀ x, abs_obj (k_in k x) = ak_in ak (f x);
  rk_out : ∀ y, ak_out ak (abs_obj y) = f <$> k_out k y;
  rk_str : ∀ s, ak_out ak (AStr s) = None;
  rk_new : f (k_new k) = ak_new ak;
  rk_new_ok : ∀ N, obj_ok N (k_in k (k_new k));
  rk_new_members : obj_members (k_in k (k_new k)) = ∅
}.
Definition fHash (d : dict bytes bytes) := d_map d.
Definition fList (q : quicklist bytes) := q.
Definition fSet (d : dict bytes unit) : gset bytes := members d.
Definition fZset (z : zset) : azset := (d_map (z_dict z), z_sl z).
Lemma relHash : rel_kind KHash AKHash fHash.
Proof.
  split; try done; [apply KHash_ok|by intros []|].
  intros N. simpl. split; [apply dinv_New|]. rewrite NewDict_map. rewrite map_size_empty. lia.
Qed.
Lemma relList : rel_kind KList AKList fList.
Proof. split; try done; [apply KList_ok|by intros []|]. intros N. apply wf_New. Qed.
Lemma relSet : rel_kind KSet AKSet fSet.
Proof.
  split; try done; [apply KSet_ok|by intros []|apply members_NewSet| |apply members_NewSet].
  intros N. apply dinv_New.
Qed.
Lemma relZset : rel_kind KZset AKZset fZset.
Proof.
  split; try done; [apply KZset_ok|by intros []|].
  intros N. simpl. split; [apply dinv_New|]. rewrite NewDict_map. rewrite map_size_empty. lia.
Qed.

(** * Lookup *)
Lemma cur_get w0 N D out n w key : At w0 N D out n w →
  ∃ w' ov, on_dict (λ d, Get Hash d key) w = Ok (w', ov) ∧ At w0 N D out n w' ∧
    s_heap (w_srv w') = s_heap (w_srv w) ∧ w_rnd w' = w_rnd w ∧
    match ov with
    | None => a_keys D !! key = None
    | Some (VStr s) => a_keys D !! key = Some (AStr s)
    | Some (VObj o) => ∃ x, points w' key o x ∧ a_keys D !! key = Some (abs_obj x) ∧ obj_ok N x
    end.
Proof.
  intros Ha. destruct (At_cur _ _ _ _ _ _ Ha) as (db & Hc & Hok & HD).
  destruct (on_dict_run w0 N N D out n w (λ d, Get Hash d key) (λ a _, a = d_map (db_dict db) !! key)
    (d_map (db_dict db)) db Ha Hc) as (w' & a & d' & E & -> & Ha' & Hc' & Hm & Hh & Hr); [done| | | |].
  - intros d Hd _ Hm. destruct (iGet d key Hd) as (d' & E & Hd' & Hm'). exists d', (d_map d !! key).
    by rewrite E, Hm', Hm.
  - apply Hok.
  - eauto.
  - exists w', (d_map (db_dict db) !! key). split; [done|].
    assert (Ha2 : At w0 N D out n w') by (subst D; exact Ha'). split; [done|]. split; [done|]. split; [done|].
    destruct (d_map (db_dict db) !! key) as [[s|o]|] eqn:Ek.
    + rewrite HD. simpl. by rewrite lookup_fmap, Ek.
    + pose proof (at_ok _ _ _ _ _ _ Ha2) as Hw.
      assert (Hhold : holds (s_dbs (w_srv w')) (c_db (w_cl w')) key o).
      { eexists. split; [exact Hc'|]. simpl. by rewrite Hm. }
      destruct (lookup_lt_is_Some_2 (s_heap (w_srv w')) o) as [x Hx].
      { by eapply holds_lt; [apply Hw|]. }
      exists x. assert (Hp : points w' key o x) by done. split; [done|].
      by destruct (At_points _ _ _ _ _ _ _ _ _ Ha2 Hp) as (? & ? & _).
    + rewrite HD. simpl. by rewrite lookup_fmap, Ek.
Qed.
Lemma as_kind_obj {X} (k : kind X) o x w : s_heap (w_srv w) !! o = Some x →
  as_kind k (VObj o) w = Ok (w, match k_out k x with Some _ => Some o | None => None end).
Proof. intros Hx. unfold as_kind. by rewrite (bind_ok _ _ _ _ _ (load_run w o x Hx)). Qed.

Lemma get_if_exist_run {X Y} (k : kind X) (ak : akind Y) f E key w0 N D out n w :
  rel_kind k ak f → At w0 N D out n w →
  ∃ w' r, get_if_exist E k key w = Ok (w', r) ∧ At w0 N (purge E key D) out n w' ∧
    s_heap (w_srv w') = s_heap (w_srv w) ∧ w_rnd w' = w_rnd w ∧
    ((a_keys (purge E key D) !! key = None ∧ r = inr ErrNotExist) ∨
     (∃ v, a_keys (purge E key D) !! key = Some v ∧ ak_out ak v = None ∧ r = inr ErrWrongType) ∨
     (∃ o x, r = inl o ∧ points w' key o (k_in k x) ∧
             a_keys (purge E key D) !! key = Some (ak_in ak (f x)) ∧ ak_out ak (ak_in ak (f x)) = Some (f x) ∧
             obj_ok N (k_in k x))).
Proof.
  intros Hk Ha. unfold get_if_exist.
  destruct (expireIfNeeded_run E key _ _ _ _ _ _ Ha) as (w1 & E1 & Ha1 & Hh1 & Hr1).
  rewrite (bind_ok _ _ _ _ _ E1).
  destruct (cur_get _ _ _ _ _ _ key Ha1) as (w2 & ov & E2 & Ha2 & Hh2 & Hr2 & Hov).
  rewrite (bind_ok _ _ _ _ _ E2). destruct ov as [[s|o]|].
  - eexists w2, _. split; [done|]. split; [done|]. split; [congruence|]. split; [congruence|].
    right. left. exists (AStr s). split; [done|]. split; [|done]. apply Hk.
  - destruct Hov as (x & Hp & Hkey & Hx). pose proof Hp as [_ Hx'].
    rewrite (bind_ok _ _ _ _ _ (as_kind_obj k o x w2 Hx')).
    eexists w2, _. split; [done|]. split; [done|]. split; [congruence|]. split; [congruence|].
    destruct (k_out k x) as [x'|] eqn:Ex.
    + apply (proj2 (rk_ok _ _ _ Hk)) in Ex as ->. right. right. exists o, x'. split; [done|]. split; [done|].
      rewrite (rk_in _ _ _ Hk) in Hkey. split; [done|]. split; [|done].
      rewrite <-(rk_in _ _ _ Hk), (rk_out _ _ _ Hk), (proj1 (rk_ok _ _ _ Hk)). done.
    + right. left. exists (abs_obj x). split; [done|]. split; [|done]. by rewrite (rk_out _ _ _ Hk), Ex.
  - eexists w2, _. split; [done|]. split; [done|]. split; [congruence|]. split; [congruence|]. by left.
Qed.

Definition with_heap (w : world) (h : list obj) : world := W (set_heap (w_srv w) h) (w_cl w) (w_rnd w).
Lemma At_alloc w0 N D out n w x : At w0 N D out n w → obj_ok N x → obj_members x = ∅ →
  At w0 N D out n (with_heap w (s_heap (w_srv w) ++ [x])).
Proof.
  intros Ha Hx Hm. pose proof (at_ok _ _ _ _ _ _ Ha) as [[H1 H2 H3 H4] H5 H6 H7].
  split; try (by destruct Ha).
  - split; try done. split; simpl; try done.
    + apply Forall_app. split; [done|]. by constructor.
    + rewrite all_members_app, Hm. by rewrite (right_id_L ∅ (∪)).
    + destruct H4 as [R1 R2]. split; [|done]. intros i k o Ho. rewrite app_length. apply R1 in Ho. lia.
  - rewrite <-(at_dbs _ _ _ _ _ _ Ha). unfold abs_dbs. simpl. apply list_fmap_ext. intros i db Hi.
    unfold abs_db. f_equal. apply map_fmap_ext. intros k v Hv. destruct v as [s|o]; [done|]. simpl.
    rewrite lookup_app_l; [done|]. destruct H4 as [R1 _]. eapply R1. by exists db.
Qed.

Lemma get_or_new_run {X Y} (k : kind X) (ak : akind Y) f wrong key w0 N D out n w :
  rel_kind k ak f → At w0 N D out n w → small N →
  ∃ w' r, get_or_new k wrong key w = Ok (w', r) ∧ w_rnd w' = w_rnd w ∧
    ((∃ o, a_keys D !! key = None ∧ r = inl o ∧ At w0 (S N) (put_val key (ak_in ak (ak_new ak)) D) out n w' ∧
        points w' key o (k_in k (k_new k)) ∧ obj_ok (S N) (k_in k (k_new k))) ∨
     (∃ v, a_keys D !! key = Some v ∧ ak_out ak v = None ∧ r = inr wrong ∧ At w0 (S N) D out n w') ∨
     (∃ o x, r = inl o ∧ points w' key o (k_in k x) ∧ At w0 (S N) D out n w' ∧
             a_keys D !! key = Some (ak_in ak (f x)) ∧ ak_out ak (ak_in ak (f x)) = Some (f x) ∧
             obj_ok (S N) (k_in k x))).
Proof.
  intros Hk Ha Hsm. unfold get_or_new.
  destruct (cur_get _ _ _ _ _ _ key Ha) as (w2 & ov & E2 & Ha2 & Hh2 & Hr2 & Hov).
  rewrite (bind_ok _ _ _ _ _ E2).
  assert (Ha2S : At w0 (S N) D out n w2) by (eapply At_mono; [|done]; lia).
  destruct ov as [[s|o]|].
  - eexists w2, _. split; [done|]. split; [congruence|].
    right. left. exists (AStr s). split; [done|]. split; [apply Hk|]. done.
  - destruct Hov as (x & Hp & Hkey & Hx). pose proof Hp as [_ Hx'].
    rewrite (bind_ok _ _ _ _ _ (as_kind_obj k o x w2 Hx')).
    eexists w2, _. split; [done|]. split; [congruence|].
    destruct (k_out k x) as [x'|] eqn:Ex.
    + apply (proj2 (rk_ok _ _ _ Hk)) in Ex as ->. right. right. exists o, x'. split; [done|]. split; [done|]. split; [done|].
      rewrite (rk_in _ _ _ Hk) in Hkey. split; [done|]. split.
      * rewrite <-(rk_in _ _ _ Hk), (rk_out _ _ _ Hk), (proj1 (rk_ok _ _ _ Hk)). done.
      * eapply obj_ok_mono; [|done]. lia.
    + right. left. exists (abs_obj x). split; [done|]. split; [|done]. by rewrite (rk_out _ _ _ Hk), Ex.
  - set (x := k_in k (k_new k)). set (o := length (s_heap (w_srv w2))).
    pose proof (At_alloc w0 N D out n w2 x Ha2 (rk_new_ok _ _ _ Hk N) (rk_new_members _ _ _ Hk)) as Ha3.
    set (w3 := with_heap w2 (s_heap (w_srv w2) ++ [x])) in *.
    assert (E3 : alloc x w2 = Ok (w3, o)) by done. rewrite (bind_ok _ _ _ _ _ E3).
    destruct (At_cur _ _ _ _ _ _ Ha3) as (db & Hc & Hok & HD).
    assert (Hk0 : d_map (db_dict db) !! key = None).
    { rewrite HD in Hov. simpl in Hov. rewrite lookup_fmap in Hov. by destruct (d_map (db_dict db) !! key). }
    assert (Hfresh : ∀ i k', ¬ holds (s_dbs (w_srv w3)) i k' o).
    { intros i k' Ho. change (s_dbs (w_srv w3)) with (s_dbs (w_srv w2)) in Ho.
      pose proof (at_ok _ _ _ _ _ _ Ha2) as Hw. pose proof (holds_lt _ _ _ _ _ (wo_srv _ _ Hw) Ho). lia. }
    destruct (on_dict_run w0 N (S N) D out n w3 (λ d, Set_ Hash d key (VObj o)) (λ _ _, True)
      (<[key := VObj o]> (d_map (db_dict db))) db Ha3 Hc) as (w4 & a & d' & E4 & _ & Ha4 & Hc4 & Hm & Hh4 & Hr4); [lia| | | |].
    + intros d Hd Hds Hm. destruct (iSet d key (VObj o) Hd) as (d' & E & Hd' & Hm').
      { by eapply small_mono. }
      eexists d', _. split; [exact E|]. by rewrite Hm', Hm.
    + etrans; [apply size_insert_le|]. destruct Hok as (_ & _ & ? & _). lia.
    + intros k1 o1 Hk1. destruct (decide (k1 = key)) as [->|Hne].
      * rewrite lookup_insert in Hk1. injection Hk1 as <-. right. split.
        { simpl. rewrite app_length. simpl. subst o. lia. }
        split; [done|]. intros k' Hk'. destruct (decide (k' = key)); [done|].
        rewrite lookup_insert_ne in Hk' by done. destruct (Hfresh (c_db (w_cl w3)) k'). by exists db.
      * rewrite lookup_insert_ne in Hk1 by done. by left.
    + rewrite (bind_ok _ _ _ _ _ E4). eexists w4, _. split; [done|]. split; [rewrite Hr4; exact Hr2|].
      left. exists o. split; [done|]. split; [done|].
      assert (Hx : s_heap (w_srv w3) !! o = Some x).
      { simpl. rewrite lookup_app_r by lia. subst o. by rewrite Nat.sub_diag. }
      split; [|split].
      * unfold put_val. rewrite fmap_insert in Ha4. simpl abs_val in Ha4.
        change (s_heap (w_srv w3)) with (s_heap (w_srv w2) ++ [x]) in *.
        rewrite Hx in Ha4. unfold x in Ha4. rewrite (rk_in _ _ _ Hk), (rk_new _ _ _ Hk) in Ha4.
        rewrite HD in Ha4 |- *. exact Ha4.
      * split; [|by rewrite Hh4]. eexists. split; [exact Hc4|]. simpl. rewrite Hm. by rewrite lookup_insert.
      * apply Hk.
Qed.

(** * Frames *)
Definition out_of {Y} (ak : akind Y) (key : bytes) (D : adb) (y : res (Y * reply * Z)) : res outcome :=
  z ← y; let '(x', r, n) := z in Ok (Out (put_val key (ak_in ak x') D) r n).

Lemma existing_frame {X Y} (k : kind X) (ak : akind Y) f E key none mnone body (g : Y → res (Y * reply * Z)) w0 N N' D w args :
  rel_kind k ak f → args !! 1%nat = Some key → At w0 N D [] 0 w → (N ≤ N')%nat → replies mnone none →
  (∀ w D1 o x, At w0 N D1 [] 0 w → points w key o (k_in k x) → obj_ok N (k_in k x) →
     a_keys D1 !! key = Some (ak_in ak (f x)) →
     ends w0 N' (body o w) (out_of ak key D1 (g (f x)))) →
  ends w0 N' ((a ← arg args 1;
               h ← get_if_exist E k a;
               match h with
               | inr ErrNotExist => mnone
               | inr e => addReplyError (err_text e)
               | inl o => body o
               end) w) (on_existing ak E key none g D).
Proof.
  intros Hk Hkey Ha HN Hnone Hbody. eapply ends_bind; [by apply arg_run|].
  destruct (get_if_exist_run k ak f E key _ _ _ _ _ _ Hk Ha) as (w1 & r & E1 & Ha1 & _ & _ & Hr).
  eapply ends_bind; [done|]. unfold on_existing.
  destruct Hr as [[Hn ->]|[(v & Hv & Hvo & ->)|(o & x & -> & Hp & Hv & Hvo & Hx)]].
  - rewrite Hn. eapply ends_mono; [done|]. by apply Hnone.
  - rewrite Hv, Hvo. eapply ends_mono; [done|]. by apply (rError (B "wrong type")).
  - rewrite Hv, Hvo. by apply Hbody.
Qed.

Lemma put_val_twice key v v' D : put_val key v (put_val key v' D) = put_val key v D.
Proof. unfold put_val. simpl. by rewrite insert_insert. Qed.

Lemma new_frame {X Y} (k : kind X) (ak : akind Y) f wrong key body (g : Y → res (Y * reply * Z)) w0 N N' D w args :
  rel_kind k ak f → args !! 1%nat = Some key → At w0 N D [] 0 w → (S N ≤ N')%nat → small N →
  (∀ w D1 o x, At w0 (S N) D1 [] 0 w → points w key o (k_in k x) → obj_ok (S N) (k_in k x) →
     a_keys D1 !! key = Some (ak_in ak (f x)) →
     ends w0 N' (body o w) (out_of ak key D1 (g (f x)))) →
  ends w0 N' ((a ← arg args 1;
               h ← get_or_new k wrong a;
               match h with
               | inr e => addReplyError (err_text e)
               | inl o => body o
               end) w) (on_new ak (RError (err_text wrong)) key g D).
Proof.
  intros Hk Hkey Ha HN Hsm Hbody. eapply ends_bind; [by apply arg_run|].
  destruct (get_or_new_run k ak f wrong key _ _ _ _ _ _ Hk Ha Hsm) as (w1 & r & E1 & _ & Hr).
  eapply ends_bind; [done|]. unfold on_new.
  destruct Hr as [(o & Hn & -> & Ha1 & Hp & Hx)|[(v & Hv & Hvo & -> & Ha1)|(o & x & -> & Hp & Ha1 & Hv & Hvo & Hx)]].
  - rewrite Hn. pose proof (Hbody w1 _ o (k_new k) Ha1 Hp Hx) as Hb.
    rewrite (rk_new _ _ _ Hk) in Hb. simpl in Hb. rewrite lookup_insert in Hb. specialize (Hb eq_refl).
    unfold out_of in Hb. destruct (g (ak_new ak)) as [[[x' r'] n']| |]; simpl in *; try done.
    by rewrite put_val_twice in Hb.
  - rewrite Hv, Hvo. eapply ends_mono; [done|]. by apply rError.
  - rewrite Hv, Hvo. by apply Hbody.
Qed.
