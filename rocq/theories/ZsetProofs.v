(** Proofs about the Zset model: dict and skiplist stay in step as long as no
    score is updated. *)
From Verif Require Import Base Float DictModel DictProofs DictProofs2 DictProofs3 DictProofs4 DictRun
  SkiplistModel SkiplistProofs SkiplistProofs2 SkiplistProofs3 SkiplistProofs4 SkiplistProofs5 PropsSkiplist ZsetModel.
From Coq Require Import ZifyBool ZifyNat.

Local Arguments Find : simpl never.
Local Arguments FindEntry : simpl never.
Local Arguments Set_ : simpl never.
Local Arguments Delete : simpl never.
Local Arguments Insert : simpl never.
Local Arguments SlDelete : simpl never.
Local Arguments randomLevel : simpl never.

(** the (score, member) pairs of a map *)
Definition pairs (M : gmap bytes float) : list pair := (λ p, (p.2, p.1)) <$> map_to_list M.

Lemma pairs_members M : (pairs M).*2 = (map_to_list M).*1.
Proof. unfold pairs. rewrite <-list_fmap_compose. done. Qed.
Lemma elem_of_pairs M sc m : (sc, m) ∈ pairs M ↔ M !! m = Some sc.
Proof.
  unfold pairs. rewrite elem_of_list_fmap. rewrite <-elem_of_map_to_list. split.
  - intros ([m' sc'] & [= -> ->] & H). done.
  - intros H. by exists (m, sc).
Qed.
Lemma pairs_insert M m sc : M !! m = None → pairs (<[m := sc]> M) ≡ₚ (sc, m) :: pairs M.
Proof. intros H. unfold pairs. by rewrite map_to_list_insert. Qed.
Lemma pairs_delete M m sc : M !! m = Some sc → pairs M ≡ₚ (sc, m) :: pairs (delete m M).
Proof. intros H. unfold pairs. by rewrite <-(map_to_list_delete M m sc H). Qed.
Lemma pairs_length M : length (pairs M) = size M.
Proof. unfold pairs. by rewrite fmap_length. Qed.
Lemma pairs_filter M (f : pair → bool) :
  filter (λ k, f k = true) (pairs M) ≡ₚ pairs (filter (λ p, f (p.2, p.1) = true) M).
Proof.
  apply NoDup_Permutation.
  - apply NoDup_filter. apply (NoDup_fmap_1 snd). rewrite pairs_members. apply NoDup_fst_map_to_list.
  - apply (NoDup_fmap_1 snd). rewrite pairs_members. apply NoDup_fst_map_to_list.
  - intros [sc m]. rewrite elem_of_list_filter, !elem_of_pairs, map_filter_lookup_Some. simpl. tauto.
Qed.
Lemma esame_member a b : esame a b = true → a.2 = b.2.
Proof. unfold esame. intros [_ H]%andb_prop. by apply bool_decide_eq_true in H. Qed.

Section proofs.
  Variable hash : bytes → Z.
  Notation inv := (inv (V:=float) hash).

  Record zinv (z : zset) (M : gmap bytes float) (L : list ent) : Prop := {
    zi_inv : inv (z_dict z);
    zi_map : d_map (z_dict z) = M;
    zi_sl : sinv (z_sl z) L;
    zi_perm : e_key <$> L ≡ₚ pairs M
  }.

  Lemma zinv_new : zinv NewZset ∅ [].
  Proof.
    split; [split; [apply NewDict_ok|done]|apply NewDict_map|apply sinv_new|done].
  Qed.
  Lemma zinv_in z M L e : zinv z M L → e ∈ L → M !! e_member e = Some (e_score e).
  Proof.
    intros Hz He. apply elem_of_pairs. rewrite <-(zi_perm _ _ _ Hz). apply elem_of_list_fmap. by exists e.
  Qed.
  Lemma zinv_of z M L m sc : zinv z M L → M !! m = Some sc → ∃ q e, L !! q = Some e ∧ e_key e = (sc, m).
  Proof.
    intros Hz Hm. apply elem_of_pairs in Hm. rewrite <-(zi_perm _ _ _ Hz) in Hm.
    apply elem_of_list_fmap in Hm as (e & He & Hin). apply elem_of_list_lookup in Hin as [q Hq]. by exists q, e.
  Qed.
  Lemma zinv_nan z M L m sc : zinv z M L → M !! m = Some sc → not_nan sc.
  Proof.
    intros Hz Hm. destruct (zinv_of _ _ _ _ _ Hz Hm) as (q & e & Hq & He). unfold e_key in He. injection He as <- <-.
    destruct (zi_sl _ _ _ Hz) as (_ & _ & Hnn). by apply (Forall_lookup_1 _ _ _ _ Hnn Hq).
  Qed.
  Lemma zinv_nodup z M L : zinv z M L → NoDup (e_member <$> L).
  Proof.
    intros Hz. assert (e_member <$> L = (e_key <$> L).*2) as -> by (by rewrite <-list_fmap_compose).
    rewrite (zi_perm _ _ _ Hz). rewrite pairs_members. apply NoDup_fst_map_to_list.
  Qed.
  Lemma zinv_uniq z M L q q' e e' : zinv z M L → L !! q = Some e → L !! q' = Some e' →
    e_member e' = e_member e → q' = q.
  Proof.
    intros Hz Hq Hq' He. apply (NoDup_lookup (e_member <$> L) q' q (e_member e)); [by eapply zinv_nodup| |];
      rewrite list_lookup_fmap; [rewrite Hq'|rewrite Hq]; simpl; by rewrite ?He.
  Qed.
  Lemma zinv_length z M L : zinv z M L → sl_length (z_sl z) = Z.of_nat (size M) ∧ length L = size M.
  Proof.
    intros Hz. pose proof (zi_sl _ _ _ Hz) as (Hs & _). assert (length L = size M) as HL.
    { rewrite <-pairs_length, <-(zi_perm _ _ _ Hz). by rewrite fmap_length. }
    rewrite (s_length _ _ Hs). unfold zlen. by rewrite HL.
  Qed.

  Lemma ZGet_spec z m : inv (z_dict z) →
    ∃ d', ZGet hash z m = Ok (MkZset d' (z_sl z), (λ sc, (m, sc)) <$> d_map (z_dict z) !! m) ∧ inv d' ∧
      d_map d' = d_map (z_dict z).
  Proof.
    intros [Hok Hi]. destruct (FindEntry_spec hash (z_dict z) m Hok) as (d' & HF & Hok' & Hm & Hi' & _).
    exists d'. unfold ZGet. rewrite HF. split; [done|]. split; [|done]. split; [done|congruence].
  Qed.
  Lemma ZGet_zinv z M L m : zinv z M L →
    ∃ z', ZGet hash z m = Ok (z', (λ sc, (m, sc)) <$> M !! m) ∧ zinv z' M L ∧ z_sl z' = z_sl z.
  Proof.
    intros Hz. destruct (ZGet_spec z m (zi_inv _ _ _ Hz)) as (d' & HG & Hi & Hm).
    eexists. rewrite HG. rewrite (zi_map _ _ _ Hz). split; [done|]. split; [|done].
    destruct Hz as [H1 H2 H3 H4]. split; simpl; try done. congruence.
  Qed.

  Lemma sl_add_spec s L sc m rs : sinv s L → not_nan sc → ¬ Forall success (take 127 rs) →
    Forall (λ e, esame (e_key e) (sc, m) = false) L →
    ∃ A Bb h s' rs', L = A ++ Bb ∧ sl_add s sc m rs = Ok (s', rs') ∧
      sinv s' (A ++ E (sl_next s) h sc m :: Bb) ∧ keeps s s'.
  Proof.
    intros HL Hn Hrs Hab. destruct (C12_levels rs Hrs) as (lv & rs' & Er & Hlv).
    destruct (Insert_sinv s L lv sc m HL Hlv Hn Hab) as (A & Bb & s' & HAB & Ei & Hs' & Hk).
    exists A, Bb, (Z.to_nat lv), s', rs'. split; [done|]. split; [|done].
    unfold sl_add. rewrite Er. cbn [mbind res_bind fst snd]. rewrite Ei. done.
  Qed.

  Lemma small_entries z M L : zinv z M L → Z.of_nat (size M) < max_entries → small (length (entries (z_dict z))).
  Proof.
    intros Hz Hsz. destruct (zi_inv _ _ _ Hz) as [(_ & Hnd & _) _]. unfold small.
    rewrite <-(d_map_size _ Hnd). by rewrite (zi_map _ _ _ Hz).
  Qed.

  (** Add of a new member *)
  Lemma ZAdd_new z M L sc m rs : zinv z M L → M !! m = None → not_nan sc → Z.of_nat (size M) < max_entries →
    ¬ Forall success (take 127 rs) →
    ∃ z' rs' L', ZAdd hash z sc m rs = Ok (z', true, rs') ∧ zinv z' (<[m := sc]> M) L'.
  Proof.
    intros Hz Hm Hn Hsz Hrs. pose proof (zi_inv _ _ _ Hz) as [Hok Hi]. unfold ZAdd.
    destruct (Find_spec hash (z_dict z) m Hok) as (d' & o & HF & Hok' & Hm' & Hi' & Hn' & Ho).
    rewrite HF. cbn [mbind res_bind]. destruct o as [l|].
    { destruct Ho as (v & _ & Hv). rewrite (zi_map _ _ _ Hz), Hm in Hv. done. }
    destruct (Set_spec hash d' m sc Hok') as (d2 & HS & Hok2 & Hm2 & Hi2 & _).
    { assert (NoDup (entries d').*1) as Hnd by (by destruct Hok' as (_ & ? & _)). unfold small.
      rewrite <-(d_map_size _ Hnd). rewrite Hm', (zi_map _ _ _ Hz). done. }
    rewrite HS. cbn [mbind res_bind fst snd].
    destruct (sl_add_spec (z_sl z) L sc m rs (zi_sl _ _ _ Hz) Hn Hrs) as (A & Bb & h & s' & rs' & HAB & Ea & Hs' & _).
    { apply Forall_forall. intros e He. destruct (esame (e_key e) (sc, m)) eqn:Es; [|done]. exfalso.
      apply esame_member in Es. pose proof (zinv_in _ _ _ _ Hz He) as Hin. simpl in Es. congruence. }
    rewrite Ea. cbn [mbind res_bind fst snd]. eexists _, _, _. split; [done|]. split; simpl; [by split; [|congruence]| |done|].
    - rewrite Hm2, Hm', (zi_map _ _ _ Hz). done.
    - rewrite pairs_insert by done. rewrite <-(zi_perm _ _ _ Hz), HAB, !fmap_app, fmap_cons. by rewrite <-Permutation_middle.
  Qed.
  (** Add of a member with its present score *)
  Lemma ZAdd_same z M L sc sc0 m rs : zinv z M L → M !! m = Some sc0 → feq sc sc0 = true →
    ∃ z', ZAdd hash z sc m rs = Ok (z', false, rs) ∧ zinv z' M L.
  Proof.
    intros Hz Hm Hf. pose proof (zi_inv _ _ _ Hz) as [Hok Hi]. unfold ZAdd.
    destruct (Find_spec hash (z_dict z) m Hok) as (d' & o & HF & Hok' & Hm' & Hi' & Hn' & Ho).
    rewrite HF. cbn [mbind res_bind]. rewrite (zi_map _ _ _ Hz) in Ho. destruct o as [l|]; [|congruence].
    destruct Ho as (v & Hl & Hv). rewrite (entry_at_loc hash d' l m v) by done. cbn [mbind res_bind snd].
    assert (v = sc0) as -> by congruence. rewrite Hf. cbn [negb]. eexists. split; [done|].
    destruct Hz as [H1 H2 H3 H4]. split; simpl; try done; [by split; [|congruence]|congruence].
  Qed.

  Lemma ZDelete_absent z M L m : zinv z M L → M !! m = None →
    ∃ z', ZDelete hash z m = Ok (z', false) ∧ zinv z' M L.
  Proof.
    intros Hz Hm. destruct (ZGet_zinv z M L m Hz) as (z' & HG & Hz' & _). unfold ZDelete. rewrite HG, Hm.
    cbn [mbind res_bind fmap option_fmap option_map]. by exists z'.
  Qed.
  Lemma filter_other (l : list pair) sc m : (∀ sc', (sc', m) ∉ l) → filter (λ k, esame k (sc, m) = false) l = l.
  Proof.
    induction l as [|[sc' m'] l IH]; intros Hl; [done|]. rewrite filter_cons. rewrite decide_True.
    - f_equal. apply IH. intros sc2 Hin. apply (Hl sc2). by right.
    - destruct (esame (sc', m') (sc, m)) eqn:Es; [|done]. apply esame_member in Es. simpl in Es. subst.
      exfalso. apply (Hl sc'). left.
  Qed.
  Lemma ZDelete_present z M L sc m : zinv z M L → M !! m = Some sc →
    ∃ z' L', ZDelete hash z m = Ok (z', true) ∧ zinv z' (delete m M) L'.
  Proof.
    intros Hz Hm. destruct (ZGet_zinv z M L m Hz) as (z1 & HG & Hz1 & _). unfold ZDelete. rewrite HG, Hm.
    cbn [mbind res_bind fmap option_fmap option_map].
    pose proof (zi_inv _ _ _ Hz1) as [Hok Hi].
    destruct (Delete_spec hash (z_dict z1) m Hok) as (d2 & HD & Hok2 & Hm2 & Hi2 & _). rewrite HD.
    cbn [mbind res_bind fst snd].
    destruct (SlDelete_sinv (z_sl z1) L sc m (zi_sl _ _ _ Hz1)) as (s' & r & Es & _ & Hs' & _).
    { by eapply zinv_nan. }
    rewrite Es. cbn [mbind res_bind fst snd]. eexists _, _. split; [done|]. split; simpl; [by split; [|congruence]| |exact Hs'|].
    - rewrite Hm2, (zi_map _ _ _ Hz1). done.
    - rewrite <-(filter_key' (λ k, esame k (sc, m)) (λ e, negb (esame (e_key e) (sc, m)))).
      2:{ intros e _. by rewrite negb_involutive. }
      rewrite (zi_perm _ _ _ Hz). rewrite (pairs_delete M m sc Hm). rewrite filter_cons.
      rewrite decide_False.
      2:{ rewrite esame_refl; [done|]. simpl. by eapply zinv_nan. }
      rewrite filter_other; [done|]. intros sc' Hin. apply elem_of_pairs in Hin. by rewrite lookup_delete in Hin.
  Qed.

  (** reading a list of nodes through the dict *)
  Definition shown (e : ent) : option (bytes * float) := Some (e_member e, e_score e).
  Lemma node_key s L e : str s L → e ∈ L → ∃ nd, node s (e_id e) = Ok nd ∧ n_member nd = e_member e.
  Proof.
    intros Hs He. apply elem_of_list_lookup in He as [p Hp].
    destruct (heap_at s L (S p) e Hs Hp) as (nd & N1 & N2 & _). exists nd. unfold node. rewrite N1. split; [done|].
    unfold n_key, e_key in N2. congruence.
  Qed.
  Lemma elements_spec z M L C : zinv z M L → (∀ e, e ∈ C → e ∈ L) →
    ∃ z', elements hash z (e_id <$> C) = Ok (z', shown <$> C) ∧ zinv z' M L.
  Proof.
    revert z. induction C as [|e C IH]; intros z Hz HC; [by exists z|]. rewrite !fmap_cons. cbn [elements].
    assert (e ∈ L) as He by set_solver.
    destruct (node_key (z_sl z) L e) as (nd & -> & Hnm); [apply (zi_sl _ _ _ Hz)|done|]. cbn [mbind res_bind]. rewrite Hnm.
    destruct (ZGet_zinv z M L (e_member e) Hz) as (z1 & -> & Hz1 & _). cbn [mbind res_bind fst snd].
    destruct (IH z1 Hz1) as (z2 & -> & Hz2); [set_solver|]. cbn [mbind res_bind fst snd]. exists z2.
    rewrite (zinv_in _ _ _ _ Hz He). split; [done|done].
  Qed.

  Definition remove (C : list ent) (M : gmap bytes float) : gmap bytes float :=
    filter (λ p, p.1 ∉ e_member <$> C) M.
  (** the same while deleting: [s0] is a state of the skiplist in which the
      nodes [C] still were linked *)
  Lemma elements_delete_spec z M C : inv (z_dict z) → d_map (z_dict z) = M →
    NoDup (e_member <$> C) → (∀ e, e ∈ C → M !! e_member e = Some (e_score e)) →
    (∀ e, e ∈ C → ∃ nd, node (z_sl z) (e_id e) = Ok nd ∧ n_member nd = e_member e) →
    ∃ d', elements_delete hash z (e_id <$> C) = Ok (MkZset d' (z_sl z), shown <$> C) ∧ inv d' ∧ d_map d' = remove C M.
  Proof.
    revert z M. induction C as [|e C IH]; intros z M Hi HM Hnd Hin Hnode.
    { exists (z_dict z). split; [by destruct z|]. split; [done|]. rewrite HM. symmetry. apply map_filter_id. intros. simpl. set_solver. }
    rewrite !fmap_cons in *. cbn [elements_delete]. apply NoDup_cons in Hnd as [Hne Hnd].
    destruct (Hnode e) as (nd & -> & Hnm); [left|]. cbn [mbind res_bind]. rewrite Hnm.
    destruct (ZGet_spec z (e_member e) Hi) as (d1 & -> & [Hok1 Hi1] & Hm1). cbn [mbind res_bind fst snd z_dict z_sl].
    rewrite HM. rewrite (Hin e) by left. cbn [fmap option_fmap option_map].
    destruct (Delete_spec hash d1 (e_member e) Hok1) as (d2 & HD & Hok2 & Hm2 & Hi2 & _). rewrite HD.
    cbn [mbind res_bind fst snd].
    destruct (IH (MkZset d2 (z_sl z)) (delete (e_member e) M)) as (d3 & E3 & Hi3 & Hm3); simpl.
    - split; [done|congruence].
    - rewrite Hm2, Hm1, HM. done.
    - done.
    - intros e' He'. rewrite lookup_delete_ne; [apply Hin; by right|]. intros Heq. apply Hne. apply elem_of_list_fmap. by exists e'.
    - intros e' He'. apply Hnode. by right.
    - cbn [z_sl] in E3. rewrite E3. cbn [mbind res_bind fst snd]. exists d3. split; [done|]. split; [done|].
      rewrite Hm3. unfold remove. apply map_eq. intros m. apply option_eq. intros sc.
      rewrite !map_filter_lookup_Some, lookup_delete_Some. simpl. rewrite elem_of_cons. naive_solver.
  Qed.
  Lemma pairs_remove M A C D : e_key <$> (A ++ C ++ D) ≡ₚ pairs M → NoDup (e_member <$> (A ++ C ++ D)) →
    e_key <$> (A ++ D) ≡ₚ pairs (remove C M).
  Proof.
    intros HP HN. apply NoDup_Permutation.
    - apply (NoDup_fmap_1 snd). rewrite <-list_fmap_compose. rewrite !fmap_app in *.
      apply NoDup_app in HN as (N1 & N2 & N3). apply NoDup_app in N3 as (N3 & N4 & N5).
      apply NoDup_app. split_and!; try done. intros x Hx HxD. apply (N2 x Hx). rewrite elem_of_app. by right.
    - apply (NoDup_fmap_1 snd). rewrite pairs_members. apply NoDup_fst_map_to_list.
    - intros [sc m]. rewrite elem_of_pairs. unfold remove. rewrite map_filter_lookup_Some. simpl.
      rewrite <-elem_of_pairs, <-HP. rewrite !fmap_app, !elem_of_app.
      assert (Hd : ∀ e e', e ∈ C → e' ∈ A ∨ e' ∈ D → e_member e ≠ e_member e').
      { rewrite !fmap_app in HN. apply NoDup_app in HN as (N1 & N2 & N3). apply NoDup_app in N3 as (N3 & N4 & N5).
        intros e e' He [He'|He'] Heq.
        - apply (N2 (e_member e')); [by apply elem_of_list_fmap_1|]. rewrite <-Heq. rewrite elem_of_app. left. by apply elem_of_list_fmap_1.
        - apply (N4 (e_member e)); [by apply elem_of_list_fmap_1|]. rewrite Heq. by apply elem_of_list_fmap_1. }
      split.
      + intros H. split; [tauto|]. intros (e & He & HC)%elem_of_list_fmap.
        destruct H as [(e' & He' & Hin)%elem_of_list_fmap|(e' & He' & Hin)%elem_of_list_fmap];
          unfold e_key in He'; injection He' as _ He'; apply (Hd e e'); auto; congruence.
      + intros [[H|[H|H]] Hnot]; auto. exfalso. apply Hnot. apply elem_of_list_fmap in H as (e & He & Hin).
        unfold e_key in He. injection He as _ ->. by apply elem_of_list_fmap_1.
  Qed.
  Lemma range_delete z M A C D s' : zinv z M (A ++ C ++ D) → sinv s' (A ++ D) → keeps (z_sl z) s' →
    ∃ z', elements_delete hash (MkZset (z_dict z) s') (e_id <$> C) = Ok (z', shown <$> C) ∧ zinv z' (remove C M) (A ++ D).
  Proof.
    intros Hz Hs' Hk. pose proof (zinv_nodup _ _ _ Hz) as HN.
    destruct (elements_delete_spec (MkZset (z_dict z) s') M C) as (d' & E1 & Hi & Hm); simpl.
    - apply (zi_inv _ _ _ Hz).
    - apply (zi_map _ _ _ Hz).
    - rewrite !fmap_app in HN. by apply NoDup_app in HN as (_ & _ & (? & _)%NoDup_app).
    - intros e He. apply (zinv_in _ _ _ _ Hz). set_solver.
    - intros e He. assert (e ∈ A ++ C ++ D) as Hin by set_solver. apply elem_of_list_lookup in Hin as [p Hp].
      destruct (zi_sl _ _ _ Hz) as (Hs & _). destruct (heap_at _ _ (S p) e Hs Hp) as (nd & N1 & N2 & _).
      destruct (Hk _ _ N1) as (nd' & N3 & N4). exists nd'. unfold node. rewrite N3. split; [done|].
      unfold n_key, e_key in *. congruence.
    - cbn [z_sl] in E1. eexists. split; [exact E1|]. split; simpl; try done.
      apply (pairs_remove M A C D); [apply (zi_perm _ _ _ Hz)|done].
  Qed.
End proofs.
