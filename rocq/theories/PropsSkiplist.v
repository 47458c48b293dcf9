(** C12-C16: the skiplist against an ordered set of (score, member) pairs. *)
From Verif Require Import Base Float SkiplistModel SkiplistProofs SkiplistProofs2 SkiplistProofs3 SkiplistProofs4 SkiplistProofs5.
From Coq Require Import ZifyBool ZifyNat.

(** * Specification *)
Notation pair := (float * bytes)%type.

(** reading the list through its pointers only *)
Fixpoint follow (fuel : nat) (next : snode → option nat) (h : gmap nat snode) (x : option nat) : option (list pair) :=
  match fuel, x with
  | _, None => Some []
  | O, Some _ => None
  | S fuel, Some x =>
      n ← h !! x; rest ← follow fuel next h (next n); Some (n_key n :: rest)
  end.
Definition fwd (n : snode) : option nat := n_levels n !! 0%nat ≫= fst.
Definition forward (s : skiplist) : option (list pair) :=
  follow (sl_next s) fwd (sl_heap s) (sl_heap s !! HEAD ≫= fwd).
Definition backward (s : skiplist) : option (list pair) :=
  follow (sl_next s) n_back (sl_heap s) (sl_tail s).
(** the pairs behind node identities *)
Definition keys (s : skiplist) (ids : list nat) : option (list pair) := mapM (λ x, n_key <$> sl_heap s !! x) ids.

Definition increasing (S : list pair) : Prop := StronglySorted (λ a b, elt a b = true) S.
Definition within (mn mx : float) (k : pair) : bool := fle mn k.1 && fle k.1 mx.

(** Histories: Insert of absent pairs with any level in 1..32, Delete,
    DeleteRangeByScore; [K] is the bag of pairs that should be there. *)
Inductive hist : list pair → skiplist → Prop :=
| hist_new : hist [] NewSkiplist
| hist_insert K s level sc m s' x :
    hist K s → 1 ≤ level ≤ 32 → not_nan sc → (∀ k, k ∈ K → esame k (sc, m) = false) →
    Insert s level sc m = Ok (s', x) → hist ((sc, m) :: K) s'
| hist_delete K s sc m s' r :
    hist K s → not_nan sc → SlDelete s sc m = Ok (s', r) →
    hist (filter (λ k, esame k (sc, m) = false) K) s'
| hist_delete_score K s mn mx s' r :
    hist K s → not_nan mn → DeleteRangeByScore s mn mx = Ok (s', r) →
    hist (filter (λ k, within mn mx k = false) K) s'.

(** * Auxiliary *)
Implicit Types L M : list ent.
Lemma filter_key (f : pair → bool) (g : ent → bool) L : (∀ e, e ∈ L → f (e_key e) = g e) →
  filter (λ k, f k = true) (e_key <$> L) = e_key <$> filter (λ e, g e = true) L.
Proof.
  induction L as [|e L IH]; intros Hfg; [done|]. rewrite fmap_cons, !filter_cons.
  rewrite (Hfg e) by set_solver. rewrite IH by set_solver. by case_decide.
Qed.
Lemma filter_key' (f : pair → bool) (g : ent → bool) L : (∀ e, e ∈ L → f (e_key e) = negb (g e)) →
  filter (λ k, f k = false) (e_key <$> L) = e_key <$> filter (λ e, g e = true) L.
Proof.
  induction L as [|e L IH]; intros Hfg; [done|]. rewrite fmap_cons, !filter_cons.
  rewrite (Hfg e) by set_solver. rewrite IH by set_solver.
  destruct (g e); simpl; (repeat case_decide); try done; congruence.
Qed.
Lemma nan_of_in (L : list ent) e : nn L → e ∈ L → not_nan (e_score e).
Proof. intros Hnn He. eapply Forall_forall in Hnn; [exact Hnn|done]. Qed.
Lemma within_range mn mx e : not_nan mn → not_nan (e_score e) → within mn mx (e_key e) = in_range mn mx e.
Proof. intros H1 H2. unfold within, in_range. simpl. by rewrite fle_flt. Qed.

Lemma hist_inv K s : hist K s → ∃ L, sinv s L ∧ K ≡ₚ e_key <$> L.
Proof.
  induction 1 as [|K s level sc m s' x Hh IH Hl Hn Hab E|K s sc m s' r Hh IH Hn E|K s mn mx s' r Hh IH Hn E].
  - exists []. split; [apply sinv_new|done].
  - destruct IH as (L & HL & HK).
    destruct (Insert_sinv s L level sc m HL Hl Hn) as (A & Bb & s2 & -> & E2 & Hs2 & _).
    { apply Forall_forall. intros e He. apply Hab. rewrite HK. by apply elem_of_list_fmap_1. }
    rewrite E in E2. injection E2 as <- _. eexists. split; [exact Hs2|].
    rewrite HK, !fmap_app, fmap_cons. by rewrite Permutation_middle.
  - destruct IH as (L & HL & HK).
    destruct (SlDelete_sinv s L sc m HL Hn) as (s2 & r2 & E2 & _ & Hs2 & _).
    rewrite E in E2. injection E2 as <- _. eexists. split; [exact Hs2|].
    rewrite HK. rewrite (filter_key' _ (λ e, negb (esame (e_key e) (sc, m)))); [done|].
    intros e _. by rewrite negb_involutive.
  - destruct IH as (L & HL & HK).
    destruct (DeleteRangeByScore_sinv s L mn mx HL) as (s2 & E2 & Hs2 & _).
    rewrite E in E2. injection E2 as <- _. eexists. split; [exact Hs2|].
    rewrite HK. rewrite (filter_key' _ (λ e, negb (in_range mn mx e))); [done|].
    intros e He. rewrite negb_involutive. apply within_range; [done|]. eapply nan_of_in; [apply HL|done].
Qed.

Lemma heap_at s L p e : str s L → (hd_ent :: L) !! p = Some e →
  ∃ nd, sl_heap s !! e_id e = Some nd ∧ n_key nd = e_key e ∧ n_back nd = bkof L p ∧ fwd nd = e_id <$> L !! p.
Proof.
  intros Hs Hp. destruct (s_tab _ _ Hs p e Hp) as (nd & N1 & N2 & N3 & N4 & N5 & N6).
  exists nd. split_and!; try done; [unfold n_key, e_key; congruence|].
  pose proof (height_pos s L Hs p e Hp) as Hh. destruct (N6 0%nat Hh) as (lv & Hlv & E1 & _).
  unfold fwd. rewrite Hlv. simpl. rewrite E1. unfold vof. rewrite nxt0 by (apply Forall_drop; by eapply heights_pos).
  destruct (drop p L) as [|d D] eqn:Ed.
  - assert (length L ≤ p)%nat by (apply (f_equal length) in Ed; rewrite drop_length in Ed; simpl in Ed; lia).
    by rewrite lookup_ge_None_2.
  - assert (L !! p = Some d) as ->; [|done]. rewrite <-(Nat.add_0_r p). rewrite <-lookup_drop, Ed. done.
Qed.

Lemma follow_fwd s L : str s L → ∀ fuel p, (length L - p ≤ fuel)%nat →
  follow fuel fwd (sl_heap s) (e_id <$> L !! p) = Some (e_key <$> drop p L).
Proof.
  intros Hs. induction fuel as [|fuel IH]; intros p Hf.
  - rewrite lookup_ge_None_2 by lia. rewrite drop_ge by lia. done.
  - destruct (L !! p) as [e|] eqn:Ep.
    + destruct (heap_at s L (S p) e Hs Ep) as (nd & N1 & N2 & N3 & N4). simpl. rewrite N1. simpl. rewrite N4.
      rewrite IH by lia. simpl. rewrite (drop_S _ _ _ Ep). by rewrite fmap_cons, N2.
    + simpl. apply lookup_ge_None in Ep. by rewrite drop_ge.
Qed.
Lemma follow_bwd s L : str s L → ∀ fuel p, (p ≤ length L)%nat → (p ≤ fuel)%nat →
  follow fuel n_back (sl_heap s) (match p with O => None | S q => e_id <$> L !! q end) = Some (e_key <$> reverse (take p L)).
Proof.
  intros Hs. induction fuel as [|fuel IH]; intros p Hp Hf.
  - replace p with 0%nat by lia. done.
  - destruct p as [|p]; [done|]. destruct (lookup_lt_is_Some_2 L p ltac:(lia)) as [e Ep]. rewrite Ep.
    destruct (heap_at s L (S p) e Hs Ep) as (nd & N1 & N2 & N3 & N4). simpl. rewrite N1. simpl. rewrite N3.
    assert (bkof L (S p) = match p with O => None | S q => e_id <$> L !! q end) as -> by (by destruct p).
    rewrite IH by lia. simpl. rewrite (take_S_r _ _ _ Ep), reverse_snoc. by rewrite fmap_cons, N2.
Qed.

Lemma forward_spec s L : str s L → forward s = Some (e_key <$> L).
Proof.
  intros Hs. unfold forward. destruct (heap_at s L 0 hd_ent Hs eq_refl) as (nd & N1 & _ & _ & N4).
  change (e_id hd_ent) with HEAD in N1. rewrite N1. simpl. rewrite N4. pose proof (s_count _ _ Hs).
  rewrite (follow_fwd s L Hs) by lia. done.
Qed.
Lemma backward_spec s L : str s L → backward s = Some (e_key <$> reverse L).
Proof.
  intros Hs. unfold backward. rewrite (s_tail _ _ Hs). pose proof (s_count _ _ Hs).
  pose proof (follow_bwd s L Hs (sl_next s) (length L) ltac:(lia) ltac:(lia)) as Hb. rewrite firstn_all in Hb.
  rewrite <-Hb. f_equal. rewrite last_lookup. by destruct L.
Qed.
Lemma increasing_keys L : sorted L → increasing (e_key <$> L).
Proof.
  induction L as [|e L IH]; intros Hs; [constructor|]. apply StronglySorted_inv in Hs as [Hs Ha]. constructor; [by apply IH|].
  apply Forall_fmap. done.
Qed.

Lemma keys_sub s L M : str s L → (∀ e, e ∈ M → e ∈ L) → keys s (e_id <$> M) = Some (e_key <$> M).
Proof.
  intros Hs. induction M as [|e M IH]; intros HM; [done|]. rewrite !fmap_cons. unfold keys. cbn [mapM].
  assert (e ∈ L) as He by set_solver. apply elem_of_list_lookup in He as [p Hp].
  destruct (heap_at s L (S p) e Hs Hp) as (nd & -> & Hk & _). simpl. rewrite Hk.
  fold (keys s (e_id <$> M)). rewrite IH by set_solver. done.
Qed.
Lemma keys_keeps s s' ids ks : keeps s s' → keys s ids = Some ks → keys s' ids = Some ks.
Proof.
  intros Hk. revert ks. induction ids as [|x ids IH]; intros ks; unfold keys; cbn [mapM]; [done|].
  destruct (sl_heap s !! x) as [nd|] eqn:Ex; [|done]. simpl. destruct (Hk x nd Ex) as (nd' & -> & Hkk). simpl. rewrite Hkk.
  fold (keys s ids). fold (keys s' ids). destruct (keys s ids) as [k|] eqn:Ek; [|done]. simpl.
  rewrite (IH k) by done. done.
Qed.

(** ** C12 *)
Theorem C12_order K s : hist K s →
  ∃ S, forward s = Some S ∧ backward s = Some (reverse S) ∧ S ≡ₚ K ∧ increasing S ∧ sl_length s = zlen K.
Proof.
  intros Hh. destruct (hist_inv K s Hh) as (L & (Hs & Hso & Hnn) & HK). exists (e_key <$> L).
  split_and!.
  - by apply forward_spec.
  - rewrite (backward_spec s L Hs). by rewrite fmap_reverse.
  - done.
  - by apply increasing_keys.
  - rewrite (s_length _ _ Hs). unfold zlen. rewrite (Permutation_length HK). by rewrite fmap_length.
Qed.
(** ... and none of the operations can fail on a reachable list. *)
Theorem C12_no_panic K s : hist K s →
  (∀ level sc m, 1 ≤ level ≤ 32 → not_nan sc → (∀ k, k ∈ K → esame k (sc, m) = false) →
     ∃ s' x, Insert s level sc m = Ok (s', x)) ∧
  (∀ sc m, not_nan sc → ∃ s' r, SlDelete s sc m = Ok (s', r)) ∧
  (∀ mn mx, ∃ s' r, DeleteRangeByScore s mn mx = Ok (s', r)).
Proof.
  intros Hh. destruct (hist_inv K s Hh) as (L & HL & HK). split_and!.
  - intros level sc m Hl Hn Hab. destruct (Insert_sinv s L level sc m HL Hl Hn) as (A & Bb & s2 & -> & E2 & _).
    { apply Forall_forall. intros e He. apply Hab. rewrite HK. by apply elem_of_list_fmap_1. }
    eauto.
  - intros sc m Hn. destruct (SlDelete_sinv s L sc m HL Hn) as (s2 & r2 & E2 & _). eauto.
  - intros mn mx. destruct (DeleteRangeByScore_sinv s L mn mx HL) as (s2 & E2 & _). eauto.
Qed.

(** The random source picks a level in 1..32 unless 127 successive draws
    succeed (probability 4^-127). *)
Definition success (r : Z) : Prop := Z.land r 65535 ≤ 16383.
Lemma randomLevel_loop_spec rs : ∀ l, 1 ≤ l ≤ 127 → ¬ (Forall success (take (Z.to_nat (128 - l)) rs)) →
  ∃ l' rs', randomLevel_loop l rs = Ok (l', rs') ∧ 1 ≤ l' ≤ 127.
Proof.
  induction rs as [|r rs IH]; intros l Hl Hf.
  { exfalso. apply Hf. rewrite take_nil. constructor. }
  simpl. destruct (Z.land r 65535 <=? 16383) eqn:E; [|by exists l, rs].
  destruct (decide (l = 127)) as [->|Hne].
  { exfalso. apply Hf. replace (Z.to_nat (128 - 127)) with 1%nat by lia. simpl. repeat constructor. unfold success; lia. }
  replace (wrap8 (l + 1)) with (l + 1).
  - apply IH; [lia|]. intros Hf'. apply Hf. replace (Z.to_nat (128 - l)) with (S (Z.to_nat (128 - (l + 1)))) by lia.
    simpl. constructor; [unfold success; lia|done].
  - unfold wrap8. rewrite Z.mod_small by lia. lia.
Qed.
Theorem C12_levels rs : ¬ Forall success (take 127 rs) → ∃ l rs', randomLevel rs = Ok (l, rs') ∧ 1 ≤ l ≤ 32.
Proof.
  intros Hf. destruct (randomLevel_loop_spec rs 1 ltac:(lia) Hf) as (l & rs' & E & Hl). unfold randomLevel. rewrite E.
  cbn [mbind res_bind fst snd]. destruct (l <? Z.of_nat maxLevel) eqn:E2; eexists _, _; (split; [done|]); unfold maxLevel in *; lia.
Qed.
(** 127 successes overflow the int8 counter and Insert panics. *)
Theorem C12_level_overflow s sc m K : hist K s → not_nan sc →
  ∃ l rs', randomLevel (replicate 127 0 ++ [16384]) = Ok (l, rs') ∧ Insert s l sc m = Panic.
Proof.
  intros Hh Hn. exists (-128), []. split; [vm_compute; done|].
  destruct (hist_inv K s Hh) as (L & (Hs & Hso & Hnn) & _).
  destruct (split_before (sc, m) L Hn Hnn Hso) as (A & Bb & -> & HA & HB).
  destruct (search_at s A Bb (before (sc, m)) Hs (cond_before _ _ _ HA HB)) as (us & e0 & E1 & _).
  unfold Insert. by rewrite E1.
Qed.

(** ** C13 *)
Theorem C13_GetElementByRank K s : hist K s → ∃ S, S ≡ₚ K ∧ increasing S ∧
  ∀ r, 1 ≤ r → ∃ o, GetElementByRank s r = Ok o ∧ (o ≫= λ x, n_key <$> sl_heap s !! x) = S !! Z.to_nat (r - 1) ∧
    (o = None ↔ zlen K < r).
Proof.
  intros Hh. destruct (hist_inv K s Hh) as (L & (Hs & Hso & Hnn) & HK). exists (e_key <$> L).
  split_and!; [done|by apply increasing_keys|]. intros r Hr. eexists. split; [by apply GetElementByRank_spec|].
  rewrite decide_True by lia. unfold zlen. rewrite (Permutation_length HK), fmap_length.
  replace (Z.to_nat r) with (S (Z.to_nat (r - 1))) by lia. simpl.
  rewrite list_lookup_fmap. destruct (L !! Z.to_nat (r - 1)) as [e|] eqn:Ep; simpl.
  - destruct (heap_at s L (S (Z.to_nat (r - 1))) e Hs Ep) as (nd & -> & Hk & _). simpl. rewrite Hk.
    split; [done|]. apply lookup_lt_Some in Ep. split; [done|lia].
  - split; [done|]. apply lookup_ge_None in Ep. split; [lia|done].
Qed.
(** GetRank, when no other pair of the list has the same member *)
Theorem C13_GetRank K s : hist K s → ∃ S, S ≡ₚ K ∧ increasing S ∧
  (∀ q sc m, S !! q = Some (sc, m) → m ≠ [] → (∀ q' sc', S !! q' = Some (sc', m) → q' = q) →
     GetRank s sc m = Ok (Z.of_nat q + 1)) ∧
  (∀ sc m, not_nan sc → m ≠ [] → (∀ sc', (sc', m) ∉ K) → GetRank s sc m = Ok 0).
Proof.
  intros Hh. destruct (hist_inv K s Hh) as (L & HL & HK). destruct HL as (Hs & Hso & Hnn). exists (e_key <$> L).
  split_and!; [done|by apply increasing_keys| |].
  - intros q sc m Hq Hm Hu. rewrite list_lookup_fmap in Hq. destruct (L !! q) as [e|] eqn:Ep; [|done].
    simpl in Hq. injection Hq as <- <-. pose proof (Forall_lookup_1 _ _ _ _ Hnn Ep) as Hne. simpl in Hne.
    apply (GetRank_present s L _ _ q e); try done.
    + by apply (esame_refl (e_key e)).
    + intros q' e' Hq' He'. apply (Hu q' (e_score e')). rewrite list_lookup_fmap, Hq'. simpl. unfold e_key. by rewrite He'.
  - intros sc m Hn Hm Hab. apply (GetRank_absent s L); try done. intros e He Hem. apply (Hab (e_score e)).
    rewrite HK. apply elem_of_list_fmap. exists e. split; [|done]. unfold e_key. by rewrite Hem.
Qed.
(** RangeByRank, up to the largest slice capacity make accepts; in the reverse
    direction only for start <= Length. *)
Theorem C13_RangeByRank_partial K s : hist K s → ∃ S, S ≡ₚ K ∧ increasing S ∧
  ∀ start end_, 1 ≤ start → end_ - start < 2^45 →
    (∃ ids, RangeByRank s start end_ false = Ok ids ∧
       keys s ids = Some (take (Z.to_nat (end_ - start + 1)) (drop (Z.to_nat start - 1) S))) ∧
    (start ≤ zlen K →
     ∃ ids, RangeByRank s start end_ true = Ok ids ∧
       keys s ids = Some (take (Z.to_nat (end_ - start + 1)) (drop (Z.to_nat start - 1) (reverse S)))).
Proof.
  intros Hh. destruct (hist_inv K s Hh) as (L & HL & HK). destruct HL as (Hs & Hso & Hnn). exists (e_key <$> L).
  split_and!; [done|by apply increasing_keys|]. intros start end_ Hst Hlen.
  destruct (decide (start ≤ end_)) as [Hse|Hse].
  - assert (Hmk : make_ok (end_ - start + 1) 8 = true) by (unfold make_ok, maxAlloc; lia). split.
    + eexists. split; [by apply RangeByRank_fwd|].
      rewrite (keys_sub s L); [by rewrite fmap_take, fmap_drop|done|].
      intros e (? & He & _)%elem_of_take. rewrite lookup_drop in He. by apply elem_of_list_lookup_2 in He.
    + intros Hle. assert (start ≤ zlen L).
      { unfold zlen in *. rewrite (Permutation_length HK), fmap_length in Hle. done. }
      eexists. split; [by apply RangeByRank_bwd|].
      rewrite (keys_sub s L); [by rewrite fmap_take, fmap_drop, fmap_reverse|done|].
      intros e (? & He & _)%elem_of_take. rewrite lookup_drop in He. apply elem_of_list_lookup_2 in He.
      by rewrite elem_of_reverse in He.
  - replace (Z.to_nat (end_ - start + 1)) with 0%nat by lia. rewrite !take_0. split.
    + exists []. split; [|done]. unfold RangeByRank. by replace ((start <? 1) || (end_ <? 1) || (end_ <? start)) with true by lia.
    + intros _. exists []. split; [|done]. unfold RangeByRank. by replace ((start <? 1) || (end_ <? 1) || (end_ <? start)) with true by lia.
Qed.

(** Example lists: inserts (level, score, member) *)
Fixpoint build (s : skiplist) (l : list (Z * Z * String.string)) : res skiplist :=
  match l with
  | [] => Ok s
  | (lv, sc, m) :: l => r ← Insert s lv (of_Z sc) (B m); build r.1 l
  end.
Definition built (l : list (Z * Z * String.string)) : skiplist :=
  match build NewSkiplist l with Ok s => s | _ => NewSkiplist end.
Lemma build_hist l : ∀ K s s', hist K s → build s l = Ok s' →
  (∀ lv sc m, (lv, sc, m) ∈ l → 1 ≤ lv ≤ 32) →
  (fix fresh K (l : list (Z * Z * String.string)) : bool :=
     match l with [] => true | (_, sc, m) :: l => negb (is_nan (of_Z sc)) && forallb (λ k, negb (esame k (of_Z sc, B m))) K && fresh ((of_Z sc, B m) :: K) l end) K l = true →
  hist (rev ((λ x, (of_Z x.1.2, B x.2)) <$> l) ++ K) s'.
Proof.
  induction l as [|[[lv sc] m] l IH]; intros K s s' Hh Hb Hlv Hf.
  { simpl in Hb. injection Hb as <-. done. }
  cbn [build] in Hb. destruct (Insert s lv (of_Z sc) (B m)) as [[s1 x]| |] eqn:E; [|done|done]. cbn [mbind res_bind fst] in Hb.
  apply andb_prop in Hf as [Hf1 Hf2]. apply andb_prop in Hf1 as [Hf0 Hf1].
  assert (Hn : not_nan (of_Z sc)) by (unfold not_nan; by destruct (is_nan (of_Z sc))).
  assert (hist ((of_Z sc, B m) :: K) s1) as Hh1.
  { eapply hist_insert; [done|by apply (Hlv lv sc m), elem_of_list_here|done| |done].
    intros k Hk. apply elem_of_list_In in Hk. rewrite forallb_forall in Hf1. specialize (Hf1 k Hk). by destruct (esame k _). }
  pose proof (IH _ _ _ Hh1 Hb) as Hr. rewrite fmap_cons. simpl. rewrite <-app_assoc. simpl. apply Hr; [|done].
  intros. eapply Hlv. by apply elem_of_list_further.
Qed.
(* the same, checked by one computation *)
Definition fresh_keys := fix fresh (K : list (float * bytes)) (l : list (Z * Z * String.string)) : bool :=
     match l with [] => true | (_, sc, m) :: l => negb (is_nan (of_Z sc)) && forallb (λ k, negb (esame k (of_Z sc, B m))) K && fresh ((of_Z sc, B m) :: K) l end.
Lemma built_hist l :
  (match build NewSkiplist l with Ok _ => true | _ => false end)
  && forallb (λ x, (1 <=? x.1.1) && (x.1.1 <=? 32)) l && fresh_keys [] l = true →
  hist (rev ((λ x, (of_Z x.1.2, B x.2)) <$> l)) (built l).
Proof.
  intros H. apply andb_prop in H as [H H3]. apply andb_prop in H as [H1 H2].
  rewrite <-(app_nil_r (rev _)). apply (build_hist l [] NewSkiplist (built l) hist_new).
  - unfold built. destruct (build NewSkiplist l); done.
  - intros lv sc m Hin. rewrite forallb_forall in H2. apply elem_of_list_In in Hin.
    specialize (H2 _ Hin). simpl in H2. lia.
  - exact H3.
Qed.

(* reading off a computed result without copying it into the proof *)
Lemma ok_case2 {A C} (r : res (A * C)) (Q : A → C → Prop) :
  match r with Ok (a, c) => Q a c | _ => False end → ∃ a c, r = Ok (a, c) ∧ Q a c.
Proof. destruct r as [[a c]| |]; [eauto|done|done]. Qed.

Definition ex4 := [(3, 3, "c"%string); (1, 1, "a"%string); (2, 2, "b"%string); (1, 2, "bb"%string)].
Example ex4_hist : ∃ K, hist K (built ex4) ∧ length K = 4%nat.
Proof. eexists. split; [apply built_hist; vm_compute; reflexivity|done]. Qed.
Example ex4_forward : forward (built ex4) = Some [(of_Z 1, B "a"); (of_Z 2, B "b"); (of_Z 2, B "bb"); (of_Z 3, B "c")].
Proof. vm_compute. reflexivity. Qed.
Example ex4_rank : GetRank (built ex4) (of_Z 2) (B "bb") = Ok 3.
Proof. vm_compute. reflexivity. Qed.
Example ex4_levels : ¬ Forall success (take 127 [5; 70000; 16384]) ∧ randomLevel [5; 70000; 16384] = Ok (3, []).
Proof. split; [|vm_compute; reflexivity]. intros H. repeat (apply Forall_cons in H as [? H]). unfold success in *. vm_compute in *. done. Qed.
Print Assumptions C12_order.
Print Assumptions C12_no_panic.
Print Assumptions C12_levels.
Print Assumptions C12_level_overflow.
Print Assumptions C13_GetElementByRank.
Print Assumptions C13_GetRank.
Print Assumptions C13_RangeByRank_partial.

(** What fails for C13: a large end makes the slice allocation panic; in the
    reverse direction one rank past the end yields the Head sentinel (score 0,
    empty member); a member held twice with different scores can be ranked at
    the other pair; the empty member can be ranked 0 although present. *)
Theorem C13_refuted :
  ∃ K s, hist K s ∧ RangeByRank s 1 (2^46) false = Panic ∧
    RangeByRank s 5 6 true = Ok [HEAD] ∧ zlen K = 4.
Proof. eexists _, (built ex4). split; [apply built_hist; vm_compute; reflexivity|]. split_and!; vm_compute; reflexivity. Qed.
Definition exdup := [(2, 1, "a"%string); (1, 2, "a"%string)].
Theorem C13_GetRank_refuted :
  (∃ K s, hist K s ∧ (of_Z 2, B "a") ∈ K ∧ GetRank s (of_Z 2) (B "a") = Ok 1 ∧
     forward s = Some [(of_Z 1, B "a"); (of_Z 2, B "a")]) ∧
  (∃ K s, hist K s ∧ (of_Z 1, B "") ∈ K ∧ GetRank s (of_Z 1) (B "") = Ok 0).
Proof.
  split.
  - eexists _, (built exdup). split; [apply built_hist; vm_compute; reflexivity|]. split; [apply elem_of_list_here|]. split; vm_compute; reflexivity.
  - eexists _, (built [(1, 1, ""%string); (2, 2, "z"%string)]). split; [apply built_hist; vm_compute; reflexivity|].
    split; [apply elem_of_list_further, elem_of_list_here|]. vm_compute; reflexivity.
Qed.
Print Assumptions C13_refuted.
Print Assumptions C13_GetRank_refuted.

(** ** C14 *)
Definition limited (limit : Z) (l : list pair) : list pair := if limit <? 0 then l else take (Z.to_nat limit) l.
Lemma limited_key limit L : e_key <$> (if decide (limit < 0) then L else take (Z.to_nat limit) L) = limited limit (e_key <$> L).
Proof.
  unfold limited. case_decide.
  - by replace (limit <? 0) with true by lia.
  - replace (limit <? 0) with false by lia. by rewrite fmap_take.
Qed.
Lemma limited_sub limit L e : e ∈ (if decide (limit < 0) then L else take (Z.to_nat limit) L) → e ∈ L.
Proof. case_decide; [done|]. intros (? & He & _)%elem_of_take. by eapply elem_of_list_lookup_2. Qed.

Theorem C14_scores_partial K s : hist K s → ∃ S, S ≡ₚ K ∧ increasing S ∧
  ∀ mn mx, not_nan mn → let R := filter (λ k, within mn mx k = true) S in
    (∀ limit, ∃ ids, RangeByScore s mn mx limit false = Ok ids ∧ keys s ids = Some (limited limit R)) ∧
    (not_nan mx → ∀ limit, ∃ ids, RangeByScore s mn mx limit true = Ok ids ∧ keys s ids = Some (limited limit (reverse R))) ∧
    Count s mn mx = Ok (zlen R) ∧
    (∃ o, GetFirstInScoreRange s mn mx = Ok o ∧ keys s (option_list o) = Some (option_list (head R))) ∧
    (not_nan mx → ∃ o, GetLastInScoreRange s mn mx = Ok o ∧ keys s (option_list o) = Some (option_list (last R))).
Proof.
  intros Hh. destruct (hist_inv K s Hh) as (L & HL & HK). pose proof HL as (Hs & Hso & Hnn). exists (e_key <$> L).
  split_and!; [done|by apply increasing_keys|]. intros mn mx Hmn.
  rewrite (filter_key _ (in_range mn mx)).
  2:{ intros e He. apply within_range; [done|]. by eapply nan_of_in. }
  set (F := filter (λ e, in_range mn mx e = true) L).
  assert (HF : ∀ e, e ∈ F → e ∈ L) by (intros e; unfold F; rewrite elem_of_list_filter; tauto).
  cbv zeta. split_and!.
  - intros limit. eexists. split; [by apply RangeByScore_fwd|]. cbv zeta. fold F.
    rewrite (keys_sub s L), limited_key; [done|done|]. intros e He. apply HF. by eapply limited_sub.
  - intros Hmx limit. eexists. split; [by apply RangeByScore_bwd|]. cbv zeta. fold F.
    rewrite (keys_sub s L), limited_key; [by rewrite fmap_reverse|done|]. intros e He. apply HF.
    apply limited_sub in He. by rewrite elem_of_reverse in He.
  - rewrite (Count_spec s L) by done. fold F. unfold zlen. by rewrite fmap_length.
  - eexists. split; [by apply GetFirst_spec|]. fold F.
    assert (option_list (e_id <$> head F) = e_id <$> option_list (head F)) as -> by (by destruct F).
    rewrite (keys_sub s L); [by destruct F|done|]. intros e He. apply HF. destruct F; set_solver.
  - intros Hmx. eexists. split; [by apply GetLast_spec|]. fold F.
    assert (option_list (e_id <$> last F) = e_id <$> option_list (last F)) as -> by (by destruct (last F)).
    rewrite (keys_sub s L); [|done|].
    + by rewrite fmap_last; destruct (last F).
    + intros e He. apply HF. destruct (last F) as [l|] eqn:El; [|by apply elem_of_nil in He].
      apply elem_of_list_singleton in He as ->. apply last_Some in El as [F' ->]. set_solver.
Qed.
(** A NaN bound: min = NaN selects everything up to max; max = NaN in the
    reverse direction yields the Head sentinel. *)
Definition NaN : float := SpecFloat.S754_nan.
Theorem C14_nan_refuted : ∃ K s, hist K s ∧ filter (λ k, within NaN (of_Z 9) k = true) K = [] ∧
  Count s NaN (of_Z 9) = Ok 4 ∧ RangeByScore s (of_Z 0) NaN (-1) true = Ok [HEAD].
Proof. eexists _, (built ex4). split; [apply built_hist; vm_compute; reflexivity|]. split_and!; vm_compute; reflexivity. Qed.
Example C14_example : ∃ ids, RangeByScore (built ex4) (of_Z 2) (of_Z 3) 2 true = Ok ids ∧
  keys (built ex4) ids = Some [(of_Z 3, B "c"); (of_Z 2, B "bb")].
Proof. eexists. split; vm_compute; reflexivity. Qed.
Print Assumptions C14_scores_partial.
Print Assumptions C14_nan_refuted.

(** ** C15 *)
Theorem C15_delete_by_score_partial K s : hist K s → ∃ S, S ≡ₚ K ∧ increasing S ∧
  ∀ mn mx, not_nan mn → ∃ s' ids, DeleteRangeByScore s mn mx = Ok (s', ids) ∧
    keys s' ids = Some (filter (λ k, within mn mx k = true) S) ∧
    forward s' = Some (filter (λ k, within mn mx k = false) S) ∧
    backward s' = Some (reverse (filter (λ k, within mn mx k = false) S)) ∧
    sl_length s' = sl_length s - zlen ids ∧
    hist (filter (λ k, within mn mx k = false) K) s'.
Proof.
  intros Hh. destruct (hist_inv K s Hh) as (L & HL & HK). pose proof HL as (Hs & Hso & Hnn). exists (e_key <$> L).
  split_and!; [done|by apply increasing_keys|]. intros mn mx Hmn.
  assert (Hw : ∀ e, e ∈ L → within mn mx (e_key e) = in_range mn mx e).
  { intros e He. apply within_range; [done|]. by eapply nan_of_in. }
  destruct (DeleteRangeByScore_sinv s L mn mx HL) as (s' & E & (Hs' & Hso' & Hnn') & Hk & _).
  eexists s', _. split; [exact E|]. rewrite (filter_key _ (in_range mn mx)) by done.
  rewrite (filter_key' _ (λ e, negb (in_range mn mx e))) by (intros; rewrite negb_involutive; auto).
  split_and!.
  - eapply keys_keeps; [exact Hk|]. apply (keys_sub s L); [done|]. intros e. rewrite elem_of_list_filter. tauto.
  - by apply forward_spec.
  - rewrite (backward_spec _ _ Hs'). by rewrite fmap_reverse.
  - rewrite (s_length _ _ Hs'), (s_length _ _ Hs). unfold zlen. rewrite fmap_length.
    enough (length L = length (filter (λ e, in_range mn mx e = true) L) + length (filter (λ e, negb (in_range mn mx e) = true) L))%nat by lia.
    clear. induction L as [|e L IH]; [done|]. rewrite !filter_cons. simpl.
    destruct (in_range mn mx e); simpl; (repeat case_decide); simpl; try done; try lia; congruence.
  - eapply hist_delete_score; [exact Hh|done|exact E].
Qed.
Theorem C15_nan_refuted : ∃ K s s' ids, hist K s ∧ filter (λ k, within NaN (of_Z 9) k = true) K = [] ∧
  DeleteRangeByScore s NaN (of_Z 9) = Ok (s', ids) ∧ length ids = 4%nat ∧ sl_length s' = 0.
Proof.
  enough (∃ s' ids, DeleteRangeByScore (built ex4) NaN (of_Z 9) = Ok (s', ids) ∧ length ids = 4%nat ∧ sl_length s' = 0)
    as (s' & ids & E & H1 & H2).
  { eexists _, (built ex4), s', ids. split; [apply built_hist; vm_compute; reflexivity|]. split; [vm_compute; reflexivity|]. exact (conj E (conj H1 H2)). }
  apply ok_case2. vm_compute. split; reflexivity.
Qed.
Example C15_example : ∃ s' ids, DeleteRangeByScore (built ex4) (of_Z 2) (of_Z 2) = Ok (s', ids) ∧ length ids = 2%nat ∧
  forward s' = Some [(of_Z 1, B "a"); (of_Z 3, B "c")].
Proof. apply ok_case2. vm_compute. split; reflexivity. Qed.
Print Assumptions C15_delete_by_score_partial.
Print Assumptions C15_nan_refuted.

(** ** C16: right when the elements before [start] have one level each; missing: the
    other cases, in which something else is removed ([C16_exact]). *)
(** the number of levels of the nodes, in the order of the list *)
Fixpoint heights_from (fuel : nat) (h : gmap nat snode) (x : option nat) : option (list nat) :=
  match fuel, x with
  | _, None => Some []
  | O, Some _ => None
  | S fuel, Some x => n ← h !! x; rest ← heights_from fuel h (fwd n); Some (length (n_levels n) :: rest)
  end.
Definition heights (s : skiplist) : option (list nat) := heights_from (sl_next s) (sl_heap s) (sl_heap s !! HEAD ≫= fwd).
Lemma heights_spec s L : str s L → heights s = Some (e_h <$> L).
Proof.
  intros Hs. assert (Hgen : ∀ fuel p, (length L - p ≤ fuel)%nat → heights_from fuel (sl_heap s) (e_id <$> L !! p) = Some (e_h <$> drop p L)).
  { induction fuel as [|fuel IH]; intros p Hf.
    - rewrite lookup_ge_None_2 by lia. rewrite drop_ge by lia. done.
    - destruct (L !! p) as [e|] eqn:Ep.
      + destruct (heap_at s L (S p) e Hs Ep) as (nd & N1 & _ & _ & N4).
        destruct (s_tab _ _ Hs (S p) e Ep) as (nd' & T1 & _ & _ & _ & T5 & _). rewrite N1 in T1. injection T1 as <-.
        simpl. rewrite N1. simpl. rewrite N4. rewrite IH by lia. simpl. rewrite (drop_S _ _ _ Ep). by rewrite fmap_cons, T5.
      + simpl. apply lookup_ge_None in Ep. by rewrite drop_ge. }
  unfold heights. destruct (heap_at s L 0 hd_ent Hs eq_refl) as (nd & N1 & _ & _ & N4).
  change (e_id hd_ent) with HEAD in N1. rewrite N1. simpl. rewrite N4. pose proof (s_count _ _ Hs). rewrite Hgen by lia. done.
Qed.
Lemma low_heights start L : low start L ↔ Forall (λ h, h = 1%nat) (take (Z.to_nat start - 1) (e_h <$> L)).
Proof. unfold low. by rewrite <-fmap_take, Forall_fmap. Qed.
Theorem C16_delete_by_rank_partial K s : hist K s → ∃ S hs, S ≡ₚ K ∧ increasing S ∧ heights s = Some hs ∧
  ∀ start end_, 1 ≤ start ≤ end_ → Forall (λ h, h = 1%nat) (take (Z.to_nat start - 1) hs) →
    ∃ s' ids, DeleteRangeByRank s start end_ = Ok (s', ids) ∧
      keys s' ids = Some (take (Z.to_nat (end_ - start + 1)) (drop (Z.to_nat start - 1) S)) ∧
      let R := take (Z.to_nat start - 1) S ++ drop (Z.to_nat end_) S in
      forward s' = Some R ∧ backward s' = Some (reverse R) ∧ sl_length s' = zlen R ∧
      ∀ r, 1 ≤ r → ∃ o, GetElementByRank s' r = Ok o ∧ (o ≫= λ x, n_key <$> sl_heap s' !! x) = R !! Z.to_nat (r - 1).
Proof.
  intros Hh. destruct (hist_inv K s Hh) as (L & HL & HK). pose proof HL as (Hs & Hso & Hnn). exists (e_key <$> L), (e_h <$> L).
  split_and!; [done|by apply increasing_keys|by apply heights_spec|]. intros start end_ Hr Hlev. apply low_heights in Hlev.
  destruct (DeleteRangeByRank_sinv s L start end_ HL Hr Hlev) as (s' & E & (Hs' & Hso' & Hnn') & Hk & _).
  eexists s', _. split; [exact E|].
  rewrite <-fmap_take, <-!fmap_drop, <-fmap_take, <-fmap_app. cbv zeta. split_and!.
  - eapply keys_keeps; [exact Hk|]. apply (keys_sub s L); [done|].
    intros e (? & He & _)%elem_of_take. rewrite lookup_drop in He. by eapply elem_of_list_lookup_2.
  - by apply forward_spec.
  - rewrite (backward_spec _ _ Hs'). by rewrite fmap_reverse.
  - rewrite (s_length _ _ Hs'). unfold zlen. by rewrite fmap_length.
  - intros r Hr1. eexists. split; [by apply GetElementByRank_spec|]. rewrite decide_True by lia.
    replace (Z.to_nat r) with (S (Z.to_nat (r - 1))) by lia. simpl. rewrite list_lookup_fmap.
    match goal with |- context [?M !! Z.to_nat (r - 1)] => destruct (M !! Z.to_nat (r - 1)) as [e|] eqn:Ep end; simpl; [|done].
    destruct (heap_at s' _ (S (Z.to_nat (r - 1))) e Hs' Ep) as (nd & -> & Hkk & _). simpl. by rewrite Hkk.
Qed.
(** and wrong otherwise: unless [start] lies beyond the end *)
Theorem C16_exact K s : hist K s → ∃ S hs, S ≡ₚ K ∧ increasing S ∧ heights s = Some hs ∧
  ∀ start end_, 1 ≤ start ≤ end_ → start ≤ zlen S →
    (∃ s' ids, DeleteRangeByRank s start end_ = Ok (s', ids) ∧
       keys s ids = Some (take (Z.to_nat (end_ - start + 1)) (drop (Z.to_nat start - 1) S))) ↔
    Forall (λ h, h = 1%nat) (take (Z.to_nat start - 1) hs).
Proof.
  intros Hh. destruct (hist_inv K s Hh) as (L & HL & HK). pose proof HL as (Hs & Hso & Hnn). exists (e_key <$> L), (e_h <$> L).
  split_and!; [done|by apply increasing_keys|by apply heights_spec|]. intros start end_ Hr Hin. rewrite <-low_heights.
  unfold zlen in Hin. rewrite fmap_length in Hin. split.
  - intros (s' & ids & HE & Hids). destruct (decide (low start L)) as [?|Hnl]; [done|]. exfalso.
    destruct (DeleteRangeByRank_gen s L start end_ s' ids Hs Hr HE) as (q & Hq & Hpos). specialize (Hpos Hnl).
    destruct (lookup_lt_is_Some_2 L (Z.to_nat start - 1)) as [e He]; [lia|].
    rewrite <-fmap_drop, <-fmap_take, (drop_S _ _ _ He) in Hids.
    destruct (Z.to_nat (end_ - start + 1)) as [|m] eqn:Hm; [lia|]. rewrite firstn_cons, fmap_cons in Hids.
    destruct ids as [|x ids]; [done|]. cbn [head] in Hq. destruct (L !! (q + (Z.to_nat start - 1))%nat) as [e1|] eqn:He1; [|done]. injection Hq as ->.
    unfold keys in Hids. cbn [mapM] in Hids. destruct (heap_at s L (S (q + (Z.to_nat start - 1))) e1 Hs He1) as (nd & N1 & N2 & _).
    rewrite N1 in Hids. cbn [fmap option_fmap option_map mbind option_bind] in Hids.
    destruct (mapM _ ids); [|done]. cbn [mbind option_bind] in Hids. 
    assert (Hk : e_key e1 = e_key e) by (apply (f_equal (λ o, from_option id (e_key e) (o ≫= head))) in Hids; rewrite <-N2; exact Hids). clear Hids.
    assert (Hlt : elt (e_key e) (e_key e1) = true).
    { rewrite <-(take_drop_middle L _ e He) in Hso, He1. apply StronglySorted_app_inv_r in Hso. apply StronglySorted_inv in Hso as [_ Hso].
      rewrite lookup_app_r in He1 by (rewrite take_length; lia). rewrite take_length, Nat.min_l in He1 by lia.
      replace (q + (Z.to_nat start - 1) - (Z.to_nat start - 1))%nat with (S (q - 1)) in He1 by lia. cbn in He1.
      exact (Forall_lookup_1 _ _ _ _ Hso He1). }
    rewrite Hk, elt_irrefl in Hlt. done.
  - intros Hlow. destruct (DeleteRangeByRank_sinv s L start end_ HL Hr Hlow) as (s' & E & _).
    eexists s', _. split; [exact E|]. rewrite <-fmap_drop, <-fmap_take. apply (keys_sub s L); [done|].
    intros e (? & He & _)%elem_of_take. rewrite lookup_drop in He. by eapply elem_of_list_lookup_2.
Qed.
Example C16_exact_example : heights (built ex4) = Some [1; 2; 1; 3]%nat.
Proof. vm_compute. reflexivity. Qed.
(** Five elements, the second one two levels high: removing rank 3 removes
    the element of rank 5 instead. *)
Definition ex5 := [(1, 1, "a"%string); (2, 2, "b"%string); (1, 3, "c"%string); (1, 4, "d"%string); (1, 5, "e"%string)].
Theorem C16_refuted : ∃ K s s' ids, hist K s ∧
  forward s = Some [(of_Z 1, B "a"); (of_Z 2, B "b"); (of_Z 3, B "c"); (of_Z 4, B "d"); (of_Z 5, B "e")] ∧
  DeleteRangeByRank s 3 3 = Ok (s', ids) ∧ keys s' ids = Some [(of_Z 5, B "e")].
Proof.
  enough (∃ s' ids, DeleteRangeByRank (built ex5) 3 3 = Ok (s', ids) ∧ keys s' ids = Some [(of_Z 5, B "e")])
    as (s' & ids & E & H1).
  { eexists _, (built ex5), s', ids. split; [apply built_hist; vm_compute; reflexivity|]. split; [vm_compute; reflexivity|]. exact (conj E H1). }
  apply ok_case2. vm_compute. reflexivity.
Qed.
(** The list is damaged, too: the last three elements of [ex5'] with two levels, removing
    rank 3 removes the element of rank 5, which remains on the second level; it is still
    found there, as the fourth of four elements. *)
Definition ex5' := [(1, 1, "a"%string); (2, 2, "b"%string); (1, 3, "c"%string); (2, 4, "d"%string); (2, 5, "e"%string)].
Theorem C16_broken_refuted : ∃ K s s' x, hist K s ∧ DeleteRangeByRank s 3 3 = Ok (s', [x]) ∧ keys s [x] = Some [(of_Z 5, B "e")] ∧
  sl_length s' = 4 ∧ forward s' = Some [(of_Z 1, B "a"); (of_Z 2, B "b"); (of_Z 3, B "c"); (of_Z 4, B "d")] ∧ GetElementByRank s' 4 = Ok (Some x).
Proof.
  set (r := DeleteRangeByRank (built ex5') 3 3).
  exists (rev ((λ x, (of_Z x.1.2, B x.2)) <$> ex5')), (built ex5'), (match r with Ok (s', _) => s' | _ => NewSkiplist end), (match r with Ok (_, [x]) => x | _ => 0%nat end).
  split; [apply built_hist; vm_compute; reflexivity|].
  split; [vm_compute; reflexivity|]. split; [vm_compute; reflexivity|]. split; [vm_compute; reflexivity|]. split; vm_compute; reflexivity.
Qed.
Example C16_example : ∃ s' ids, DeleteRangeByRank (built ex4) 1 2 = Ok (s', ids) ∧
  keys s' ids = Some [(of_Z 1, B "a"); (of_Z 2, B "b")] ∧ forward s' = Some [(of_Z 2, B "bb"); (of_Z 3, B "c")].
Proof. apply ok_case2. vm_compute. split; reflexivity. Qed.
Print Assumptions C16_delete_by_rank_partial.
Print Assumptions C16_exact.
Print Assumptions C16_refuted.
Print Assumptions C16_broken_refuted.
