(** C17: sorted sets against a map from members to scores; C18 at the level of
    the data structure. *)
From Verif Require Import Base Float DictModel DictProofs DictProofs2 DictProofs3 DictProofs4 DictRun
  SkiplistModel SkiplistProofs SkiplistProofs2 SkiplistProofs3 SkiplistProofs4 SkiplistProofs5 PropsSkiplist
  ZsetModel ZsetProofs DatabaseModel.
From Coq Require Import ZifyBool ZifyNat.

(** * Specification: a map member -> score, ordered by (score, member) *)
Notation zmap := (gmap bytes float).
(** [order M S]: S lists the (score, member) pairs of M in increasing order *)
Definition order (M : zmap) (S : list pair) : Prop := increasing S ∧ S ≡ₚ ((λ p, (p.2, p.1)) <$> map_to_list M).

Inductive zop :=
| OpAdd (sc : float) (m : bytes) (rs : list Z)      (* rs: outcomes of the random source *)
| OpDel (m : bytes)
| OpScore (m : bytes)
| OpRank (m : bytes) (rev : bool)
| OpRange (start end_ : Z) (rev : bool)
| OpRangeScore (mn mx : float) (limit : Z) (rev : bool)
| OpDelRank (start end_ : Z)
| OpDelScore (mn mx : float)
| OpSize
| OpCount (mn mx : float).
Inductive zout :=
| OutB (b : bool)
| OutZ (n : Z)
| OutScore (o : option float)
| OutEls (l : list (bytes * float)).

(** elements of ranks start..end_ of a list; 2^63-1 stands for "to the end" *)
Definition ranks (start end_ : Z) (S : list pair) : list pair :=
  if start <? 0 then []
  else if end_ =? 2^63 - 1 then drop (Z.to_nat start) S
  else take (Z.to_nat (end_ - start + 1)) (drop (Z.to_nat start) S).
Definition swap (S : list pair) : list (bytes * float) := (λ k, (k.2, k.1)) <$> S.
Definition turned (rev : bool) (S : list pair) : list pair := if rev then reverse S else S.
Definition without (R : list pair) (M : zmap) : zmap := filter (λ p, p.1 ∉ R.*2) M.

Inductive zspec (M : zmap) : zop → zout → zmap → Prop :=
| zs_add_new sc m rs : M !! m = None → zspec M (OpAdd sc m rs) (OutB true) (<[m := sc]> M)
| zs_add_old sc m rs : is_Some (M !! m) → zspec M (OpAdd sc m rs) (OutB false) (<[m := sc]> M)
| zs_add_same sc sc0 m rs : M !! m = Some sc0 → feq sc sc0 = true → zspec M (OpAdd sc m rs) (OutB false) M
| zs_del m : zspec M (OpDel m) (OutB (bool_decide (is_Some (M !! m)))) (delete m M)
| zs_score m : zspec M (OpScore m) (OutScore (M !! m)) M
| zs_rank_none m rev : M !! m = None → zspec M (OpRank m rev) (OutZ (-1)) M
| zs_rank S q sc m rev : order M S → turned rev S !! q = Some (sc, m) → zspec M (OpRank m rev) (OutZ (Z.of_nat q)) M
| zs_range S start end_ rev : order M S →
    zspec M (OpRange start end_ rev) (OutEls (swap (ranks start end_ (turned rev S)))) M
| zs_range_score S mn mx limit rev : order M S →
    zspec M (OpRangeScore mn mx limit rev)
      (OutEls (swap (limited limit (turned rev (filter (λ k, within mn mx k = true) S))))) M
| zs_del_rank S start end_ R : order M S → R = ranks start end_ S →
    zspec M (OpDelRank start end_) (OutEls (swap R)) (without R M)
| zs_del_score S mn mx R : order M S → R = filter (λ k, within mn mx k = true) S →
    zspec M (OpDelScore mn mx) (OutEls (swap R)) (without R M)
| zs_size : zspec M OpSize (OutZ (Z.of_nat (size M))) M
| zs_count mn mx : zspec M (OpCount mn mx) (OutZ (zlen (filter (λ k, within mn mx k = true) (pairs M)))) M.

(** what the theorem asks of an operation: no NaN, no score update, ranks below
    the largest slice capacity, a start rank below the size for reverse ranges,
    deletions by rank only from rank 0 on, no rank of the empty member *)
Definition allowed (M : zmap) (op : zop) : Prop :=
  match op with
  | OpAdd sc m rs => not_nan sc ∧ Z.of_nat (size M) < 2^44 ∧ ¬ Forall success (take 127 rs) ∧
      (∀ sc0, M !! m = Some sc0 → feq sc sc0 = true)
  | OpRank m _ => m ≠ []
  | OpRange start end_ rev => -2^63 ≤ start < 2^63 ∧ -2^63 ≤ end_ < 2^63 ∧
      (end_ = 2^63 - 1 ∨ end_ - start < 2^45) ∧ (rev = true → start < Z.of_nat (size M))
  | OpRangeScore mn mx _ rev => not_nan mn ∧ (rev = true → not_nan mx)
  | OpDelRank start end_ => -2^63 ≤ start ≤ 0 ∧ -2^63 ≤ end_ < 2^63
  | OpDelScore mn _ | OpCount mn _ => not_nan mn
  | _ => True
  end.

(** * The model's operations *)
Section run.
  Variable hash : bytes → Z.
  (** nil among the elements of a range has no output *)
  Definition present (r : res (zset * list (option (bytes * float)))) : res (zset * zout) :=
    x ← r; match mapM id x.2 with Some l => Ok (x.1, OutEls l) | None => Panic end.
  Definition zstep (z : zset) (op : zop) : res (zset * zout) :=
    match op with
    | OpAdd sc m rs => r ← ZAdd hash z sc m rs; Ok (r.1.1, OutB r.1.2)
    | OpDel m => r ← ZDelete hash z m; Ok (r.1, OutB r.2)
    | OpScore m => r ← ZGet hash z m; Ok (r.1, OutScore (snd <$> r.2))
    | OpRank m rev => r ← ZGetRank hash z m rev; Ok (r.1, OutZ r.2)
    | OpRange start end_ rev => present (ZRangeByRank hash z start end_ rev)
    | OpRangeScore mn mx limit rev => present (ZRangeByScore hash z mn mx limit rev)
    | OpDelRank start end_ => present (ZDeleteRangeByRank hash z start end_)
    | OpDelScore mn mx => present (ZDeleteRangeByScore hash z mn mx)
    | OpSize => Ok (z, OutZ (ZSize z))
    | OpCount mn mx => n ← ZCount z mn mx; Ok (z, OutZ n)
    end.
  Inductive zruns : zset → list zop → list zout → zset → Prop :=
  | zr_nil z : zruns z [] [] z
  | zr_cons z op out z1 ops outs z2 : zstep z op = Ok (z1, out) → zruns z1 ops outs z2 → zruns z (op :: ops) (out :: outs) z2.

  (** [spec_ok M ops]: every operation is allowed where it happens, along every
      spec run *)
  Inductive spec_runs : zmap → list zop → list zout → zmap → Prop :=
  | sr_nil M : spec_runs M [] [] M
  | sr_cons M op out M1 ops outs M2 : zspec M op out M1 → spec_runs M1 ops outs M2 → spec_runs M (op :: ops) (out :: outs) M2.
  Fixpoint spec_ok (M : zmap) (ops : list zop) : Prop :=
    match ops with
    | [] => True
    | op :: ops => allowed M op ∧ ∀ out M1, zspec M op out M1 → spec_ok M1 ops
    end.

  Lemma zinv_order z M L : zinv hash z M L → order M (e_key <$> L).
  Proof. intros Hz. destruct (zi_sl _ _ _ _ Hz) as (_ & Hso & _). split; [by apply increasing_keys|apply (zi_perm _ _ _ _ Hz)]. Qed.

  Lemma present_shown z' (C : list ent) : present (Ok (z', shown <$> C)) = Ok (z', OutEls (swap (e_key <$> C))).
  Proof.
    unfold present. cbn [mbind res_bind fst snd].
    assert (mapM id (shown <$> C) = Some (swap (e_key <$> C))) as ->; [|done].
    induction C as [|e C IH]; [done|]. rewrite !fmap_cons. cbn [mapM]. rewrite IH. done.
  Qed.
  Lemma ranks_keys start end_ (L : list ent) : ranks start end_ (e_key <$> L) =
    e_key <$> (if start <? 0 then [] else if end_ =? 2^63 - 1 then drop (Z.to_nat start) L
               else take (Z.to_nat (end_ - start + 1)) (drop (Z.to_nat start) L)).
  Proof. unfold ranks. destruct (start <? 0); [done|]. destruct (end_ =? 2^63 - 1); by rewrite ?fmap_take, <-fmap_drop. Qed.
  Lemma turned_keys rev (L : list ent) : turned rev (e_key <$> L) = e_key <$> (if rev then reverse L else L).
  Proof. unfold turned. destruct rev; [by rewrite fmap_reverse|done]. Qed.
  Lemma without_remove (C : list ent) M : remove C M = without (e_key <$> C) M.
  Proof. unfold remove, without. by rewrite <-list_fmap_compose. Qed.

  (** one operation *)
  Theorem zstep_spec z M L op : zinv hash z M L → allowed M op → Z.of_nat (size M) ≤ 2^44 →
    ∃ z' out M' L', zstep z op = Ok (z', out) ∧ zspec M op out M' ∧ zinv hash z' M' L'.
  Proof.
    intros Hz Ha Hsz. pose proof (zinv_length _ _ _ _ Hz) as [Hlen HlL]. pose proof (zi_sl _ _ _ _ Hz) as Hsi.
    pose proof (zinv_order _ _ _ Hz) as Hord.
    destruct op as [sc m rs|m|m|m rev|start end_ rev|mn mx limit rev|start end_|mn mx| |mn mx]; simpl in Ha; unfold zstep.
    - destruct Ha as (Hn & Hs & Hrs & Hsame). destruct (M !! m) as [sc0|] eqn:Em.
      + destruct (ZAdd_same hash z M L sc sc0 m rs Hz Em) as (z' & -> & Hz'); [by apply Hsame|].
        eexists _, _, _, _. split; [done|]. split; [by eapply zs_add_same; [|apply Hsame]|done].
      + destruct (ZAdd_new hash z M L sc m rs Hz Em Hn) as (z' & rs' & L' & -> & Hz'); [done|done|].
        eexists _, _, _, _. split; [done|]. split; [by apply zs_add_new|done].
    - destruct (M !! m) as [sc0|] eqn:Em.
      + destruct (ZDelete_present hash z M L sc0 m Hz Em) as (z' & L' & -> & Hz').
        eexists _, _, _, _. split; [done|]. split; [|exact Hz']. cbn [fst snd].
        replace true with (bool_decide (is_Some (M !! m))) by (apply bool_decide_eq_true; by rewrite Em). constructor.
      + destruct (ZDelete_absent hash z M L m Hz Em) as (z' & -> & Hz').
        eexists _, _, _, _. split; [done|]. split; [|exact Hz']. cbn [fst snd].
        replace false with (bool_decide (is_Some (M !! m))) by (apply bool_decide_eq_false; rewrite Em; by intros [? ?]).
        pose proof (zs_del M m) as Hd. by rewrite (delete_notin M m Em) in Hd.
    - destruct (ZGet_zinv hash z M L m Hz) as (z' & -> & Hz' & _). eexists _, _, _, _. split; [done|].
      split; [|exact Hz']. cbn [fst snd]. rewrite <-option_fmap_compose.
      assert ((snd ∘ (λ sc, (m, sc))) <$> M !! m = M !! m) as -> by (by destruct (M !! m)). constructor.
    - unfold ZGetRank. destruct (ZGet_zinv hash z M L m Hz) as (z' & -> & Hz' & Hsl'). cbn [mbind res_bind fst snd].
      destruct (M !! m) as [sc|] eqn:Em; cbn [fmap option_fmap option_map].
      + destruct (zinv_of _ _ _ _ _ _ Hz Em) as (q & e & Hq & He).
        rewrite Hsl'. cbn [snd]. assert (Hns : not_nan sc) by (by eapply zinv_nan).
        rewrite (GetRank_present (z_sl z) L sc m q e Hsi Hns Ha Hq).
        * cbn [mbind res_bind fst snd]. eexists _, _, _, _. split; [done|]. split; [|exact Hz'].
          assert (Hql : (q < length L)%nat) by (by eapply lookup_lt_Some).
          destruct rev.
          -- rewrite Hlen. replace (Z.of_nat (size M) - (Z.of_nat q + 1)) with (Z.of_nat (length L - S q)) by lia.
             apply (zs_rank _ (e_key <$> L) _ sc); [done|]. simpl. rewrite reverse_lookup by (rewrite fmap_length; lia).
             rewrite fmap_length. replace (length L - S (length L - S q))%nat with q by lia.
             rewrite list_lookup_fmap, Hq. simpl. by rewrite He.
          -- replace (Z.of_nat q + 1 - 1) with (Z.of_nat q) by lia. apply (zs_rank _ (e_key <$> L) _ sc); [done|]. simpl.
             rewrite list_lookup_fmap, Hq. simpl. by rewrite He.
        * rewrite He. by apply esame_refl.
        * intros q' e' Hq' He'. eapply zinv_uniq; [exact Hz|exact Hq|exact Hq'|]. unfold e_key in He. congruence.
      + eexists _, _, _, _. split; [done|]. split; [by apply zs_rank_none|exact Hz'].
    - destruct Ha as (Hst & Hen & Hcap & Hrev). unfold ZRangeByRank, last_rank, maxInt64. rewrite Hlen.
      set (en := if end_ =? 2^63 - 1 then Z.of_nat (size M) - 1 else end_).
      assert (Hen' : -2^63 ≤ en < 2^63 - 1) by (subst en; destruct (end_ =? 2^63 - 1) eqn:?; lia).
      assert (Hwe : wrap64 (en + 1) = en + 1).
      { unfold wrap64. rewrite Z.mod_small by lia. lia. }
      rewrite Hwe.
      set (C0 := if rev then reverse L else L).
      assert (Hlen0 : length C0 = length L) by (subst C0; destruct rev; [by rewrite reverse_length|done]).
      assert (Hfin : ∀ C, C = (if start <? 0 then [] else if end_ =? 2^63 - 1 then drop (Z.to_nat start) C0
               else take (Z.to_nat (end_ - start + 1)) (drop (Z.to_nat start) C0)) →
              RangeByRank (z_sl z) (wrap64 (start + 1)) (en + 1) rev = Ok (e_id <$> C) →
              ∃ z' out M' L', present (ids ← RangeByRank (z_sl z) (wrap64 (start + 1)) (en + 1) rev; elements hash z ids) = Ok (z', out) ∧
                 zspec M (OpRange start end_ rev) out M' ∧ zinv hash z' M' L').
      { intros C HC ER. rewrite ER. cbn [mbind res_bind].
        destruct (elements_spec hash z M L C Hz) as (z' & -> & Hz').
        { intros e He. assert (e ∈ C0) as He0.
          { subst C. destruct (start <? 0); [by apply elem_of_nil in He|]. destruct (end_ =? 2^63 - 1).
            - apply elem_of_list_lookup in He as [i Hi]. rewrite lookup_drop in Hi. by eapply elem_of_list_lookup_2.
            - apply elem_of_take in He as (i & Hi & _). rewrite lookup_drop in Hi. by eapply elem_of_list_lookup_2. }
          subst C0. destruct rev; [by rewrite elem_of_reverse in He0|done]. }
        rewrite present_shown. eexists _, _, _, _. split; [done|]. split; [|exact Hz'].
        rewrite HC, <-ranks_keys. subst C0. rewrite <-turned_keys. by constructor. }
      destruct (decide (start = 2^63 - 1)) as [->|Hne].
      { apply (Hfin []).
        - replace (2^63 - 1 <? 0) with false by lia.
          assert (drop (Z.to_nat (2^63 - 1)) C0 = []) as ->.
          { apply drop_ge. lia. }
          rewrite take_nil. by destruct (end_ =? 2^63 - 1).
        - unfold RangeByRank. assert (wrap64 (2^63 - 1 + 1) = -2^63) as -> by (vm_compute; done).
          by replace (-2^63 <? 1) with true by lia. }
      assert (Hws : wrap64 (start + 1) = start + 1).
      { unfold wrap64. rewrite Z.mod_small by lia. lia. }
      rewrite Hws in *.
      destruct (decide (0 ≤ start ∧ start ≤ en)) as [[H0 Hse]|Hnot].
      + assert (Hmk : make_ok (en + 1 - (start + 1) + 1) 8 = true).
        { unfold make_ok, maxAlloc. subst en. destruct (end_ =? 2^63 - 1) eqn:Ee; lia. }
        apply (Hfin (take (Z.to_nat (en + 1 - (start + 1) + 1)) (drop (Z.to_nat (start + 1) - 1) C0))).
        * replace (start <? 0) with false by lia. replace (Z.to_nat (start + 1) - 1)%nat with (Z.to_nat start) by lia.
          replace (en + 1 - (start + 1) + 1) with (en - start + 1) by lia.
          subst en. destruct (end_ =? 2^63 - 1) eqn:Ee; [|done]. rewrite take_ge; [done|].
          rewrite drop_length, Hlen0. lia.
        * subst C0. destruct rev.
          -- apply RangeByRank_bwd; [apply Hsi|lia| |done]. unfold zlen. specialize (Hrev eq_refl). lia.
          -- apply RangeByRank_fwd; [apply Hsi|lia|done].
      + apply (Hfin []).
        * destruct (start <? 0) eqn:Es; [done|]. subst en. destruct (end_ =? 2^63 - 1) eqn:Ee.
          -- symmetry. apply drop_ge. lia.
          -- replace (Z.to_nat (end_ - start + 1)) with 0%nat by lia. done.
        * unfold RangeByRank. replace ((start + 1 <? 1) || (en + 1 <? 1) || (en + 1 <? start + 1)) with true by lia. done.
    - destruct Ha as (Hmn & Hmx). unfold ZRangeByScore.
      set (F := filter (λ e, in_range mn mx e = true) L).
      set (C := if decide (limit < 0) then (if rev then reverse F else F) else take (Z.to_nat limit) (if rev then reverse F else F)).
      assert (ER : RangeByScore (z_sl z) mn mx limit rev = Ok (e_id <$> C)).
      { subst C. destruct rev; [apply RangeByScore_bwd; auto|by apply RangeByScore_fwd]. }
      rewrite ER. cbn [mbind res_bind]. destruct (elements_spec hash z M L C Hz) as (z' & -> & Hz').
      { intros e He. apply limited_sub in He. assert (e ∈ F) as HF by (destruct rev; [by rewrite elem_of_reverse in He|done]).
        subst F. apply elem_of_list_filter in HF. tauto. }
      rewrite present_shown. eexists _, _, _, _. split; [done|]. split; [|exact Hz'].
      subst C. rewrite limited_key, <-turned_keys. subst F. rewrite <-(filter_key (within mn mx)).
      + by constructor.
      + intros e He. apply within_range; [done|]. eapply nan_of_in; [apply Hsi|done].
    - destruct Ha as (Hst & Hen). unfold ZDeleteRangeByRank, last_rank, maxInt64. rewrite Hlen.
      set (en := if end_ =? 2^63 - 1 then Z.of_nat (size M) - 1 else end_).
      assert (Hen' : -2^63 ≤ en < 2^63 - 1) by (subst en; destruct (end_ =? 2^63 - 1) eqn:?; lia).
      assert (Hwe : wrap64 (en + 1) = en + 1) by (unfold wrap64; rewrite Z.mod_small by lia; lia).
      assert (Hws : wrap64 (start + 1) = start + 1) by (unfold wrap64; rewrite Z.mod_small by lia; lia).
      rewrite Hwe, Hws. clear Hwe Hws.
      assert (Hfin : ∀ C D s', L = C ++ D → C = (if start <? 0 then [] else if end_ =? 2^63 - 1 then drop (Z.to_nat start) L
               else take (Z.to_nat (end_ - start + 1)) (drop (Z.to_nat start) L)) →
              DeleteRangeByRank (z_sl z) (start + 1) (en + 1) = Ok (s', e_id <$> C) → sinv s' D → keeps (z_sl z) s' →
              ∃ z' out M' L', present (r ← DeleteRangeByRank (z_sl z) (start + 1) (en + 1); elements_delete hash (MkZset (z_dict z) r.1) r.2) = Ok (z', out) ∧
                 zspec M (OpDelRank start end_) out M' ∧ zinv hash z' M' L').
      { intros C D s' HL HC ER HD Hk. rewrite ER. cbn [mbind res_bind fst snd].
        destruct (range_delete hash z M [] C D s') as (z' & -> & Hz'); [by rewrite <-HL|done|done|].
        rewrite present_shown. eexists _, _, _, _. split; [done|]. split; [|exact Hz'].
        rewrite without_remove. apply (zs_del_rank _ (e_key <$> L)); [done|]. rewrite ranks_keys. by rewrite <-HC. }
      destruct (decide (0 ≤ start ∧ start ≤ en)) as [[H0 Hse]|Hnot].
      + assert (start = 0) as -> by lia.
        destruct (DeleteRangeByRank_sinv (z_sl z) L (0 + 1) (en + 1) Hsi ltac:(lia) ltac:(apply Forall_nil_2)) as (s' & ER & Hs' & Hk & _).
        apply (Hfin (take (Z.to_nat (en + 1 - (0 + 1) + 1)) (drop (Z.to_nat (0 + 1) - 1) L)) (drop (Z.to_nat (en + 1)) L) s').
        4: exact Hs'. 4: exact Hk. 3: exact ER.
        * replace (Z.to_nat (en + 1 - (0 + 1) + 1)) with (Z.to_nat (en + 1)) by lia. simpl. by rewrite take_drop.
        * change (Z.to_nat (0 + 1) - 1)%nat with 0%nat. change (0 <? 0) with false. change (Z.to_nat 0) with 0%nat. rewrite drop_0. cbv iota.
          subst en. destruct (end_ =? 2^63 - 1) eqn:Ee.
          -- by rewrite take_ge by lia.
          -- by replace (end_ + 1 - (0 + 1) + 1) with (end_ - 0 + 1) by lia.
      + assert (ER : DeleteRangeByRank (z_sl z) (start + 1) (en + 1) = Ok (z_sl z, [])).
        { unfold DeleteRangeByRank. replace ((start + 1 <? 1) || (en + 1 <? 1) || (en + 1 <? start + 1)) with true by lia. done. }
        apply (Hfin [] L (z_sl z)); try done; [|intros x nd Hx; by exists nd].
        destruct (start <? 0) eqn:Es; [done|]. subst en. destruct (end_ =? 2^63 - 1) eqn:Ee.
          -- symmetry. apply drop_ge. lia.
          -- replace (Z.to_nat (end_ - start + 1)) with 0%nat by lia. done.
    - unfold ZDeleteRangeByScore.
      destruct (DeleteRangeByScore_sinv (z_sl z) L mn mx Hsi) as (s' & ER & Hs' & Hk & _). rewrite ER.
      cbn [mbind res_bind fst snd].
      destruct (split_range mn mx L) as (A & C & D & HL & HA & HB & HC & HD & EC & EAD); [apply Hsi|apply Hsi|].
      destruct (range_delete hash z M A C D s') as (z' & E2 & Hz'); [by rewrite <-HL|by rewrite <-EAD|done|].
      rewrite EC, E2, present_shown. eexists _, _, _, _. split; [done|]. split; [|exact Hz'].
      rewrite without_remove. apply (zs_del_score _ (e_key <$> L)); [done|]. rewrite <-EC. symmetry. apply filter_key.
      intros e He. apply within_range; [done|]. eapply nan_of_in; [apply Hsi|done].
    - eexists _, _, _, _. split; [done|]. split; [|exact Hz]. unfold ZSize. rewrite Hlen. constructor.
    - unfold ZCount. rewrite (Count_spec (z_sl z) L) by done. cbn [mbind res_bind].
      eexists _, _, _, _. split; [done|]. split; [|exact Hz].
      assert (zlen (filter (λ e, in_range mn mx e = true) L) = zlen (filter (λ k, within mn mx k = true) (pairs M))) as ->; [|constructor].
      unfold zlen. rewrite <-(zi_perm _ _ _ _ Hz). rewrite (filter_key _ (in_range mn mx)); [by rewrite fmap_length|].
      intros e He. apply within_range; [done|]. eapply nan_of_in; [apply Hsi|done].
  Qed.

  Lemma map_subseteq_size (M1 M2 : zmap) : M1 ⊆ M2 → (size M1 ≤ size M2)%nat.
  Proof. intros H. rewrite <-!(size_dom (D:=gset bytes)). by apply subseteq_size, subseteq_dom. Qed.
  Lemma zspec_size M op out M' : zspec M op out M' → (size M' ≤ S (size M))%nat.
  Proof.
    assert (Hin : ∀ m sc, (size (<[m := sc]> M) ≤ S (size M))%nat).
    { intros m sc. destruct (M !! m) as [sc0|] eqn:Em.
      - rewrite map_size_insert_Some by done. lia.
      - rewrite map_size_insert_None by done. lia. }
    assert (Hf : ∀ R, (size (without R M) ≤ size M)%nat).
    { intros R. unfold without. apply map_subseteq_size, map_filter_subseteq. }
    intros H. inversion H; subst; try lia; try apply Hin; try (etrans; [apply Hf|lia]).
    etrans; [apply map_subseteq_size, delete_subseteq|lia].
  Qed.

  (** ** C17, without score updates.  Every run of allowed operations from an
      empty sorted set succeeds and answers as the map would.
      Missing from the full claim: updates of a member's score (refuted below),
      NaN, and the operations excluded by [allowed]. *)
  Lemma zruns_spec ops : ∀ z M L, zinv hash z M L → spec_ok M ops → Z.of_nat (size M + length ops) < 2^44 →
    ∃ outs z' M', zruns z ops outs z' ∧ spec_runs M ops outs M'.
  Proof.
    induction ops as [|op ops IH]; intros z M L Hz Hok Hsz; [by exists [], z, M; split; constructor|].
    destruct Hok as [Ha Hok]. cbn [length] in Hsz.
    destruct (zstep_spec z M L op Hz Ha ltac:(lia)) as (z1 & out & M1 & L1 & E1 & Hs1 & Hz1).
    pose proof (zspec_size _ _ _ _ Hs1).
    destruct (IH z1 M1 L1 Hz1 (Hok _ _ Hs1)) as (outs & z2 & M2 & Hr & Hs); [lia|].
    exists (out :: outs), z2, M2. split; by econstructor.
  Qed.
  Theorem C17_refines_partial ops : spec_ok ∅ ops → Z.of_nat (length ops) < 2^44 →
    ∃ outs z' M', zruns NewZset ops outs z' ∧ spec_runs ∅ ops outs M'.
  Proof.
    intros Hok Hl. eapply zruns_spec; [apply zinv_new|done|]. rewrite map_size_empty. lia.
  Qed.
  (** The order is unique, so the answers are determined by the map. *)
  Theorem C17_order_unique M S1 S2 : (∀ m sc, M !! m = Some sc → not_nan sc) → order M S1 → order M S2 → S1 = S2.
  Proof.
    intros Hn [H1 P1] [H2 P2].
    assert (Hnn : ∀ k, k ∈ S1 → not_nan k.1).
    { intros [sc m] Hk. rewrite P1 in Hk. apply elem_of_pairs in Hk. by eapply Hn. }
    rewrite <-P2 in P1. clear P2 Hn.
    revert S2 H2 P1. induction S1 as [|a S1 IH]; intros S2 H2 HP.
    { by apply Permutation_nil in HP. }
    destruct S2 as [|b S2]; [by apply symmetry, Permutation_nil in HP|].
    apply StronglySorted_inv in H1 as [H1 Ha]. apply StronglySorted_inv in H2 as [H2 Hb].
    assert (a = b) as ->.
    { destruct (decide (a = b)) as [|Hne]; [done|].
      assert (a ∈ b :: S2) as Hin by (rewrite <-HP; left). apply elem_of_cons in Hin as [->|Hin]; [done|].
      assert (b ∈ a :: S1) as Hin2 by (rewrite HP; left). apply elem_of_cons in Hin2 as [->|Hin2]; [done|].
      rewrite Forall_forall in Ha, Hb. pose proof (Ha _ Hin2) as X1. pose proof (Hb _ Hin) as X2.
      rewrite elt_asym in X2; [done| | |done]; apply Hnn; [left|by right]. }
    f_equal. apply IH; [done|intros; apply Hnn; by right|done|]. by apply Permutation_cons_inv in HP.
  Qed.
End run.

(** ** Score updates: exactly what happens.  After any history of Add calls the
    skiplist holds every pair ever added (up to equality), not only the latest
    score of each member. *)
Section updates.
  Variable hash : bytes → Z.
  (** [added adds M K]: after the additions (latest first) the dict is [M] and
      [K] are the distinct pairs ever added *)
  Fixpoint added (adds : list pair) : zmap * list pair :=
    match adds with
    | [] => (∅, [])
    | (sc, m) :: older =>
        let '(M, K) := added older in
        match M !! m with
        | Some sc0 => if feq sc sc0 then (M, K)
                      else (<[m := sc]> M, (sc, m) :: filter (λ k, esame k (sc, m) = false) K)
        | None => (<[m := sc]> M, (sc, m) :: K)
        end
    end.
  Inductive zadds : list pair → zset → Prop :=
  | za_new : zadds [] NewZset
  | za_add adds z sc m rs z' b rs' : zadds adds z → not_nan sc → ¬ Forall success (take 127 rs) →
      ZAdd hash z sc m rs = Ok (z', b, rs') → zadds ((sc, m) :: adds) z'.

  Lemma added_size adds : (size (added adds).1 ≤ length adds)%nat.
  Proof.
    induction adds as [|[sc m] adds IH]; [done|]. simpl. destruct (added adds) as [M K]. simpl in IH.
    destruct (M !! m) as [sc0|] eqn:Em; [destruct (feq sc sc0)|]; simpl.
    - lia.
    - rewrite map_size_insert_Some by done. lia.
    - rewrite map_size_insert_None by done. lia.
  Qed.
  Lemma zadds_inv adds z : zadds adds z → Z.of_nat (length adds) < 2^44 →
    inv hash (z_dict z) ∧ d_map (z_dict z) = (added adds).1 ∧ hist (added adds).2 (z_sl z) ∧
    (∀ sc m, (sc, m) ∈ (added adds).2 → is_Some ((added adds).1 !! m)) ∧
    (∀ m sc, (added adds).1 !! m = Some sc → (sc, m) ∈ (added adds).2).
  Proof.
    induction 1 as [|adds z sc m rs z' b rs' Hz IH Hn Hrs E]; intros Hlen.
    { split_and!; [apply zinv_new|apply NewDict_map|apply hist_new| |]; simpl.
      - intros ?? H. by apply elem_of_nil in H.
      - intros ?? H. by rewrite lookup_empty in H. }
    cbn [length] in Hlen. destruct IH as (Hi & HM & Hh & Hdom & Hlat); [lia|]. pose proof (added_size adds) as Hsz.
    destruct Hi as [Hok Hi]. simpl. destruct (added adds) as [M K]. simpl in *. unfold ZAdd in E.
    destruct (Find_spec hash (z_dict z) m Hok) as (d' & o & HF & Hok' & Hm' & Hi' & Hn' & Ho).
    rewrite HF in E. cbn [mbind res_bind] in E. rewrite HM in *.
    destruct (C12_levels rs Hrs) as (lv & rs2 & Er & Hlv).
    assert (Hins : ∀ s K0 s' rs', hist K0 s → (∀ k, k ∈ K0 → esame k (sc, m) = false) → sl_add s sc m rs = Ok (s', rs') →
              hist ((sc, m) :: K0) s').
    { intros s K0 s' rs0 HK0 Hab. unfold sl_add. rewrite Er. cbn [mbind res_bind fst snd].
      destruct (Insert s lv sc m) as [[s2 x]| |] eqn:EI; cbn [mbind res_bind fst snd]; intros [= <- <-].
      by eapply hist_insert. }
    destruct o as [l|].
    - destruct Ho as (v & Hl & Hv). rewrite (entry_at_loc hash d' l m v) in E by done. cbn [mbind res_bind fst snd] in E.
      rewrite Hv. destruct (feq sc v) eqn:Ef; cbn [negb] in E.
      + injection E as <- <- <-. simpl. split_and!; try done; [by split; [|congruence]].
      + destruct (write_value_spec hash d' l m v sc Hok' Hl) as (d2 & EW & Hok2 & Hm2 & Hi2 & _).
        rewrite EW in E. cbn [mbind res_bind fst snd] in E.
        destruct (SlDelete (z_sl z) sc m) as [[s1 r1]| |] eqn:ES; cbn [mbind res_bind fst snd] in E; [|done|done].
        destruct (sl_add s1 sc m rs) as [[s2 rs3]| |] eqn:EA; cbn [mbind res_bind fst snd] in E; [|done|done].
        injection E as <- <- <-. simpl. split_and!.
        * split; [done|congruence].
        * congruence.
        * eapply (Hins s1); [by eapply hist_delete| |exact EA]. intros k Hk. by apply elem_of_list_filter in Hk as [? _].
        * intros sc1 m1 Hin. apply elem_of_cons in Hin as [[= -> ->]|Hin]; [by rewrite lookup_insert|].
          apply elem_of_list_filter in Hin as [_ Hin]. apply Hdom in Hin. rewrite lookup_insert_is_Some'. by right.
        * intros m1 sc1. destruct (decide (m = m1)) as [<-|Hne].
          -- rewrite lookup_insert. intros [= ->]. left.
          -- rewrite lookup_insert_ne by done. intros H1. right. apply elem_of_list_filter. split; [|by apply Hlat].
             destruct (esame (sc1, m1) (sc, m)) eqn:Es; [|done]. apply esame_member in Es. simpl in Es. congruence.
    - rewrite Ho. destruct (Set_spec hash d' m sc Hok') as (d2 & HS & Hok2 & Hm2 & Hi2 & _).
      { assert (NoDup (entries d').*1) as Hnd by (by destruct Hok' as (_ & ? & _)). unfold small.
        rewrite <-(d_map_size _ Hnd). rewrite Hm'. unfold max_entries. lia. }
      rewrite HS in E. cbn [mbind res_bind fst snd] in E.
      destruct (sl_add (z_sl z) sc m rs) as [[s2 rs3]| |] eqn:EA; cbn [mbind res_bind fst snd] in E; [|done|done].
      injection E as <- <- <-. simpl. split_and!.
      + split; [done|congruence].
      + congruence.
      + eapply (Hins (z_sl z)); [done| |exact EA]. intros [sc1 m1] Hk. destruct (esame (sc1, m1) (sc, m)) eqn:Es; [|done].
        apply esame_member in Es. simpl in Es. subst m1. apply Hdom in Hk. rewrite Ho in Hk. by destruct Hk.
      + intros sc1 m1 Hin. apply elem_of_cons in Hin as [[= -> ->]|Hin]; [by rewrite lookup_insert|].
        apply Hdom in Hin. rewrite lookup_insert_is_Some'. by right.
      + intros m1 sc1. destruct (decide (m = m1)) as [<-|Hne].
        * rewrite lookup_insert. intros [= ->]. left.
        * rewrite lookup_insert_ne by done. intros H1. right. by apply Hlat.
  Qed.

  Theorem C17_updates adds z : zadds adds z → Z.of_nat (length adds) < 2^44 → let '(M, K) := added adds in
    (∀ m, ∃ z', ZGet hash z m = Ok (z', (λ sc, (m, sc)) <$> M !! m)) ∧
    ZSize z = zlen K ∧ Z.of_nat (size M) ≤ zlen K ∧
    (∃ S, forward (z_sl z) = Some S ∧ S ≡ₚ K ∧ increasing S) ∧
    (∀ m sc, M !! m = Some sc → (sc, m) ∈ K).
  Proof.
    intros Hz Hlen. destruct (zadds_inv _ _ Hz Hlen) as (Hi & HM & Hh & Hdom & Hlat). destruct (added adds) as [M K]. simpl in *.
    destruct (C12_order _ _ Hh) as (S & HS & _ & HP & Hinc & HL). split_and!.
    - intros m. destruct (ZGet_spec hash z m Hi) as (d' & -> & _). rewrite HM. by eexists.
    - done.
    - unfold zlen. rewrite <-pairs_length. apply inj_le. apply submseteq_length, NoDup_submseteq.
      + apply (NoDup_fmap_1 snd). rewrite pairs_members. apply NoDup_fst_map_to_list.
      + intros [sc m] Hin. apply elem_of_pairs in Hin. by apply Hlat.
    - by exists S.
    - done.
  Qed.
End updates.

(** * Examples and refutations (with the FNV hash of the server) *)
Definition go (z : res zset) (ops : list zop) : res (list zout) :=
  (fix go z ops := match ops with
     | [] => Ok []
     | op :: ops => r ← zstep Hash z op; l ← go r.1 ops; Ok (r.2 :: l)
     end) (match z with Ok z => z | _ => NewZset end) ops.
Definition add (n : Z) (m : String.string) : zop := OpAdd (of_Z n) (B m) [16384].

Example C17_example :
  go (Ok NewZset) [add 3 "c"; add 1 "a"; add 2 "b"; add 2 "bb"; OpDel (B "b"); OpRank (B "c") false; OpRange 0 (-1) false;
                   OpRange 0 (2^63 - 1) true; OpSize]
  = Ok [OutB true; OutB true; OutB true; OutB true; OutB true; OutZ 2; OutEls [];
        OutEls [(B "c", of_Z 3); (B "bb", of_Z 2); (B "a", of_Z 1)]; OutZ 3].
Proof. vm_compute. reflexivity. Qed.
Example C17_example_ok : spec_ok ∅ [add 3 "c"; add 1 "a"; OpDel (B "c"); OpRange 0 5 false].
Proof.
  split.
  { simpl. split_and!; [done|done| |by intros]. intros H. inversion H as [|? ? H1]. by apply H1. }
  intros out M1 H1. split.
  { assert (M1 = <[B "c" := of_Z 3]> ∅) as ->.
    { inversion H1; subst; done. }
    simpl. split_and!; [done|done| |].
    - intros H. inversion H as [|? ? H2]. by apply H2.
    - intros sc0. rewrite lookup_insert_ne by done. by rewrite lookup_empty. }
  intros out2 M2 H2. split; [done|]. intros. split; [|done]. simpl. split_and!; try done; try lia.
Qed.

(** Updating a score leaves the old entry behind: the member shows up twice
    (both times with its new score) and the size is wrong. *)
Theorem C17_update_refuted :
  go (Ok NewZset) [add 1 "a"; add 2 "a"; OpRange 0 (2^63 - 1) false; OpSize]
  = Ok [OutB true; OutB false; OutEls [(B "a", of_Z 2); (B "a", of_Z 2)]; OutZ 2].
Proof. vm_compute. reflexivity. Qed.
Theorem C17_refuted : ∃ ops outs z', zruns Hash NewZset ops outs z' ∧
  ops = [add 1 "a"; add 2 "a"; OpSize] ∧ ∀ M', ¬ spec_runs ∅ ops outs M'.
Proof.
  enough (∃ z', zruns Hash NewZset [add 1 "a"; add 2 "a"; OpSize] [OutB true; OutB false; OutZ 2] z') as [z' Hz'].
  { eexists _, _, z'. split; [exact Hz'|]. split; [done|]. intros M' H.
    inversion H as [|? ? ? M1 ? ? ? H1 R1]; subst. inversion R1 as [|? ? ? M2 ? ? ? H2 R2]; subst.
    inversion R2 as [|? ? ? M3 ? ? ? H3 R3]; subst.
    assert (M1 = {[B "a" := of_Z 1]}) as -> by (by inversion H1; subst).
    assert (M2 = {[B "a" := of_Z 2]}) as ->.
    { inversion H2; subst; [by rewrite insert_singleton|]. exfalso.
      match goal with X : {[_ := _]} !! _ = Some _ |- _ => rewrite lookup_singleton in X; injection X as <- end. done. }
    inversion H3. }
  enough (∃ z1 z2, zstep Hash NewZset (add 1 "a") = Ok (z1, OutB true) ∧ zstep Hash z1 (add 2 "a") = Ok (z2, OutB false) ∧
            zstep Hash z2 OpSize = Ok (z2, OutZ 2)) as (z1 & z2 & E1 & E2 & E3).
  { exists z2. econstructor; [exact E1|]. econstructor; [exact E2|]. econstructor; [exact E3|]. constructor. }
  eexists _, _. split; [vm_compute; reflexivity|]. split; vm_compute; reflexivity.
Qed.
(** The old entry is even listed where the new score does not belong. *)
Theorem C17_position_refuted :
  go (Ok NewZset) [add 1 "a"; add 5 "b"; add 9 "a"; OpRange 0 0 false; OpRank (B "a") false; OpCount (of_Z 0) (of_Z 2)]
  = Ok [OutB true; OutB true; OutB false; OutEls [(B "a", of_Z 9)]; OutZ 2; OutZ 1].
Proof. vm_compute. reflexivity. Qed.
(** After removing the member the range contains a nil element. *)
Theorem C18_nil_element_refuted :
  go (Ok NewZset) [add 1 "a"; add 2 "a"; OpDel (B "a"); OpRange 0 10 false] = Panic.
Proof. vm_compute. reflexivity. Qed.
(** NaN scores cannot be found again. *)
Theorem C18_nan_refuted :
  go (Ok NewZset) [OpAdd NaN (B "a") [16384]; OpDel (B "a"); OpSize; OpRange 0 10 false] = Panic ∧
  go (Ok NewZset) [OpAdd NaN (B "a") [16384]; OpDel (B "a"); OpSize] = Ok [OutB true; OutB true; OutZ 1].
Proof. split; vm_compute; reflexivity. Qed.
(** A huge stop rank panics when the result slice is allocated. *)
Theorem C18_huge_rank_refuted :
  go (Ok NewZset) [add 1 "a"; OpRange 0 (2^46) false] = Panic.
Proof. vm_compute. reflexivity. Qed.

Print Assumptions C17_refines_partial.
Print Assumptions C17_order_unique.
Print Assumptions C17_updates.
Print Assumptions C17_refuted.
Print Assumptions C17_update_refuted.
Print Assumptions C17_position_refuted.
Print Assumptions C18_nil_element_refuted.
Print Assumptions C18_nan_refuted.
Print Assumptions C18_huge_rank_refuted.
