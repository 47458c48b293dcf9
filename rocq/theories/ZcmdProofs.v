(** Sorted sets at the level of commands: what a history has to respect for the
    skiplist and the dict of a sorted set to stay in step, and what the commands
    then do to the map from members to scores. *)
From Verif Require Import Base Float DictModel DictProofs DictProofs2 DictProofs3 DictProofs4 DictRun
  DatabaseModel SetModel QuicklistModel QuicklistProofs
  SkiplistModel SkiplistProofs SkiplistProofs2 SkiplistProofs3 SkiplistProofs4 SkiplistProofs5 PropsSkiplist
  ZsetModel ZsetProofs PropsZset
  Strconv RespSpec ServerModel CommandModel CommandSem CommandInv CommandInv2 CommandProofs1 CommandProofs2 CommandProofs4
  CommandTop CommandFrame SystemModel SystemProofs CommandFacts ExampleLib PropsCommand PropsData.
From Coq Require Import ZifyBool ZifyNat.

(** * Invariants of histories *)
(** [ok] holds of every event of the history in the state in which it happens *)
Fixpoint along (cf : config) (ok : sys → event → Prop) (evs : list event) (y : sys) : Prop :=
  match evs with
  | [] => True
  | e :: evs => ok y e ∧ ∀ y', step cf e y = Ok y' → along cf ok evs y'
  end.
Lemma along_snoc cf ok evs e : ∀ y, along cf ok (evs ++ [e]) y ↔ along cf ok evs y ∧ ∀ y', run cf evs y = Ok y' → ok y' e.
Proof.
  induction evs as [|e0 evs IH]; intros y; simpl.
  - split; [intros [H _]; split; [done|]; by intros y' [= <-]|]. intros [_ H]. split; [by apply H|done].
  - split.
    + intros [H1 H2]. split; [split; [done|]; intros y' Hy; by apply IH, H2|].
      intros y' Hy. destruct (step cf e0 y) as [y1| |] eqn:E1; try done. cbn in Hy. specialize (H2 y1 eq_refl). apply IH in H2 as [_ H2]. by apply H2.
    + intros [[H1 H2] H3]. split; [done|]. intros y' Hy. apply IH. split; [by apply H2|]. intros y2 Hy2. apply H3. by rewrite Hy.
Qed.

Lemma history_inv cf (P : adb → Prop) (ok : sys → event → Prop) :
  P empty_db → (∀ E D D', purged E D D' → P D → P D') →
  (∀ evs y i c a l now unix rs ar D D' r n, let E := env_at cf now unix in let name := lib_lower (cf_lib cf) a in
    reaches cf evs y → y_cls y !! i = Some c → ok y (EvCommand i (a :: l) now unix rs) →
    (name, ar) ∈ arities → accepts ar (zlen (a :: l)) →
    abs_dbs (y_srv y) !! c_db c = Some D → P D → sem E name (a :: l) D (Ok (Out D' r n)) → P D') →
  (∀ y file clock rs y', ok y (EvBoot file clock rs) → step cf (EvBoot file clock rs) y = Ok y' → Forall P (abs_dbs (y_srv y'))) →
  ∀ evs y, reaches cf evs y → along cf ok evs (init_sys cf) → Forall P (abs_dbs (y_srv y)).
Proof.
  intros H0 Hp Hs Hb evs. induction evs as [|e evs IH] using rev_ind; intros y' Hr Hal.
  { destruct Hr as [_ [= <-]]. simpl. unfold abs_dbs. simpl. apply Forall_fmap, Forall_replicate. simpl. unfold abs_db. simpl. rewrite !NewDict_map, fmap_empty. exact H0. }
  pose proof Hr as [Hh _]. apply reaches_snoc in Hr as (_ & y & Hr & HS). apply along_snoc in Hal as [Hal He].
  assert (Hok : ok y e) by (apply He; apply Hr). specialize (IH y Hr Hal). clear He Hal.
  pose proof (reaches_ok cf evs y Hr) as Hy.
  destruct Hh as (Hev & Hpos & Htot). rewrite total_app in Htot.
  apply Forall_app in Hev as [_ Hev]. apply Forall_cons in Hev as [Hev _].
  destruct e as [|i args now unix rs|i n|now rs| | |dump|file clock rs].
  - injection HS as <-. done.
  - destruct (y_cls y !! i) as [c|] eqn:Hc; [|cbn [step] in HS; rewrite Hc in HS; by injection HS as <-].
    destruct Hev as [Hargs Hrs].
    destruct (command_step cf evs y i c args now unix rs y' Hr Hc) as (v' & r & n & Hd); [|done|].
    { split; [done|]. split; [done|]. unfold total in *. simpl in *. lia. }
    pose proof (did_dbs _ _ _ _ _ _ _ _ _ _ Hd) as ->. destruct Hd as [Ht _ _ _ _].
    remember (Ok (v', r, n)) as o eqn:Eo. destruct Ht; try (by injection Eo as <- _ _); try done.
    destruct ro as [[D' r' n']| |]; try done. cbn [on_view mbind res_bind] in Eo. injection Eo as <- <- <-.
    match goal with H : allowed _ _ _ _ |- _ => destruct H as ((a & l & ar & -> & -> & Har & Hacc) & _) end.
    cbn [view_at v_dbs v_db v_auth] in *. match goal with H : abs_dbs (y_srv y) !! _ = Some D |- _ => rename H into HD end.
    apply Forall_insert; [done|]. eapply (Hs evs y i c a l now unix rs); try done. by eapply Forall_lookup_1.
  - cbn [step] in HS. destruct (y_cls y !! i); by injection HS as <-.
  - cbn [step] in HS. destruct (databasesCron (env_at cf now 0) (s_dbs (y_srv y)) rs) as [[dbs' rs']| |] eqn:EC; try done.
    injection HS as <-. destruct Hy as [[S1 S2 S3 S4] _ _].
    pose proof (databasesCron_spec _ _ (s_heap (y_srv y)) _ _ _ _ S1 Hev EC) as (_ & HP & _).
    unfold abs_dbs in *. cbn [y_srv s_heap s_dbs set_dbs]. clear -HP IH Hp. revert IH.
    induction HP as [|D D' l l' H1 H2 IH]; intros HF; [done|]. apply Forall_cons in HF as [HF HF']. apply Forall_cons. split; [|by apply IH].
    by eapply Hp.
  - by injection HS as <-.
  - cbn [step] in HS. unfold rewriteAppendOnlyFileBackground in HS. destruct (s_task (y_srv y)); [by injection HS as <-|].
    destruct Hy as [[S1 S2 S3 S4] _ _].
    destruct (copy_dbs_spec _ (s_dbs (y_srv y)) S1) as (snap & EC & _); [unfold small, max_entries; simpl in *; lia|].
    rewrite EC in HS. cbn in HS. by injection HS as <-.
  - cbn [step] in HS. destruct (s_task (y_srv y)); by injection HS as <-.
  - by eapply Hb.
Qed.

(** * Sorted sets whose skiplist and dict are in step *)
Definition tame (m : zmap) (s : skiplist) : Prop := ∃ L, sinv s L ∧ e_key <$> L ≡ₚ ZsetProofs.pairs m.
Lemma tame_new : tame ∅ NewSkiplist.
Proof. exists []. split; [apply sinv_new|done]. Qed.
Lemma tame_nan m s x sc : tame m s → m !! x = Some sc → not_nan sc.
Proof.
  intros (L & (_ & _ & Hnn) & HP) Hx. apply elem_of_pairs in Hx. rewrite <-HP in Hx.
  apply elem_of_list_fmap in Hx as (e & He & Hin). unfold e_key in He. injection He as -> _. by eapply nan_of_in.
Qed.
Lemma feq_not_nan a b : feq a b = true → not_nan a ∧ not_nan b.
Proof. unfold not_nan. by destruct a, b. Qed.
Lemma sl_add_tame m s sc x rs s' rs' : tame m s → m !! x = None → not_nan sc → sl_add s sc x rs = Ok (s', rs') → tame (<[x := sc]> m) s'.
Proof.
  intros (L & HL & HP) Hx Hn Ha. unfold sl_add in Ha. destruct (randomLevel rs) as [[lv r]| |] eqn:Er; try done. cbn [mbind res_bind fst snd] in Ha.
  destruct (Insert s lv sc x) as [[s2 y]| |] eqn:Ei; try done. cbn [mbind res_bind fst snd] in Ha. injection Ha as <- <-.
  assert (Hlv : 1 ≤ lv ≤ Z.of_nat maxLevel).
  { split.
    - destruct (decide (1 ≤ lv)) as [|Hlt]; [done|]. exfalso. unfold Insert in Ei. destruct (search s _ false) as [us| |]; try done.
      cbn [mbind res_bind] in Ei. by replace (lv <? 1) with true in Ei by lia.
    - unfold randomLevel in Er. destruct (randomLevel_loop 1 rs) as [[l r']| |]; try done. cbn [mbind res_bind fst snd] in Er. injection Er as <- _.
      destruct (l <? Z.of_nat maxLevel) eqn:El; lia. }
  destruct (Insert_sinv s L lv sc x HL Hlv Hn) as (A & Bb & s1 & HAB & Ei' & Hs' & _).
  { apply Forall_forall. intros e He. destruct (esame (e_key e) (sc, x)) eqn:Es; [|done]. exfalso. apply esame_member in Es. simpl in Es.
    assert ((e_score e, x) ∈ ZsetProofs.pairs m) as Hin by (rewrite <-HP; apply elem_of_list_fmap; exists e; unfold e_key; by rewrite <-Es).
    apply elem_of_pairs in Hin. congruence. }
  rewrite Ei in Ei'. injection Ei' as -> _. eexists. split; [exact Hs'|].
  rewrite pairs_insert by done. rewrite <-HP, HAB, !fmap_app, fmap_cons. by rewrite <-Permutation_middle.
Qed.

(** ** ZADD *)
(** the pairs (score, member) among the arguments of ZADD, up to the first score
    that is not a number *)
Fixpoint scored (lib : lib) (l : list bytes) : list (float * bytes) :=
  match l with
  | a :: x :: l => match lib_parse_float lib a with Some sc => (sc, x) :: scored lib l | None => [] end
  | _ => []
  end.
(** the members in [ps] that are not yet in [m] are added; the first score of a member counts *)
Definition with_new (ps : list (float * bytes)) (m : zmap) : zmap := m ∪ list_to_map ((λ p, (p.2, p.1)) <$> ps).
(** no score is NaN, and no member of [m] or of [ps] gets a second, different score *)
Definition scores_stay (ps : list (float * bytes)) (m : zmap) : Prop :=
  ∀ sc x, (sc, x) ∈ ps → ∃ sc', with_new ps m !! x = Some sc' ∧ feq sc sc' = true.
Lemma with_new_cons sc x ps m : m !! x = None → with_new ((sc, x) :: ps) m = with_new ps (<[x := sc]> m).
Proof.
  intros Hx. unfold with_new. simpl. rewrite <-insert_union_l. by rewrite insert_union_r.
Qed.
Lemma with_new_old sc x ps m : is_Some (m !! x) → with_new ((sc, x) :: ps) m = with_new ps m.
Proof.
  intros [sc0 Hx]. unfold with_new. simpl. apply map_eq. intros k.
  destruct (decide (k = x)) as [->|Hk]; [by erewrite !lookup_union_Some_l by exact Hx|]. by rewrite !lookup_union, lookup_insert_ne.
Qed.
Lemma zadd_all_tame E l : ∀ m s c n rs z r n', tame m s → scores_stay (scored (e_lib E) l) m →
  zadd_all E l (m, s) c n rs = Ok (z, r, n') →
  z.1 = with_new (scored (e_lib E) l) m ∧ tame z.1 z.2 ∧
  (r = RInt (c + Z.of_nat (size z.1) - Z.of_nat (size m)) ∨ is_error r ∧ ∃ i a, l !! (2 * i)%nat = Some a ∧ lib_parse_float (e_lib E) a = None).
Proof.
  remember (length l) as k eqn:Hk. revert l Hk. induction (lt_wf k) as [k _ IH]. intros l -> m s c n rs z r n' Ht Hst Hz.
  destruct l as [|a [|x l]]; cbn [zadd_all scored] in Hz, Hst |- *.
  - injection Hz as <- <- <-. split; [unfold with_new; simpl; by rewrite (right_id_L ∅ (∪))|]. split; [done|]. left. f_equal. simpl. lia.
  - destruct (lib_parse_float (e_lib E) a) eqn:Ea; [done|]. injection Hz as <- <- <-. split; [unfold with_new; simpl; by rewrite (right_id_L ∅ (∪))|]. split; [done|].
    right. split; [done|]. by exists 0%nat, a.
  - destruct (lib_parse_float (e_lib E) a) as [sc|] eqn:Ea.
    2:{ injection Hz as <- <- <-. split; [unfold with_new; simpl; by rewrite (right_id_L ∅ (∪))|]. split; [done|]. right. split; [done|]. by exists 0%nat, a. }
    destruct (zadd1 (m, s) sc x rs) as [[[[m1 s1] b] rs1]| |] eqn:E1; try done. cbn [mbind res_bind] in Hz.
    assert (Hshift : (∃ i b, l !! (2 * i)%nat = Some b ∧ lib_parse_float (e_lib E) b = None) →
      ∃ i b, (a :: x :: l) !! (2 * i)%nat = Some b ∧ lib_parse_float (e_lib E) b = None).
    { intros (i & b' & H1 & H2). exists (S i), b'. split; [|done]. by replace (2 * S i)%nat with (S (S (2 * i))) by lia. }
    unfold zadd1 in E1. cbn [fst snd] in E1. destruct (m !! x) as [sc0|] eqn:Ex.
    + destruct (feq sc sc0) eqn:Ef.
      * cbn [negb] in E1. injection E1 as <- <- <- <-.
        rewrite with_new_old in * by (by rewrite Ex).
        destruct (IH (length l) ltac:(simpl; lia) l eq_refl m s c (n + 1) rs z r n' Ht) as (H1 & H2 & H3); [|done|].
        { intros sc2 x2 Hin. rewrite <-(with_new_old sc x) by (by rewrite Ex). apply Hst. by right. }
        split; [done|]. split; [done|]. destruct H3 as [H3|[H3 H4]]; [by left|right; split; [done|]]. by apply Hshift.
      * exfalso. destruct (Hst sc x) as (sc' & H1 & H2); [left|]. unfold with_new in H1. erewrite lookup_union_Some_l in H1 by exact Ex. congruence.
    + destruct (sl_add s sc x rs) as [[s2 rs2]| |] eqn:Ea2; try done. cbn [mbind res_bind fst snd] in E1. injection E1 as <- <- <- <-.
      rewrite with_new_cons in * by done.
      assert (Hn : not_nan sc).
      { destruct (Hst sc x) as (sc' & _ & H2); [left|]. by apply feq_not_nan in H2 as [? _]. }
      destruct (IH (length l) ltac:(simpl; lia) l eq_refl (<[x := sc]> m) s2 (c + 1) (n + 1) rs2 z r n') as (H1 & H2 & H3); [by eapply sl_add_tame| |done|].
      { intros sc2 x2 Hin. rewrite <-with_new_cons by done. apply Hst. by right. }
      split; [done|]. split; [done|]. destruct H3 as [H3|[H3 H4]]; [left|right; split; [done|]; by apply Hshift].
      rewrite H3. f_equal. rewrite map_size_insert_None by done. lia.
Qed.

(** ** The other commands, through a dict that holds the map *)
Definition held (N : nat) (m : zmap) (s : skiplist) (z : zset) : Prop := obj_ok N (OZset z) ∧ fZset z = (m, s).
Lemma held_zinv N m s z : held N m s z → tame m s → ∃ L, zinv Hash z m L.
Proof. intros [[Hd _] [= <- <-]] (L & HL & HP). exists L. by split. Qed.
Lemma zinv_tame z m L : zinv Hash z m L → tame m (z_sl z).
Proof. intros [_ _ H1 H2]. by exists L. Qed.
Lemma held_size N m s z : held N m s z → (size m ≤ N)%nat.
Proof. by intros [[_ H] [= <- <-]]. Qed.
Lemma reaches_zset cf evs y d D key m s : reaches cf evs y → abs_dbs (y_srv y) !! d = Some D → a_keys D !! key = Some (AZset m s) →
  ∃ z, held (total evs) m s z.
Proof.
  intros Hr HD Hk. apply reaches_ok in Hr as [[_ Hh _ _] _ _]. unfold abs_dbs in HD. rewrite list_lookup_fmap in HD.
  destruct (s_dbs (y_srv y) !! d) as [db|]; [|done]. injection HD as <-. simpl in Hk. rewrite lookup_fmap in Hk.
  destruct (d_map (db_dict db) !! key) as [[|o]|]; try done. simpl in Hk. destruct (s_heap (y_srv y) !! o) as [x|] eqn:Hx; [|done].
  pose proof (Forall_lookup_1 _ _ _ _ Hh Hx) as Ho. destruct x as [| | |z]; try done. simpl in Hk. injection Hk as <- <-. by exists z.
Qed.

Lemma present_inv r z' l : present r = Ok (z', OutEls l) → r = Ok (z', Some <$> l).
Proof.
  unfold present. destruct r as [[z es]| |]; try done. cbn [mbind res_bind fst snd].
  destruct (mapM id es) as [l'|] eqn:Em; [|done]. intros [= -> ->]. do 2 f_equal. apply mapM_Some_1 in Em.
  clear -Em. induction Em as [|a b l1 l2 H1 H2 IH]; [done|]. simpl. unfold id in H1. by rewrite H1, IH.
Qed.
Lemma sim_ok {A B} (R : A → B → Prop) r1 r2 a : sim R r1 r2 → r1 = Ok a → ∃ b, r2 = Ok b ∧ R a b.
Proof. intros Hs ->. destruct r2; try done. by eexists. Qed.
Lemma held_elements N m s z ids z' es : held N m s z → elements Hash z ids = Ok (z', es) → zelems m s ids = Ok es.
Proof.
  intros [Ho Hf] He. unfold fZset in Hf. injection Hf as Hm Hs. pose proof (elements_sim N ids z Ho) as Hsim. rewrite Hm, Hs in Hsim.
  destruct (sim_ok _ _ _ _ Hsim He) as (b & -> & _ & Hb). cbn in Hb. by subst b.
Qed.

Lemma zrange_tame N m s z start stop : held N m s z → tame m s → Z.of_nat N ≤ 2 ^ 44 →
  -2^63 ≤ start < 2^63 → -2^63 ≤ stop < 2^63 → stop = 2^63 - 1 ∨ stop - start < 2^45 →
  ∃ S, order m S ∧ zrange (m, s) start stop = Ok (Some <$> swap (ranks start stop S)).
Proof.
  intros Hh Ht HN H1 H2 H3. pose proof (held_size _ _ _ _ Hh) as Hsz. destruct (held_zinv _ _ _ _ Hh Ht) as (L & Hz).
  destruct (zstep_spec Hash z m L (OpRange start stop false) Hz) as (z' & out & M' & L' & E1 & Hs & _); [done|lia|].
  inversion Hs; subst. cbn [zstep] in E1. apply present_inv in E1. unfold ZRangeByRank in E1.
  exists S. split; [done|]. unfold zrange. destruct Hh as [Ho [= Hm Hs']]. cbn [fst snd].
  assert (Hl : last_rank z stop = last_rank (MkZset NewDict s) stop) by (unfold last_rank; simpl; by rewrite Hs').
  rewrite <-Hl, <-Hs'. destruct (RangeByRank (z_sl z) _ _ _) as [ids| |]; try done. cbn [mbind res_bind] in *.
  eapply held_elements; [|exact E1]. split; [done|]. unfold fZset. by rewrite Hm.
Qed.
Lemma zrangebyscore_tame N m s z mn mx : held N m s z → tame m s → Z.of_nat N ≤ 2 ^ 44 → not_nan mn →
  ∃ S, order m S ∧ zrangebyscore (m, s) mn mx = Ok (Some <$> swap (filter (λ k, within mn mx k = true) S)).
Proof.
  intros Hh Ht HN H1. pose proof (held_size _ _ _ _ Hh) as Hsz. destruct (held_zinv _ _ _ _ Hh Ht) as (L & Hz).
  destruct (zstep_spec Hash z m L (OpRangeScore mn mx (-1) false) Hz) as (z' & out & M' & L' & E1 & Hs & _); [done|lia|].
  inversion Hs; subst. cbn [zstep] in E1. apply present_inv in E1. unfold ZRangeByScore in E1.
  exists S. split; [done|]. unfold zrangebyscore. destruct Hh as [Ho [= Hm Hs']]. cbn [fst snd].
  rewrite <-Hs'. destruct (RangeByScore (z_sl z) _ _ _ _) as [ids| |]; try done. cbn [mbind res_bind] in *.
  eapply held_elements; [|exact E1]. split; [done|]. unfold fZset. by rewrite Hm.
Qed.
Lemma zcount_tame N m s z mn mx : held N m s z → tame m s → Z.of_nat N ≤ 2 ^ 44 → not_nan mn →
  Count s mn mx = Ok (Z.of_nat (size (filter (λ p, within mn mx (p.2, p.1) = true) m))).
Proof.
  intros Hh Ht HN H1. pose proof (held_size _ _ _ _ Hh) as Hsz. destruct (held_zinv _ _ _ _ Hh Ht) as (L & Hz).
  destruct (zstep_spec Hash z m L (OpCount mn mx) Hz) as (z' & out & M' & L' & E1 & Hs & _); [done|lia|].
  inversion Hs; subst. cbn [zstep] in E1. destruct Hh as [Ho [= Hm Hs']]. unfold ZCount in E1. rewrite Hs' in E1.
  destruct (Count s mn mx) as [n| |]; try done. cbn [mbind res_bind] in E1. injection E1 as _ ->. f_equal.
  unfold zlen. f_equal. rewrite (pairs_filter M' (within mn mx)). by rewrite pairs_length.
Qed.
Lemma zcard_tame m s : tame m s → sl_length s = Z.of_nat (size m).
Proof.
  intros (L & [Hs _] & HP). rewrite (s_length _ _ Hs). unfold zlen. f_equal.
  rewrite <-pairs_length, <-HP. by rewrite fmap_length.
Qed.

Lemma zdel1_tame N m s z x : held N m s z → tame m s → Z.of_nat N ≤ 2 ^ 44 →
  ∃ s' z', zdel1 (m, s) x = Ok ((delete x m, s'), bool_decide (is_Some (m !! x))) ∧ held N (delete x m) s' z' ∧ tame (delete x m) s'.
Proof.
  intros Hh Ht HN. pose proof (held_size _ _ _ _ Hh) as Hsz. destruct (held_zinv _ _ _ _ Hh Ht) as (L & Hz).
  destruct (zstep_spec Hash z m L (OpDel x) Hz) as (z' & out & M' & L' & E1 & Hs & Hz'); [done|lia|].
  inversion Hs; subst. cbn [zstep] in E1. destruct (ZDelete Hash z x) as [[z1 b]| |] eqn:Ed; try done. cbn [mbind res_bind fst snd] in E1.
  injection E1 as -> ->. pose proof Hh as [Ho Hf]. destruct (sim_ok _ _ _ _ (ZDelete_sim N z x Ho) Ed) as ([z2 b2] & E2 & [Hr1 Hr2] & Hb).
  cbn [fst snd] in *. rewrite Hf in E2. subst b2. exists (z_sl z'), z'. rewrite E2. rewrite <-Hr1. unfold fZset.
  rewrite (zi_map _ _ _ _ Hz'). split; [done|]. split; [|by eapply zinv_tame]. split; [done|]. unfold fZset. by rewrite (zi_map _ _ _ _ Hz').
Qed.
Lemma zrem_all_tame N l : ∀ m s z n, held N m s z → tame m s → Z.of_nat N ≤ 2 ^ 44 →
  ∃ s', let m' := filter (λ p, p.1 ∉ l) m in
    zrem_all l (m, s) n = Ok ((m', s'), n + Z.of_nat (size m) - Z.of_nat (size m')) ∧ tame m' s'.
Proof.
  induction l as [|x l IH]; intros m s z n Hh Ht HN.
  - assert (filter (λ p : bytes * float, p.1 ∉ []) m = m) as Hid by (apply map_filter_id; intros; set_solver).
    exists s. cbn zeta. rewrite Hid. split; [|done]. cbn [zrem_all]. do 2 f_equal. lia.
  - cbn [zrem_all]. destruct (zdel1_tame N m s z x Hh Ht HN) as (s1 & z1 & -> & Hh1 & Ht1). cbn [mbind res_bind fst snd].
    destruct (IH (delete x m) s1 z1 (if bool_decide (is_Some (m !! x)) then n + 1 else n) Hh1 Ht1 HN) as (s' & E1 & Ht').
    assert (filter (λ p : bytes * float, p.1 ∉ x :: l) m = filter (λ p, p.1 ∉ l) (delete x m)) as Heq.
    { apply map_eq. intros k. apply option_eq. intros sc. rewrite !map_filter_lookup_Some, lookup_delete_Some. simpl. rewrite elem_of_cons. naive_solver. }
    exists s'. cbn zeta in *. rewrite Heq. split; [|done]. rewrite E1. do 2 f_equal.
    destruct (m !! x) as [sc|] eqn:Ex.
    + rewrite bool_decide_true by done. assert (size m ≠ 0)%nat by (intros H0%map_size_empty_inv; rewrite H0 in Ex; by rewrite lookup_empty in Ex).
      rewrite map_size_delete_Some by (by rewrite Ex). lia.
    + rewrite bool_decide_false by (by intros [? ?]). rewrite delete_notin by done. lia.
Qed.

(** the members of [R] are removed *)
Lemma held_delete N m s z s' ids z' es : held N m s z → elements_delete Hash (MkZset (z_dict z) s') ids = Ok (z', es) →
  ∃ m', zelems_delete m s' ids = Ok (m', es) ∧ fZset z' = (m', s').
Proof.
  intros [Ho Hf] He. unfold fZset in Hf. injection Hf as Hm Hs.
  assert (Ho' : obj_ok N (OZset (MkZset (z_dict z) s'))) by exact Ho.
  pose proof (elements_delete_sim N ids _ Ho') as Hsim. cbn [z_dict z_sl] in Hsim. rewrite Hm in Hsim.
  destruct (sim_ok _ _ _ _ Hsim He) as ([m' es'] & -> & [Hr _] & Hb). cbn [fst snd] in *. subst es'. by exists m'.
Qed.
Lemma without_size (R : list pair) (m : zmap) : NoDup R.*2 → (∀ k, k ∈ R → m !! k.2 = Some k.1) → (size m = size (without R m) + length R)%nat.
Proof.
  unfold without. induction R as [|[sc x] R IH]; intros HR1 HR2.
  - rewrite map_filter_id by (intros; set_solver). simpl. lia.
  - apply NoDup_cons in HR1 as [Hn HR1]. cbn [fmap list_fmap length]. simpl in Hn.
    rewrite IH; [|done|intros k Hk; apply HR2; by right].
    assert (filter (λ p : bytes * float, p.1 ∉ (sc, x).2 :: R.*2) m = delete x (filter (λ p, p.1 ∉ R.*2) m)) as ->.
    { apply map_eq. intros k. apply option_eq. intros sc2. rewrite lookup_delete_Some, !map_filter_lookup_Some. simpl. rewrite elem_of_cons. naive_solver. }
    assert (filter (λ p : bytes * float, p.1 ∉ R.*2) m !! x = Some sc) as Hx.
    { apply map_filter_lookup_Some. split; [by apply (HR2 (sc, x)); left|done]. }
    assert (size (filter (λ p : bytes * float, p.1 ∉ R.*2) m) ≠ 0)%nat by (intros H0%map_size_empty_inv; rewrite H0 in Hx; by rewrite lookup_empty in Hx).
    rewrite map_size_delete_Some by (by rewrite Hx). lia.
Qed.
Lemma zremrange_tame N m s z op del : held N m s z → tame m s → Z.of_nat N ≤ 2 ^ 44 →
  PropsZset.allowed m op →
  (zstep Hash z op = present (r ← del (z_sl z); elements_delete Hash (MkZset (z_dict z) r.1) r.2)) →
  (∀ out m', zspec m op out m' → ∃ R, out = OutEls (swap R) ∧ m' = without R m ∧ NoDup R.*2 ∧ ∀ k, k ∈ R → m !! k.2 = Some k.1) →
  ∃ R s', zspec m op (OutEls (swap R)) (without R m) ∧
    let k := Z.of_nat (size m) - Z.of_nat (size (without R m)) in
    zremrange del (m, s) = Ok ((without R m, s'), RInt k, k) ∧ tame (without R m) s'.
Proof.
  intros Hh Ht HN Ha Hop Hsp. pose proof (held_size _ _ _ _ Hh) as Hsz. destruct (held_zinv _ _ _ _ Hh Ht) as (L & Hz).
  destruct (zstep_spec Hash z m L op Hz Ha) as (z' & out & M' & L' & E1 & Hs & Hz'); [lia|].
  destruct (Hsp _ _ Hs) as (R & -> & -> & HR1 & HR2). rewrite Hop in E1. apply present_inv in E1.
  pose proof Hh as [Ho [= Hm Hs']]. rewrite Hs' in E1.
  destruct (del s) as [[s1 ids]| |] eqn:Ed; try done. cbn [mbind res_bind fst snd] in E1.
  destruct (held_delete N m s z s1 ids z' _ Hh E1) as (m1 & E2 & Hf). unfold fZset in Hf. injection Hf as Hf1 Hf2.
  rewrite (zi_map _ _ _ _ Hz') in Hf1. subst m1.
  exists R, s1. split; [done|]. unfold zremrange. cbn [snd fst]. rewrite Ed. cbn [mbind res_bind fst snd]. rewrite E2. cbn [mbind res_bind fst snd].
  split; [|rewrite <-Hf2; by eapply zinv_tame].
  assert (zlen (Some <$> swap R) = Z.of_nat (size m) - Z.of_nat (size (without R m))) as ->; [|done].
  unfold zlen, swap. rewrite !fmap_length.
  pose proof (without_size R m HR1 HR2). lia.
Qed.

(** * Commands that leave sorted sets alone *)
Section quiet.
  Variable E : env.
  Notation args_rel := (list bytes → adb → res outcome → Prop).
  (** every sorted set of [D'] is one of [D], at the same key *)
  Definition zsub (D D' : adb) : Prop := ∀ k m s, a_keys D' !! k = Some (AZset m s) → a_keys D !! k = Some (AZset m s).
  Definition zquiet (R : args_rel) : Prop := ∀ args D D' r n, R args D (Ok (Out D' r n)) → zsub D D'.
  Lemma zsub_refl D : zsub D D. Proof. by intros k m s. Qed.
  Hint Resolve zsub_refl : core.
  Lemma purged_zsub E' D D' : purged E' D D' → zsub D D'.
  Proof. intros (X & _ & ->) k m s Hk. simpl in Hk. by apply map_filter_lookup_Some in Hk as [? _]. Qed.
  Lemma reads_zquiet R : reads E R → zquiet R.
  Proof. intros H args D D' r n HR. apply H in HR as [_ Hp]. by eapply purged_zsub. Qed.
  Lemma put_zsub key v D D' : zsub D D' → (∀ m s, v ≠ AZset m s) → zsub D (put_val key v D').
  Proof.
    intros H Hv k m s Hk. simpl in Hk. destruct (decide (k = key)) as [->|Hne].
    - rewrite lookup_insert in Hk. injection Hk as Hk. by destruct (Hv m s).
    - rewrite lookup_insert_ne in Hk by done. by apply H.
  Qed.
  Lemma existing_zsub {X} (k : akind X) key none f D D' r n : ak_law k → (∀ x m s, ak_in k x ≠ AZset m s) →
    on_existing k E key none f D = Ok (Out D' r n) → zsub D D'.
  Proof.
    intros Hl Hk H. apply existing_cases in H as [(-> & _)|(x & x' & _ & _ & ->)]; [| |done].
    - eapply purged_zsub, purge_purged.
    - apply put_zsub; [eapply purged_zsub, purge_purged|apply Hk].
  Qed.
  Lemma new_zsub {X} (k : akind X) wrong key f D D' r n : ak_law k → (∀ x m s, ak_in k x ≠ AZset m s) →
    on_new k wrong key f D = Ok (Out D' r n) → zsub D D'.
  Proof.
    intros Hl Hk H. apply new_cases in H as [(-> & _)|(x & x' & _ & _ & ->)]; [done| |done].
    apply put_zsub; [done|apply Hk].
  Qed.
  Lemma zquiet_expire f : zquiet (sem_expire E f).
  Proof. intros args D D' r n H. unfold sem_expire, fn in H. destruct args as [|? [|? [|a ?]]]; try done. destruct (Atoi a); injection H as <- _ _; by intros k m s. Qed.
  Lemma zquiet_set : zquiet sem_set.
  Proof.
    intros args D D' r n H. unfold sem_set, fn in H. destruct args as [|? [|key [|v ?]]]; try done. injection H as <- _ _.
    by apply (put_zsub key (AStr v) D D).
  Qed.
  Lemma zquiet_setex : zquiet (sem_setex E).
  Proof.
    intros args D D' r n H. unfold sem_setex, fn in H. destruct args as [|? [|key [|a [|v ?]]]]; try done. destruct (Atoi a); injection H as <- _ _; [|done].
    by apply (put_zsub key (AStr v) D D).
  Qed.
  Lemma zquiet_hset : zquiet sem_hset.
  Proof.
    intros args D D' r n H. unfold sem_hset, fn in H. destruct args as [|? [|key ?]]; try done.
    destruct (negb _); [by injection H as <- _ _|]. injection H as H. by eapply new_zsub; [apply AKHash_law| |exact H].
  Qed.
  Lemma zquiet_hdel : zquiet (sem_hdel E).
  Proof.
    intros args D D' r n H. unfold sem_hdel, fn in H. destruct args as [|? [|key ?]]; try done.
    injection H as H. by eapply existing_zsub; [apply AKHash_law| |exact H].
  Qed.
  Lemma zquiet_push all : zquiet (sem_push all).
  Proof.
    intros args D D' r n H. unfold sem_push, fn in H. destruct args as [|? [|key ?]]; try done.
    injection H as H. by eapply new_zsub; [apply AKList_law| |exact H].
  Qed.
  Lemma zquiet_pop pop : zquiet (sem_pop E pop).
  Proof.
    intros args D D' r n H. unfold sem_pop, fn in H. destruct args as [|? [|key ?]]; try done.
    injection H as H. by eapply existing_zsub; [apply AKList_law| |exact H].
  Qed.
  Lemma zquiet_sadd : zquiet sem_sadd.
  Proof.
    intros args D D' r n H. unfold sem_sadd, fn in H. destruct args as [|? [|key ?]]; try done.
    injection H as H. by eapply new_zsub; [apply AKSet_law| |exact H].
  Qed.
  Lemma zquiet_srem : zquiet (sem_srem E).
  Proof.
    intros args D D' r n H. unfold sem_srem, fn in H. destruct args as [|? [|key ?]]; try done.
    injection H as H. by eapply existing_zsub; [apply AKSet_law| |exact H].
  Qed.
  Lemma zquiet_spop : zquiet (sem_spop E).
  Proof.
    intros args D D' r n H. unfold sem_spop in H. destruct args as [|? [|key ?]]; try done.
    assert (Hp : zsub D (purge E key D)) by (eapply purged_zsub, purge_purged).
    destruct (set_at (purge E key D) key) as [[s|]|].
    - destruct H as [(-> & [= -> -> ->])|(Hs & [?|(m & Hm & [= -> -> ->])])]; [done|done|by apply put_zsub].
    - by injection H as -> -> ->.
    - by injection H as -> -> ->.
  Qed.
  Definition zwriters : list bytes := [B "zadd"; B "zrem"; B "zremrangebyrank"; B "zremrangebyscore"].
  Lemma table_zquiet : Forall (λ p, p.1 ∈ zwriters ∨ zquiet p.2) (semTable E).
  Proof.
    assert (Hz : ∀ name (R : args_rel), bool_decide (name ∈ zwriters) = true → (name, R).1 ∈ zwriters ∨ zquiet (name, R).2).
    { intros name R Hb. left. by apply bool_decide_eq_true in Hb. }
    unfold semTable.
    repeat (apply Forall_cons; split; [
      first [ right; first [ apply zquiet_expire | apply zquiet_set | apply zquiet_setex | apply zquiet_hset | apply zquiet_hdel | apply zquiet_push
        | apply zquiet_pop | apply zquiet_sadd | apply zquiet_srem | apply zquiet_spop
        | apply reads_zquiet; first [apply reads_ping | apply reads_get | apply reads_ttl | apply reads_keys | apply reads_randomget
           | apply reads_hget | apply reads_hexists | apply reads_hlen | apply reads_hkeys | apply reads_llen | apply reads_lindex | apply reads_lrange
           | apply reads_scard | apply reads_sismember | apply reads_smembers | apply reads_fold | apply reads_sinter
           | apply reads_zcard | apply reads_zscore | apply reads_zcount | apply reads_zrange | apply reads_zrangebyscore ] ]
      | apply Hz; by vm_compute ]|]).
    by apply Forall_nil.
  Qed.
  Lemma sem_zquiet name args D D' r n : name ∉ zwriters → sem E name args D (Ok (Out D' r n)) → zsub D D'.
  Proof.
    intros Hn (R & HR & H). pose proof table_zquiet as HT. rewrite Forall_forall in HT. destruct (HT _ HR) as [?|Hq]; [done|].
    by eapply Hq.
  Qed.
End quiet.

(** * Histories that keep sorted sets in step *)
Definition zset_at (D : adb) (key : bytes) : option zmap :=
  match a_keys D !! key with None => Some ∅ | Some (AZset m _) => Some m | _ => None end.
Definition tame_db (D : adb) : Prop := ∀ key m s, a_keys D !! key = Some (AZset m s) → tame m s.
Lemma tame_zsub D D' : zsub D D' → tame_db D → tame_db D'.
Proof. intros H Ht key m s Hk. by eapply Ht, H. Qed.
(** a command on a sorted set [m]: ZADD gives no member a second score and no
    score is NaN; if the key exists, ZREMRANGEBYRANK removes from rank 0 on and the
    bounds of ZREMRANGEBYSCORE are numbers; a log from which the server is started
    leads to sorted sets that are in step *)
Definition zset_careful (lib : lib) (name : bytes) (l : list bytes) (m : zmap) (there : Prop) : Prop :=
  (name = B "zadd" → scores_stay (scored lib l) m) ∧
  (name = B "zremrangebyrank" → there → ∀ b n, l !! 0%nat = Some b → Atoi b = Some n → n ≤ 0) ∧
  (name = B "zremrangebyscore" → there → ∀ b mn, l !! 0%nat = Some b → lib_parse_float lib b = Some mn → not_nan mn).
Definition careful (cf : config) (y : sys) (e : event) : Prop :=
  match e with
  | EvCommand i (a :: key :: l) _ _ _ => ∀ c D m, y_cls y !! i = Some c → abs_dbs (y_srv y) !! c_db c = Some D →
      zset_at D key = Some m → zset_careful (cf_lib cf) (lib_lower (cf_lib cf) a) l m (is_Some (a_keys D !! key))
  | EvBoot _ _ _ => ∀ y', step cf e y = Ok y' → Forall tame_db (abs_dbs (y_srv y'))
  | _ => True
  end.
Definition careful_history (cf : config) (evs : list event) : Prop := along cf (careful cf) evs (init_sys cf).
Lemma Atoi_int64 a n : Atoi a = Some n → -2^63 ≤ n < 2^63.
Proof. unfold Atoi, minInt64, maxInt64. intros H. repeat case_match; simplify_eq; lia. Qed.

Lemma sublist_order m S (R : list pair) : order m S → sublist R S → NoDup R.*2 ∧ ∀ k, k ∈ R → m !! k.2 = Some k.1.
Proof.
  intros [_ HP] HR.
  assert (Hin : ∀ k, k ∈ R → m !! k.2 = Some k.1).
  { intros k Hk. assert (k ∈ S) as Hk' by (eapply elem_of_submseteq; [exact Hk|by apply sublist_submseteq]). rewrite HP in Hk'.
    apply elem_of_list_fmap in Hk' as ([x sc] & -> & Hk'). by apply elem_of_map_to_list in Hk'. }
  split; [|done].
  assert (NoDup S.*2) as HS.
  { rewrite HP, <-list_fmap_compose. apply NoDup_fst_map_to_list. }
  clear -HR HS. induction HR as [|k R S HR IH|k R S HR IH]; [done| |].
  - cbn in *. apply NoDup_cons in HS as [H1 H2]. apply NoDup_cons. split; [|by apply IH]. intros Hx. apply H1.
    apply elem_of_list_fmap in Hx as (k' & Hk & Hx). apply elem_of_list_fmap. exists k'. split; [done|].
    eapply elem_of_submseteq; [exact Hx|by apply sublist_submseteq].
  - cbn in HS. apply NoDup_cons in HS as [_ HS]. by apply IH.
Qed.
Lemma filter_sublist' (f : pair → bool) (S : list pair) : sublist (filter (λ k, f k = true) S) S.
Proof. induction S as [|k S IH]; [done|]. rewrite filter_cons. destruct (decide (f k = true)); by constructor. Qed.
Lemma ranks_sublist start stop (S : list pair) : sublist (ranks start stop S) S.
Proof.
  unfold ranks. destruct (start <? 0); [apply sublist_nil_l|]. destruct (stop =? 2 ^ 63 - 1); [apply sublist_drop|].
  etrans; [apply sublist_take|apply sublist_drop].
Qed.
Lemma zremrangebyrank_tame N m s z start stop : held N m s z → tame m s → Z.of_nat N ≤ 2 ^ 44 →
  -2^63 ≤ start ≤ 0 → -2^63 ≤ stop < 2^63 →
  ∃ S s', order m S ∧ let m' := without (ranks start stop S) m in let k := Z.of_nat (size m) - Z.of_nat (size m') in
    zremrange (λ s, DeleteRangeByRank s (wrap64 (start + 1)) (wrap64 (last_rank (MkZset NewDict s) stop + 1))) (m, s)
      = Ok ((m', s'), RInt k, k) ∧ tame m' s'.
Proof.
  intros Hh Ht HN H1 H2.
  destruct (zremrange_tame N m s z (OpDelRank start stop)
    (λ s, DeleteRangeByRank s (wrap64 (start + 1)) (wrap64 (last_rank (MkZset NewDict s) stop + 1))) Hh Ht HN) as (R & s' & Hz & H3 & H4); [done|done| |].
  { intros out m' Hs. inversion Hs; subst. eexists. split; [done|]. split; [done|]. eapply sublist_order; [done|apply ranks_sublist]. }
  inversion Hz as [| | | | | | | | |S ? ? R' Ho HR HR2| | |]; subst. exists S, s'. split; [done|].
  match goal with H : without _ m = without R m |- _ => cbn zeta; by rewrite H end.
Qed.
Lemma zremrangebyscore_tame N m s z mn mx : held N m s z → tame m s → Z.of_nat N ≤ 2 ^ 44 → not_nan mn →
  ∃ s', let m' := filter (λ p, within mn mx (p.2, p.1) = false) m in let k := Z.of_nat (size m) - Z.of_nat (size m') in
    zremrange (λ s, DeleteRangeByScore s mn mx) (m, s) = Ok ((m', s'), RInt k, k) ∧ tame m' s'.
Proof.
  intros Hh Ht HN H1.
  destruct (zremrange_tame N m s z (OpDelScore mn mx) (λ s, DeleteRangeByScore s mn mx) Hh Ht HN) as (R & s' & Hz & H3 & H4); [done|done| |].
  { intros out m' Hs. inversion Hs; subst. eexists. split; [done|]. split; [done|]. eapply sublist_order; [done|apply filter_sublist']. }
  inversion Hz as [| | | | | | | | | |S ? ? R' Ho HR HR2| |]; subst. exists s'.
  match goal with H : without _ m = without R m |- _ => rename H into HRm end.
  assert (without (filter (λ k, within mn mx k = true) S) m = filter (λ p, within mn mx (p.2, p.1) = false) m) as Heq; [|cbn zeta; by rewrite <-Heq, HRm].
  unfold without. apply map_filter_ext. intros x sc Hx. simpl. destruct Ho as [_ HP].
  split.
  - intros Hn. destruct (within mn mx (sc, x)) eqn:Ew; [|done]. destruct Hn. apply elem_of_list_fmap. exists (sc, x). split; [done|].
    apply elem_of_list_filter. split; [done|]. rewrite HP. apply elem_of_list_fmap. exists (x, sc). split; [done|]. by apply elem_of_map_to_list.
  - intros Hw ([sc' x'] & Heq & Hin)%elem_of_list_fmap. simpl in Heq. subst x'. apply elem_of_list_filter in Hin as [Hw' Hin].
    rewrite HP in Hin. apply elem_of_list_fmap in Hin as ([x2 sc2] & [= -> ->] & Hin). apply elem_of_map_to_list in Hin. rewrite Hin in Hx. injection Hx as ->. congruence.
Qed.

(** every command leaves sorted sets in step *)
Lemma put_tame key m s D : tame_db D → tame m s → tame_db (put_val key (AZset m s) D).
Proof.
  intros HD Ht k m1 s1 Hk. simpl in Hk. destruct (decide (k = key)) as [->|Hne].
  - rewrite lookup_insert in Hk. by injection Hk as <- <-.
  - rewrite lookup_insert_ne in Hk by done. by eapply HD.
Qed.
Lemma sem_tame cf evs y d D E name a key l D' r n : reaches cf evs y → abs_dbs (y_srv y) !! d = Some D → tame_db D →
  e_lib E = cf_lib cf → (∀ m, zset_at D key = Some m → zset_careful (cf_lib cf) name l m (is_Some (a_keys D !! key))) →
  sem E name (a :: key :: l) D (Ok (Out D' r n)) → tame_db D'.
Proof.
  intros Hr HD Ht HE Hc Hs.
  destruct (decide (name ∈ zwriters)) as [Hz|Hz]; [|by eapply tame_zsub; [eapply sem_zquiet|]].
  assert (HN : Z.of_nat (total evs) ≤ 2 ^ 44) by (destruct Hr as [(_ & _ & H) _]; lia).
  assert (Hp : zsub D (purge E key D)) by (eapply purged_zsub, purge_purged).
  assert (Hpt : tame_db (purge E key D)) by (by eapply tame_zsub).
  assert (Hex : ∀ none f, on_existing AKZset E key none f D = Ok (Out D' r n) →
    (∀ m s z x', a_keys D !! key = Some (AZset m s) → held (total evs) m s z → tame m s → f (m, s) = Ok (x', r, n) → tame x'.1 x'.2) → tame_db D').
  { intros none f Ho Hf. apply existing_cases in Ho as [(-> & _)|([m s] & x' & H1 & H2 & ->)]; [done| |apply AKZset_law].
    apply Hp in H1. destruct (reaches_zset _ _ _ _ _ _ _ _ Hr HD H1) as (z & Hh). apply put_tame; [done|]. eapply Hf; [done|done|by eapply Ht|done]. }
  unfold zwriters in Hz. rewrite !elem_of_cons, elem_of_nil in Hz. destruct Hz as [->|[->|[->|[->|[]]]]].
  - eapply (sem_inv _ _ (sem_zadd E)) in Hs; [|by repeat constructor]. cbn in Hs.
    destruct (negb _); [by injection Hs as -> -> ->|]. destruct Hs as (rs & _ & Hs). symmetry in Hs.
    apply new_cases in Hs as [(-> & _)|([m s] & x' & H1 & H2 & ->)]; [done| |apply AKZset_law]. apply put_tame; [done|].
    assert (zset_at D key = Some m ∧ tame m s) as [Hat Hts].
    { unfold zset_at. destruct H1 as [H1|[H1 Hx]]; rewrite H1; [split; [done|by eapply Ht]|]. injection Hx as -> ->. split; [done|apply tame_new]. }
    destruct x' as [m' s']. eapply (zadd_all_tame E l m s 0 0 rs (m', s')); [done| |done]. rewrite HE. by apply (Hc m Hat).
  - eapply (sem_inv _ _ (sem_zrem E)) in Hs; [|by repeat constructor]. unfold sem_zrem, fn in Hs. injection Hs as Hs.
    eapply Hex; [exact Hs|]. intros m s z x' _ Hh Hts Hf. cbn beta in Hf. destruct (zrem_all_tame _ l m s z 0 Hh Hts HN) as (s' & E1 & H1). cbn zeta in *.
    rewrite E1 in Hf. cbn [mbind res_bind fst snd] in Hf. injection Hf as <- _ _. done.
  - eapply (sem_inv _ _ (sem_zremrangebyrank E)) in Hs; [|by repeat constructor]. unfold sem_zremrangebyrank, fn in Hs.
    destruct l as [|b1 [|b2 l]]; try done. injection Hs as Hs. unfold ints in Hs.
    destruct (Atoi b1) as [i|] eqn:E1; [|by injection Hs as <- _ _]. destruct (Atoi b2) as [j|] eqn:E2; [|by injection Hs as <- _ _].
    eapply Hex; [exact Hs|]. intros m s z x' Hk Hh Hts Hf. cbn beta in Hf.
    destruct (Hc m) as (_ & Hi & _); [unfold zset_at; by rewrite Hk|]. specialize (Hi eq_refl ltac:(by rewrite Hk) b1 i eq_refl E1).
    pose proof (Atoi_int64 _ _ E1). pose proof (Atoi_int64 _ _ E2).
    destruct (zremrangebyrank_tame _ m s z i j Hh Hts HN) as (S & s' & _ & E3 & H3); [lia|lia|]. cbn zeta in *.
    rewrite E3 in Hf. injection Hf as <- _ _. done.
  - eapply (sem_inv _ _ (sem_zremrangebyscore E)) in Hs; [|by repeat constructor]. unfold sem_zremrangebyscore, fn in Hs.
    destruct l as [|b1 [|b2 l]]; try done. injection Hs as Hs. unfold floats in Hs.
    destruct (lib_parse_float (e_lib E) b1) as [i|] eqn:E1; [|by injection Hs as <- _ _]. destruct (lib_parse_float (e_lib E) b2) as [j|] eqn:E2; [|by injection Hs as <- _ _].
    eapply Hex; [exact Hs|]. intros m s z x' Hk Hh Hts Hf. cbn beta in Hf.
    destruct (Hc m) as (_ & _ & Hi); [unfold zset_at; by rewrite Hk|]. rewrite HE in E1. specialize (Hi eq_refl ltac:(by rewrite Hk) b1 i eq_refl E1).
    destruct (zremrangebyscore_tame _ m s z i j Hh Hts HN Hi) as (s' & E3 & H3). cbn zeta in *.
    rewrite E3 in Hf. injection Hf as <- _ _. done.
Qed.
Lemma careful_tame cf evs y : reaches cf evs y → careful_history cf evs → Forall tame_db (abs_dbs (y_srv y)).
Proof.
  apply history_inv.
  - by intros key m s Hk.
  - intros E D D' Hp. apply tame_zsub. by eapply purged_zsub.
  - intros evs0 y0 i c a l now unix rs ar D D' r n E name Hr Hc Hok Har Hacc HD Ht Hs.
    destruct l as [|key l].
    + destruct (decide (name ∈ zwriters)) as [Hz|Hz]; [|by eapply tame_zsub; [eapply sem_zquiet|]]. exfalso. clearbody name.
      unfold zwriters in Hz. rewrite !elem_of_cons, elem_of_nil in Hz. destruct Hz as [->|[->|[->|[->|[]]]]].
      * eapply (sem_inv _ _ (sem_zadd E)) in Hs; [done|by repeat constructor].
      * eapply (sem_inv _ _ (sem_zrem E)) in Hs; [done|by repeat constructor].
      * eapply (sem_inv _ _ (sem_zremrangebyrank E)) in Hs; [done|by repeat constructor].
      * eapply (sem_inv _ _ (sem_zremrangebyscore E)) in Hs; [done|by repeat constructor].
    + eapply (sem_tame cf evs0 y0 _ D E name a key l); try done. intros m Hm. by eapply Hok.
  - intros y0 file clock rs y' Hok. apply Hok.
Qed.
(** a history without ZADD (and without a restart from some log) is careful: there are no sorted sets *)
Definition no_zadd (cf : config) (e : event) : Prop :=
  match e with EvCommand _ (a :: _) _ _ _ => lib_lower (cf_lib cf) a ≠ B "zadd" | EvBoot _ _ _ => False | _ => True end.
Lemma along_forall cf (P : event → Prop) evs : Forall P evs → ∀ y, along cf (λ _, P) evs y.
Proof. induction 1 as [|e evs He _ IH]; intros y; [done|]. split; [done|]. intros y' _. apply IH. Qed.
Lemma no_zadd_none cf evs y : reaches cf evs y → Forall (no_zadd cf) evs →
  Forall (λ D, ∀ key m s, a_keys D !! key ≠ Some (AZset m s)) (abs_dbs (y_srv y)).
Proof.
  intros Hr Hf. eapply (history_inv cf _ (λ _, no_zadd cf)); [| | | |exact Hr|by apply along_forall].
  - done.
  - intros E D D' Hp HD key m s Hk. eapply HD, (purged_zsub _ _ _ Hp), Hk.
  - intros evs0 y0 i c a l now unix rs ar D D' r n E name _ _ Hok _ _ _ HD Hs key m s Hk.
    cbn [no_zadd] in Hok. fold name in Hok. clearbody name.
    assert (Hp : ∀ k, zsub D (purge E k D)) by (intros k; eapply purged_zsub, purge_purged).
    assert (Hex : ∀ k none f, on_existing AKZset E k none f D = Ok (Out D' r n) → False).
    { intros k none f Ho. apply existing_cases in Ho as [(-> & _)|([m' s'] & x' & H1 & H2 & ->)]; [| |apply AKZset_law].
      - by eapply HD, Hp.
      - eapply HD, Hp, H1. }
    destruct (decide (name ∈ zwriters)) as [Hz|Hz]; [|eapply HD; by eapply sem_zquiet].
    unfold zwriters in Hz. rewrite !elem_of_cons, elem_of_nil in Hz. destruct Hz as [->|[->|[->|[->|[]]]]]; [done|..].
    + eapply (sem_inv _ _ (sem_zrem E)) in Hs; [|by repeat constructor]. unfold sem_zrem, fn in Hs.
      destruct l as [|k l]; [done|]. injection Hs as Hs. by eapply Hex.
    + eapply (sem_inv _ _ (sem_zremrangebyrank E)) in Hs; [|by repeat constructor]. unfold sem_zremrangebyrank, fn in Hs.
      destruct l as [|k [|b1 [|b2 l]]]; try done. injection Hs as Hs. unfold ints in Hs.
      destruct (Atoi b1); [|injection Hs as <- _ _; by eapply HD]. destruct (Atoi b2); [by eapply Hex|injection Hs as <- _ _; by eapply HD].
    + eapply (sem_inv _ _ (sem_zremrangebyscore E)) in Hs; [|by repeat constructor]. unfold sem_zremrangebyscore, fn in Hs.
      destruct l as [|k [|b1 [|b2 l]]]; try done. injection Hs as Hs. unfold floats in Hs.
      destruct (lib_parse_float _ b1); [|injection Hs as <- _ _; by eapply HD]. destruct (lib_parse_float _ b2); [by eapply Hex|injection Hs as <- _ _; by eapply HD].
  - done.
Qed.
Lemma no_zadd_careful cf evs y : reaches cf evs y → Forall (no_zadd cf) evs → careful_history cf evs.
Proof.
  unfold careful_history. revert y. induction evs as [|e evs IH] using rev_ind; intros y Hr Hf; [done|].
  apply Forall_app in Hf as [Hf He]. apply Forall_cons in He as [He _]. apply reaches_snoc in Hr as (_ & y1 & Hr & _).
  apply along_snoc. split; [by eapply IH|]. intros y' Hy. assert (y' = y1) as -> by (destruct Hr as [_ Hr]; congruence). clear Hy.
  destruct e as [|i [|a [|key l]] now unix rs| | | | | |]; try done. intros c D m Hc HD Hm.
  pose proof (Forall_lookup_1 _ _ _ _ (no_zadd_none _ _ _ Hr Hf) HD) as Hno. cbn [no_zadd] in He.
  assert (Hn : ¬ is_Some (a_keys D !! key)).
  { intros [v Hv]. unfold zset_at in Hm. rewrite Hv in Hm. destruct v; try done. by eapply Hno. }
  by split_and!.
Qed.
