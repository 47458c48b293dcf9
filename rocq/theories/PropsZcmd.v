(** Sorted sets at the level of commands (C47). *)
From Verif Require Import Base Float DictModel DictProofs DictProofs2
  DatabaseModel SetModel QuicklistModel QuicklistProofs SkiplistModel SkiplistProofs5 PropsSkiplist ZsetModel ZsetProofs PropsZset
  Strconv RespSpec ServerModel CommandModel CommandSem CommandInv CommandInv2 CommandProofs1 CommandProofs2
  CommandTop CommandFrame SystemModel SystemProofs CommandFacts ExampleLib PropsCommand PropsData ZcmdProofs ExampleTools.
From Coq Require Import ZifyBool ZifyNat.

(** * Specification *)
(** the sorted set at a key: [Some None] if there is no value, None if the value is of another kind *)
Definition zset_of (D : adb) (key : bytes) : option (option zmap) :=
  match a_keys D !! key with None => Some None | Some (AZset m _) => Some (Some m) | _ => None end.
Definition mem (z : option zmap) : zmap := default ∅ z.

(** score member score member ...: all scores are numbers *)
Fixpoint score_pairs (lib : lib) (l : list bytes) : option (list (float * bytes)) :=
  match l with
  | [] => Some []
  | a :: x :: l =>
      match lib_parse_float lib a, score_pairs lib l with Some sc, Some ps => Some ((sc, x) :: ps) | _, _ => None end
  | [_] => None
  end.
(** the reply to a range: the members, with WITHSCORES each followed by its score *)
Definition shown (lib : lib) (ws : bool) (S : list pair) : list bytes :=
  S ≫= λ k, if ws then [k.2; lib_format_float lib k.1] else [k.2].
Inductive range_reply (lib : lib) (S : list pair) : list bytes → reply → Prop :=
| rr_plain : range_reply lib S [] (RArray (shown lib false S))
| rr_scores o l : lib_withscores lib o = true → range_reply lib S (o :: l) (RArray (shown lib true S))
| rr_bad o l r : lib_withscores lib o = false → is_error r → range_reply lib S (o :: l) r.

Definition rank_commands : list bytes := [B "zrange"; B "zremrangebyrank"].
Definition score_commands : list bytes := [B "zcount"; B "zrangebyscore"; B "zremrangebyscore"].
Definition size_of (m : zmap) : Z := Z.of_nat (size m).
(** [order m S]: S lists the pairs (score, member) of m by increasing score, members
    of equal score in increasing order (PropsZset) *)
Inductive zset_spec (lib : lib) : bytes → list bytes → option zmap → option zmap → reply → Prop :=
| zc_add l ps z m' : score_pairs lib l = Some ps →
    mem z ⊆ m' → dom m' = dom (mem z) ∪ list_to_set ps.*2 →
    (∀ sc x, (sc, x) ∈ ps → ∃ sc', m' !! x = Some sc' ∧ feq sc sc' = true) →
    zset_spec lib (B "zadd") l z (Some m') (count (list_to_set ps.*2 ∖ dom (mem z)))
| zc_card l z : zset_spec lib (B "zcard") l z z (RInt (size_of (mem z)))
| zc_score x l z :
    zset_spec lib (B "zscore") (x :: l) z z
      (match mem z !! x with Some sc => RSimple (lib_format_float lib sc) | None => RNull end)
| zc_count a b l mn mx z : lib_parse_float lib a = Some mn → lib_parse_float lib b = Some mx →
    zset_spec lib (B "zcount") (a :: b :: l) z z (RInt (size_of (filter (λ p, within mn mx (p.2, p.1) = true) (mem z))))
| zc_range a b l start stop m S r : Atoi a = Some start → Atoi b = Some stop →
    order m S → range_reply lib (ranks start stop S) l r →
    zset_spec lib (B "zrange") (a :: b :: l) (Some m) (Some m) r
| zc_range_none a b l start stop : Atoi a = Some start → Atoi b = Some stop →
    zset_spec lib (B "zrange") (a :: b :: l) None None RNull
| zc_rangescore a b l mn mx m S r : lib_parse_float lib a = Some mn → lib_parse_float lib b = Some mx →
    order m S → range_reply lib (filter (λ k, within mn mx k = true) S) l r →
    zset_spec lib (B "zrangebyscore") (a :: b :: l) (Some m) (Some m) r
| zc_rangescore_none a b l mn mx : lib_parse_float lib a = Some mn → lib_parse_float lib b = Some mx →
    zset_spec lib (B "zrangebyscore") (a :: b :: l) None None RNull
| zc_rem l z z' : mem z' = filter (λ p, p.1 ∉ l) (mem z) → (is_Some z' ↔ is_Some z) →
    zset_spec lib (B "zrem") l z z' (RInt (size_of (mem z) - size_of (mem z')))
| zc_remrank a b l start stop S z z' : Atoi a = Some start → Atoi b = Some stop →
    order (mem z) S → mem z' = without (ranks start stop S) (mem z) → (is_Some z' ↔ is_Some z) →
    zset_spec lib (B "zremrangebyrank") (a :: b :: l) z z' (RInt (size_of (mem z) - size_of (mem z')))
| zc_remscore a b l mn mx z z' : lib_parse_float lib a = Some mn → lib_parse_float lib b = Some mx →
    mem z' = filter (λ p, within mn mx (p.2, p.1) = false) (mem z) → (is_Some z' ↔ is_Some z) →
    zset_spec lib (B "zremrangebyscore") (a :: b :: l) z z' (RInt (size_of (mem z) - size_of (mem z')))
| zc_bad_rank name a b l z r : name ∈ rank_commands → Atoi a = None ∨ Atoi b = None → is_error r →
    zset_spec lib name (a :: b :: l) z z r
| zc_bad_score name a b l z r : name ∈ score_commands → lib_parse_float lib a = None ∨ lib_parse_float lib b = None → is_error r →
    zset_spec lib name (a :: b :: l) z z r.

Definition zset_commands : list bytes :=
  [B "zcard"; B "zscore"; B "zcount"; B "zrange"; B "zrangebyscore"; B "zrem"; B "zremrangebyrank"; B "zremrangebyscore"].
(** what the theorem asks of the arguments: no ZRANGE of 2^45 ranks or more, removal
    by rank from rank 0 on, no NaN as a lower bound *)
Definition fair (lib : lib) (name : bytes) (l : list bytes) : Prop :=
  (name = B "zrange" → ∀ a b start stop, l !! 0%nat = Some a → l !! 1%nat = Some b → Atoi a = Some start → Atoi b = Some stop →
     stop = 2^63 - 1 ∨ stop - start < 2^45) ∧
  (name = B "zremrangebyrank" → ∀ a start, l !! 0%nat = Some a → Atoi a = Some start → start ≤ 0) ∧
  (name ∈ score_commands → ∀ a mn, l !! 0%nat = Some a → lib_parse_float lib a = Some mn → not_nan mn).

(** * Facts *)
Lemma zset_put key m s D : zset_of (put_val key (AZset m s) D) key = Some (Some m).
Proof. unfold zset_of. simpl. by rewrite lookup_insert. Qed.
Lemma zset_of_at D key z : zset_of D key = Some z → zset_at D key = Some (mem z).
Proof. unfold zset_of, zset_at. intros H. repeat case_match; simplify_eq; done. Qed.
Lemma zarray_shown E ws S : zarray E ws (Some <$> swap S) = Ok (shown (e_lib E) ws S).
Proof.
  induction S as [|[sc x] S IH]; [done|]. cbn [swap fmap list_fmap zarray]. unfold swap in IH. simpl in IH |- *.
  rewrite IH. cbn [mbind res_bind]. by destruct ws.
Qed.
Lemma zreply_shown E a0 key a b l S : ∃ r, zreply E (a0 :: key :: a :: b :: l) (Some <$> swap S) = Ok r ∧ range_reply (e_lib E) S l r.
Proof.
  unfold zreply. destruct l as [|o l]; simpl.
  - rewrite zarray_shown. cbn [mbind res_bind]. eexists. split; [done|]. constructor.
  - destruct (lib_withscores (e_lib E) o) eqn:Ew.
    + rewrite zarray_shown. cbn [mbind res_bind]. eexists. split; [done|]. by constructor.
    + eexists. split; [done|]. by constructor.
Qed.
Lemma score_pairs_scored lib l ps : score_pairs lib l = Some ps → scored lib l = ps ∧ Nat.Even (length l) ∧
  ∀ i a, l !! (2 * i)%nat = Some a → is_Some (lib_parse_float lib a).
Proof.
  remember (length l) as n eqn:Hn. revert l ps Hn. induction (lt_wf n) as [n _ IH]. intros l ps -> H.
  destruct l as [|a [|x l]]; [|done|].
  - injection H as <-. split; [done|]. split; [by exists 0%nat|done].
  - cbn [score_pairs] in H. destruct (lib_parse_float lib a) as [sc|] eqn:Ea; [|done]. destruct (score_pairs lib l) as [ps'|] eqn:Ep; [|done]. injection H as <-.
    destruct (IH (length l) ltac:(simpl; lia) l ps' eq_refl Ep) as (H1 & [k Hk] & H3). cbn [scored]. rewrite Ea, H1. split; [done|]. split; [exists (S k); simpl; lia|].
    intros [|i] b Hb; [simpl in Hb; injection Hb as <-; by rewrite Ea|]. apply (H3 i). by replace (2 * S i)%nat with (S (S (2 * i))) in Hb by lia.
Qed.
Lemma with_new_dom ps m : dom (with_new ps m) = dom m ∪ list_to_set ps.*2.
Proof.
  unfold with_new. rewrite dom_union_L. f_equal. rewrite dom_list_to_map_L. f_equal. by rewrite <-list_fmap_compose.
Qed.
Lemma with_new_count ps m : size_of (with_new ps m) - size_of m = Z.of_nat (size (list_to_set ps.*2 ∖ dom m : gset bytes)).
Proof.
  unfold size_of. rewrite <-!(size_dom (D := gset bytes)), with_new_dom.
  replace (dom m ∪ list_to_set ps.*2) with (dom m ∪ (list_to_set ps.*2 ∖ dom m)) by (rewrite union_comm_L, difference_union_L, union_comm_L; done).
  rewrite size_union by set_solver. lia.
Qed.

(** * C47 *)
(** ZADD, ZRANGE, ZREM and the other sorted-set commands act on a map from members to
    scores, ordered by score and member, along every careful history: one in which no
    ZADD changes the score of a member or adds a NaN, and removal by rank starts at
    rank 0 ([careful_history]).  The full property has no such condition and asks it of
    no argument either; it is false (see the refutations below). *)
Theorem C47_commands_partial cf evs y i c name a0 key l now unix rs D z :
  let E := env_at cf now unix in let args := a0 :: key :: l in
  name ∈ zset_commands → ready cf evs y i c name args rs D → careful_history cf evs →
  ¬ expired E D key → zset_of D key = Some z → fair (cf_lib cf) name l →
  ∃ y' D' r, step cf (EvCommand i args now unix rs) y = Ok y' ∧ changed_to y y' c D' ∧ replied y y' i c r ∧
    acts zset_of (zset_spec (cf_lib cf) name l) key D D' r.
Proof.
  intros E args Hname H Hcare Hex Hz Hfair.
  enough (∃ R : list bytes → adb → res outcome → Prop, (name, R) ∈ semTable E ∧ ∀ o, R args D o → ∃ D' r n, o = Ok (Out D' r n) ∧ acts zset_of (zset_spec (cf_lib cf) name l) key D D' r)
    as (R & HR & Hx).
  { destruct (data_total cf evs y i c name R args now unix rs D (λ D' r n, acts zset_of (zset_spec (cf_lib cf) name l) key D D' r) H)
      as (y' & D' & r & n & H1 & H2 & H3 & _ & H4); [|done|done|by exists y', D', r].
    by eapply semTable_special. }
  assert (HN : Z.of_nat (total evs) ≤ 2 ^ 44) by (destruct H as [[(_ & _ & HH) _] _ _ _ _]; lia).
  assert (Hcase : a_keys D !! key = None ∧ z = None ∨ ∃ m s zz, z = Some m ∧ a_keys D !! key = Some (AZset m s) ∧ held (total evs) m s zz ∧ tame m s).
  { unfold zset_of in Hz. destruct (a_keys D !! key) as [[]|] eqn:Hk; try done; [right|left; split; congruence]. injection Hz as <-.
    destruct H as [Hr _ _ _ HD]. destruct (reaches_zset _ _ _ _ _ _ _ _ Hr HD Hk) as (zz & Hh). exists m, s, zz. split_and!; try done.
    pose proof (careful_tame _ _ _ Hr Hcare) as HT. pose proof (Forall_lookup_1 _ _ _ _ HT HD) as HT1. by eapply HT1. }
  clear H Hcare. destruct Hfair as (Hf1 & Hf2 & Hf3). change (cf_lib cf) with (e_lib E) in *. clearbody E.
  unfold args. clear args. pose proof (purge_id _ _ _ Hex) as Hpu.
  assert (Hnone : ∀ none f, a_keys D !! key = None → on_existing AKZset E key none f D = Ok (Out D none 0)).
  { intros none f Hk. unfold on_existing. by rewrite Hpu, Hk. }
  assert (Hsome : ∀ none f m s, a_keys D !! key = Some (AZset m s) →
     on_existing AKZset E key none f D = (y ← f (m, s); let '(x', r, n) := y in Ok (Out (put_val key (ak_in AKZset x') D) r n))).
  { intros none f m s Hk. unfold on_existing. by rewrite Hpu, Hk. }
  unfold zset_commands in Hname. rewrite !elem_of_cons, elem_of_nil in Hname. destruct Hname as [->|[->|[->|[->|[->|[->|[->|[->|[]]]]]]]]].
  - exists (sem_zcard E). split; [in_table|]. intros o Ho. unfold sem_zcard, fn in Ho. injection Ho as <-.
    destruct Hcase as [[Hk ->]|(m & s & zz & -> & Hk & Hh & Ht)].
    + rewrite (Hnone _ _ Hk). do 3 eexists. split; [reflexivity|]. eapply acts_same; [exact Hz|]. exact (zc_card (e_lib E) l None).
    + rewrite (Hsome _ _ _ _ Hk). do 3 eexists. split; [reflexivity|]. eapply acts_put; [exact Hz| |apply zset_put]. cbn [snd].
      rewrite (zcard_tame _ _ Ht). apply (zc_card (e_lib E) l (Some m)).
  - exists (sem_zscore E). split; [in_table|]. intros o Ho. unfold sem_zscore, fn in Ho. destruct l as [|x l]; [done|]. injection Ho as <-.
    destruct Hcase as [[Hk ->]|(m & s & zz & -> & Hk & Hh & Ht)].
    + rewrite (Hnone _ _ Hk). do 3 eexists. split; [reflexivity|]. eapply acts_same; [exact Hz|]. exact (zc_score (e_lib E) x l None).
    + rewrite (Hsome _ _ _ _ Hk). do 3 eexists. split; [reflexivity|]. eapply acts_put; [exact Hz| |apply zset_put]. cbn [fst].
      pose proof (zc_score (e_lib E) x l (Some m)) as Hx. cbn in Hx. by destruct (m !! x).
  - exists (sem_zcount E). split; [in_table|]. intros o Ho. unfold sem_zcount, fn in Ho. destruct l as [|a [|b l]]; [done..|]. injection Ho as <-.
    unfold floats. destruct (lib_parse_float (e_lib E) a) as [mn|] eqn:Ea; [destruct (lib_parse_float (e_lib E) b) as [mx|] eqn:Eb|].
    2,3: do 3 eexists; split; [reflexivity|]; eapply acts_same; [exact Hz|]; apply zc_bad_score; [left|by auto|done].
    destruct Hcase as [[Hk ->]|(m & s & zz & -> & Hk & Hh & Ht)].
    + rewrite (Hnone _ _ Hk). do 3 eexists. split; [reflexivity|]. eapply acts_same; [exact Hz|].
      pose proof (zc_count (e_lib E) a b l mn mx None Ea Eb) as Hx. cbn [mem default] in Hx. by rewrite map_filter_empty in Hx.
    + rewrite (Hsome _ _ _ _ Hk). unfold reading. cbn [snd].
      rewrite (zcount_tame _ _ _ _ mn mx Hh Ht HN) by (apply (Hf3 ltac:(left) a mn); done). cbn [mbind res_bind].
      do 3 eexists. split; [reflexivity|]. eapply acts_put; [exact Hz| |apply zset_put]. exact (zc_count (e_lib E) a b l mn mx (Some m) Ea Eb).
  - exists (sem_zrange E). split; [in_table|]. intros o Ho. unfold sem_zrange, fn in Ho. destruct l as [|a [|b l]]; [done..|]. injection Ho as <-.
    unfold ints. destruct (Atoi a) as [start|] eqn:Ea; [destruct (Atoi b) as [stop|] eqn:Eb|].
    2,3: do 3 eexists; split; [reflexivity|]; eapply acts_same; [exact Hz|]; apply zc_bad_rank; [left|by auto|done].
    destruct Hcase as [[Hk ->]|(m & s & zz & -> & Hk & Hh & Ht)].
    + rewrite (Hnone _ _ Hk). do 3 eexists. split; [reflexivity|]. eapply acts_same; [exact Hz|]. by eapply zc_range_none.
    + rewrite (Hsome _ _ _ _ Hk). unfold reading.
      destruct (zrange_tame _ _ _ _ start stop Hh Ht HN) as (S & HS & ->); [by apply (Atoi_int64 a)|by apply (Atoi_int64 b)|by apply (Hf1 eq_refl a b)|].
      cbn [mbind res_bind]. destruct (zreply_shown E a0 key a b l (ranks start stop S)) as (r & -> & Hr). cbn [mbind res_bind].
      do 3 eexists. split; [reflexivity|]. eapply acts_put; [exact Hz| |apply zset_put]. by eapply zc_range.
  - exists (sem_zrangebyscore E). split; [in_table|]. intros o Ho. unfold sem_zrangebyscore, fn in Ho. destruct l as [|a [|b l]]; [done..|]. injection Ho as <-.
    unfold floats. destruct (lib_parse_float (e_lib E) a) as [mn|] eqn:Ea; [destruct (lib_parse_float (e_lib E) b) as [mx|] eqn:Eb|].
    2,3: do 3 eexists; split; [reflexivity|]; eapply acts_same; [exact Hz|]; apply zc_bad_score; [right; left|by auto|done].
    destruct Hcase as [[Hk ->]|(m & s & zz & -> & Hk & Hh & Ht)].
    + rewrite (Hnone _ _ Hk). do 3 eexists. split; [reflexivity|]. eapply acts_same; [exact Hz|]. by eapply zc_rangescore_none.
    + rewrite (Hsome _ _ _ _ Hk). unfold reading.
      destruct (zrangebyscore_tame _ _ _ _ mn mx Hh Ht HN) as (S & HS & ->); [by apply (Hf3 ltac:(right; left) a mn)|].
      cbn [mbind res_bind]. destruct (zreply_shown E a0 key a b l (filter (λ k, within mn mx k = true) S)) as (r & -> & Hr). cbn [mbind res_bind].
      do 3 eexists. split; [reflexivity|]. eapply acts_put; [exact Hz| |apply zset_put]. by eapply zc_rangescore.
  - exists (sem_zrem E). split; [in_table|]. intros o Ho. unfold sem_zrem, fn in Ho. injection Ho as <-.
    destruct Hcase as [[Hk ->]|(m & s & zz & -> & Hk & Hh & Ht)].
    + rewrite (Hnone _ _ Hk). do 3 eexists. split; [reflexivity|]. eapply acts_same; [exact Hz|].
      pose proof (zc_rem (e_lib E) l None None) as Hx. cbn [mem default] in Hx. apply Hx; [by rewrite map_filter_empty|done].
    + rewrite (Hsome _ _ _ _ Hk). destruct (zrem_all_tame _ l m s zz 0 Hh Ht HN) as (s' & E1 & _). cbn zeta in E1. rewrite E1.
      cbn [mbind res_bind fst snd]. do 3 eexists. split; [reflexivity|]. eapply acts_put; [exact Hz| |apply zset_put].
      apply (zc_rem (e_lib E) l (Some m) (Some _)); done.
  - exists (sem_zremrangebyrank E). split; [in_table|]. intros o Ho. unfold sem_zremrangebyrank, fn in Ho. destruct l as [|a [|b l]]; [done..|]. injection Ho as <-.
    unfold ints. destruct (Atoi a) as [start|] eqn:Ea; [destruct (Atoi b) as [stop|] eqn:Eb|].
    2,3: do 3 eexists; split; [reflexivity|]; eapply acts_same; [exact Hz|]; apply zc_bad_rank; [right; left|by auto|done].
    pose proof (Atoi_int64 _ _ Ea) as Ba. pose proof (Atoi_int64 _ _ Eb) as Bb. pose proof (Hf2 eq_refl a start eq_refl Ea) as Bs.
    destruct Hcase as [[Hk ->]|(m & s & zz & -> & Hk & Hh & Ht)].
    + rewrite (Hnone _ _ Hk). do 3 eexists. split; [reflexivity|]. eapply acts_same; [exact Hz|].
      pose proof (zc_remrank (e_lib E) a b l start stop [] None None Ea Eb) as Hx. cbn [mem default] in Hx. apply Hx; [|unfold without; by rewrite map_filter_empty|done].
      split; [constructor|done].
    + rewrite (Hsome _ _ _ _ Hk). destruct (zremrangebyrank_tame _ m s zz start stop Hh Ht HN) as (S & s' & HS & E1 & _); [lia|lia|]. cbn zeta in E1. rewrite E1.
      cbn [mbind res_bind fst snd]. do 3 eexists. split; [reflexivity|]. eapply acts_put; [exact Hz| |apply zset_put].
      by apply (zc_remrank (e_lib E) a b l start stop S (Some m) (Some _)).
  - exists (sem_zremrangebyscore E). split; [in_table|]. intros o Ho. unfold sem_zremrangebyscore, fn in Ho. destruct l as [|a [|b l]]; [done..|]. injection Ho as <-.
    unfold floats. destruct (lib_parse_float (e_lib E) a) as [mn|] eqn:Ea; [destruct (lib_parse_float (e_lib E) b) as [mx|] eqn:Eb|].
    2,3: do 3 eexists; split; [reflexivity|]; eapply acts_same; [exact Hz|]; apply zc_bad_score; [right; right; left|by auto|done].
    destruct Hcase as [[Hk ->]|(m & s & zz & -> & Hk & Hh & Ht)].
    + rewrite (Hnone _ _ Hk). do 3 eexists. split; [reflexivity|]. eapply acts_same; [exact Hz|].
      pose proof (zc_remscore (e_lib E) a b l mn mx None None Ea Eb) as Hx. cbn [mem default] in Hx. apply Hx; [by rewrite map_filter_empty|done].
    + rewrite (Hsome _ _ _ _ Hk). destruct (zremrangebyscore_tame _ m s zz mn mx Hh Ht HN) as (s' & E1 & _); [by apply (Hf3 ltac:(right; right; left) a mn)|].
      cbn zeta in E1. rewrite E1.
      cbn [mbind res_bind fst snd]. do 3 eexists. split; [reflexivity|]. eapply acts_put; [exact Hz| |apply zset_put].
      by apply (zc_remscore (e_lib E) a b l mn mx (Some m) (Some _)).
Qed.
Print Assumptions C47_commands_partial.
(** ZADD; a run of the random source that ends the level choice is part of the event,
    so the step may not succeed for want of random numbers *)
Theorem C47_zadd_partial cf evs y i c a0 key l now unix rs D z ps y' :
  let args := a0 :: key :: l in
  ready cf evs y i c (B "zadd") args rs D → careful_history cf evs → zset_of D key = Some z →
  score_pairs (cf_lib cf) l = Some ps → scores_stay ps (mem z) →
  step cf (EvCommand i args now unix rs) y = Ok y' →
  ∃ D' r, changed_to y y' c D' ∧ replied y y' i c r ∧ acts zset_of (zset_spec (cf_lib cf) (B "zadd") l) key D D' r.
Proof.
  intros args H Hcare Hz Hps Hst HS.
  destruct (data_step cf evs y i c (B "zadd") args now unix rs D y' H) as (D' & r & n & Hs & Hch & Hrep & _); [not_special|done|].
  exists D', r. split; [done|]. split; [done|].
  apply (sem_inv _ _ (sem_zadd (env_at cf now unix))) in Hs; [|in_table]. unfold sem_zadd, args in Hs. cbv beta in Hs.
  destruct (score_pairs_scored _ _ _ Hps) as (Hsc & [k Hk] & Hall).
  replace (zlen (a0 :: key :: l) mod 2 =? 0) with true in Hs.
  2:{ unfold zlen. cbn [length]. rewrite Hk. replace (Z.of_nat (S (S (2 * k)))) with (Z.of_nat (S k) * 2) by lia. by rewrite Z.mod_mul by lia. }
  cbn [negb] in Hs. destruct Hs as (rs' & _ & Hs).
  assert (Hcase : ∃ m s, mem z = m ∧ tame m s ∧ Ok (Out D' r n) = (y ← zadd_all (env_at cf now unix) l (m, s) 0 0 rs'; let '(x', r, n) := y in Ok (Out (put_val key (ak_in AKZset x') D) r n))).
  { unfold on_new in Hs. unfold zset_of in Hz. destruct (a_keys D !! key) as [[]|] eqn:Hkey; try done; injection Hz as <-.
    - exists m, s. split_and!; [done| |exact Hs]. destruct H as [Hr _ _ _ HD]. pose proof (careful_tame _ _ _ Hr Hcare) as HT.
      pose proof (Forall_lookup_1 _ _ _ _ HT HD) as HT1. by eapply HT1.
    - exists ∅, NewSkiplist. split_and!; [done|apply tame_new|exact Hs]. }
  destruct Hcase as (m & s & Hm & Ht & Ho). destruct (zadd_all _ _ _ _ _ _) as [[[[m' s'] r'] n']| |] eqn:Ez; try done. cbn [mbind res_bind] in Ho. injection Ho as -> -> ->.
  assert (Hst' : scores_stay (scored (e_lib (env_at cf now unix)) l) m).
  { change (e_lib (env_at cf now unix)) with (cf_lib cf). rewrite Hsc, <-Hm. exact Hst. }
  destruct (zadd_all_tame _ _ _ _ _ _ _ _ _ _ Ht Hst' Ez) as (H1 & _ & H3).
  change (e_lib (env_at cf now unix)) with (cf_lib cf) in *. rewrite Hsc in H1. cbn [fst] in *.
  eapply acts_put; [exact Hz| |apply zset_put].
  destruct H3 as [-> |[_ (i0 & a & Ha & Hn)]]; [|apply Hall in Ha as [? Ha]; congruence].
  replace (0 + Z.of_nat (size m') - Z.of_nat (size m)) with (size_of m' - size_of m) by (unfold size_of; lia).
  rewrite H1, with_new_count, <-Hm. rewrite <-Hm in H1. apply (zc_add _ _ ps); [done| | |done].
  - apply map_union_subseteq_l.
  - apply with_new_dom.
Qed.
Print Assumptions C47_zadd_partial.

(** ** Checking that a history is careful *)
Definition stays_check (ps : list (float * bytes)) (m : zmap) : bool :=
  forallb (λ p, match with_new ps m !! p.2 with Some sc' => feq p.1 sc' | None => false end) ps.
Lemma stays_check_ok ps m : stays_check ps m = true → scores_stay ps m.
Proof.
  intros H1 sc x Hin. unfold stays_check in H1. rewrite forallb_forall in H1.
  apply elem_of_list_In in Hin. specialize (H1 _ Hin). simpl in H1. destruct (with_new _ m !! x) as [sc'|]; [by exists sc'|done].
Qed.
Definition careful_check (cf : config) (y : sys) (e : event) : bool :=
  match e with
  | EvCommand i (a :: key :: l) _ _ _ =>
      match y_cls y !! i with
      | None => true
      | Some c =>
          match abs_dbs (y_srv y) !! c_db c with
          | None => true
          | Some D =>
              match zset_at D key with
              | None => true
              | Some m =>
                  let name := lib_lower (cf_lib cf) a in
                  (negb (bool_decide (name = B "zadd")) || stays_check (scored (cf_lib cf) l) m) &&
                  (negb (bool_decide (name = B "zremrangebyrank")) || match l with b :: _ => match Atoi b with Some n => n <=? 0 | None => true end | [] => true end) &&
                  (negb (bool_decide (name = B "zremrangebyscore")) || match l with b :: _ => match lib_parse_float (cf_lib cf) b with Some SpecFloat.S754_nan => false | _ => true end | [] => true end)
              end
          end
      end
  | EvBoot _ _ _ => loaded_check cf e y (λ v, match v with AZset _ _ => false | _ => true end)
  | _ => true
  end.
Lemma careful_check_ok cf y e : careful_check cf y e = true → careful cf y e.
Proof.
  destruct e as [|i args now unix rs| | | | | |file clock rs]; try done.
  2:{ intros H y' HS. eapply Forall_impl; [by eapply loaded_check_ok|]. intros D HD key m s Hk. by apply HD in Hk. }
  destruct args as [|a [|key l]]; try done. unfold careful_check, careful. intros H c D m Hc HD Hm.
  rewrite Hc, HD, Hm in H. apply andb_true_iff in H as [[H1 H2]%andb_true_iff H3]. split_and!.
  - intros Hn. rewrite bool_decide_true in H1 by done. cbn [negb orb] in H1. by apply stays_check_ok.
  - intros Hn _ b n Hb Ha. rewrite bool_decide_true in H2 by done. destruct l as [|b' l]; [done|]. injection Hb as ->. rewrite Ha in H2. simpl in H2. lia.
  - intros Hn _ b mn Hb Ha. rewrite bool_decide_true in H3 by done. destruct l as [|b' l]; [done|]. injection Hb as ->. rewrite Ha in H3. by destruct mn.
Qed.
Fixpoint along_check (cf : config) (check : sys → event → bool) (evs : list event) (y : sys) : bool :=
  match evs with
  | [] => true
  | e :: evs => check y e && match step cf e y with Ok y' => along_check cf check evs y' | _ => true end
  end.
Lemma careful_history_check cf evs : along_check cf (careful_check cf) evs (init_sys cf) = true → careful_history cf evs.
Proof.
  unfold careful_history. generalize (init_sys cf). induction evs as [|e evs IH]; intros y H; [done|]. cbn [along_check along] in *.
  apply andb_true_iff in H as [H1 H2]. split; [by apply careful_check_ok|]. intros y' Hy. rewrite Hy in H2. by apply IH.
Qed.

(** The hypotheses are met by a history with every kind of write; the set is then {a 1, c 3, d 3}. *)
Definition h_zsets : list event := [EvConnect; cmd 0 5 "ZADD z 3 c 2 b 1 a"; cmd 0 6 "ZADD z 3 d 1 a 9 e"; cmd 0 7 "ZREM z b nobody";
  cmd 0 8 "ZADD y 1 a 2 b 3 c"; cmd 0 9 "ZREMRANGEBYRANK y 0 1"; cmd 0 10 "ZREMRANGEBYSCORE z 8 10"].
Notation y_zsets := (state_of cf0 h_zsets).
Example C47_example : let D := db_of y_zsets 0 in let m := {[B "a" := of_Z 1; B "c" := of_Z 3; B "d" := of_Z 3]} in
  ready cf0 h_zsets y_zsets 0 (who y_zsets 0) (B "zrange") (words "ZRANGE z 1 2 WITHSCORES") [] D ∧ careful_history cf0 h_zsets ∧
  ¬ expired (env_at cf0 11 0) D (B "z") ∧
  zset_of D (B "z") = Some (Some m) ∧ zset_of D (B "y") = Some (Some {[B "c" := of_Z 3]}) ∧ zset_of D (B "nokey") = Some None ∧
  scores_stay [(of_Z 5, B "x"); (of_Z 1, B "a")] m ∧
  fair lib0 (B "zrange") [B "1"; B "2"; B "WITHSCORES"].
Proof.
  intros D m. split; [apply ready_at; by vm_compute|]. split; [apply careful_history_check; by vm_compute|]. split; [by_compute|].
  split; [by_compute|]. split; [by_compute|]. split; [by_compute|]. split.
  - apply stays_check_ok. by vm_compute.
  - split_and!; [|by intros H; vm_compute in H|intros H; exfalso; revert H; apply (bool_decide_unpack _); by vm_compute].
    intros _ a b start stop Ha Hb Hs Ht.
    assert (H1 : Atoi <$> ([B "1"; B "2"; B "WITHSCORES"] !! 0%nat) = Some (Some 1)) by by_compute.
    assert (H2 : Atoi <$> ([B "1"; B "2"; B "WITHSCORES"] !! 1%nat) = Some (Some 2)) by by_compute.
    rewrite Ha in H1. rewrite Hb in H2. cbn in H1, H2. rewrite Hs in H1. rewrite Ht in H2. injection H1 as ->. injection H2 as ->. right. lia.
Qed.
(** the reply the theorem promises there, and ZADD's *)
Example C47_replies :
  let e := cmd 0 11 "ZRANGE z 1 2 WITHSCORES" in let e' := cmd 0 11 "ZADD z 5 x 1 a" in
  step cf0 e y_zsets = Ok (next cf0 e y_zsets) ∧ replied y_zsets (next cf0 e y_zsets) 0 (who y_zsets 0) (RArray [B "c"; B "3"; B "d"; B "3"]) ∧
  step cf0 e' y_zsets = Ok (next cf0 e' y_zsets) ∧ replied y_zsets (next cf0 e' y_zsets) 0 (who y_zsets 0) (RInt 1).
Proof. split_and!; first [apply next_step; by vm_compute|apply replied_check_ok; by vm_compute]. Qed.

(** ** What is false *)
(** A second score for a member: the set has one member, ZCARD says two ... *)
Definition h_update : list event := [EvConnect; cmd 0 5 "ZADD z 1 a"; cmd 0 5 "ZADD z 2 a"].
Theorem C47_update_refuted : let y := state_of cf0 h_update in let e := cmd 0 6 "ZCARD z" in
  reaches cf0 h_update y ∧ zset_of (db_of y 0) (B "z") = Some (Some {[B "a" := of_Z 2]}) ∧
  step cf0 e y = Ok (next cf0 e y) ∧ replied y (next cf0 e y) 0 (who y 0) (RInt 2).
Proof.
  intros y e. split; [apply state_of_reaches; by vm_compute|]. split; [by_compute|].
  split; [apply next_step; by vm_compute|apply replied_check_ok; by vm_compute].
Qed.
Print Assumptions C47_update_refuted.
(** ... and once the member is removed a range of the empty set ends the server. *)
Definition h_updated : list event := h_update ++ [cmd 0 6 "ZREM z a"].
Theorem C47_removed_refuted : let y := state_of cf0 h_updated in
  reaches cf0 h_updated y ∧ zset_of (db_of y 0) (B "z") = Some (Some ∅) ∧ step cf0 (cmd 0 7 "ZRANGE z 0 9") y = Panic.
Proof.
  intros y. split; [apply state_of_reaches; by vm_compute|]. split; [by_compute|]. apply panics_step; by vm_compute.
Qed.
Print Assumptions C47_removed_refuted.
(** A member with score NaN stays in the ordered part when it is removed: the range panics as well. *)
Definition h_nan : list event := [EvConnect; cmd 0 5 "ZADD z nan a"; cmd 0 6 "ZREM z a"].
Theorem C47_nan_refuted : let y := state_of cf0 h_nan in
  reaches cf0 h_nan y ∧ zset_of (db_of y 0) (B "z") = Some (Some ∅) ∧ step cf0 (cmd 0 7 "ZRANGE z 0 9") y = Panic.
Proof.
  intros y. split; [apply state_of_reaches; by vm_compute|]. split; [by_compute|]. apply panics_step; by vm_compute.
Qed.
Print Assumptions C47_nan_refuted.
(** Removal of rank 2 (counting from 0) removes the member of rank 4. *)
Definition h_rank : list event := [EvConnect; EvCommand 0 (words "ZADD z 1 a 2 b 3 c 4 d 5 e") 5 0 [65535; 0; 65535; 65535; 65535; 65535]].
Theorem C47_rank_refuted : let y := state_of cf0 h_rank in let e := cmd 0 6 "ZREMRANGEBYRANK z 2 2" in
  reaches cf0 h_rank y ∧
  zset_of (db_of y 0) (B "z") = Some (Some {[B "a" := of_Z 1; B "b" := of_Z 2; B "c" := of_Z 3; B "d" := of_Z 4; B "e" := of_Z 5]}) ∧
  step cf0 e y = Ok (next cf0 e y) ∧
  zset_of (db_of (next cf0 e y) 0) (B "z") = Some (Some {[B "a" := of_Z 1; B "b" := of_Z 2; B "c" := of_Z 3; B "d" := of_Z 4]}).
Proof.
  intros y e. split; [apply state_of_reaches; by vm_compute|]. split; [by_compute|]. split; [apply next_step; by vm_compute|by_compute].
Qed.
Print Assumptions C47_rank_refuted.
(** Other levels of the same five members: the member removed in place of the one of
    rank 2 remains in the ordered part, and a range that meets it ends the server. *)
Definition h_ghost : list event :=
  [EvConnect; EvCommand 0 (words "ZADD z 1 a 2 b 3 c 4 d 5 e") 5 0 [65535; 0; 65535; 65535; 0; 65535; 0; 65535]; cmd 0 6 "ZREMRANGEBYRANK z 2 2"].
Theorem C47_ghost_refuted : let y := state_of cf0 h_ghost in
  reaches cf0 h_ghost y ∧ zset_of (db_of y 0) (B "z") = Some (Some {[B "a" := of_Z 1; B "b" := of_Z 2; B "c" := of_Z 3; B "d" := of_Z 4]}) ∧
  step cf0 (cmd 0 7 "ZRANGE z 3 3") y = Panic.
Proof.
  intros y. split; [apply state_of_reaches; by vm_compute|]. split; [by_compute|]. apply panics_step; by vm_compute.
Qed.
Print Assumptions C47_ghost_refuted.
(** A range of 2^62 ranks ends the server. *)
Definition h_one : list event := [EvConnect; cmd 0 5 "ZADD z 1 a"].
Theorem C47_huge_refuted : let y := state_of cf0 h_one in
  reaches cf0 h_one y ∧ step cf0 (cmd 0 7 "ZRANGE z 0 4611686018427387904") y = Panic.
Proof. intros y. split; [apply state_of_reaches; by vm_compute|]. apply panics_step; by vm_compute. Qed.
Print Assumptions C47_huge_refuted.
