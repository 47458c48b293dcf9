(** Positional list commands at the command level (C48). *)
From Verif Require Import Base Float DictModel DictProofs DictProofs2
  DatabaseModel SetModel QuicklistModel QuicklistProofs SkiplistModel ZsetModel
  Strconv RespSpec ServerModel CommandModel CommandSem CommandInv CommandInv2 CommandProofs1 CommandProofs2
  CommandTop CommandFrame SystemModel SystemProofs CommandFacts ExampleLib PropsCommand PropsData ZcmdProofs ListcmdProofs ExampleTools.
From Coq Require Import ZifyBool ZifyNat.

(** * C48 *)
(** a position counted from the front, or from the end if it is negative *)
Definition position (x : list bytes) (i : Z) : Z := if i <? 0 then Z.of_nat (length x) + i else i.
(** the elements at the positions [s] to [e] *)
Definition between (x : list bytes) (s e : Z) : list bytes := take (Z.to_nat (e - s + 1)) (drop (Z.to_nat s) x).
(** What the commands should do to a sequence.  LINDEX does not count from the end: a
    negative index is outside.  An empty range is the null reply, or the empty array
    if there is no list at all. *)
Inductive pos_spec : bytes → list bytes → list bytes → list bytes → reply → Prop :=
| ps_rpop l x v : pos_spec (B "rpop") l (x ++ [v]) x (RBulk v)
| ps_rpop_empty l : pos_spec (B "rpop") l [] [] RNull
| ps_lindex a i l x : Atoi a = Some i →
    pos_spec (B "lindex") (a :: l) x x (if i <? 0 then RNull else match x !! Z.to_nat i with Some v => RBulk v | None => RNull end)
| ps_lindex_bad a l x r : Atoi a = None → x ≠ [] → is_error r → pos_spec (B "lindex") (a :: l) x x r
| ps_lindex_bad_empty a l r : Atoi a = None → is_error r ∨ r = RNull → pos_spec (B "lindex") (a :: l) [] [] r
| ps_lrange a b i j l x : Atoi a = Some i → Atoi b = Some j →
    let s := position x i in let e := position x j in 0 ≤ s ≤ e → s < Z.of_nat (length x) →
    pos_spec (B "lrange") (a :: b :: l) x x (RArray (between x s e))
| ps_lrange_empty a b i j l x r : Atoi a = Some i → Atoi b = Some j →
    let s := position x i in let e := position x j in s < 0 ∨ e < s ∨ Z.of_nat (length x) ≤ s → r = RNull ∨ r = RArray [] →
    pos_spec (B "lrange") (a :: b :: l) x x r
| ps_lrange_bad a b l x r : Atoi a = None ∨ Atoi b = None → x ≠ [] → is_error r → pos_spec (B "lrange") (a :: b :: l) x x r
| ps_lrange_bad_empty a b l r : Atoi a = None ∨ Atoi b = None → is_error r ∨ r = RArray [] → pos_spec (B "lrange") (a :: b :: l) [] [] r.
Definition pos_commands : list bytes := [B "rpop"; B "lindex"; B "lrange"].

(** the positions that are found: all of a list of one page, the front half of any list,
    and positions outside *)
Definition found (small_list : bool) (x : list bytes) (i : Z) : Prop :=
  small_list = true ∨ i < Z.of_nat (length x) / 2 ∨ Z.of_nat (length x) ≤ i.
(** the arguments address positions that are found, and a range of at most 2^44 positions *)
Definition addresses (small_list : bool) (name : bytes) (l x : list bytes) : Prop :=
  (name = B "rpop" → small_list = true) ∧
  (name = B "lindex" → ∀ a i, l !! 0%nat = Some a → Atoi a = Some i → found small_list x i) ∧
  (name = B "lrange" → ∀ a b i j, l !! 0%nat = Some a → l !! 1%nat = Some b → Atoi a = Some i → Atoi b = Some j →
     found small_list x (position x i) ∧ position x j - position x i < 2 ^ 44).

Lemma is_num_err E w f a : is_error (num_err E w f a).
Proof. done. Qed.
Lemma between_all x s : between x 0 s = take (Z.to_nat (s + 1)) x.
Proof. unfold between. rewrite Z.sub_0_r. done. Qed.

Lemma positional cf evs y i c name a0 key l now unix rs D x (small_list : bool) :
  let E := env_at cf now unix in let args := a0 :: key :: l in
  name ∈ pos_commands → ready cf evs y i c name args rs D → ¬ expired E D key → list_at D key = Some x →
  (small_list = true → onepage_db D) → addresses small_list name l x →
  ∃ y' D' r, step cf (EvCommand i args now unix rs) y = Ok y' ∧ changed_to y y' c D' ∧ replied y y' i c r ∧
    acts list_at (pos_spec name l) key D D' r.
Proof.
  intros E args Hname H Hex Hh Hsm (Hrp & Hli & Hlr).
  enough (∃ R : list bytes → adb → res outcome → Prop, (name, R) ∈ semTable E ∧ ∀ o, R args D o → ∃ D' r n, o = Ok (Out D' r n) ∧ acts list_at (pos_spec name l) key D D' r)
    as (R & HR & Hx).
  { destruct (data_total cf evs y i c name R args now unix rs D (λ D' r n, acts list_at (pos_spec name l) key D D' r) H)
      as (y' & D' & r & n & H1 & H2 & H3 & _ & H4); [|done|done|by exists y', D', r].
    unfold pos_commands in Hname. rewrite !elem_of_cons, elem_of_nil in Hname. destruct_or! Hname; try subst name; try done; not_special. }
  assert (Hcase : ∃ q, wf q ∧ x = qels q ∧ (a_keys D !! key = None ∧ q = NewQuicklist ∨ a_keys D !! key = Some (AList q) ∧ (small_list = true → onepage q))).
  { unfold list_at in Hh. destruct (a_keys D !! key) as [[]|] eqn:Hk; try done.
    - exists q. injection Hh as <-. split_and!; [|done|right; split; [done|intros Hs; by eapply (Hsm Hs)]]. destruct H. by eapply reaches_list.
    - exists NewQuicklist. injection Hh as <-. split_and!; [apply wf_New|done|by left]. }
  unfold args. destruct Hcase as (q & Hq & -> & Hcase).
  assert (Hlen : q_length q = Z.of_nat (length (qels q))) by (by apply wf_length).
  assert (Hfirst : small_list = true → onepage q → ∀ i, i < Z.of_nat (length (qels q)) → i < first_page (q_pages q)).
  { intros Hs Ho i0 Hi. destruct (onepage_cases q Ho) as [Hp|[p Hp]]; unfold QuicklistProofs.elements in Hi; rewrite Hp in *; simpl in *; [lia|].
    rewrite app_nil_r in Hi. unfold zlen. done. }
  assert (Hfound : ∀ k, (small_list = true → onepage q) → found small_list (qels q) k → k < Z.of_nat (length (qels q)) →
    k < q_length q / 2 ∨ k < first_page (q_pages q)).
  { intros k Hone [Hs|[Hs|Hs]] Hk; [right; by apply Hfirst; auto|left; by rewrite Hlen|lia]. }
  unfold pos_commands in Hname. rewrite !elem_of_cons, elem_of_nil in Hname. destruct Hname as [->|[->|[->|[]]]].
  - exists (sem_pop E PopBack). split; [in_table|]. intros o Ho. unfold sem_pop, fn in Ho. injection Ho as <-.
    unfold on_existing. rewrite (purge_id _ _ _ Hex). destruct Hcase as [[-> ->]|[Hk Hone]].
    + do 3 eexists. split; [reflexivity|]. eapply acts_same; [exact Hh|]. apply ps_rpop_empty.
    + rewrite Hk. cbn [ak_out AKList]. unfold Len. rewrite Hlen. specialize (Hrp eq_refl). specialize (Hone Hrp).
      destruct (onepage_cases q Hone) as [Hp|[p Hp]].
      * assert (qels q = []) as Eq by (unfold QuicklistProofs.elements; by rewrite Hp). rewrite Eq.
        do 3 eexists. split; [reflexivity|]. eapply acts_put; [exact Hh| |apply list_put]. rewrite Eq. apply ps_rpop_empty.
      * destruct (PopBack_one q p Hq Hp) as (q' & v & E1 & Hq' & He). rewrite E1, He, app_length. cbn [length].
        replace (Z.of_nat (length (qels q') + 1) =? 0) with false by lia.
        cbn [mbind res_bind fst snd deref]. do 3 eexists. split; [reflexivity|]. eapply acts_put; [exact Hh| |apply list_put]. rewrite He. apply ps_rpop.
  - exists (sem_lindex E). split; [in_table|]. intros o Ho. unfold sem_lindex, fn in Ho. destruct l as [|a l]; [done|]. injection Ho as <-.
    unfold on_existing. rewrite (purge_id _ _ _ Hex). destruct Hcase as [[-> ->]|[Hk Hone]].
    + do 3 eexists. split; [reflexivity|]. eapply acts_same; [exact Hh|]. destruct (Atoi a) as [k|] eqn:Ea.
      * pose proof (ps_lindex a k l (qels NewQuicklist) Ea) as HP. destruct (k <? 0); [done|]. exact HP.
      * apply (ps_lindex_bad_empty a l RNull Ea). by right.
    + rewrite Hk. cbn [ak_out AKList]. unfold reading. destruct (Atoi a) as [k|] eqn:Ea.
      * pose proof (ps_lindex a k l (qels q) Ea) as HP.
        assert (QGet q k = Ok (if k <? 0 then None else qels q !! Z.to_nat k)) as ->.
        { destruct (Z.ltb_spec k 0); [rewrite Get_out by lia; done|].
          destruct (decide (q_length q ≤ k)); [rewrite Get_out by lia; rewrite lookup_ge_None_2 by lia; done|].
          apply Get_good; [done|lia|]. apply Hfound; [done|by eapply Hli|lia]. }
        cbn [mbind res_bind]. do 3 eexists. split; [reflexivity|]. eapply acts_put; [exact Hh| |apply list_put]. by destruct (k <? 0).
      * cbn [mbind res_bind]. do 3 eexists. split; [reflexivity|]. eapply acts_put; [exact Hh| |apply list_put].
        destruct (qels q) as [|v x]; [apply (ps_lindex_bad_empty a l _ Ea); by left|by apply (ps_lindex_bad a l _ _ Ea)].
  - exists (sem_lrange E). split; [in_table|]. intros o Ho. unfold sem_lrange, fn in Ho. destruct l as [|a [|b l]]; try done. injection Ho as <-.
    unfold on_existing. rewrite (purge_id _ _ _ Hex). destruct Hcase as [[-> ->]|[Hk Hone]].
    + do 3 eexists. split; [reflexivity|]. eapply acts_same; [exact Hh|].
      destruct (Atoi a) as [k|] eqn:Ea; [|apply ps_lrange_bad_empty; [by left|by right]].
      destruct (Atoi b) as [k2|] eqn:Eb; [|apply ps_lrange_bad_empty; [by right|by right]].
      apply (ps_lrange_empty a b k k2 l _ _ Ea Eb); [|by right]. unfold position. simpl. destruct (k <? 0) eqn:E0; lia.
    + rewrite Hk. cbn [ak_out AKList]. unfold reading.
      assert (Hbad : Atoi a = None ∨ Atoi b = None → ∀ r, is_error r → pos_spec (B "lrange") (a :: b :: l) (qels q) (qels q) r).
      { intros Hb r Hr. destruct (qels q) as [|v x]; [apply ps_lrange_bad_empty; [done|by left]|by apply ps_lrange_bad]. }
      destruct (Atoi a) as [k|] eqn:Ea.
      2:{ cbn [mbind res_bind]. do 3 eexists. split; [reflexivity|]. eapply acts_put; [exact Hh| |apply list_put]. apply Hbad; [by left|done]. }
      destruct (Atoi b) as [k2|] eqn:Eb.
      2:{ cbn [mbind res_bind]. do 3 eexists. split; [reflexivity|]. eapply acts_put; [exact Hh| |apply list_put]. apply Hbad; [by right|done]. }
      destruct (Hlr eq_refl a b k k2 eq_refl eq_refl Ea Eb) as [Hf Hm].
      assert (Hn : ∀ k, norm (q_length q) k = position (qels q) k) by (intros k'; unfold norm, position; by rewrite Hlen).
      destruct (decide (position (qels q) k < 0 ∨ position (qels q) k2 < position (qels q) k ∨ Z.of_nat (length (qels q)) ≤ position (qels q) k)) as [Ho|Hi].
      * rewrite (Range_empty q k k2 Hq) by (rewrite !Hn; lia). cbn [mbind res_bind]. do 3 eexists. split; [reflexivity|].
        eapply acts_put; [exact Hh| |apply list_put]. by apply (ps_lrange_empty a b k k2); [..|left].
      * rewrite (Range_good q k k2 Hq); rewrite ?Hn; [|lia|lia|apply Hfound; [done|done|lia]|lia].
        cbn [mbind res_bind]. do 3 eexists. split; [reflexivity|].
        eapply acts_put; [exact Hh| |apply list_put]. apply (ps_lrange a b k k2); [done|done|lia|lia].
Qed.

(** In a history in which no push makes a list longer than 1024 elements, the commands
    act on sequences.  Missing from the full property: longer lists (see
    [C48_front_partial] and the refutations), ranges of 2^44 positions and more. *)
Theorem C48_short_partial cf evs y i c name a0 key l now unix rs D x :
  let E := env_at cf now unix in let args := a0 :: key :: l in
  name ∈ pos_commands → short_lists cf evs →
  ready cf evs y i c name args rs D → ¬ expired E D key → list_at D key = Some x → addresses true name l x →
  ∃ y' D' r, step cf (EvCommand i args now unix rs) y = Ok y' ∧ changed_to y y' c D' ∧ replied y y' i c r ∧
    acts list_at (pos_spec name l) key D D' r.
Proof.
  intros E args Hn Hs H Hex Hat Ha. apply (positional cf evs y i c name a0 key l now unix rs D x true); try done.
  intros _. destruct H as [Hr _ _ _ HD]. pose proof (short_onepage cf evs y Hr Hs) as HF. by eapply (Forall_lookup_1 _ _ _ _ HF).
Qed.
Print Assumptions C48_short_partial.
(** In any history, LINDEX and LRANGE do so for positions in the front half and outside. *)
Theorem C48_front_partial cf evs y i c name a0 key l now unix rs D x :
  let E := env_at cf now unix in let args := a0 :: key :: l in
  name ∈ pos_commands → ready cf evs y i c name args rs D → ¬ expired E D key → list_at D key = Some x → addresses false name l x →
  ∃ y' D' r, step cf (EvCommand i args now unix rs) y = Ok y' ∧ changed_to y y' c D' ∧ replied y y' i c r ∧
    acts list_at (pos_spec name l) key D D' r.
Proof. intros E args Hn H Hex Hat Ha. by apply (positional cf evs y i c name a0 key l now unix rs D x false). Qed.
Print Assumptions C48_front_partial.

(** ** Lists of more than 1024 elements *)
Lemma long_pages (q : quicklist bytes) : wf q → (1024 < length (qels q))%nat → (1 < length (q_pages q))%nat.
Proof.
  intros [_ Hok] Hl. destruct (decide (1 < length (q_pages q))%nat) as [|Hn]; [done|]. exfalso.
  destruct (onepage_cases q ltac:(unfold onepage; lia)) as [Hp|[p Hp]]; unfold QuicklistProofs.elements in Hl; rewrite Hp in *; simpl in Hl; [lia|].
  apply Forall_cons in Hok as [[_ Hz] _]. rewrite app_nil_r in Hl. unfold zlen, pageSize in Hz. lia.
Qed.
(** the back of a long list, from position 1024 on *)
Lemma get_back (q : quicklist bytes) k : wf q → 1024 ≤ k → q_length q / 2 ≤ k < q_length q → QGet q k = Panic.
Proof.
  intros Hq Hk Hi. pose proof Hq as [Hlen Hok].
  destruct (get_wf q k Hq) as (j & p & off & Hg & Ha); [lia|]. pose proof Ha as (Hp & _).
  assert (Hpl : zlen p ≤ 1024) by (destruct (pages_ok_lookup _ _ _ Hok Hp); done).
  assert (off = k) as ->.
  { assert (Hf : first_page (q_pages q) ≤ k).
    { destruct (q_pages q) as [|p0 ps]; simpl; [lia|]. destruct (pages_ok_lookup (p0 :: ps) 0 p0 Hok eq_refl). unfold pageSize in *. lia. }
    destruct (at_page_bad _ 0 k j p off Hok) as (_ & -> & _); try done. rewrite Z.add_0_l, <-(wf_zlen q Hq). lia. }
  pose proof (Get_at q k j p k Hg Hp) as HG. destruct (Z.ltb_spec k (zlen p)); [lia|]. apply HG. lia.
Qed.
(** a command that ends the server *)
Lemma data_panic cf evs y i c name (R : list bytes → adb → res outcome → Prop) args now unix rs D :
  let E := env_at cf now unix in
  ready cf evs y i c name args rs D → ¬ special name → (name, R) ∈ semTable E → (∀ o, R args D o → o = Panic) →
  step cf (EvCommand i args now unix rs) y = Panic.
Proof.
  intros E H Hsp HR Hf. destruct H as [Hr Hc Hok Hruns HD].
  destruct (data_did cf evs y i c args now unix rs name Hr Hc Hok Hruns Hsp) as (D0 & ro & HD0 & Hs & HT).
  fold E in Hs, HT. rewrite HD in HD0. injection HD0 as <-. pose proof (sem_inv _ _ _ _ _ _ HR Hs) as Ho.
  by apply Hf in Ho as ->.
Qed.
Lemma live_list cf evs y i c name args rs D E key x : ready cf evs y i c name args rs D → ¬ expired E D key → list_at D key = Some x → x ≠ [] →
  ∃ q, wf q ∧ x = qels q ∧ a_keys (purge E key D) !! key = Some (AList q).
Proof.
  intros H Hex Hh Hx. unfold list_at in Hh. rewrite (purge_id _ _ _ Hex). destruct (a_keys D !! key) as [[]|] eqn:Hk; try done; [|by injection Hh as <-].
  exists q. injection Hh as <-. split_and!; [|done|done]. destruct H. by eapply reaches_list.
Qed.
(** RPOP on a list of more than 1024 elements ends the server, in every state *)
Theorem C48_rpop_crash cf evs y i c args now unix rs D key x :
  let E := env_at cf now unix in
  ready cf evs y i c (B "rpop") args rs D → args !! 1%nat = Some key → ¬ expired E D key → list_at D key = Some x →
  (1024 < length x)%nat → step cf (EvCommand i args now unix rs) y = Panic.
Proof.
  intros E H Ha Hex Hat Hl.
  destruct (live_list _ _ _ _ _ _ _ _ _ E key x H Hex Hat ltac:(by intros ->; simpl in Hl; lia)) as (q & Hq & -> & Hk).
  eapply (data_panic cf evs y i c (B "rpop") (sem_pop E PopBack)); [done|not_special|in_table|]. intros o Ho. unfold sem_pop, fn in Ho.
  destruct args as [|? [|? ?]]; try done. injection Ha as ->. injection Ho as <-. unfold on_existing. cbn zeta. rewrite Hk. cbn [ak_out AKList].
  unfold Len. rewrite (wf_length q Hq). replace (Z.of_nat (length (qels q)) =? 0) with false by lia.
  rewrite (PopBack_many q Hq); [done|]. by apply long_pages.
Qed.
Print Assumptions C48_rpop_crash.
(** so does LINDEX for a position from 1024 on that lies in the back half *)
Theorem C48_lindex_crash cf evs y i c args now unix rs D key x a k :
  let E := env_at cf now unix in
  ready cf evs y i c (B "lindex") args rs D → args !! 1%nat = Some key → args !! 2%nat = Some a → Atoi a = Some k →
  ¬ expired E D key → list_at D key = Some x →
  1024 ≤ k → Z.of_nat (length x) / 2 ≤ k < Z.of_nat (length x) → step cf (EvCommand i args now unix rs) y = Panic.
Proof.
  intros E H Ha Hb Hk' Hex Hat Hk Hi.
  destruct (live_list _ _ _ _ _ _ _ _ _ E key x H Hex Hat ltac:(by intros ->; simpl in Hi; lia)) as (q & Hq & -> & Hkey).
  eapply (data_panic cf evs y i c (B "lindex") (sem_lindex E)); [done|not_special|in_table|]. intros o Ho. unfold sem_lindex, fn in Ho.
  destruct args as [|? [|? [|? ?]]]; try done. injection Ha as ->. injection Hb as ->. injection Ho as <-. unfold on_existing. cbn zeta. rewrite Hkey. cbn [ak_out AKList].
  unfold reading. rewrite Hk'. rewrite (get_back q k Hq Hk); [done|]. by rewrite (wf_length q Hq).
Qed.
Print Assumptions C48_lindex_crash.
(** and LRANGE with a stop 2^44 or more beyond the start *)
Theorem C48_lrange_crash cf evs y i c args now unix rs D key x a b k k2 :
  let E := env_at cf now unix in
  ready cf evs y i c (B "lrange") args rs D → args !! 1%nat = Some key → args !! 2%nat = Some a → args !! 3%nat = Some b →
  Atoi a = Some k → Atoi b = Some k2 → ¬ expired E D key → list_at D key = Some x →
  0 ≤ k < Z.of_nat (length x) → 2 ^ 44 ≤ k2 - k → step cf (EvCommand i args now unix rs) y = Panic.
Proof.
  intros E H Ha Hb1 Hb2 Hk1 Hk2 Hex Hat Hi Hj.
  destruct (live_list _ _ _ _ _ _ _ _ _ E key x H Hex Hat ltac:(by intros ->; simpl in Hi; lia)) as (q & Hq & -> & Hkey).
  pose proof (Atoi_int64 _ _ Hk2) as Hb.
  eapply (data_panic cf evs y i c (B "lrange") (sem_lrange E)); [done|not_special|in_table|]. intros o Ho. unfold sem_lrange, fn in Ho.
  destruct args as [|? [|? [|? [|? ?]]]]; try done. injection Ha as ->. injection Hb1 as ->. injection Hb2 as ->. injection Ho as <-.
  unfold on_existing. cbn zeta. rewrite Hkey. cbn [ak_out AKList].
  unfold reading. rewrite Hk1, Hk2. rewrite (Range_huge q k k2 Hq); [done|..]; unfold norm.
  - destruct (Z.ltb_spec k 0); [lia|]. destruct (Z.ltb_spec k2 0); lia.
  - destruct (Z.ltb_spec k 0); [lia|]. rewrite (wf_length q Hq). lia.
  - destruct (Z.ltb_spec k 0); [lia|]. destruct (Z.ltb_spec k2 0); lia.
  - destruct (Z.ltb_spec k2 0); lia.
Qed.
Print Assumptions C48_lrange_crash.

(** ** Instances *)
Definition onepage_check (q : quicklist bytes) : bool := (length (q_pages q) <=? 1)%nat.
Lemma onepage_check_ok q : onepage_check q = true → onepage q.
Proof. unfold onepage_check, onepage. intros H. by apply Nat.leb_le. Qed.
Definition fits_check (cf : config) (y : sys) (e : event) : bool :=
  match e with
  | EvCommand i (a :: key :: l) _ _ _ =>
      match y_cls y !! i with
      | Some c => match list_at (default empty_db (abs_dbs (y_srv y) !! c_db c)) key with Some x => (length x + length l <=? 1024)%nat | None => true end
      | None => true
      end
  | EvBoot _ _ _ => loaded_check cf e y (λ v, match v with AList q => onepage_check q | _ => true end)
  | _ => true
  end.
Fixpoint short_check (cf : config) (evs : list event) (y : sys) : bool :=
  match evs with
  | [] => true
  | e :: evs => fits_check cf y e && match step cf e y with Ok y' => short_check cf evs y' | _ => true end
  end.
Lemma short_check_ok cf evs : short_check cf evs (init_sys cf) = true → short_lists cf evs.
Proof.
  unfold short_lists. generalize (init_sys cf). induction evs as [|e evs IH]; intros y H; [done|]. cbn [short_check along] in *.
  apply andb_true_iff in H as [H1 H2]. split; [|intros y' Hy; rewrite Hy in H2; by apply IH].
  destruct e as [|i [|a [|key l]] now unix rs| | | | | |file clock rs]; try done.
  2:{ intros y' HS. eapply Forall_impl; [by eapply loaded_check_ok|]. intros D HD k q Hk. apply HD in Hk. by apply onepage_check_ok. }
  unfold fits, fits_check in *. intros c D x Hc HD Hx _. rewrite Hc, HD in H1. simpl in H1. rewrite Hx in H1.
  apply Nat.leb_le in H1. lia.
Qed.
Definition h_lists : list event := [EvConnect; cmd 0 5 "RPUSH l a b c d"; cmd 0 6 "LPUSH l z"; cmd 0 7 "RPOP l"].
Notation y_lists := (state_of cf0 h_lists).
Example C48_example : let D := db_of y_lists 0 in
  ready cf0 h_lists y_lists 0 (who y_lists 0) (B "lrange") (words "LRANGE l 1 -2") [] D ∧ short_lists cf0 h_lists ∧
  ¬ expired (env_at cf0 11 0) D (B "l") ∧ list_at D (B "l") = Some (words "z a b c") ∧
  addresses true (B "lrange") (words "1 -2") (words "z a b c").
Proof.
  intros D. split; [apply ready_at; by vm_compute|]. split; [apply short_check_ok; by vm_compute|]. split; [by_compute|].
  split; [by_compute|]. split; [done|]. split; [done|]. intros _ a b i j Ha Hb Hi Hj. split; [by left|].
  assert (H1 : Atoi <$> (words "1 -2" !! 0%nat) = Some (Some 1)) by by_compute.
  assert (H2 : Atoi <$> (words "1 -2" !! 1%nat) = Some (Some (-2))) by by_compute.
  rewrite Ha in H1. rewrite Hb in H2. cbn in H1, H2. rewrite Hi in H1. rewrite Hj in H2. injection H1 as ->. injection H2 as ->. by vm_compute.
Qed.
Example C48_replies :
  let go e r := step cf0 e y_lists = Ok (next cf0 e y_lists) ∧ replied y_lists (next cf0 e y_lists) 0 (who y_lists 0) r in
  go (cmd 0 11 "LRANGE l 1 -2") (RArray (words "a b")) ∧ go (cmd 0 11 "LRANGE l 3 9") (RArray (words "c")) ∧
  go (cmd 0 11 "LRANGE l 2 1") RNull ∧ go (cmd 0 11 "LRANGE no 0 1") (RArray []) ∧
  go (cmd 0 11 "LINDEX l 3") (RBulk (B "c")) ∧ go (cmd 0 11 "LINDEX l -1") RNull ∧
  go (cmd 0 11 "RPOP l") (RBulk (B "c")) ∧ go (cmd 0 11 "RPOP no") RNull.
Proof. intros go. unfold go. split_and!; first [apply next_step; by vm_compute|apply replied_check_ok; by vm_compute]. Qed.

(** ** What is false *)
(** a list of 1025 elements pushed by one command *)
Definition h_long : list event := [EvConnect; EvCommand 0 (words "RPUSH l" ++ replicate 1025 (B "v")) 5 0 []].
Notation y_long := (state_of cf0 h_long).
Theorem C48_rpop_refuted : let D := db_of y_long 0 in
  ready cf0 h_long y_long 0 (who y_long 0) (B "rpop") (words "RPOP l") [] D ∧ ¬ expired (env_at cf0 6 0) D (B "l") ∧
  list_at D (B "l") = Some (replicate 1025 (B "v")) ∧
  step cf0 (EvCommand 0 (words "RPOP l") 6 0 []) y_long = Panic.
Proof.
  intros D. split; [apply ready_at; by vm_compute|]. split; [by_compute|]. split; [by_compute|]. apply panics_step; by vm_compute.
Qed.
Print Assumptions C48_rpop_refuted.
(** LINDEX of the last element, and LRANGE of a short list with a large stop *)
Theorem C48_read_refuted : let D := db_of y_long 0 in let D' := db_of y_lists 0 in
  ready cf0 h_long y_long 0 (who y_long 0) (B "lindex") (words "LINDEX l 1024") [] D ∧
  list_at D (B "l") = Some (replicate 1025 (B "v")) ∧ step cf0 (EvCommand 0 (words "LINDEX l 1024") 6 0 []) y_long = Panic ∧
  ready cf0 h_lists y_lists 0 (who y_lists 0) (B "lrange") (words "LRANGE l 0 9223372036854775806") [] D' ∧
  list_at D' (B "l") = Some (words "z a b c") ∧ step cf0 (EvCommand 0 (words "LRANGE l 0 9223372036854775806") 11 0 []) y_lists = Panic.
Proof.
  intros D D'. split; [apply ready_at; by vm_compute|]. split; [by_compute|]. split; [apply panics_step; by vm_compute|].
  split; [apply ready_at; by vm_compute|]. split; [by_compute|apply panics_step; by vm_compute].
Qed.
Print Assumptions C48_read_refuted.
(** A wrong element, without any crash: the pages have 513 and 1024 elements; the search
    for position 800 starts at the back and takes the position in the list for the
    position in the second page. *)
Definition h_shift : list event :=
  [EvConnect; EvCommand 0 (words "LPUSH l" ++ replicate 1025 (B "u")) 5 0 []; EvCommand 0 (words "RPUSH l" ++ replicate 512 (B "v")) 5 0 []].
Notation y_shift := (state_of cf0 h_shift).
Theorem C48_lindex_refuted : let D := db_of y_shift 0 in let x := replicate 1025 (B "u") ++ replicate 512 (B "v") in
  let e := EvCommand 0 (words "LINDEX l 800") 6 0 [] in
  ready cf0 h_shift y_shift 0 (who y_shift 0) (B "lindex") (words "LINDEX l 800") [] D ∧ ¬ expired (env_at cf0 6 0) D (B "l") ∧
  list_at D (B "l") = Some x ∧ x !! 800%nat = Some (B "u") ∧
  step cf0 e y_shift = Ok (next cf0 e y_shift) ∧ replied y_shift (next cf0 e y_shift) 0 (who y_shift 0) (RBulk (B "v")).
Proof.
  intros D x e. split; [apply ready_at; by vm_compute|]. split; [by_compute|]. split; [by_compute|]. split; [by_compute|].
  split; [apply next_step; by vm_compute|apply replied_check_ok; by vm_compute].
Qed.
Print Assumptions C48_lindex_refuted.
