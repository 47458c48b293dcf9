(** What ZRANGE and ZRANGEBYSCORE find wrong when they panic: an element the list of
    the sorted set leads to whose member its dictionary does not have, or a range of
    2^45 ranks. *)
From Verif Require Import Base Float DictModel Strconv RespSpec SkiplistModel ZsetModel ServerModel CommandSem PropsData TermProofs SolidProofs SolidCmd.
From Coq Require Import ZifyBool ZifyNat.

(** the pointers of some level lead from the head to [x] *)
Definition link (s : skiplist) (x y : nat) : Prop := ∃ i, fwd s i x = Some (Some y).
Definition led (s : skiplist) (x : nat) : Prop := tc (link s) HEAD x.
(** an element of the list that the dictionary [m] does not have *)
Definition ghost (m : gmap bytes float) (s : skiplist) : Prop :=
  ∃ x n, led s x ∧ sl_heap s !! x = Some n ∧ m !! n_member n = None.

Lemma led_step s i x y : rtc (link s) HEAD x → fwd s i x = Some (Some y) → led s y.
Proof. intros Hx Hy. eapply tc_rtc_l; [exact Hx|]. apply tc_once. by exists i. Qed.

Section bad.
  Variable bad : Prop.
  Notation sound := (sound bad).
  Lemma sound_and {A} (P Q : A → Prop) m : sound P m → sound Q m → sound (λ v, P v ∧ Q v) m.
  Proof. by destruct m; simpl. Qed.
  (** [x] is where the search stands: at the head having seen nothing, or at an element *)
  Definition at_ (s : skiplist) (x : nat) (r : Z) : Prop := x = HEAD ∧ r = 0 ∨ led s x.
  Lemma at_rtc s x r : at_ s x r → rtc (link s) HEAD x.
  Proof. intros [[-> _]|H]; [done|by apply tc_rtc]. Qed.
  Lemma walk_led fuel s cond i : linked s → ∀ x rank, has s i x → at_ s x rank → sound (λ r, has s i r.1 ∧ at_ s r.1 r.2) (walk fuel s cond i x rank).
  Proof.
    intros Hl. induction fuel as [|fuel IH]; intros x rank Hx Ha; [done|]. cbn [walk].
    eapply sound_bind; [by apply level_at_sound|]. intros [[y|] sp] Hy; [|done]. cbn [fst snd] in *. pose proof Hy as Hy'. apply Hl in Hy.
    eapply sound_bind; [by eapply node_sound|]. intros n _. destruct (cond rank sp n); [|done]. apply IH; [done|]. right. eapply led_step; [by eapply at_rtc|done].
  Qed.
  (** the first element of a range of ranks *)
  Lemma get_by_rank_led s target n : linked s → 0 < target → ∀ x r, (∀ i, n = S i → has s i x) → at_ s x r →
    sound (λ o, ∀ x, o = Some x → has s 0 x ∧ led s x) (get_by_rank s target n x r).
  Proof.
    intros Hl Hpos. induction n as [|n IH]; intros x r Hx Ha; cbn [get_by_rank]; [done|].
    eapply sound_bind; [by apply walk_led; [done|apply Hx|]|]. intros [z rz] [Hz Hat]. cbn [fst snd] in *.
    destruct (Z.eqb_spec rz target) as [->|Hne].
    - intros z' [= <-]. split; [eapply has_down; [done|lia]|]. destruct Hat as [[_ ->]|?]; [lia|done].
    - apply IH; [|done]. intros i ->. eapply has_down; [done|lia].
  Qed.
  Lemma step_led s x : linked s → has s 0 x → led s x → sound (λ o, ∀ y, o = Some y → has s 0 y ∧ led s y) (SkiplistModel.step s false x).
  Proof.
    intros Hl Hx Ha. pose proof (level_at_sound bad s x 0 Hx) as Hlv. unfold level_at in Hlv. unfold SkiplistModel.step.
    destruct (node s x) as [n| |]; cbn [mbind res_bind] in *; [|done..].
    eapply sound_bind; [exact Hlv|]. intros lv H y Hy. cbn beta in H. rewrite Hy in H. split; [by eapply Hl|]. eapply led_step; [by apply tc_rtc|done].
  Qed.
  Definition good (s : skiplist) (ids : list nat) : Prop := Forall (λ x, has s 0 x ∧ led s x) ids.
  Lemma rank_loop_led fuel s len : linked s → ∀ i x acc, (∀ y, x = Some y → has s 0 y ∧ led s y) → good s acc →
    sound (good s) (rank_loop fuel s false i len x acc).
  Proof.
    intros Hl. induction fuel as [|fuel IH]; intros i x acc Hx Hacc; [done|]. cbn [rank_loop]. destruct x as [x|]; [|done].
    destruct (Hx x eq_refl) as [H1 H2]. destruct (i <? len); [|done]. eapply sound_bind; [by apply step_led|]. intros y Hy. apply IH; [done|].
    apply Forall_app. by split; [|apply Forall_singleton].
  Qed.
  Lemma score_loop_led fuel s mn mx lim : linked s → ∀ i x acc, (∀ y, x = Some y → has s 0 y ∧ led s y) → good s acc →
    sound (good s) (score_loop fuel s mn mx lim false i x acc).
  Proof.
    intros Hl. induction fuel as [|fuel IH]; intros i x acc Hx Hacc; [done|]. cbn [score_loop]. destruct x as [x|]; [|done].
    destruct (Hx x eq_refl) as [H1 H2]. assert (Hacc' : good s (acc ++ [x])) by (apply Forall_app; by split; [|apply Forall_singleton]).
    destruct (_ || _); [|done]. eapply sound_bind; [by apply step_led|]. intros [y|] Hy; [|by apply IH].
    destruct (Hy y eq_refl). eapply sound_bind; [by eapply node_sound|]. intros n _. destruct (_ || _); [done|]. by apply IH.
  Qed.
  Lemma descend_led s cond reset n : linked s → ∀ x rank, (∀ i, n = S i → has s i x) → rtc (link s) HEAD x →
    sound (λ us, ∀ i u, us !! i = Some u → rtc (link s) HEAD u.1) (descend s cond reset n x rank).
  Proof.
    intros Hl. induction n as [|n IH]; intros x rank Hx Hr; cbn [descend]; [done|].
    apply (sound_bind _ (λ r, has s n r.1 ∧ rtc (link s) HEAD r.1)).
    { generalize (fuel_of s) (if reset then 0 else rank). intros fuel. specialize (Hx n eq_refl). revert x Hx Hr.
      induction fuel as [|fuel IHf]; intros x Hx Hr rk; [done|]. cbn [walk].
      eapply sound_bind; [by apply level_at_sound|]. intros [[y|] sp] Hy; [|done]. cbn [fst snd] in *. pose proof Hy as Hy'. apply Hl in Hy.
      eapply sound_bind; [by eapply node_sound|]. intros nd _. destruct (cond _ _ _); [|done]. apply IHf; [done|]. apply tc_rtc. by eapply led_step. }
    intros r [Hr1 Hr2]. eapply sound_bind; [apply IH; [|done]; intros i ->; eapply has_down; [exact Hr1|lia]|]. intros us Hus i u.
    rewrite lookup_app. destruct (us !! i) as [v|] eqn:Ei; [intros [= <-]; by eapply Hus|].
    intros Hi. apply list_lookup_singleton_Some in Hi as [_ <-]. done.
  Qed.
  Lemma GetFirst_led s a b : solid s → sound (λ o, ∀ x, o = Some x → has s 0 x ∧ led s x) (GetFirstInScoreRange s a b).
  Proof.
    intros Hs. pose proof Hs as [H1 H0 H2 H3 H4]. unfold GetFirstInScoreRange. eapply sound_bind; [by apply HasInScoreRange_sound|]. intros [] _; [|done]. cbn [negb].
    eapply sound_bind.
    { apply sound_and; [by apply search_sound|]. apply descend_led; [done| |done]. intros i Hi. apply H3. lia. }
    intros us [[Hlen Hus] Hled].
    destruct (us !! 0%nat) as [u0|] eqn:E0; [|apply lookup_ge_None in E0; lia]. cbn [deref mbind res_bind]. pose proof (Hled _ _ E0) as Hu.
    eapply sound_bind; [by apply level_at_sound, Hus|]. intros [[x|] sp] Hx; [|done]. cbn [fst] in *. pose proof Hx as Hx'. apply H1 in Hx.
    eapply sound_bind; [by eapply node_sound|]. intros n _ z. cbn beta. destruct (fle _ _); [|done]. intros [= <-]. split; [done|by eapply led_step].
  Qed.
  Lemma RangeByScore_led s a b lim : solid s → sound (good s) (RangeByScore s a b lim false).
  Proof.
    intros Hs. unfold RangeByScore. eapply sound_bind; [by apply GetFirst_led|]. intros x Hx. apply score_loop_led; [apply Hs|done|]. by apply Forall_nil_2.
  Qed.
  Lemma RangeByRank_led s a b : solid s → (2 ^ 45 < b - a + 1 ∧ 1 ≤ a → bad) → sound (good s) (RangeByRank s a b false).
  Proof.
    intros Hs Hbad. unfold RangeByRank. destruct (_ || _) eqn:Eg; [by apply Forall_nil_2|].
    eapply sound_bind; [apply get_by_rank_led; [apply Hs|lia| |by left]|].
    { intros i Hi. apply Hs. destruct (so_level _ Hs). lia. }
    intros x Hx. destruct (make_ok (b - a + 1) 8) eqn:Em; cbn [negb]; [|simpl; apply Hbad; unfold make_ok, maxAlloc in Em; lia].
    apply rank_loop_led; [apply Hs|done|]. by apply Forall_nil_2.
  Qed.
End bad.
(** the reply panics only at such an element *)
Lemma zelems_led bad m s ids : good s ids → sound bad (λ es, None ∈ es → ghost m s) (zelems m s ids).
Proof.
  induction 1 as [|x ids [Hx Hl] _ IH]; cbn [zelems]; [by intros []%elem_of_nil|].
  eapply sound_bind; [by eapply node_sound|]. intros n Hn. cbn beta in Hn. eapply sound_bind; [exact IH|]. intros es Hes.
  intros [Hz|Hz]%elem_of_cons; [|by apply Hes]. exists x, n. split; [done|]. split; [done|]. by destruct (m !! n_member n).
Qed.
Lemma zarray_panic E ws es : zarray E ws es = Panic → None ∈ es.
Proof.
  induction es as [|[[m sc]|] es IH]; cbn [zarray]; [done| |by left]. intros H. right. apply IH. by destruct (zarray E ws es).
Qed.
Lemma zreply_panic E args es : zreply E args es = Panic → None ∈ es.
Proof.
  unfold zreply. destruct (args !! 4%nat) as [a|]; [destruct (lib_withscores _ _); [|done]|]; intros H; eapply zarray_panic.
  - by destruct (zarray E true es) eqn:E1.
  - by destruct (zarray E false es) eqn:E1.
Qed.
Lemma zrange_panic E args m s i j : solid s → in_int64 i → in_int64 j →
  (es ← zrange (m, s) i j; zreply E args es) = Panic → ghost m s ∨ 2 ^ 45 ≤ j.
Proof.
  intros Hs Hi Hj H. unfold zrange in H. cbn [fst snd] in H.
  assert (Hx : sound (2 ^ 45 ≤ j) (λ es, None ∈ es → ghost m s)
    (ids ← RangeByRank s (wrap64 (i + 1)) (wrap64 (last_rank (MkZset NewDict s) j + 1)) false; zelems m s ids)).
  { eapply sound_bind; [apply RangeByRank_led; [done|]|intros ids Hids; by apply zelems_led].
    intros [Hlen Ha]. unfold last_rank in Hlen. destruct (Z.eqb_spec j maxInt64) as [->|Hne]; [done|].
    assert (Hw : wrap64 (j + 1) = j + 1) by (apply wrap64_id; unfold in_int64, minInt64, maxInt64 in *; lia). rewrite Hw in Hlen. lia. }
  destruct (ids ← RangeByRank _ _ _ _; zelems _ _ ids) as [es| |]; cbn [mbind res_bind] in *; [|by right|done].
  left. apply Hx. by eapply zreply_panic.
Qed.
Lemma zrangebyscore_panic E args m s mn mx : solid s → (es ← zrangebyscore (m, s) mn mx; zreply E args es) = Panic → ghost m s.
Proof.
  intros Hs H. unfold zrangebyscore in H. cbn [fst snd] in H.
  assert (Hx : sound False (λ es, None ∈ es → ghost m s) (ids ← RangeByScore s mn mx (-1) false; zelems m s ids)).
  { eapply sound_bind; [by apply RangeByScore_led|intros ids Hids; by apply zelems_led]. }
  destruct (ids ← RangeByScore _ _ _ _ _; zelems _ _ ids) as [es| |]; cbn [mbind res_bind] in *; [|done..].
  apply Hx. by eapply zreply_panic.
Qed.
