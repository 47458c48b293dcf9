(** Removing members never panics, and adding one only does when the random level
    overflows, however damaged the sorted set is: the pointers of one level only lead
    to nodes that have that level. *)
From Verif Require Import Base Float SkiplistModel ZsetModel TermProofs.
From Coq Require Import ZifyBool ZifyNat.

(** the result satisfies [P], and a panic means [bad] *)
Definition sound {A} (bad : Prop) (P : A → Prop) (m : res A) : Prop :=
  match m with Ok v => P v | Panic => bad | OutOfFuel => True end.
Lemma sound_bind {A C} (bad : Prop) (P : A → Prop) (Q : C → Prop) (m : res A) (k : A → res C) :
  sound bad P m → (∀ v, P v → sound bad Q (k v)) → sound bad Q (m ≫= k).
Proof. destruct m; simpl; auto. Qed.
Lemma sound_mono {A} (bad bad' : Prop) (P Q : A → Prop) (m : res A) :
  sound bad P m → (bad → bad') → (∀ v, P v → Q v) → sound bad' Q m.
Proof. destruct m; simpl; auto. Qed.

(** node [x] has level [i] *)
Definition has (s : skiplist) (i x : nat) : Prop := is_Some (fwd s i x).
Definition linked (s : skiplist) : Prop := ∀ i x y, fwd s i x = Some (Some y) → has s i y.
(** backward pointers and the tail lead to nodes *)
Definition backed (s : skiplist) : Prop :=
  (∀ x n b, sl_heap s !! x = Some n → n_back n = Some b → has s 0 b) ∧ (∀ t, sl_tail s = Some t → has s 0 t).
Record solid (s : skiplist) : Prop := {
  so_linked : linked s;
  so_backed : backed s;
  so_fresh : ∀ i x, has s i x → (x < sl_next s)%nat;
  so_head : ∀ i, has s i HEAD ↔ (i < maxLevel)%nat;
  so_level : (1 ≤ sl_level s ≤ maxLevel)%nat;
}.
(** the same nodes with the same levels *)
Record keeps (s s' : skiplist) : Prop := {
  ke_linked : linked s';
  ke_backed : backed s → backed s';
  ke_has : ∀ i x, has s' i x ↔ has s i x;
  ke_next : sl_next s' = sl_next s;
  ke_level : sl_level s' = sl_level s;
}.
Lemma keeps_refl s : linked s → keeps s s.
Proof. by split. Qed.
Lemma keeps_trans s s1 s2 : keeps s s1 → keeps s1 s2 → keeps s s2.
Proof. intros [A1 A0 A2 A3 A4] [B1 B0 B2 B3 B4]. split; [done|by auto| |congruence|congruence]. intros i x. by rewrite B2. Qed.

Lemma has_down s i j x : has s i x → (j ≤ i)%nat → has s j x.
Proof.
  unfold has, fwd. destruct (sl_heap s !! x) as [n|]; [|by intros [? ?]].
  rewrite !fmap_is_Some. intros H Hle. apply lookup_lt_is_Some in H. apply lookup_lt_is_Some. lia.
Qed.
Lemma fwd_heap s s' : sl_heap s' = sl_heap s → ∀ i x, fwd s' i x = fwd s i x.
Proof. unfold fwd. intros ->. done. Qed.

Section bad.
  Variable bad : Prop.
  Notation sound := (sound bad).
  Lemma level_at_sound s x i : has s i x → sound (λ lv, fwd s i x = Some lv.1) (level_at s x i).
  Proof.
    unfold has, fwd, level_at, node. destruct (sl_heap s !! x) as [n|]; [|by intros [? ?]]. intros [o H]. cbn [deref mbind res_bind].
    unfold level_of. by destruct (n_levels n !! i).
  Qed.
  Lemma node_sound s x i : has s i x → sound (λ n, sl_heap s !! x = Some n) (node s x).
  Proof. unfold has, fwd, node. destruct (sl_heap s !! x) as [n|]; [|by intros [? ?]]. done. Qed.
  Lemma set_level_sound s x i lv : linked s → has s i x → (∀ y, lv.1 = Some y → has s i y) → sound (keeps s) (set_level s x i lv).
  Proof.
    intros Hl Hx Hy. pose proof Hx as [o Ho]. unfold has, fwd in Ho. unfold set_level, node. destruct (sl_heap s !! x) as [n|] eqn:En; [|done].
    cbn [deref mbind res_bind]. unfold level_of. destruct (n_levels n !! i) as [lv0|] eqn:Ei; [|done]. cbn [deref mbind res_bind].
    set (n' := MkNode (n_member n) (n_score n) (n_back n) (<[i := lv]> (n_levels n))).
    assert (Hf : ∀ j z, fwd (with_heap s (<[x := n']> (sl_heap s))) j z = if decide (z = x ∧ j = i) then Some lv.1 else fwd s j z).
    { intros j z. unfold fwd. simpl. destruct (decide (z = x)) as [->|Hz].
      - rewrite lookup_insert, En. simpl. destruct (decide (j = i)) as [->|Hj].
        + rewrite decide_True by done. rewrite list_lookup_insert; [done|]. by eapply lookup_lt_Some.
        + rewrite decide_False by tauto. by rewrite list_lookup_insert_ne.
      - rewrite lookup_insert_ne by done. rewrite decide_False by tauto. done. }
    assert (Hh : ∀ j z, has (with_heap s (<[x := n']> (sl_heap s))) j z ↔ has s j z).
    { intros j z. unfold has at 1. rewrite Hf. case_decide as H; [|done]. destruct H as [-> ->]. split; [done|]. intros _. by eexists. }
    split; [| |done..].
    - intros j z y. rewrite Hf, Hh. case_decide as H; [|apply Hl]. destruct H as [-> ->]. intros [= H]. by apply Hy.
    - intros [B1 B2]. split; [|intros t Ht; by apply Hh, B2]. intros z nz b Hz Hb. apply Hh. simpl in Hz.
      destruct (decide (z = x)) as [->|Hne]; [|rewrite lookup_insert_ne in Hz by done; by eapply B1].
      rewrite lookup_insert in Hz. injection Hz as <-. by eapply (B1 x n).
  Qed.
  Lemma set_back_sound s x i b : linked s → has s i x → (backed s → ∀ y, b = Some y → has s 0 y) → sound (keeps s) (set_back s x b).
  Proof.
    intros Hl [o Ho] Hb. unfold fwd in Ho. unfold set_back, node. destruct (sl_heap s !! x) as [n|] eqn:En; [|done]. cbn [deref mbind res_bind].
    set (n' := MkNode _ _ _ _).
    assert (Hf : ∀ j z, fwd (with_heap s (<[x := n']> (sl_heap s))) j z = fwd s j z).
    { intros j z. unfold fwd. simpl. destruct (decide (z = x)) as [->|Hz]; [by rewrite lookup_insert, En|by rewrite lookup_insert_ne]. }
    assert (Hh : ∀ j z, has (with_heap s (<[x := n']> (sl_heap s))) j z ↔ has s j z) by (intros; unfold has; by rewrite Hf).
    split; [| |done..].
    - intros j z y. unfold has. rewrite !Hf. apply Hl.
    - intros Hbk. pose proof Hbk as [B1 B2]. split; [|intros t Ht; by apply Hh, B2]. intros z nz b' Hz Hb'. apply Hh. simpl in Hz.
      destruct (decide (z = x)) as [->|Hne]; [|rewrite lookup_insert_ne in Hz by done; by eapply B1].
      rewrite lookup_insert in Hz. injection Hz as <-. by eapply Hb.
  Qed.

  (** ** Searches *)
  Lemma walk_sound fuel s cond i : linked s → ∀ x rank, has s i x → sound (λ r, has s i r.1) (walk fuel s cond i x rank).
  Proof.
    intros Hl. induction fuel as [|fuel IH]; intros x rank Hx; [done|]. cbn [walk].
    eapply sound_bind; [by apply level_at_sound|]. intros [[y|] sp] Hy; [|done]. cbn [fst snd] in *. apply Hl in Hy.
    eapply sound_bind; [by eapply node_sound|]. intros n _. destruct (cond rank sp n); [by apply IH|done].
  Qed.
  Definition updates (s : skiplist) (us : list (nat * Z)) : Prop := ∀ i u, us !! i = Some u → has s i u.1.
  Lemma descend_sound s cond reset n : linked s → ∀ x rank, (∀ i, n = S i → has s i x) →
    sound (λ us, length us = n ∧ updates s us) (descend s cond reset n x rank).
  Proof.
    intros Hl. induction n as [|n IH]; intros x rank Hx; cbn [descend]; [by split|].
    eapply sound_bind; [by apply walk_sound, Hx|]. intros r Hr. cbn beta in Hr.
    eapply sound_bind; [apply IH; intros i ->; eapply has_down; [exact Hr|lia]|]. intros us [Hlen Hus]. split; [rewrite app_length; simpl; lia|].
    intros i u. rewrite lookup_app. destruct (us !! i) as [v|] eqn:Ei; [intros [= <-]; by apply Hus|].
    apply lookup_ge_None in Ei. intros Hi. apply list_lookup_singleton_Some in Hi as [Hi <-]. by replace i with n by lia.
  Qed.
  Lemma search_sound s cond reset : solid s → sound (λ us, length us = sl_level s ∧ updates s us) (search s cond reset).
  Proof. intros [H1 H0 H2 H3 H4]. apply descend_sound; [done|]. intros i Hi. apply H3. lia. Qed.

  (** ** Loops over the levels *)
  Lemma for_levels_sound (I : skiplist → Prop) body is : (∀ s i, i ∈ is → I s → sound I (body s i)) → ∀ s, I s → sound I (for_levels is body s).
  Proof.
    induction is as [|i is IH]; intros Hb s Hs; cbn [for_levels]; [done|].
    eapply sound_bind; [apply Hb; [by left|done]|]. intros s1 H1. apply IH; [|done]. intros s2 j Hj. apply Hb. by right.
  Qed.
  Lemma lower_level_sound s n : (∀ i, has s i HEAD ↔ (i < maxLevel)%nat) → (1 ≤ n ≤ maxLevel)%nat →
    sound (λ l, 1 ≤ l ≤ n)%nat (lower_level n s).
  Proof.
    intros Hh. induction n as [|n IH]; intros Hn; [lia|]. cbn [lower_level]. destruct n as [|n]; [simpl; lia|].
    eapply sound_bind; [apply level_at_sound, Hh; lia|]. intros [[y|] sp] _; cbn [fst]; [simpl; lia|].
    eapply sound_mono; [apply IH; lia|done|]. cbn. lia.
  Qed.

  (** [s] with fewer levels in use *)
  Record reduces (s s' : skiplist) : Prop := {
    re_solid : solid s';
    re_has : ∀ i x, has s' i x ↔ has s i x;
    re_level : (sl_level s' ≤ sl_level s)%nat;
  }.
  Lemma deleteNode_sound s x us : solid s → has s 0 x → (sl_level s ≤ length us)%nat → (∀ i u, us !! i = Some u → has s i u) →
    sound (reduces s) (deleteNode s x us).
  Proof.
    intros Hs Hx Hlen Hus. pose proof Hs as [H1 H0 H2 H3 H4]. unfold deleteNode.
    eapply sound_bind; [apply (for_levels_sound (keeps s)); [|by apply keeps_refl]|].
    { intros s1 i Hi K. apply elem_of_seq in Hi. pose proof K as [K1 K0 K2 K3 K4].
      assert (is_Some (us !! i)) as [u Hu] by (apply lookup_lt_is_Some; lia). rewrite Hu. cbn [deref mbind res_bind]. specialize (Hus _ _ Hu).
      assert (Hu1 : has s1 i u) by (by apply K2).
      eapply sound_bind; [by apply level_at_sound|]. intros ul Hul. cbn beta in Hul.
      assert (Hk : ∀ o z, (∀ y, o = Some y → has s1 i y) → sound (keeps s) (set_level s1 u i (o, z))).
      { intros o z Ho. eapply sound_mono; [by apply set_level_sound|done|]. intros s2 K'. by eapply keeps_trans. }
      case_decide as Hd.
      - rewrite Hd in Hul. pose proof (K1 _ _ _ Hul) as Hxi. eapply sound_bind; [by apply level_at_sound|]. intros xl Hxl. cbn beta in Hxl.
        apply Hk. intros y Hy. rewrite Hy in Hxl. by eapply K1.
      - apply Hk. intros y Hy. rewrite Hy in Hul. by eapply K1. }
    intros s1 K. pose proof K as [K1 K0 K2 K3 K4]. assert (Hx1 : has s1 0 x) by (by apply K2).
    eapply sound_bind; [by apply level_at_sound|]. intros xl Hxl. cbn beta in Hxl. eapply sound_bind; [by eapply node_sound|]. intros nx Hnx. cbn beta in Hnx.
    apply (sound_bind _ (keeps s)).
    { destruct xl.1 as [f|].
      - pose proof (K1 _ _ _ Hxl) as Hf. eapply sound_mono; [eapply set_back_sound; [done|exact Hf|]|done|intros; by eapply keeps_trans].
        intros [B1 _] y Hy. by eapply B1.
      - split; try done. intros Hb. apply K0 in Hb as [B1 B2]. split; [exact B1|]. intros t Ht. by eapply (B1 x nx). }
    intros s2 [L1 L0 L2 L3 L4]. eapply sound_bind; [apply lower_level_sound; [|by rewrite L4]|]. { intros i. by rewrite L2. }
    intros l Hl. cbn beta in Hl. split; [|exact L2|simpl; lia]. split; [exact L1|exact (L0 H0)| |intros i; rewrite <-H3; apply L2|simpl; lia].
    simpl. intros i z Hz. rewrite L3. eapply H2. by apply L2.
  Qed.
  Lemma SlDelete_sound s sc m : solid s → sound (λ r, solid r.1) (SlDelete s sc m).
  Proof.
    intros Hs. unfold SlDelete. eapply sound_bind; [by apply search_sound|]. intros us [Hlen Hus]. pose proof Hs as [H1 H0 H2 H3 H4].
    destruct (us !! 0%nat) as [u0|] eqn:E0; [|apply lookup_ge_None in E0; lia]. cbn [deref mbind res_bind].
    eapply sound_bind; [by apply level_at_sound, Hus|]. intros [[x|] sp] Hx; [|done]. cbn [fst] in *. apply H1 in Hx.
    eapply sound_bind; [by eapply node_sound|]. intros n _. destruct (_ && _); [|done].
    eapply sound_bind; [apply deleteNode_sound; [done|done|rewrite fmap_length; lia|]|].
    { intros i u Hu. apply list_lookup_fmap_Some in Hu as (v & Hv & ->). by apply Hus. }
    intros s' [R _ _]. done.
  Qed.
  Lemma delete_loop_sound fuel us cond : ∀ s i x del, solid s → (∀ y, x = Some y → has s 0 y) → (sl_level s ≤ length us)%nat →
    (∀ i u, us !! i = Some u → has s i u) → Forall (has s 0) del →
    sound (λ r, solid r.1 ∧ Forall (has r.1 0) r.2) (delete_loop fuel s us cond i x del).
  Proof.
    induction fuel as [|fuel IH]; intros s i x del Hs Hx Hlen Hus Hdel; [done|]. cbn [delete_loop]. destruct x as [x|]; [|done].
    specialize (Hx x eq_refl). pose proof Hx as Hx'. eapply sound_bind; [by eapply node_sound|]. intros n Hn. cbn beta in Hn. destruct (cond i n); [|done].
    pose proof (level_at_sound s x 0 Hx) as Hlv. unfold level_at, node in Hlv. rewrite Hn in Hlv. cbn [deref mbind res_bind] in Hlv.
    eapply sound_bind; [exact Hlv|]. intros lv Hl. cbn beta in Hl.
    eapply sound_bind; [by apply deleteNode_sound|]. intros s' [R1 R2 R3].
    apply IH; [done| |lia| |].
    - intros y Hy. rewrite Hy in Hl. apply R2. by eapply (so_linked _ Hs).
    - intros j u Hu. by apply R2, Hus.
    - apply Forall_app. split; [|by apply Forall_singleton, R2]. eapply Forall_impl; [exact Hdel|]. intros z. by apply R2.
  Qed.
  Lemma DeleteRange_sound s cond reset dcond i : solid s →
    sound (λ r, solid r.1 ∧ Forall (has r.1 0) r.2)
      (us ← search s cond reset; u0 ← deref (us !! 0%nat); lv ← level_at s u0.1 0; delete_loop (fuel_of s) s us.*1 dcond i lv.1 []).
  Proof.
    intros Hs. eapply sound_bind; [by apply search_sound|]. intros us [Hlen Hus]. pose proof Hs as [H1 H0 H2 H3 H4].
    destruct (us !! 0%nat) as [u0|] eqn:E0; [|apply lookup_ge_None in E0; lia]. cbn [deref mbind res_bind].
    eapply sound_bind; [by apply level_at_sound, Hus|]. intros lv Hx. cbn beta in Hx. apply delete_loop_sound; [done| |rewrite fmap_length; lia| |by apply Forall_nil_2].
    - intros y Hy. rewrite Hy in Hx. by eapply H1.
    - intros j u Hu. apply list_lookup_fmap_Some in Hu as (v & Hv & ->). by apply Hus.
  Qed.
  Lemma DeleteRangeByScore_sound s a b : solid s → sound (λ r, solid r.1 ∧ Forall (has r.1 0) r.2) (DeleteRangeByScore s a b).
  Proof. apply DeleteRange_sound. Qed.
  Lemma DeleteRangeByRank_sound s a b : solid s → sound (λ r, solid r.1 ∧ Forall (has r.1 0) r.2) (DeleteRangeByRank s a b).
  Proof. intros Hs. unfold DeleteRangeByRank. destruct (_ || _ || _); [by split; [|apply Forall_nil_2]|]. by apply DeleteRange_sound. Qed.

  (** ** Counting *)
  Lemma HasInScoreRange_sound s a b : solid s → sound (λ _, True) (HasInScoreRange s a b).
  Proof.
    intros [H1 [_ H0] H2 H3 H4]. unfold HasInScoreRange. eapply sound_bind; [apply level_at_sound, H3; unfold maxLevel; lia|].
    intros [[x|] sp] Hx; [|done]. cbn [fst] in *. apply H1 in Hx. eapply sound_bind; [by eapply node_sound|]. intros n _. destruct (flt _ _); [done|].
    destruct (sl_tail s) as [t|] eqn:Et; [|done]. eapply sound_bind; [eapply (node_sound s t 0), H0; done|]. done.
  Qed.
  Lemma GetFirst_sound s a b : solid s → sound (λ o, ∀ x, o = Some x → has s 0 x) (GetFirstInScoreRange s a b).
  Proof.
    intros Hs. pose proof Hs as [H1 H0 H2 H3 H4]. unfold GetFirstInScoreRange. eapply sound_bind; [by apply HasInScoreRange_sound|]. intros [] _; [|done]. cbn [negb].
    eapply sound_bind; [by apply search_sound|]. intros us [Hlen Hus].
    destruct (us !! 0%nat) as [u0|] eqn:E0; [|apply lookup_ge_None in E0; lia]. cbn [deref mbind res_bind].
    eapply sound_bind; [by apply level_at_sound, Hus|]. intros [[x|] sp] Hx; [|done]. cbn [fst] in *. apply H1 in Hx.
    eapply sound_bind; [by eapply node_sound|]. intros n _ z. cbn beta. destruct (fle _ _); [|done]. by intros [= <-].
  Qed.
  Lemma count_loop_sound fuel s mx : solid s → ∀ x n, (∀ y, x = Some y → has s 0 y) → sound (λ _, True) (count_loop fuel s mx x n).
  Proof.
    intros Hs. induction fuel as [|fuel IH]; intros x n Hx; [done|]. cbn [count_loop]. destruct x as [x|]; [|done]. specialize (Hx x eq_refl).
    pose proof Hx as Hx'. eapply sound_bind; [by eapply node_sound|]. intros nx Hn. cbn beta in Hn. destruct (fle _ _); [|done].
    pose proof (level_at_sound s x 0 Hx) as Hlv. unfold level_at, node in Hlv. rewrite Hn in Hlv. cbn [deref mbind res_bind] in Hlv.
    eapply sound_bind; [exact Hlv|]. intros lv Hl. cbn beta in Hl. apply IH. intros y Hy. rewrite Hy in Hl. by eapply (so_linked _ Hs).
  Qed.
  Lemma Count_sound s a b : solid s → sound (λ _, True) (Count s a b).
  Proof. intros Hs. unfold Count. eapply sound_bind; [by apply GetFirst_sound|]. intros x Hx. by apply count_loop_sound. Qed.
  (** ** Adding *)
  Lemma Insert_sound s level sc m : solid s → level ≤ Z.of_nat maxLevel → (level < 1 → bad) →
    sound (λ r, solid r.1) (SkiplistModel.Insert s level sc m).
  Proof.
    intros Hs Hmax Hbad. pose proof Hs as [H1 H0 H2 H3 H4]. unfold SkiplistModel.Insert.
    eapply sound_bind; [by apply search_sound|]. intros us0 [Hlen Hus]. destruct (Z.ltb_spec level 1) as [Hlt|Hge]; [by apply Hbad|].
    set (n := Z.to_nat level). assert (Hn : (1 ≤ n ≤ maxLevel)%nat) by lia. clearbody n. clear Hge Hmax Hbad. cbv zeta.
    eapply sound_bind; [apply (for_levels_sound (keeps s)); [|by apply keeps_refl]|].
    { intros s1 i Hi K. apply elem_of_seq in Hi. pose proof K as [K1 K0 K2 K3 K4].
      assert (Hh : has s1 i HEAD) by (apply K2, H3; lia). eapply sound_bind; [by apply level_at_sound|]. intros lv Hlv. cbn beta in Hlv.
      eapply sound_mono; [apply set_level_sound; [done|done|]|done|intros; by eapply keeps_trans]. intros y Hy. simpl in Hy. rewrite Hy in Hlv. by eapply K1. }
    intros s1 [K1 K0 K2 K3 K4]. cbn [sl_heap sl_next sl_tail sl_length sl_level].
    set (us := us0 ++ replicate (n - sl_level s) (HEAD, 0)). set (x := sl_next s1). set (top := (n `max` sl_level s1)%nat).
    assert (Hlenus : length us = top) by (subst us top; rewrite app_length, replicate_length; lia).
    assert (Hus1 : updates s us).
    { intros i u. subst us. rewrite lookup_app. destruct (us0 !! i) as [v|] eqn:Ei; [intros [= <-]; by apply Hus|].
      apply lookup_ge_None in Ei. intros Hi. apply lookup_replicate in Hi as [-> Hi]. apply H3. lia. }
    clearbody us. set (s2 := MkSl _ _ _ _ _).
    assert (Hf2 : ∀ i z, fwd s2 i z = if decide (z = x) then (if decide (i < n)%nat then Some None else None) else fwd s1 i z).
    { intros i z. unfold fwd. subst s2. cbn [sl_heap]. case_decide as Hz; [|by rewrite lookup_insert_ne by done]. subst z. rewrite lookup_insert. simpl.
      case_decide; [by rewrite lookup_replicate_2|]. rewrite lookup_ge_None_2; [done|rewrite replicate_length; lia]. }
    assert (Hnx : ∀ i, ¬ has s1 i x) by (intros i Hi; apply K2, H2 in Hi; subst x; lia).
    assert (Hh2 : ∀ i z, has s2 i z ↔ has s1 i z ∨ z = x ∧ (i < n)%nat).
    { intros i z. unfold has at 1. rewrite Hf2. case_decide as Hz; [subst z; case_decide|].
      - split; [by right|by eexists].
      - split; [by intros [? ?]|]. intros [Hc|[_ ?]]; [by apply Hnx in Hc|done].
      - unfold has. tauto. }
    assert (Hl2 : linked s2).
    { intros i z y. rewrite Hf2. case_decide; [by case_decide|]. intros Hy. apply Hh2. left. by eapply K1. }
    assert (Hb2 : backed s2).
    { destruct (K0 H0) as [B1 B2]. split; [|intros t Ht; apply Hh2; left; by apply B2]. intros z nz b Hz Hb. apply Hh2. left. subst s2. cbn [sl_heap] in Hz.
      destruct (decide (z = x)) as [->|Hne]; [by rewrite lookup_insert in Hz; injection Hz as <-|rewrite lookup_insert_ne in Hz by done; by eapply B1]. }
    assert (Hus2 : ∀ i u, us !! i = Some u → has s2 i u.1) by (intros i u Hu; apply Hh2; left; by apply K2, Hus1).
    destruct (us !! 0%nat) as [u0|] eqn:E0; [|apply lookup_ge_None in E0; lia]. cbn [deref mbind res_bind].
    eapply sound_bind; [apply (for_levels_sound (keeps s2)); [|by apply keeps_refl]|].
    { intros s3 i Hi K. apply elem_of_seq in Hi. pose proof K as [L1 L0 L2 L3 L4].
      assert (is_Some (us !! i)) as [u Hu] by (apply lookup_lt_is_Some; lia). rewrite Hu. cbn [deref mbind res_bind].
      assert (Hu3 : has s3 i u.1) by (by apply L2, Hus2). assert (Hx3 : has s3 i x) by (apply L2, Hh2; right; split; [done|lia]).
      eapply sound_bind; [by apply level_at_sound|]. intros ul Hul. cbn beta in Hul.
      eapply sound_bind; [apply set_level_sound; [done|done|]|]. { intros y Hy. simpl in Hy. rewrite Hy in Hul. by eapply L1. }
      intros s4 [M1 M0 M2 M3 M4]. eapply sound_mono; [apply set_level_sound; [done|by apply M2|]|done|]. { intros y [= <-]. by apply M2. }
      intros s5 K5. eapply keeps_trans; [exact K|]. eapply keeps_trans; [|exact K5]. by split. }
    intros s3 K. pose proof K as [L1 L0 L2 L3 L4].
    eapply sound_bind; [apply (for_levels_sound (keeps s2)); [|exact K]|].
    { clear L1 L0 L2 L3. intros s4 i Hi K'. apply elem_of_seq in Hi. pose proof K' as [M1 M0 M2 M3 M4].
      assert (is_Some (us !! i)) as [u Hu] by (apply lookup_lt_is_Some; rewrite L4 in Hi; subst s2; simpl in Hi; lia). rewrite Hu. cbn [deref mbind res_bind].
      assert (Hu3 : has s4 i u.1) by (by apply M2, Hus2).
      eapply sound_bind; [by apply level_at_sound|]. intros ul Hul. cbn beta in Hul.
      eapply sound_mono; [apply set_level_sound; [done|done|]|done|]. { intros y Hy. simpl in Hy. rewrite Hy in Hul. by eapply M1. }
      intros s5 K5. by eapply keeps_trans. }
    clear s3 K L1 L0 L2 L3 L4. intros s4 K. pose proof K as [M1 M0 M2 M3 M4].
    assert (Hx : has s2 0 x) by (apply Hh2; right; split; [done|lia]).
    eapply sound_bind; [eapply (set_back_sound s4 x 0); [done|by apply M2|]|].
    { intros _ y. case_decide; [done|]. intros [= <-]. by apply M2, Hus2. }
    intros s5 K5. pose proof (keeps_trans _ _ _ K K5) as K'. pose proof K' as [N1 N0 N2 N3 N4].
    eapply sound_bind; [by apply level_at_sound, N2|]. intros xl Hxl. cbn beta in Hxl.
    apply (sound_bind _ (keeps s2)).
    { destruct xl.1 as [f|].
      - pose proof (N1 _ _ _ Hxl) as Hf. eapply sound_mono; [eapply set_back_sound; [done|exact Hf|]|done|intros; by eapply keeps_trans].
        intros _ y [= <-]. by apply N2.
      - split; try done. intros Hb. apply N0 in Hb as [B1 B2]. split; [exact B1|]. intros t [= <-]. by apply N2. }
    intros s6 [P1 P0 P2 P3 P4]. cbn [sound fst]. split; [exact P1|exact (P0 Hb2)| | |].
    - intros i z Hz. change (has s6 i z) in Hz. apply P2, Hh2 in Hz. cbn [sl_next]. rewrite P3. subst s2. cbn [sl_next]. fold x.
      destruct Hz as [Hz|[-> _]]; [|lia]. apply K2, H2 in Hz. subst x. lia.
    - intros i. change (has s6 i HEAD ↔ (i < maxLevel)%nat). rewrite P2, Hh2, K2, H3. split; [|by left]. intros [?|[Hc ?]]; [done|lia].
    - cbn [sl_level]. rewrite P4. subst s2. cbn [sl_level]. lia.
  Qed.
End bad.
Lemma NewSkiplist_solid : solid NewSkiplist.
Proof.
  assert (Hf : ∀ i x, fwd NewSkiplist i x = if decide (x = HEAD) then (if decide (i < maxLevel)%nat then Some None else None) else None).
  { intros i x. unfold fwd, NewSkiplist. cbn [sl_heap]. destruct (decide (x = HEAD)) as [->|Hx]; [|by rewrite lookup_singleton_ne by congruence].
    rewrite lookup_singleton. cbn [newSkiplistNode n_levels]. case_decide; [by rewrite lookup_replicate_2|]. rewrite lookup_ge_None_2; [done|rewrite replicate_length; lia]. }
  split.
  - intros i x y. rewrite Hf. repeat case_decide; done.
  - split; [|done]. intros x n b Hx Hb. unfold NewSkiplist in Hx. cbn [sl_heap] in Hx. apply lookup_singleton_Some in Hx as [_ <-]. done.
  - intros i x [o Ho]. rewrite Hf in Ho. case_decide as H; [|done]. subst x. unfold HEAD. simpl. lia.
  - intros i. unfold has. rewrite Hf. rewrite decide_True by done. case_decide; [split; [done|by eexists]|]. split; [by intros [? ?]|done].
  - unfold maxLevel. simpl. lia.
Qed.
