(** Property theorem C07: datastruct.Set. *)
From Verif Require Import Base DictModel DatabaseModel DictSpec DictProofs DictProofs2 DictProofs3
  DictProofs4 DictRun SetModel SetProofs.

Section props.
  Context {K : Type} `{Countable K}.
  Variable hash : K → Z.
  Notation set := (dict K unit).

  (** the members of a set object *)
  Definition elems (s : set) : gset K := dom (contents (abs s)).
  Notation fits n := (Z.of_nat n < max_entries).

  (** every set object the program can build: start from NewSet; apply any Dict
      operation (Add, Delete, Contains, Range, GetRandom are such); take the
      result or either operand of Union, Intersect, Difference *)
  Inductive set_reach : set → Prop :=
  | sr_new : set_reach NewSet
  | sr_op s op s' out :
      set_reach s → op_ok op → fits (size (elems s)) →
      run_op hash s op = Ok (s', out) → set_reach s'
  | sr_bin (f : set → set → res (set * set * set)) s o s' o' r x :
      set_reach s → set_reach o → fits (size (elems s) + size (elems o)) →
      (f = Union hash ∨ f = Intersect hash ∨ f = Difference hash) →
      f s o = Ok (s', o', r) → (x = s' ∨ x = o' ∨ x = r) → set_reach x
  | sr_self (f : set → res (set * set)) s s' r x :
      set_reach s → fits (size (elems s) + size (elems s)) →
      (f = Union_self hash ∨ f = Intersect_self hash ∨ f = Difference_self hash) →
      f s = Ok (s', r) → (x = s' ∨ x = r) → set_reach x.

  Lemma inv_elems s : inv hash s → elems s = members s.
  Proof. intros [Hok _]. unfold elems, members. by rewrite (contents_abs hash). Qed.

  Lemma set_reach_inv s : set_reach s → inv hash s.
  Proof.
    induction 1 as [|s op s' out Hs IH Hop Hf Hr|f s o s' o' r x Hs IHs Ho IHo Hf Hcase Hr Hx
                    |f s s' r x Hs IHs Hf Hcase Hr Hx].
    - apply inv_NewSet.
    - rewrite inv_elems in Hf by done. rewrite members_size in Hf.
      destruct (run_op_spec hash s op IH Hop) as [[_ HR]|(d' & out' & HR & Hinv & _)]; [done| |];
        rewrite HR in Hr; congruence.
    - rewrite (inv_elems s), (inv_elems o) in Hf by done.
      assert (small (size (members s))) by (unfold small; lia).
      destruct Hcase as [->|[->| ->]].
      + destruct (Union_spec hash s o) as (r' & HR & Hinv & _); [done..|].
        rewrite HR in Hr. simplify_eq. by destruct Hx as [->|[->| ->]].
      + destruct (Intersect_spec hash s o) as (o2 & r' & HR & Hinv & _ & Hinv' & _); [done..|].
        rewrite HR in Hr. simplify_eq. by destruct Hx as [->|[->| ->]].
      + destruct (Difference_spec hash s o) as (o2 & r' & HR & Hinv & _ & Hinv' & _); [done..|].
        rewrite HR in Hr. simplify_eq. by destruct Hx as [->|[->| ->]].
    - rewrite (inv_elems s) in Hf by done.
      assert (small (size (members s))) by (unfold small; lia).
      destruct Hcase as [->|[->| ->]].
      + destruct (Union_self_spec hash s) as (r' & HR & Hinv & _); [done..|].
        rewrite HR in Hr. simplify_eq. by destruct Hx as [->| ->].
      + destruct (Intersect_self_spec hash s) as (r' & HR & Hinv & _); [done..|].
        rewrite HR in Hr. simplify_eq. by destruct Hx as [->| ->].
      + destruct (Difference_self_spec hash s) as (r' & HR & Hinv & _); [done..|].
        rewrite HR in Hr. simplify_eq. by destruct Hx as [->| ->].
  Qed.

  Lemma C07_lemma s o :
    set_reach s → set_reach o → fits (size (elems s) + size (elems o)) →
    (∃ s' o' r, Union hash s o = Ok (s', o', r) ∧
       elems r = elems s ∪ elems o ∧ elems s' = elems s ∧ elems o' = elems o) ∧
    (∃ s' o' r, Intersect hash s o = Ok (s', o', r) ∧
       elems r = elems s ∩ elems o ∧ elems s' = elems s ∧ elems o' = elems o) ∧
    (∃ s' o' r, Difference hash s o = Ok (s', o', r) ∧
       elems r = elems s ∖ elems o ∧ elems s' = elems s ∧ elems o' = elems o).
  Proof.
    intros Hs%set_reach_inv Ho%set_reach_inv Hf.
    rewrite (inv_elems s), (inv_elems o) in Hf by done.
    assert (small (size (members s))) by (unfold small; lia).
    split; [|split].
    - destruct (Union_spec hash s o) as (r' & HR & Hinv & Hm); [done..|].
      eexists _, _, _. split; [exact HR|]. by rewrite !inv_elems.
    - destruct (Intersect_spec hash s o) as (o2 & r' & HR & Hinv & Hm & Hinv' & Hm' & _); [done..|].
      eexists _, _, _. split; [exact HR|]. rewrite !inv_elems by done. unfold members in *.
      by rewrite Hm'.
    - destruct (Difference_spec hash s o) as (o2 & r' & HR & Hinv & Hm & Hinv' & Hm' & _); [done..|].
      eexists _, _, _. split; [exact HR|]. rewrite !inv_elems by done. unfold members in *.
      by rewrite Hm'.
  Qed.

  Lemma C07_self_lemma s :
    set_reach s → fits (size (elems s) + size (elems s)) →
    (∃ s' r, Union_self hash s = Ok (s', r) ∧ elems r = elems s ∧ elems s' = elems s) ∧
    (∃ s' r, Intersect_self hash s = Ok (s', r) ∧ elems r = elems s ∧ elems s' = elems s) ∧
    (∃ s' r, Difference_self hash s = Ok (s', r) ∧ elems r = ∅ ∧ elems s' = elems s).
  Proof.
    intros Hs%set_reach_inv Hf. rewrite (inv_elems s) in Hf by done.
    assert (small (size (members s))) by (unfold small; lia).
    split; [|split].
    - destruct (Union_self_spec hash s) as (r' & HR & Hinv & Hm); [done..|].
      eexists _, _. split; [exact HR|]. by rewrite !inv_elems.
    - destruct (Intersect_self_spec hash s) as (r' & HR & Hinv & Hm); [done..|].
      eexists _, _. split; [exact HR|]. by rewrite !inv_elems.
    - destruct (Difference_self_spec hash s) as (r' & HR & Hinv & Hm); [done..|].
      eexists _, _. split; [exact HR|]. by rewrite !inv_elems.
  Qed.

  (** what Add, Delete, Contains, Size and Range do to the members *)
  Lemma C07_basic_lemma s m :
    set_reach s → fits (size (elems s)) →
    (∃ s', Add hash s m = Ok (s', bool_decide (m ∉ elems s)) ∧ elems s' = elems s ∪ {[m]}) ∧
    (∃ s' e, SDelete hash s m = Ok (s', e) ∧ (e = None ↔ m ∈ elems s) ∧ elems s' = elems s ∖ {[m]}) ∧
    (∃ s', Contains hash s m = Ok (s', bool_decide (m ∈ elems s)) ∧ elems s' = elems s) ∧
    SSize s = Ok (Z.of_nat (size (elems s))) ∧
    (∃ s' ms, Range s = Ok (s', ms) ∧ NoDup ms ∧ (∀ x, x ∈ ms ↔ x ∈ elems s) ∧ elems s' = elems s).
  Proof.
    intros Hs%set_reach_inv Hf. rewrite (inv_elems s) in * by done.
    split; [|split; [|split; [|split]]].
    - destruct (Add_spec hash s m) as (s' & HR & Hinv & Hm & _); [done..|].
      eexists. split; [exact HR|]. rewrite inv_elems by done. set_solver.
    - destruct (SDelete_spec hash s m) as (s' & e & HR & He & Hinv & Hm & _); [done..|].
      eexists _, _. split; [exact HR|]. by rewrite inv_elems.
    - destruct Hs as [Hok Hi]. destruct (Contains_spec hash s m) as (s' & HR & Hok' & Hm & Hi' & _); [done..|].
      eexists. split; [exact HR|]. rewrite inv_elems by (split; [done|congruence]).
      unfold members. by rewrite Hm.
    - by apply (SSize_spec hash).
    - pose proof Hs as [Hok Hi]. destruct (Range_spec hash s) as (ms & HR & Hnd & Hms & _); [done..|].
      eexists _, _. split; [exact HR|]. by rewrite inv_elems.
  Qed.

  (** C07, two distinct objects *)
  Theorem C07_set_algebra s o :
    set_reach s → set_reach o → fits (size (elems s) + size (elems o)) →
    (∃ s' o' r, Union hash s o = Ok (s', o', r) ∧
       elems r = elems s ∪ elems o ∧ elems s' = elems s ∧ elems o' = elems o) ∧
    (∃ s' o' r, Intersect hash s o = Ok (s', o', r) ∧
       elems r = elems s ∩ elems o ∧ elems s' = elems s ∧ elems o' = elems o) ∧
    (∃ s' o' r, Difference hash s o = Ok (s', o', r) ∧
       elems r = elems s ∖ elems o ∧ elems s' = elems s ∧ elems o' = elems o).
  Proof. exact (C07_lemma s o). Qed.

  (** C07, receiver and argument are the same object *)
  Theorem C07_set_algebra_same_object s :
    set_reach s → fits (size (elems s) + size (elems s)) →
    (∃ s' r, Union_self hash s = Ok (s', r) ∧ elems r = elems s ∧ elems s' = elems s) ∧
    (∃ s' r, Intersect_self hash s = Ok (s', r) ∧ elems r = elems s ∧ elems s' = elems s) ∧
    (∃ s' r, Difference_self hash s = Ok (s', r) ∧ elems r = ∅ ∧ elems s' = elems s).
  Proof. exact (C07_self_lemma s). Qed.

  (** the basic operations on members *)
  Theorem C07_basic_operations s m :
    set_reach s → fits (size (elems s)) →
    (∃ s', Add hash s m = Ok (s', bool_decide (m ∉ elems s)) ∧ elems s' = elems s ∪ {[m]}) ∧
    (∃ s' e, SDelete hash s m = Ok (s', e) ∧ (e = None ↔ m ∈ elems s) ∧ elems s' = elems s ∖ {[m]}) ∧
    (∃ s', Contains hash s m = Ok (s', bool_decide (m ∈ elems s)) ∧ elems s' = elems s) ∧
    SSize s = Ok (Z.of_nat (size (elems s))) ∧
    (∃ s' ms, Range s = Ok (s', ms) ∧ NoDup ms ∧ (∀ x, x ∈ ms ↔ x ∈ elems s) ∧ elems s' = elems s).
  Proof. exact (C07_basic_lemma s m). Qed.
End props.

Print Assumptions C07_set_algebra.
Print Assumptions C07_set_algebra_same_object.
Print Assumptions C07_basic_operations.

(** two sets in the middle of a rehash *)
Definition demo_set (n : nat) : dict bytes unit :=
  match run Hash NewSet ((λ i, OpSet [ascii_of_nat (48 + i)] tt) <$> seq n 20) with
  | Ok (d, _) => d | _ => NewSet end.
Lemma demo_set_reach_gen (ops : list (dict_op bytes unit)) : ∀ s s' outs, set_reach Hash s →
  Forall op_ok ops → Z.of_nat (size (elems s) + length ops) < max_entries →
  run Hash s ops = Ok (s', outs) → set_reach Hash s'.
Proof.
  induction ops as [|op ops IH]; intros s s' outs Hs Hops Hf Hr; simpl in Hr.
  - by simplify_eq.
  - inversion Hops; subst. cbn [length] in Hf.
    pose proof (set_reach_inv Hash s Hs) as Hinv.
    assert (Hf' : Z.of_nat (size (elems s)) < max_entries) by lia.
    destruct (run_op_spec Hash s op Hinv) as [[_ HR]|(d1 & out & HR & Hinv1 & Hs1 & Hsz)].
    + done.
    + unfold small. rewrite <-members_size, <-(inv_elems Hash s) by done. done.
    + rewrite HR in Hr. done.
    + rewrite HR in Hr. simpl in Hr.
      destruct (run Hash d1 ops) as [[s2 outs2]| |] eqn:E; simpl in Hr; try done.
      simplify_eq. apply (IH d1 _ outs2); [by eapply sr_op|done| |done].
      rewrite <-!members_size in Hsz. rewrite <-(inv_elems Hash d1), <-(inv_elems Hash s) in Hsz by done. lia.
Qed.
Example C07_nonvacuous :
  set_reach Hash (demo_set 0) ∧ set_reach Hash (demo_set 10) ∧
  d_ht1 (demo_set 0) ≠ None ∧ d_ht1 (demo_set 10) ≠ None ∧
  size (elems (demo_set 0)) = 20%nat ∧ size (elems (demo_set 0) ∩ elems (demo_set 10)) = 10%nat.
Proof.
  assert (Hr : ∀ n, (∃ outs, run Hash NewSet ((λ i, OpSet [ascii_of_nat (48 + i)] tt) <$> seq n 20) =
                 Ok (demo_set n, outs)) → set_reach Hash (demo_set n)).
  { intros n [outs Ho]. eapply demo_set_reach_gen; [apply sr_new| | |exact Ho].
    - apply Forall_fmap, Forall_true. done.
    - rewrite fmap_length, seq_length. reflexivity. }
  split; [apply Hr; eexists; vm_compute; reflexivity|].
  split; [apply Hr; eexists; vm_compute; reflexivity|].
  vm_compute. repeat split; discriminate.
Qed.
