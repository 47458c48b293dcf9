(** float64 values and the comparisons of Go, and the bytewise order of strings.

    A float64 is a [spec_float] (Coq standard library, Coq.Floats.SpecFloat):
    sign/mantissa/exponent, infinities, the two zeros and NaN.  Comparisons
    follow IEEE 754: NaN compares false, the zeros are equal. *)
From Verif Require Import Base.
From Coq Require Import SpecFloat ZifyBool ZifyNat.

Definition float := spec_float.
Definition flt (a b : float) : bool := SFltb a b.
Definition fle (a b : float) : bool := SFleb a b.
Definition feq (a b : float) : bool := SFeqb a b.
Definition is_nan (a : float) : bool := match a with S754_nan => true | _ => false end.
Definition not_nan (a : float) : Prop := is_nan a = false.
Definition fzero : float := S754_zero false.
Definition of_Z (z : Z) : float :=
  match z with
  | Z0 => fzero
  | Zpos p => SFdiv 53 1024 (S754_finite false p 0) (S754_finite false 1 0)
  | Zneg p => SFdiv 53 1024 (S754_finite true p 0) (S754_finite false 1 0)
  end.

Global Instance float_eq_dec : EqDecision float.
Proof. unfold EqDecision, Decision, float. decide equality; (apply Bool.bool_dec || apply Z.eq_dec || apply Pos.eq_dec). Defined.

(** position of a float on the number line, as a lexicographic key *)
Definition fkey (a : float) : Z * Z * Z :=
  match a with
  | S754_infinity true => (-2, 0, 0)
  | S754_finite true m e => (-1, - e, - Z.pos m)
  | S754_zero _ | S754_nan => (0, 0, 0)
  | S754_finite false m e => (1, e, Z.pos m)
  | S754_infinity false => (2, 0, 0)
  end.
Definition klt (x y : Z * Z * Z) : Prop :=
  let '(a, b, c) := x in let '(a', b', c') := y in
  a < a' ∨ a = a' ∧ (b < b' ∨ b = b' ∧ c < c').

Lemma kne x y : x ≠ y → klt x y ∨ klt y x.
Proof.
  destruct x as [[a b] c], y as [[a' b'] c']. simpl. intros Hne.
  destruct (decide (a = a')) as [->|]; [|lia]. destruct (decide (b = b')) as [->|]; [|lia].
  destruct (decide (c = c')) as [->|]; [done|lia].
Qed.

Lemma fcmp_key a b : not_nan a → not_nan b →
  (SFcompare a b = Some Lt ∧ klt (fkey a) (fkey b)) ∨
  (SFcompare a b = Some Eq ∧ fkey a = fkey b) ∨
  (SFcompare a b = Some Gt ∧ klt (fkey b) (fkey a)).
Proof.
  intros Ha Hb.
  destruct a as [sa|sa| |sa ma ea], b as [sb|sb| |sb mb eb]; try done;
    try destruct sa; try destruct sb; simpl; try tauto; try (left; split; [done|lia]);
    try (right; right; split; [done|lia]);
    pose proof (Z.compare_spec ea eb) as HC; destruct (ea ?= eb) eqn:E; inversion HC; subst;
    try (left; split; [done|lia]); try (right; right; split; [done|lia]);
    rewrite <-?Pos.compare_antisym;
    try (change (Pos.compare_cont Eq ma mb) with (Pos.compare ma mb));
    pose proof (Pos.compare_spec ma mb) as HP; destruct (ma ?= mb)%positive eqn:E';
    inversion HP; subst; try rewrite (Pos.compare_antisym ma mb); rewrite ?E'; simpl;
    try (left; split; [done|lia]); try (right; right; split; [done|lia]);
    try (right; left; done).
Qed.

Lemma flt_key a b : not_nan a → not_nan b → flt a b = true ↔ klt (fkey a) (fkey b).
Proof.
  intros Ha Hb. unfold flt, SFltb.
  destruct (fcmp_key a b Ha Hb) as [[-> ?]|[[-> ?]|[-> ?]]]; split; try done;
    destruct (fkey a) as [[??]?], (fkey b) as [[??]?]; simpl in *; simplify_eq; lia.
Qed.
Lemma fle_key a b : not_nan a → not_nan b → fle a b = true ↔ ¬ klt (fkey b) (fkey a).
Proof.
  intros Ha Hb. unfold fle, SFleb.
  destruct (fcmp_key a b Ha Hb) as [[-> ?]|[[-> ?]|[-> ?]]]; split; try done;
    destruct (fkey a) as [[??]?], (fkey b) as [[??]?]; simpl in *; simplify_eq; lia.
Qed.
Lemma feq_key a b : not_nan a → not_nan b → feq a b = true ↔ fkey a = fkey b.
Proof.
  intros Ha Hb. unfold feq, SFeqb.
  destruct (fcmp_key a b Ha Hb) as [[-> ?]|[[-> ?]|[-> ?]]]; split; try done;
    destruct (fkey a) as [[??]?], (fkey b) as [[??]?]; simpl in *; intros; simplify_eq; lia.
Qed.

Lemma feq_refl a : not_nan a → feq a a = true.
Proof. intros. by apply feq_key. Qed.
Lemma flt_irrefl a : flt a a = false.
Proof.
  destruct (is_nan a) eqn:E; [by destruct a|]. apply not_true_is_false.
  rewrite flt_key by done. destruct (fkey a) as [[??]?]; simpl; lia.
Qed.
Lemma fle_flt a b : not_nan a → not_nan b → fle a b = negb (flt b a).
Proof.
  intros Ha Hb. pose proof (fle_key a b Ha Hb). pose proof (flt_key b a Hb Ha).
  destruct (fle a b), (flt b a); simpl; try done; naive_solver.
Qed.
Lemma flt_nan_l a b : is_nan a = true → flt a b = false.
Proof. by destruct a, b. Qed.
Lemma flt_nan_r a b : is_nan b = true → flt a b = false.
Proof. by destruct a as [[]|[]| |[]], b as [[]|[]| |[]]. Qed.
Lemma fle_nan_l a b : is_nan a = true → fle a b = false.
Proof. by destruct a, b. Qed.
Lemma fle_nan_r a b : is_nan b = true → fle a b = false.
Proof. by destruct a as [[]|[]| |[]], b as [[]|[]| |[]]. Qed.

(** * Strings *)
Fixpoint bltb (x y : bytes) : bool :=
  match x, y with
  | _, [] => false
  | [], _ :: _ => true
  | a :: x', b :: y' =>
      (N_of_ascii a <? N_of_ascii b)%N || ((N_of_ascii a =? N_of_ascii b)%N && bltb x' y')
  end.
Definition bleb (x y : bytes) : bool := negb (bltb y x).

Lemma N_of_ascii_inj a b : N_of_ascii a = N_of_ascii b → a = b.
Proof. intros E. rewrite <-(ascii_N_embedding a), E. apply ascii_N_embedding. Qed.
Lemma bltb_irrefl x : bltb x x = false.
Proof. induction x as [|a x IH]; [done|]. simpl. rewrite IH. lia. Qed.
Lemma bltb_trans x : ∀ y z, bltb x y = true → bltb y z = true → bltb x z = true.
Proof.
  induction x as [|a x IH]; intros [|b y] [|c z]; simpl; try done. intros H1 H2.
  destruct (N.ltb_spec (N_of_ascii a) (N_of_ascii b)) as [Hab|Hab];
  destruct (N.ltb_spec (N_of_ascii b) (N_of_ascii c)) as [Hbc|Hbc];
  destruct (N.eqb_spec (N_of_ascii a) (N_of_ascii b));
  destruct (N.eqb_spec (N_of_ascii b) (N_of_ascii c)); simpl in *; try done; try lia;
  destruct (N.ltb_spec (N_of_ascii a) (N_of_ascii c)); simpl; try done; try lia.
  destruct (N.eqb_spec (N_of_ascii a) (N_of_ascii c)); simpl; [|lia]. eauto.
Qed.
Lemma bltb_total x : ∀ y, bltb x y = false → bltb y x = false → x = y.
Proof.
  induction x as [|a x IH]; intros [|b y]; simpl; try done. intros H1 H2.
  destruct (N.ltb_spec (N_of_ascii a) (N_of_ascii b)); [done|].
  destruct (N.ltb_spec (N_of_ascii b) (N_of_ascii a)); [done|].
  assert (N_of_ascii a = N_of_ascii b) as E by lia. apply N_of_ascii_inj in E as ->.
  rewrite N.eqb_refl in *. simpl in *. f_equal. by apply IH.
Qed.
Lemma bltb_nil_l x : bltb x [] = false.
Proof. by destruct x. Qed.

(** * (score, member) pairs *)
Definition elt (a b : float * bytes) : bool :=
  flt a.1 b.1 || (feq a.1 b.1 && bltb a.2 b.2).
Definition ele (a b : float * bytes) : bool :=
  flt a.1 b.1 || (feq a.1 b.1 && bleb a.2 b.2).
Definition esame (a b : float * bytes) : bool := feq a.1 b.1 && bool_decide (a.2 = b.2).

Lemma elt_irrefl a : elt a a = false.
Proof. unfold elt. rewrite flt_irrefl, bltb_irrefl. by rewrite andb_false_r. Qed.

Section order.
  Local Ltac keys := repeat match goal with
    | H : flt _ _ = true |- _ => rewrite flt_key in H by done
    | H : feq _ _ = true |- _ => rewrite feq_key in H by done
    | H : flt ?a ?b = false |- _ =>
        assert (¬ klt (fkey a) (fkey b)) by (rewrite <-flt_key by done; by rewrite H); clear H
    | H : feq ?a ?b = false |- _ =>
        assert (klt (fkey a) (fkey b) ∨ klt (fkey b) (fkey a))
          by (apply kne; rewrite <-feq_key by done; by rewrite H); clear H
    end.
  Local Ltac klia := repeat match goal with
    | |- context [fkey ?a] => destruct (fkey a) as [[??]?]
    | H : context [fkey ?a] |- _ => destruct (fkey a) as [[??]?]
    end; simpl in *; simplify_eq; try lia.

  Lemma elt_trans a b c : not_nan a.1 → not_nan b.1 → not_nan c.1 →
    elt a b = true → elt b c = true → elt a c = true.
  Proof.
    intros Ha Hb Hc. destruct a as [sa ma], b as [sb mb], c as [sc mc]. unfold elt. simpl in *.
    destruct (flt sa sb) eqn:E1, (flt sb sc) eqn:E2, (flt sa sc) eqn:E3; simpl; try done;
    destruct (feq sa sb) eqn:E4, (feq sb sc) eqn:E5; simpl; try done;
    destruct (feq sa sc) eqn:E6; simpl; try (intros; by eapply bltb_trans);
    intros _ _; keys; exfalso; klia.
  Qed.
  Lemma elt_total a b : not_nan a.1 → not_nan b.1 →
    elt a b = false → elt b a = false → esame a b = true.
  Proof.
    intros Ha Hb. destruct a as [sa ma], b as [sb mb]. unfold elt, esame. simpl in *.
    destruct (flt sa sb) eqn:E1, (flt sb sa) eqn:E2, (feq sa sb) eqn:E3, (feq sb sa) eqn:E4; simpl; try done;
      first [intros H1 H2; apply bool_decide_eq_true_2; by apply bltb_total
            |intros; keys; exfalso; klia].
  Qed.
  Lemma elt_asym a b : not_nan a.1 → not_nan b.1 → elt a b = true → elt b a = false.
  Proof.
    intros Ha Hb H1. destruct (elt b a) eqn:E; [|done].
    by rewrite <-(elt_irrefl a), (elt_trans a b a).
  Qed.
  Lemma esame_elt_l a b c : not_nan a.1 → not_nan b.1 → not_nan c.1 → esame a b = true → elt a c = elt b c.
  Proof.
    intros Ha Hb Hc. destruct a as [sa ma], b as [sb mb], c as [sc mc]. unfold elt, esame. simpl in *.
    destruct (feq sa sb) eqn:E; [|done]. simpl. intros ->%bool_decide_eq_true.
    destruct (flt sa sc) eqn:E1, (flt sb sc) eqn:E2, (feq sa sc) eqn:E3, (feq sb sc) eqn:E4; simpl; try done;
      keys; exfalso; klia.
  Qed.
  Lemma esame_elt_r a b c : not_nan a.1 → not_nan b.1 → not_nan c.1 → esame a b = true → elt c a = elt c b.
  Proof.
    intros Ha Hb Hc. destruct a as [sa ma], b as [sb mb], c as [sc mc]. unfold elt, esame. simpl in *.
    destruct (feq sa sb) eqn:E; [|done]. simpl. intros ->%bool_decide_eq_true.
    destruct (flt sc sa) eqn:E1, (flt sc sb) eqn:E2, (feq sc sa) eqn:E3, (feq sc sb) eqn:E4; simpl; try done;
      keys; exfalso; klia.
  Qed.
  Lemma ele_elt a b : not_nan a.1 → not_nan b.1 → ele a b = negb (elt b a).
  Proof.
    intros Ha Hb. destruct a as [sa ma], b as [sb mb]. unfold elt, ele, bleb. simpl in *.
    destruct (flt sa sb) eqn:E1, (flt sb sa) eqn:E2, (feq sa sb) eqn:E3, (feq sb sa) eqn:E4; simpl; try done;
      keys; exfalso; klia.
  Qed.
  Lemma elt_score a b : not_nan a.1 → not_nan b.1 → elt a b = true → fle a.1 b.1 = true.
  Proof.
    intros Ha Hb. destruct a as [sa ma], b as [sb mb]. unfold elt. simpl in *.
    rewrite fle_flt by done. destruct (flt sa sb) eqn:E1, (feq sa sb) eqn:E2, (flt sb sa) eqn:E3; simpl; try done;
      intros; keys; exfalso; klia.
  Qed.
  Lemma fle_trans a b c : not_nan a → not_nan b → not_nan c →
    fle a b = true → fle b c = true → fle a c = true.
  Proof.
    intros Ha Hb Hc. rewrite !fle_key by done. klia.
  Qed.
  Lemma flt_le_trans a b c : not_nan a → not_nan b → not_nan c →
    flt a b = true → fle b c = true → flt a c = true.
  Proof. intros Ha Hb Hc. rewrite fle_key, !flt_key by done. klia. Qed.
  Lemma fle_lt_trans a b c : not_nan a → not_nan b → not_nan c →
    fle a b = true → flt b c = true → flt a c = true.
  Proof. intros Ha Hb Hc. rewrite fle_key, !flt_key by done. klia. Qed.
  Lemma fle_refl a : not_nan a → fle a a = true.
  Proof. intros. rewrite fle_flt by done. by rewrite flt_irrefl. Qed.
  Lemma esame_refl a : not_nan a.1 → esame a a = true.
  Proof. intros. unfold esame. rewrite feq_refl by done. by rewrite bool_decide_eq_true_2. Qed.
  Lemma esame_sym a b : not_nan a.1 → not_nan b.1 → esame a b = esame b a.
  Proof.
    intros Ha Hb. unfold esame. f_equal.
    - destruct (feq a.1 b.1) eqn:E1, (feq b.1 a.1) eqn:E2; try done; keys; exfalso; klia.
    - apply bool_decide_ext. done.
  Qed.
  Lemma esame_elt a b : not_nan a.1 → not_nan b.1 → esame a b = true → elt a b = false.
  Proof. intros Ha Hb He. rewrite (esame_elt_l a b b) by done. apply elt_irrefl. Qed.
End order.
