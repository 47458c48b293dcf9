(** Decimal numbers as text: strconv.Atoi / strconv.ParseInt(s, 10, 64) and the
    verb %d of fmt. *)
From Verif Require Import Base.
From Coq Require Import ZifyBool ZifyNat.

(* strconv: the digits '0'..'9' *)
Definition digit_val (c : ascii) : option Z :=
  let n := Z.of_N (N_of_ascii c) in if (48 <=? n) && (n <=? 57) then Some (n - 48) else None.
(* strconv.ParseUint(s, 10, 64), digits part; the value is computed in Z, the
   range check of ParseInt follows *)
Fixpoint parse_digits (acc : Z) (s : bytes) : option Z :=
  match s with
  | [] => Some acc
  | c :: s' => match digit_val c with Some d => parse_digits (acc * 10 + d) s' | None => None end
  end.
(* strconv.Atoi and strconv.ParseInt(s, 10, 64) on a 64-bit platform: optional
   sign, at least one digit, value in the int64 range *)
Definition Atoi (s : bytes) : option Z :=
  let '(neg, t) := match s with
                   | c :: t => if (c =? "-")%char then (true, t)
                               else if (c =? "+")%char then (false, t) else (false, s)
                   | [] => (false, s)
                   end in
  match t with
  | [] => None
  | _ => match parse_digits 0 t with
         | Some v => let n := if (neg : bool) then - v else v in
                     if (minInt64 <=? n) && (n <=? maxInt64) then Some n else None
         | None => None
         end
  end.

(* fmt %d *)
Definition digit (d : Z) : ascii := ascii_of_N (Z.to_N (d + 48)).
Fixpoint udigits (fuel : nat) (n : Z) : bytes :=
  match fuel with
  | O => []
  | S fuel => if n <? 10 then [digit n] else udigits fuel (n / 10) ++ [digit (n mod 10)]
  end.
Definition itoa (n : Z) : bytes :=
  let u z := udigits (S (Z.to_nat (Z.log2 z))) z in
  if n <? 0 then "-"%char :: u (- n) else u n.

(** * Round trip *)
Lemma digit_val_digit d : 0 ≤ d < 10 → digit_val (digit d) = Some d.
Proof.
  intros Hd. assert (d = 0 ∨ d = 1 ∨ d = 2 ∨ d = 3 ∨ d = 4 ∨ d = 5 ∨ d = 6 ∨ d = 7 ∨ d = 8 ∨ d = 9) as Hc by lia.
  repeat (destruct Hc as [->|Hc]; [reflexivity|]). by subst d.
Qed.
Lemma parse_digits_app s t acc : parse_digits acc (s ++ t) = parse_digits acc s ≫= λ v, parse_digits v t.
Proof.
  revert acc. induction s as [|c s IH]; intros acc; [done|]. simpl. destruct (digit_val c); [apply IH|done].
Qed.
Lemma udigits_spec fuel : ∀ n, 0 ≤ n → n < 2 ^ Z.of_nat fuel →
  parse_digits 0 (udigits fuel n) = Some n ∧
  Forall (λ c, ∃ d, 0 ≤ d < 10 ∧ c = digit d) (udigits fuel n) ∧ (fuel ≠ 0%nat → udigits fuel n ≠ []).
Proof.
  induction fuel as [|fuel IH]; intros n Hn Hlt.
  { simpl in *. assert (n = 0) as -> by lia. done. }
  cbn [udigits]. destruct (n <? 10) eqn:E.
  - split_and!; [|constructor; [|constructor]; exists n; split; [lia|done]|done].
    simpl. rewrite digit_val_digit by lia. done.
  - pose proof (Z.div_mod n 10 ltac:(lia)). pose proof (Z.mod_pos_bound n 10 ltac:(lia)).
    assert (Hd : n / 10 < 2 ^ Z.of_nat fuel).
    { rewrite Nat2Z.inj_succ, Z.pow_succ_r in Hlt by lia. apply Z.div_lt_upper_bound; lia. }
    destruct (IH (n / 10)) as (H1 & H2 & _); [apply Z.div_pos; lia|done|].
    split_and!.
    + rewrite parse_digits_app, H1. simpl. rewrite digit_val_digit by lia. f_equal. lia.
    + apply Forall_app. split; [done|]. constructor; [|constructor]. exists (n mod 10). split; [lia|done].
    + intros _ Hnil. by apply app_eq_nil in Hnil as [_ ?].
Qed.
Lemma udigits_log n : 0 ≤ n → n < 2 ^ Z.of_nat (S (Z.to_nat (Z.log2 n))).
Proof.
  intros Hn. destruct (decide (n = 0)) as [->|]; [done|].
  pose proof (Z.log2_spec n ltac:(lia)) as [_ H]. pose proof (Z.log2_nonneg n).
  replace (Z.of_nat (S (Z.to_nat (Z.log2 n)))) with (Z.succ (Z.log2 n)) by lia. done.
Qed.
Lemma digit_not_sign d : 0 ≤ d < 10 → (digit d =? "-")%char = false ∧ (digit d =? "+")%char = false.
Proof.
  intros Hd. assert (d = 0 ∨ d = 1 ∨ d = 2 ∨ d = 3 ∨ d = 4 ∨ d = 5 ∨ d = 6 ∨ d = 7 ∨ d = 8 ∨ d = 9) as Hc by lia.
  repeat (destruct Hc as [->|Hc]; [done|]). by subst d.
Qed.
Theorem Atoi_itoa n : in_int64 n → Atoi (itoa n) = Some n.
Proof.
  intros Hn. unfold in_int64 in Hn. unfold itoa, Atoi. destruct (n <? 0) eqn:E.
  - change ("-" =? "-")%char with true. cbv iota.
    destruct (udigits_spec (S (Z.to_nat (Z.log2 (- n)))) (- n)) as (H1 & H2 & H3); [lia|apply udigits_log; lia|].
    destruct (udigits (S (Z.to_nat (Z.log2 (- n)))) (- n)) as [|c l]; [by destruct H3|]. rewrite H1.
    replace (- - n) with n by lia. by replace ((minInt64 <=? n) && (n <=? maxInt64)) with true by lia.
  - destruct (udigits_spec (S (Z.to_nat (Z.log2 n))) n) as (H1 & H2 & H3); [lia|apply udigits_log; lia|].
    destruct (udigits (S (Z.to_nat (Z.log2 n))) n) as [|c l]; [by destruct H3|].
    apply Forall_cons in H2 as [(d & Hd & ->) _]. destruct (digit_not_sign d Hd) as [-> ->]. rewrite H1.
    by replace ((minInt64 <=? n) && (n <=? maxInt64)) with true by lia.
Qed.
Lemma digit_plain d : 0 ≤ d < 10 → digit d ≠ CR ∧ digit d ≠ LF.
Proof.
  intros Hd. assert (d = 0 ∨ d = 1 ∨ d = 2 ∨ d = 3 ∨ d = 4 ∨ d = 5 ∨ d = 6 ∨ d = 7 ∨ d = 8 ∨ d = 9) as Hc by lia.
  repeat (destruct Hc as [->|Hc]; [done|]). by subst d.
Qed.
Lemma itoa_plain n : Forall (λ c, c ≠ CR ∧ c ≠ LF) (itoa n).
Proof.
  unfold itoa. assert (Hu : ∀ z, 0 ≤ z → Forall (λ c, c ≠ CR ∧ c ≠ LF) (udigits (S (Z.to_nat (Z.log2 z))) z)).
  { intros z Hz. destruct (udigits_spec (S (Z.to_nat (Z.log2 z))) z) as (_ & H2 & _); [done|by apply udigits_log|].
    eapply Forall_impl; [exact H2|]. intros c (d & Hd & ->). by apply digit_plain. }
  destruct (n <? 0) eqn:E; [constructor; [done|]|]; apply Hu; lia.
Qed.
Lemma itoa_nonempty n : itoa n ≠ [].
Proof.
  unfold itoa. destruct (n <? 0) eqn:E; [done|].
  destruct (udigits_spec (S (Z.to_nat (Z.log2 n))) n) as (_ & _ & H3); [lia|apply udigits_log; lia|]. by apply H3.
Qed.
Example itoa_ex : itoa (-1205) = B "-1205" ∧ itoa 0 = B "0" ∧ Atoi (B "+7") = Some 7 ∧ Atoi (B "-") = None ∧
  Atoi (B "9223372036854775808") = None ∧ Atoi (B "-9223372036854775808") = Some (-2^63) ∧ Atoi (B "1_0") = None.
Proof. vm_compute. repeat split. Qed.
