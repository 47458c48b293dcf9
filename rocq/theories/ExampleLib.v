(** A concrete instance of the library parameters, used by examples and
    counterexamples only.  It agrees with Go on the inputs that occur there: ASCII
    command names, whole-number scores and "nan", patterns without metacharacters,
    and "(", which does not compile. *)
From Verif Require Import Base Float Strconv ServerModel CommandModel SystemModel.
From Coq Require Import SpecFloat.

Definition lower_char (c : ascii) : ascii :=
  let n := N_of_ascii c in if (65 <=? n)%N && (n <=? 90)%N then ascii_of_N (n + 32) else c.
Definition lower0 (s : bytes) : bytes := map lower_char s.
(** strconv.Quote on the characters that matter here *)
Definition quote0 (s : bytes) : bytes :=
  """"%char :: concat (map (λ c, if (c =? CR)%char then B "\r" else if (c =? LF)%char then B "\n" else [c]) s) ++ B """".
Definition parse_float0 (s : bytes) : option float :=
  if decide (lower0 s = B "nan") then Some S754_nan else of_Z <$> Atoi s.
Definition format_float0 (f : float) : bytes :=
  match f with
  | S754_zero false => B "0"
  | S754_zero true => B "-0"
  | S754_infinity false => B "+Inf"
  | S754_infinity true => B "-Inf"
  | S754_nan => B "NaN"
  | S754_finite s m e =>
      let v := if 0 <=? e then Z.pos m * 2 ^ e else Z.pos m / 2 ^ (- e) in
      itoa (if s then - v else v)
  end.
Definition num_error0 (f a : bytes) : bytes :=
  B "strconv." ++ f ++ B ": parsing " ++ quote0 a ++ B ": invalid syntax".
Fixpoint occurs0 (p s : bytes) : bool :=
  bool_decide (p `prefix_of` s) || match s with [] => false | _ :: s => occurs0 p s end.
Definition regexp0 (p : bytes) : option (bytes → bool) := if decide (p = B "(") then None else Some (occurs0 p).
Definition regexp_error0 (p : bytes) : bytes := B "error parsing regexp: missing closing ): `" ++ p ++ B "`".
Definition lib0 : lib :=
  Lib lower0 (λ a, bool_decide (lower0 a = B "withscores")) parse_float0 format_float0 num_error0 regexp0 regexp_error0.

(** configurations: no password; with the password "pw"; without a log *)
Definition cf0 : config := Cfg lib0 [] true 16.
Definition cf_pw : config := Cfg lib0 (B "pw") true 16.
Definition cf_nolog : config := Cfg lib0 [] false 16.

(** the words of a text, separated by single blanks *)
Fixpoint words_ (w : bytes) (s : bytes) : list bytes :=
  match s with
  | [] => [rev w]
  | c :: s => if (c =? " ")%char then rev w :: words_ [] s else words_ (c :: w) s
  end.
Definition words (s : String.string) : list bytes := words_ [] (B s).
Global Arguments words s%string.

(** client [i] sends the words of a text at time [now] (ms) *)
Definition cmd (i : nat) (now : Z) (s : String.string) : event := EvCommand i (words s) now (now / 1000)
  [65535; 65534; 65533; 65532; 65531; 65530; 65529; 65528; 65527; 65526; 65525; 65524].
Global Arguments cmd i%nat now%Z s%string.

(** a check for [history_ok] *)
Definition record_check (cf : config) (args : list bytes) : bool :=
  match args !! 0%nat with
  | Some a => match lookupCommand (env_at cf 0 0) (lib_lower (cf_lib cf) a) with Some cmd => negb (bad_arity (cmd_arity cmd) args) | None => true end
  | None => true
  end.
Definition event_check (cf : config) (e : event) : bool :=
  match e with
  | EvCommand _ args _ _ rs => negb (zlen args =? 0) && forallb (λ r, 0 <=? r) rs
  | EvCron _ rs => forallb (λ r, 0 <=? r) rs
  | EvBoot file _ rs => forallb (record_check cf) (records file) && forallb (λ r, 0 <=? r) rs
  | _ => true
  end.
Definition history_check (cf : config) (evs : list event) : bool :=
  forallb (event_check cf) evs && (0 <? cf_dbs cf)%nat && (Z.of_nat (total evs) <? 2 ^ 42).
Lemma event_check_ok cf e : event_check cf e = true → event_ok cf e.
Proof.
  assert (Hrs : ∀ rs, forallb (λ r, 0 <=? r) rs = true → Forall (λ r, 0 ≤ r) rs).
  { intros rs Hr. apply Is_true_true, forallb_True in Hr. eapply Forall_impl; [exact Hr|]. intros ? ?%Is_true_true. lia. }
  intros Hx. destruct e; simpl in *; try done.
  - apply andb_true_iff in Hx as [Hx Hy]. split; [|by apply Hrs]. by intros ->.
  - by apply Hrs.
  - apply andb_true_iff in Hx as [Hx Hy]. split; [|by apply Hrs]. apply Is_true_true, forallb_True in Hx. eapply Forall_impl; [exact Hx|].
    intros args Ha%Is_true_true a cmd Hl Hc. unfold record_check in Ha. rewrite Hl, Hc in Ha. by apply negb_true_iff.
Qed.
Lemma history_check_ok cf evs : history_check cf evs = true → history_ok cf evs.
Proof.
  intros [[H H2]%andb_true_iff Hn]%andb_true_iff.
  split; [|split; [by apply Nat.ltb_lt|by apply Z.ltb_lt]].
  apply forallb_True in H || apply Is_true_true, forallb_True in H. eapply Forall_impl; [exact H|].
  intros e Hx%Is_true_true. by apply event_check_ok.
Qed.
