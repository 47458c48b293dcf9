(** Checks for concrete instances of the hypotheses of theorems about commands; used by
    examples and counterexamples only. *)
From Verif Require Import Base Strconv RespSpec ServerModel CommandModel CommandSem CommandInv CommandTop SystemModel SystemProofs CommandFacts ExampleLib PropsCommand.
From Coq Require Import ZifyBool ZifyNat.

Global Instance client_eq_dec : EqDecision client. Proof. solve_decision. Defined.
Definition state_of (cf : config) (evs : list event) : sys := match run cf evs (init_sys cf) with Ok y => y | _ => init_sys cf end.
Definition runs_check (cf : config) (evs : list event) : bool := match run cf evs (init_sys cf) with Ok _ => true | _ => false end.
Definition who (y : sys) (i : nat) : client := default NewClient (y_cls y !! i).
Definition db_of (y : sys) (i : nat) : adb := default empty_db (abs_dbs (y_srv y) !! c_db (who y i)).
Lemma state_of_reaches cf evs : history_check cf evs = true → runs_check cf evs = true → reaches cf evs (state_of cf evs).
Proof. intros H1 H2. split; [by apply history_check_ok|]. unfold state_of, runs_check in *. by destruct (run cf evs (init_sys cf)). Qed.

Definition accepts_check (arity n : Z) : bool := if 0 <? arity then n =? arity else - arity <=? n.
Definition ready_check (cf : config) (evs : list event) (i : nat) (name : bytes) (args : list bytes) (rs : list Z) : bool :=
  history_check cf evs && runs_check cf evs &&
  (let y := state_of cf evs in
   match y_cls y !! i with
   | Some c => match abs_dbs (y_srv y) !! c_db c with Some _ => true | None => false end &&
      (bool_decide (cf_password cf = []) || c_auth c || bool_decide (name = B "auth"))
   | None => false
   end) &&
  (match args with
   | a :: _ => bool_decide (lib_lower (cf_lib cf) a = name)
   | [] => false
   end) &&
  existsb (λ p, bool_decide (p.1 = name) && accepts_check p.2 (zlen args)) arities &&
  forallb (λ r, 0 <=? r) rs && (Z.of_nat (total evs + length args) <? 2 ^ 42).
Lemma ready_at cf evs i name args rs : ready_check cf evs i name args rs = true →
  ready cf evs (state_of cf evs) i (who (state_of cf evs) i) name args rs (db_of (state_of cf evs) i).
Proof.
  unfold ready_check. rewrite !andb_true_iff. intros ((((((H1 & H2) & H3) & H4) & H5) & H6) & H7).
  assert (Hc : ∃ c D, y_cls (state_of cf evs) !! i = Some c ∧ abs_dbs (y_srv (state_of cf evs)) !! c_db c = Some D ∧
    (cf_password cf = [] ∨ c_auth c = true ∨ name = B "auth")).
  { cbn zeta in H3. destruct (y_cls (state_of cf evs) !! i) as [c|]; [|done]. apply andb_true_iff in H3 as [H3 H3'].
    destruct (abs_dbs (y_srv (state_of cf evs)) !! c_db c) as [D|] eqn:ED; [|done]. exists c, D. split_and!; [done..|].
    apply orb_true_iff in H3' as [[H|H]%orb_true_iff|H]; [left; by apply bool_decide_eq_true in H|by auto|right; right; by apply bool_decide_eq_true in H]. }
  destruct Hc as (c & D & Hc & HD & Hau). unfold db_of, who. rewrite Hc. cbn [default from_option id]. rewrite HD. cbn [default from_option id].
  destruct args as [|a args]; [done|]. apply bool_decide_eq_true in H4.
  split.
  - by apply state_of_reaches.
  - done.
  - split; [done|]. split; [|by apply Z.ltb_lt]. apply Is_true_true, forallb_True in H6. eapply Forall_impl; [exact H6|]. intros ? ?%Is_true_true. lia.
  - apply existsb_exists in H5 as ([n ar] & Hin & [Hn Ha]%andb_true_iff). cbn [fst snd] in Hn, Ha. apply bool_decide_eq_true in Hn as ->.
    exists a, args, ar. split_and!; [done|done|by apply elem_of_list_In| |done]. unfold accepts, accepts_check in *. clear -Ha. destruct (decide (0 < ar)).
    + destruct (0 <? ar) eqn:?; lia.
    + destruct (0 <? ar) eqn:?; lia.
  - done.
Qed.
(** client [i] receives [r] *)
Definition replied_check (y y' : sys) (i : nat) (r : reply) : bool :=
  match y_cls y !! i, y_cls y' !! i with
  | Some c, Some c' => bool_decide (y_cls y' = <[i := c']> (y_cls y)) && bool_decide (c_db c' = c_db c) && bool_decide (c_auth c' = c_auth c) &&
      bool_decide (mjoin (c_out c') = mjoin (c_out c) ++ enc r)
  | _, _ => false
  end.
Lemma replied_check_ok y y' i r : replied_check y y' i r = true → replied y y' i (who y i) r.
Proof.
  unfold replied_check, who. destruct (y_cls y !! i) as [c|]; [|done]. destruct (y_cls y' !! i) as [c'|]; [|done].
  rewrite !andb_true_iff, !bool_decide_eq_true. intros [[[H1 H2] H3] H4]. by exists c'.
Qed.
(** the next event happens; client [i] receives [r] *)
Definition next (cf : config) (e : event) (y : sys) : sys := match step cf e y with Ok y' => y' | _ => y end.
Definition steps_check (cf : config) (e : event) (y : sys) : bool := match step cf e y with Ok _ => true | _ => false end.
Lemma next_step cf e y : steps_check cf e y = true → step cf e y = Ok (next cf e y).
Proof. unfold steps_check, next. by destruct (step cf e y). Qed.
Definition panics_check (cf : config) (e : event) (y : sys) : bool := match step cf e y with Panic => true | _ => false end.
Lemma panics_step cf e y : panics_check cf e y = true → step cf e y = Panic.
Proof. unfold panics_check. by destruct (step cf e y). Qed.
(** every value of the data that a restart loads passes the test *)
Definition loaded_check (cf : config) (e : event) (y : sys) (good : aval → bool) : bool :=
  match step cf e y with
  | Ok y' => forallb (λ D : adb, forallb (λ p : bytes * aval, good p.2) (map_to_list (a_keys D))) (abs_dbs (y_srv y'))
  | _ => true
  end.
Lemma loaded_check_ok cf e y good y' : loaded_check cf e y good = true → step cf e y = Ok y' →
  Forall (λ D : adb, ∀ key v, a_keys D !! key = Some v → good v = true) (abs_dbs (y_srv y')).
Proof.
  unfold loaded_check. intros H HS. rewrite HS, forallb_forall in H. apply Forall_forall. intros D HD key v Hv. apply elem_of_list_In in HD.
  specialize (H _ HD). rewrite forallb_forall in H. apply (H (key, v)), elem_of_list_In, elem_of_map_to_list, Hv.
Qed.
