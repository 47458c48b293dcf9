(** Consequences of the refinement for one command in a reachable state, in the
    form used by the properties. *)
From Verif Require Import Base Float DictModel DictProofs DictProofs2
  DatabaseModel SetModel QuicklistModel QuicklistProofs SkiplistModel ZsetModel
  Strconv RespSpec ServerModel CommandModel CommandSem CommandInv CommandInv2 CommandProofs1 CommandProofs2
  CommandTop CommandFrame SystemModel SystemProofs.
From Coq Require Import ZifyBool ZifyNat.

Definition special (name : bytes) : Prop := name = B "select" ∨ name = B "auth" ∨ name = B "bgrewriteaof".
Lemma semTable_special E name R : (name, R) ∈ semTable E → ¬ special name.
Proof.
  intros Hin.
  assert (Forall (λ n, ¬ special n) (semTable E).*1) as HF.
  { simpl. unfold special. repeat (apply Forall_cons; split; [intros [?|[?|?]]; done|]). by apply Forall_nil. }
  rewrite Forall_forall in HF. apply HF. apply elem_of_list_fmap. by exists (name, R).
Qed.
Lemma sem_not_special E name args D o : sem E name args D o → ¬ special name.
Proof. intros (R & HR & _). by eapply semTable_special. Qed.

(** the data command [name] was run *)
Definition permitted (E : env) (v : view) (name : bytes) : Prop := e_password E = [] ∨ v_auth v = true ∨ name = B "auth".
Lemma top_data_inv E a l task v o ar :
  let name := lib_lower (e_lib E) a in
  (name, ar) ∈ arities → accepts ar (zlen (a :: l)) → permitted E v name → ¬ special name →
  top E (a :: l) task v o → ∃ D ro, v_dbs v !! v_db v = Some D ∧ sem E name (a :: l) D ro ∧ o = on_view v ro.
Proof.
  intros name Har Hacc Hperm Hsp Ht. unfold name in *. clear name.
  assert (Hal : ∀ n, allowed E (a :: l) v n → n = lib_lower (e_lib E) a).
  { intros n ((a' & l' & ar' & [= <- <-] & -> & _) & _). done. }
  inversion Ht; subst.
  - match goal with H : _ :: _ = _ :: _ |- _ => injection H as <- <- end. by edestruct H0.
  - match goal with H : _ :: _ = _ :: _ |- _ => injection H as <- <- end.
    by rewrite (arities_fun _ _ _ Har H0) in Hacc.
  - match goal with H : _ :: _ = _ :: _ |- _ => injection H as <- <- end.
    unfold permitted in Hperm; destruct Hperm as [?|[?|?]]; by congruence.
  - apply Hal in H as ->. by eauto.
  - apply Hal in H as H'. exfalso. apply Hsp. left. congruence.
  - apply Hal in H as H'. exfalso. apply Hsp. left. congruence.
  - apply Hal in H as H'. exfalso. apply Hsp. left. congruence.
  - apply Hal in H as H'. exfalso. apply Hsp. left. congruence.
  - apply Hal in H as H'. exfalso. apply Hsp. right; left. congruence.
  - apply Hal in H as H'. exfalso. apply Hsp. right; left. congruence.
  - apply Hal in H as H'. exfalso. apply Hsp. right; right. congruence.
Qed.

(** What a command did that returned: the view before and after, the reply, the
    number of changes counted, the log *)
Record did (cf : config) (E : env) (i : nat) (c : client) (args : list bytes) (y y' : sys) (v' : view) (r : reply) (n : Z) : Prop := {
  di_top : top E args (s_task (y_srv y)) (view_at y c) (Ok (v', r, n));
  di_client : ∃ c', y_cls y' = <[i := c']> (y_cls y) ∧ view_at y' c' = v' ∧
                mjoin (c_out c') = mjoin (c_out c) ++ enc r;
  di_dirty : s_dirty (y_srv y') = s_dirty (y_srv y) + n;
  di_log : if cf_aof cf && negb (n =? 0)
           then ∃ a t, args !! 0%nat = Some a ∧ log_text E (lib_lower (cf_lib cf) a) args = Some t ∧
                  lst (y_srv y') = log_add (s_task (y_srv y)) (v_db v') t (lst (y_srv y))
           else lst (y_srv y') = lst (y_srv y);
  di_file : y_file y' = y_file y
}.
Lemma command_did cf evs y i c args now unix rs :
  let E := env_at cf now unix in
  reaches cf evs y → y_cls y !! i = Some c → cmd_ok cf evs args rs →
  ∃ o, top E args (s_task (y_srv y)) (view_at y c) o ∧
    match o with
    | Ok (v', r, n) => ∃ y', step cf (EvCommand i args now unix rs) y = Ok y' ∧ did cf E i c args y y' v' r n
    | Panic => step cf (EvCommand i args now unix rs) y = Panic
    | OutOfFuel => step cf (EvCommand i args now unix rs) y = OutOfFuel
    end.
Proof.
  intros E Hr Hc Hok. destruct (command_top cf evs y i c args now unix rs Hr Hc Hok) as (o & Ht & HT).
  exists o. split; [done|]. cbn [step]. rewrite Hc. fold E in HT |- *.
  destruct o as [[[v' r] n]| |]; simpl in HT.
  - destruct HT as (w' & Er & Hw & Hv & Hout & Hd & Hl & _). rewrite Er. cbn. eexists. split; [done|].
    split; try done. exists (w_cl w'). split; [done|]. split; [exact Hv|done].
  - by rewrite HT.
  - by rewrite HT.
Qed.
Lemma command_step cf evs y i c args now unix rs y' :
  reaches cf evs y → y_cls y !! i = Some c → cmd_ok cf evs args rs →
  step cf (EvCommand i args now unix rs) y = Ok y' → ∃ v' r n, did cf (env_at cf now unix) i c args y y' v' r n.
Proof.
  intros Hr Hc Hok HS. destruct (command_did cf evs y i c args now unix rs Hr Hc Hok) as (o & Ht & HT).
  destruct o as [[[v' r] n]| |]; [|congruence..]. destruct HT as (y1 & HS1 & HD).
  assert (y1 = y') as -> by congruence. eauto.
Qed.

(** the command reached its handler: known name, right number of arguments, permitted *)
Definition runs (cf : config) (c : client) (name : bytes) (args : list bytes) : Prop :=
  ∃ a l ar, args = a :: l ∧ lib_lower (cf_lib cf) a = name ∧ (name, ar) ∈ arities ∧ accepts ar (zlen args) ∧
    (cf_password cf = [] ∨ c_auth c = true ∨ name = B "auth").
(** a data command that ran: its database and its outcome *)
Lemma data_did cf evs y i c args now unix rs name :
  let E := env_at cf now unix in
  reaches cf evs y → y_cls y !! i = Some c → cmd_ok cf evs args rs → runs cf c name args → ¬ special name →
  ∃ D ro, abs_dbs (y_srv y) !! c_db c = Some D ∧ sem E name args D ro ∧
    match ro with
    | Ok (Out D' r n) => ∃ y', step cf (EvCommand i args now unix rs) y = Ok y' ∧
        did cf E i c args y y' (V (<[c_db c := D']> (abs_dbs (y_srv y))) (c_db c) (c_auth c)) r n
    | Panic => step cf (EvCommand i args now unix rs) y = Panic
    | OutOfFuel => step cf (EvCommand i args now unix rs) y = OutOfFuel
    end.
Proof.
  intros E Hr Hc Hok (a & l & ar & -> & Hn & Har & Hacc & Hperm) Hsp.
  destruct (command_did cf evs y i c (a :: l) now unix rs Hr Hc Hok) as (o & Ht & HT). fold E in Ht, HT.
  destruct (top_data_inv E a l (s_task (y_srv y)) (view_at y c) o ar) as (D & ro & HD & Hs & ->); try done.
  { simpl. by rewrite Hn. }
  { simpl. rewrite Hn. done. }
  { simpl. by rewrite Hn. }
  simpl in Hs. rewrite Hn in Hs. exists D, ro. split; [done|]. split; [done|].
  destruct ro as [[D' r n]| |]; exact HT.
Qed.

Lemma did_dbs cf E i c args y y' v' r n : did cf E i c args y y' v' r n → abs_dbs (y_srv y') = v_dbs v'.
Proof. intros [_ (c' & _ & <- & _) _ _ _]. done. Qed.
Lemma did_client cf E i c args y y' v' r n : did cf E i c args y y' v' r n → y_cls y !! i = Some c →
  ∃ c', y_cls y' !! i = Some c' ∧ c_db c' = v_db v' ∧ c_auth c' = v_auth v' ∧ mjoin (c_out c') = mjoin (c_out c) ++ enc r.
Proof.
  intros [_ (c' & Hcl & <- & Hout) _ _ _] Hc. exists c'. rewrite Hcl.
  split; [apply list_lookup_insert; by eapply lookup_lt_Some|done].
Qed.
Lemma did_others cf E i c args y y' v' r n j : did cf E i c args y y' v' r n → j ≠ i → y_cls y' !! j = y_cls y !! j.
Proof. intros [_ (c' & -> & _) _ _ _] Hj. by rewrite list_lookup_insert_ne. Qed.

Lemma sem_inv E name (R : list bytes → adb → res outcome → Prop) args D o : (name, R) ∈ semTable E → sem E name args D o → R args D o.
Proof.
  intros HR (R' & HR' & H).
  assert (NoDup ((semTable E).*1)) as Hn.
  { change ((semTable E).*1) with (filter (λ n, n ≠ B "select" ∧ n ≠ B "auth" ∧ n ≠ B "bgrewriteaof") (arities.*1)).
    apply (bool_decide_unpack _). by vm_compute. }
  apply elem_of_list_lookup in HR as [i Hi]. apply elem_of_list_lookup in HR' as [j Hj].
  assert (i = j) as ->; [|congruence]. eapply NoDup_lookup; [exact Hn| |]; by rewrite list_lookup_fmap, ?Hi, ?Hj.
Qed.

(** ** Statements about one command *)
(** client [i] sends the command [name] in a reachable state, the command is known,
    has an accepted number of arguments and is permitted; [D] is the selected
    database of the client *)
Record ready (cf : config) (evs : list event) (y : sys) (i : nat) (c : client) (name : bytes) (args : list bytes) (rs : list Z) (D : adb) : Prop := {
  rd_reach : reaches cf evs y;
  rd_client : y_cls y !! i = Some c;
  rd_cmd : cmd_ok cf evs args rs;
  rd_runs : runs cf c name args;
  rd_db : abs_dbs (y_srv y) !! c_db c = Some D
}.
(** client [i] has received the reply [r]; its connection and the other clients are as before *)
Definition replied (y y' : sys) (i : nat) (c : client) (r : reply) : Prop :=
  ∃ c', y_cls y' = <[i := c']> (y_cls y) ∧ c_db c' = c_db c ∧ c_auth c' = c_auth c ∧
    mjoin (c_out c') = mjoin (c_out c) ++ enc r.
(** nothing is appended to the log *)
Definition not_logged (y y' : sys) : Prop :=
  s_aofbuf (y_srv y') = s_aofbuf (y_srv y) ∧ s_rwbuf (y_srv y') = s_rwbuf (y_srv y) ∧
  s_select (y_srv y') = s_select (y_srv y) ∧ y_file y' = y_file y.
(** the selected database is now [D'], the others are as before *)
Definition changed_to (y y' : sys) (c : client) (D' : adb) : Prop :=
  abs_dbs (y_srv y') = <[c_db c := D']> (abs_dbs (y_srv y)).

Lemma lst_not_logged y y' : lst (y_srv y') = lst (y_srv y) → y_file y' = y_file y → not_logged y y'.
Proof. unfold lst, not_logged. intros [= -> -> ->] ->. done. Qed.

Lemma data_step cf evs y i c name args now unix rs D y' :
  let E := env_at cf now unix in
  ready cf evs y i c name args rs D → ¬ special name →
  step cf (EvCommand i args now unix rs) y = Ok y' →
  ∃ D' r n, sem E name args D (Ok (Out D' r n)) ∧ changed_to y y' c D' ∧ replied y y' i c r ∧
    (n = 0 → not_logged y y') ∧
    did cf E i c args y y' (V (<[c_db c := D']> (abs_dbs (y_srv y))) (c_db c) (c_auth c)) r n.
Proof.
  intros E [Hr Hc Hok Hruns HD] Hsp HS.
  destruct (data_did cf evs y i c args now unix rs name Hr Hc Hok Hruns Hsp) as (D0 & ro & HD0 & Hs & HT).
  fold E in Hs, HT. rewrite HD in HD0. injection HD0 as <-.
  destruct ro as [[D' r n]| |]; [|congruence..]. destruct HT as (y1 & HS1 & Hd). rewrite HS in HS1. injection HS1 as <-.
  exists D', r, n. split; [done|]. split; [exact (did_dbs _ _ _ _ _ _ _ _ _ _ Hd)|].
  split; [|split; [|done]].
  - destruct Hd as [_ (c' & H1 & H2 & H3) _ _ _]. exists c'. injection H2 as H2 H4 H5. done.
  - intros ->. destruct Hd as [_ _ _ Hl Hf]. rewrite andb_false_r in Hl. by apply lst_not_logged.
Qed.
(** a command whose semantics has only one outcome *)
Lemma data_fun cf evs y i c name (R : list bytes → adb → res outcome → Prop) args now unix rs D D' r n :
  let E := env_at cf now unix in
  ready cf evs y i c name args rs D → ¬ special name → (name, R) ∈ semTable E →
  (∀ o, R args D o → o = Ok (Out D' r n)) →
  ∃ y', step cf (EvCommand i args now unix rs) y = Ok y' ∧ changed_to y y' c D' ∧ replied y y' i c r.
Proof.
  intros E H Hsp HR Hf. pose proof H as [Hr Hc Hok Hruns HD].
  destruct (data_did cf evs y i c args now unix rs name Hr Hc Hok Hruns Hsp) as (D0 & ro & HD0 & Hs & HT).
  fold E in Hs, HT. rewrite HD in HD0. injection HD0 as <-. pose proof (sem_inv _ _ _ _ _ _ HR Hs) as Ho.
  apply Hf in Ho as ->. destruct HT as (y' & HS & Hd). exists y'. split; [done|].
  destruct (data_step cf evs y i c name args now unix rs D y' H Hsp HS) as (D1 & r1 & n1 & Hs1 & H1 & H2 & _).
  pose proof (sem_inv _ _ _ _ _ _ HR Hs1) as Ho. apply Hf in Ho. injection Ho as -> -> ->. done.
Qed.
Lemma data_total cf evs y i c name (R : list bytes → adb → res outcome → Prop) args now unix rs D (P : adb → reply → Z → Prop) :
  let E := env_at cf now unix in
  ready cf evs y i c name args rs D → ¬ special name → (name, R) ∈ semTable E →
  (∀ o, R args D o → ∃ D' r n, o = Ok (Out D' r n) ∧ P D' r n) →
  ∃ y' D' r n, step cf (EvCommand i args now unix rs) y = Ok y' ∧ changed_to y y' c D' ∧ replied y y' i c r ∧
    (n = 0 → not_logged y y') ∧ P D' r n.
Proof.
  intros E H Hsp HR Hf. pose proof H as [Hr Hc Hok Hruns HD].
  destruct (data_did cf evs y i c args now unix rs name Hr Hc Hok Hruns Hsp) as (D0 & ro & HD0 & Hs & HT).
  fold E in Hs, HT. rewrite HD in HD0. injection HD0 as <-. pose proof (sem_inv _ _ _ _ _ _ HR Hs) as Ho.
  apply Hf in Ho as (D' & r & n & -> & HP). destruct HT as (y' & HS & Hd).
  destruct (data_step cf evs y i c name args now unix rs D y' H Hsp HS) as (D1 & r1 & n1 & Hs1 & H1 & H2 & H3 & _).
  pose proof (sem_inv _ _ _ _ _ _ HR Hs1) as Ho. apply Hf in Ho as (D2 & r2 & n2 & [= <- <- <-] & HP').
  exists y', D1, r1, n1. done.
Qed.
(** different kinds of replies are different on the wire *)
Lemma enc_error r s : enc r = enc (RError s) → is_error r.
Proof. by destruct r. Qed.
Lemma replied_error y y' i c r s : y_cls y !! i = Some c → replied y y' i c r → replied y y' i c (RError s) → is_error r.
Proof.
  intros Hc (c1 & H1 & _ & _ & H2) (c2 & H3 & _ & _ & H4). rewrite H1 in H3.
  assert (c1 = c2) as ->.
  { apply (f_equal (λ l, l !! i)) in H3. rewrite !list_lookup_insert in H3 by (by eapply lookup_lt_Some). by injection H3. }
  rewrite H2 in H4. apply app_inv_head in H4. by eapply enc_error.
Qed.
