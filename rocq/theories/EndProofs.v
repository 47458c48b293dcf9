(** What a connection sends is what is executed for it. *)
From Verif Require Import Base Float DictModel DatabaseModel SetModel QuicklistModel SkiplistModel ZsetModel
  Strconv RespSpec RespModel RespProofs ServerModel CommandModel CommandInv CommandExt SystemModel SystemProofs EventModel PropsEvent PropsResp LoopModel LoopProofs PropsLoop.
From Coq Require Import ZifyBool ZifyNat.

(** * The bytes a connection sends *)
(** the read that an action consists of: of which client, with which result *)
Definition next_read (a : act) (l : lstate) : option (nat * read_result) :=
  match a, l_pc l with
  | AFile (FRead r _ _ _), PRun [] (fe :: _) => match handler_of (fe_data fe) with HRead i => Some (i, r) | _ => None end
  | _, _ => None
  end.
Definition read_by (i : nat) (o : option (nat * read_result)) : list read_result :=
  match o with Some (j, r) => if decide (j = i) then [r] else [] | None => [] end.
(** the results of all reads from client [i] *)
Fixpoint inbox (cf : lconfig) (i : nat) (acts : list act) (l : lstate) : list read_result :=
  match acts with
  | [] => []
  | a :: acts => read_by i (next_read a l) ++ match lstep cf a l with Ok l' => inbox cf i acts l' | _ => [] end
  end.
(** the requests executed for client [i] *)
Definition asked (i : nat) (t : list obs) : list (list bytes) := (answers i t).*1.

Lemma answers_app i t t' : answers i (t ++ t') = answers i t ++ answers i t'.
Proof. induction t as [|o t IH]; [done|]. destruct o; simpl; rewrite ?IH, ?app_assoc; done. Qed.
Lemma asked_app i t t' : asked i (t ++ t') = asked i t ++ asked i t'.
Proof. unfold asked. by rewrite answers_app, fmap_app. Qed.
Lemma lrun_snoc cf acts a l : lrun cf (acts ++ [a]) l = (l' ← lrun cf acts l; lstep cf a l').
Proof.
  revert l. induction acts as [|b acts IH]; intros l; cbn [lrun app].
  - cbn [mbind res_bind]. by destruct (lstep cf a l).
  - destruct (lstep cf b l) as [l1| |]; [|done..]. cbn [mbind res_bind]. apply IH.
Qed.
Lemma inbox_snoc cf i acts a l l' : lrun cf acts l = Ok l' → inbox cf i (acts ++ [a]) l = inbox cf i acts l ++ read_by i (next_read a l').
Proof.
  revert l. induction acts as [|b acts IH]; intros l; cbn [lrun app inbox].
  - intros [= ->]. by destruct (lstep cf a l'); rewrite ?app_nil_r.
  - destruct (lstep cf b l) as [l1| |]; [|done..]. cbn [mbind res_bind]. intros H. by rewrite (IH _ H), app_assoc.
Qed.

(** * Actions other than reads *)
Definition no_cmd (o : obs) : Prop := match o with OCmd _ _ _ _ => False | _ => True end.
Lemma no_cmd_asked os i : Forall no_cmd os → asked i os = [].
Proof. induction 1 as [|o os Ho _ IH]; [done|]. by destruct o. Qed.
Definition nets_ok (l l' : lstate) : Prop := ∀ j,
  n_parser <$> l_net l' !! j = n_parser <$> l_net l !! j ∨ (l_net l !! j = None ∧ n_parser <$> l_net l' !! j = Some RespModel.NewClient).
Definition other (l l' : lstate) : Prop := (∃ os, l_trace l' = l_trace l ++ os ∧ Forall no_cmd os) ∧ nets_ok l l'.
Lemma nets_refl l l' : l_net l' = l_net l → nets_ok l l'.
Proof. intros H j. left. by rewrite H. Qed.
Lemma nets_trans l1 l2 l3 : nets_ok l1 l2 → nets_ok l2 l3 → nets_ok l1 l3.
Proof.
  intros H1 H2 j. destruct (H1 j) as [E1|[E1 E1']], (H2 j) as [E2|[E2 E2']].
  - left. congruence.
  - right. split; [|done]. rewrite E2 in E1. by destruct (l_net l1 !! j).
  - right. split; [done|]. congruence.
  - by rewrite E2 in E1'.
Qed.
Lemma other_same l l' : l_net l' = l_net l → l_trace l' = l_trace l → other l l'.
Proof. intros H1 H2. split; [|by apply nets_refl]. exists []. rewrite app_nil_r. split; [done|by apply Forall_nil_2]. Qed.
Lemma other_see l l' o : l_net l' = l_net l → l_trace l' = l_trace l ++ [o] → no_cmd o → other l l'.
Proof. intros H1 H2 H3. split; [|by apply nets_refl]. exists [o]. split; [done|by apply Forall_singleton]. Qed.
Lemma other_trans l1 l2 l3 : other l1 l2 → other l2 l3 → other l1 l3.
Proof.
  intros [(os & H1 & H2) H3] [(os' & G1 & G2) G3]. split; [|by eapply nets_trans]. exists (os ++ os'). rewrite G1, H1, app_assoc. split; [done|by apply Forall_app].
Qed.
Lemma free_other i fd l : other l (free i fd l).
Proof.
  unfold free. destruct (RemoveFileEvent _ _ _ _) as [[el k] ok]. destruct (RemoveFileEvent _ _ el k) as [[el' k'] ok']. by eapply other_see.
Qed.
Lemma note_other l l1 : other l1 (note_rewrite l l1).
Proof. unfold note_rewrite. destruct (_ && _); [by eapply other_see|by apply other_same]. Qed.
Lemma cron_other cf now rs l l' : serverCron cf now rs l = Ok l' → other l l'.
Proof.
  unfold serverCron, do_sys. destruct (step _ (EvCron now rs) _) as [y| |]; [|done..]. cbn [mbind res_bind]. set (l1 := set_sys l y _).
  assert (H1 : other l l1) by (by apply other_same). clearbody l1.
  destruct (if growth_check cf l1 then _ else _) as [l2| |] eqn:E2; [|done..]. cbn [mbind res_bind]. intros H.
  assert (H2 : other l1 l2).
  { destruct (growth_check cf l1); [|injection E2 as <-; by apply other_same]. unfold start_rewrite, do_sys in E2.
    destruct (step _ EvRewrite _) as [y2| |]; [|done..]. cbn [mbind res_bind] in E2. injection E2 as <-.
    eapply other_trans; [|apply note_other]. by apply other_same. }
  eapply other_trans; [done|]. eapply other_trans; [done|]. unfold done_callback in H. destruct (l_done l2) as [|d rest]; [injection H as <-; by apply other_same|].
  unfold do_sys in H. destruct (step _ (EvDone d) _) as [y2| |]; [|done..]. cbn [mbind res_bind] in H. injection H as <-. by eapply other_see.
Qed.
Lemma set_net_other l i n n' : l_net l !! i = Some n → n_parser n' = n_parser n → other l (set_net l i n').
Proof.
  intros H1 H2. split; [exists []; rewrite app_nil_r; split; [done|by apply Forall_nil_2]|]. intros j. left. cbn [set_net l_net].
  destruct (decide (j = i)) as [->|]; [|by rewrite list_lookup_insert_ne]. rewrite list_lookup_insert by (by eapply lookup_lt_Some). rewrite H1. simpl. by rewrite H2.
Qed.
Lemma send_other cf i ws : ∀ l l', sendHandler cf i ws l = Ok l' → other l l'.
Proof.
  induction ws as [|w ws IH]; intros l l'; cbn [sendHandler]; (destruct (l_net l !! i) as [n|] eqn:Hn; [|done]); destruct (queue_of l i) as [|b q];
    try (destruct (RemoveFileEvent _ _ _ _) as [[el k] ok]; intros [= <-]; by apply other_same); (destruct (n_sent n <? zlen b); [|done]); [done|].
  destruct (if decide _ then w else WError) as [m| |]; [|intros [= <-]; by apply other_same|intros [= <-]; apply free_other].
  destruct (_ && _); [|done]. set (l1 := see l _). assert (H1 : other l l1) by (by eapply other_see). assert (Hn1 : l_net l1 !! i = Some n) by done. clearbody l1.
  destruct (_ =? zlen b).
  - unfold do_sys. destruct (step _ _ _) as [y| |]; [|done..]. cbn [mbind res_bind]. intros H%IH. eapply other_trans; [done|]. eapply other_trans; [|exact H].
    apply (other_trans _ (set_net l1 i (Net (n_fd n) (n_parser n) 0))); [by eapply set_net_other|by apply other_same].
  - intros [= <-]. eapply other_trans; [done|]. by eapply set_net_other.
Qed.
Lemma accept_other cf a l l' : acceptTCPHandler cf a l = Ok l' → other l l'.
Proof.
  unfold acceptTCPHandler. destruct a as [|fd|fd]; [intros [= <-]; by apply other_same|destruct (decide _); [done|intros [= <-]; by apply other_same]|].
  destruct (decide _); [done|]. unfold do_sys. destruct (step _ EvConnect _) as [y| |]; [|done..]. cbn [mbind res_bind]. set (l1 := L _ _ _ _ _ _ _ _ _ _ _ _ _).
  assert (H1 : other l l1).
  { split; [eexists [_]; split; [reflexivity|by apply Forall_singleton]|]. intros j. cbn [l1 set_sys l_net]. destruct (decide (j < length (l_net l))%nat) as [Hj|Hj].
    - left. by rewrite lookup_app_l.
    - destruct (decide (j = length (l_net l))) as [->|].
      + right. split; [apply lookup_ge_None; lia|]. by rewrite list_lookup_middle.
      + left. rewrite !lookup_ge_None_2; [done|lia|rewrite app_length; simpl; lia]. }
  clearbody l1. destruct (AddFileEvent _ _ _ _ _) as [[el k] ok]. intros H. eapply other_trans; [exact H1|].
  destruct ok; injection H as <-; [by apply other_same|]. eapply other_trans; [|apply free_other]. by apply other_same.
Qed.
Lemma lstep_other cf a l l' : lstep cf a l = Ok l' → next_read a l = None → other l l'.
Proof.
  unfold next_read. destruct a as [|now rep| |now rs after|f| |d|]; cbn [lstep]; destruct (l_pc l) as [| |[|te tes] fes] eqn:Hpc; try done; intros H Hr;
    try (injection H as <-; by apply other_same);
    try (injection H as <-; by eapply other_see);
    try (destruct (l_bg l); [done|]; destruct (l_done l); [|done]; injection H as <-; by apply other_same).
  - unfold flush in H. destruct (bool_decide _); cbn [mbind res_bind] in H; [injection H as <-; by eapply other_see|]. unfold do_sys in H.
    destruct (step _ _ _) as [y| |]; [|done..]. cbn [mbind res_bind] in H. injection H as <-. by eapply other_see.
  - destruct (bool_decide _); [|done]. injection H as <-. by eapply other_see.
  - destruct (serverCron cf now rs l) as [l1| |] eqn:E1; [|done..]. cbn [mbind res_bind] in H. eapply other_trans; [by eapply cron_other|].
    destruct (te_once te); [destruct (RemoveTimeEvent _ _) as [el ok]|]; injection H as <-; by apply other_same.
  - destruct fes as [|fe fes]; [done|]. destruct f as [a|r now unix rs|ws]; destruct (handler_of (fe_data fe)); try done.
    + eapply other_trans; [|by eapply accept_other]. by apply other_same.
    + eapply other_trans; [|by eapply send_other]. by apply other_same.
  - destruct fes; [|done]. injection H as <-. by apply other_same.
Qed.

(** * Reads *)
Lemma exec_end cf i now unix rs l args l' failed : exec_command cf i now unix rs l args = Ok (l', failed) →
  (∀ j, asked j (l_trace l') = asked j (l_trace l) ++ (if decide (i = j) then [args] else [])) ∧ l_net l' = l_net l ∧ (∃ os, l_trace l' = l_trace l ++ os) ∧
  (failed = true → OStuck i ∈ l_trace l').
Proof.
  unfold exec_command. destruct (l_net l !! i) as [n|]; [|done]. unfold do_sys. destruct (step _ _ _) as [y| |]; [|done..]. cbn [mbind res_bind].
  set (l1 := note_rewrite l _).
  assert (H1 : l_net l1 = l_net l ∧ ∃ os, l_trace l1 = l_trace l ++ os ∧ Forall no_cmd os).
  { unfold l1, note_rewrite. destruct (_ && _); (split; [done|]); [by exists [ORewrite]; split; [|apply Forall_singleton]|].
    exists []. rewrite app_nil_r. by split; [|apply Forall_nil_2]. }
  clearbody l1. destruct H1 as (N1 & os & T1 & F1). set (r := drop _ _). set (g := drop _ (log_of l1)). clearbody r g. set (l2 := see l1 _).
  assert (H2 : ∀ j, asked j (l_trace l2) = asked j (l_trace l) ++ (if decide (i = j) then [args] else [])).
  { intros j. unfold l2. cbn [see l_trace]. rewrite T1, !asked_app, (no_cmd_asked os) by done. rewrite app_nil_r. f_equal. unfold asked. simpl.
    destruct (decide (i = j)); done. }
  assert (H3 : l_trace l2 = l_trace l ++ (os ++ [OCmd i args r g])) by (unfold l2; cbn [see l_trace]; by rewrite T1, app_assoc).
  assert (H4 : l_net l2 = l_net l) by done. clearbody l2. intros H.
  assert (Hok : ∀ l3 b, l_net l3 = l_net l2 → l_trace l3 = l_trace l2 → Ok (l3, false) = Ok (l', b) →
    (∀ j, asked j (l_trace l') = asked j (l_trace l) ++ (if decide (i = j) then [args] else [])) ∧ l_net l' = l_net l ∧ (∃ os, l_trace l' = l_trace l ++ os) ∧
    (b = true → OStuck i ∈ l_trace l')).
  { intros l3 b E1 E2 [= <- <-]. split_and!; [|by rewrite E1|rewrite E2; by eexists|done]. intros j. by rewrite E2. }
  destruct (_ && _); [|by apply (Hok l2 failed)]. destruct (AddFileEvent _ _ _ _ _) as [[el k] ok]. destruct ok; [by apply (Hok (set_loop l2 el k) failed)|].
  injection H as <- <-. cbn [see l_trace l_net]. split_and!; [|done|rewrite H3, <-app_assoc; by eexists|set_solver].
  intros j. rewrite asked_app, H2, (no_cmd_asked [OStuck i]) by (by apply Forall_singleton). by rewrite app_nil_r.
Qed.
Lemma loop_end cf i now unix rs fuel : ∀ c l c2 l' e, input_loop (exec_command cf i now unix rs) fuel c l = Ok (c2, l', e) → OStuck i ∉ l_trace l' →
  input_loop record fuel c (asked i (l_trace l)) = Ok (c2, asked i (l_trace l'), e) ∧
  (∀ j, j ≠ i → asked j (l_trace l') = asked j (l_trace l)) ∧ l_net l' = l_net l ∧ ∃ os, l_trace l' = l_trace l ++ os.
Proof.
  assert (Hnil : ∀ l : lstate, ∃ os, l_trace l = l_trace l ++ os) by (intros l; exists []; by rewrite app_nil_r).
  induction fuel as [|fuel IH]; intros c l c2 l' e; cbn [input_loop]; (destruct (q_len c >? 0); [|intros [= <- <- <-] _; by split_and!]); [done|].
  destruct (detect c) as [c1| |]; [|done..]. cbn [mbind res_bind]. destruct (dispatch c1) as [[c3 out]| |]; [|done..]. cbn [mbind res_bind].
  destruct out as [er|[]]; [intros [= <- <- <-] _; by split_and!| |intros [= <- <- <-] _; by split_and!].
  destruct (c_args c3) as [|a0 args]; [by apply IH|].
  destruct (exec_command cf i now unix rs l (a0 :: args)) as [[l1 failed]| |] eqn:E1; [|done..].
  destruct (exec_end _ _ _ _ _ _ _ _ _ E1) as (X1 & X2 & (os & X3) & X4). unfold record. cbn [mbind res_bind]. destruct failed.
  - intros [= <- <- <-] Hs. destruct Hs. by apply X4.
  - intros H Hs. destruct (IH _ _ _ _ _ H Hs) as (I1 & I2 & I3 & os' & I4). rewrite <-I1, X1, decide_True by done. split_and!; [done| |by rewrite I3|].
    + intros j Hj. rewrite (I2 j Hj), X1, decide_False by done. by rewrite app_nil_r.
    + exists (os ++ os'). by rewrite I4, X3, app_assoc.
Qed.

(** * All actions *)
Section ends.
  Context (cf : lconfig) (lfd : Z).
  Definition tracks (i : nat) (rs : list read_result) (l : lstate) : Prop :=
    match l_net l !! i with
    | Some n => ∃ k, reads record (Open RespModel.NewClient) rs [] = Ok (k, asked i (l_trace l)) ∧ (k = Open (n_parser n) ∨ OFree i ∈ l_trace l)
    | None => rs = [] ∧ asked i (l_trace l) = []
    end.
  Lemma tracks_other i rs l l' : tracks i rs l → other l l' → tracks i rs l'.
  Proof.
    unfold tracks. intros H [(os & T & F) N]. specialize (N i). rewrite T, asked_app, (no_cmd_asked os) by done. rewrite app_nil_r.
    destruct (l_net l !! i) as [n|] eqn:En, (l_net l' !! i) as [n'|] eqn:En'; simpl in N; try (destruct N as [N|[N1 N2]]; done).
    - destruct N as [[= N]|[? _]]; [|done]. destruct H as (k & H1 & H2). exists k. split; [done|]. rewrite N. set_solver.
    - destruct H as [-> H]. destruct N as [N|[_ [= N]]]; [done|]. rewrite H. exists (Open RespModel.NewClient). split; [done|]. left. by rewrite N.
  Qed.
  Lemma who_reads i l fe fes : linv cf lfd l → l_pc l = PRun [] (fe :: fes) → handler_of (fe_data fe) = HRead i → l_clients l !! fe_fd fe = Some i.
  Proof.
    intros [_ Hp] Hpc Hh. rewrite Hpc in Hp. destruct Hp as (_ & Hpe & _). destruct (Hpe 0%nat fe eq_refl) as (w & Hw & [Hwant|(_ & _ & j & Hd & _)]).
    - unfold want in Hwant. destruct (decide _).
      + destruct w; [done|]. injection Hwant as Hd. by rewrite <-Hd in Hh.
      + destruct (l_clients l !! fe_fd fe) as [j|]; [|done]. destruct w.
        * destruct (decide _); [done|]. injection Hwant as Hd. by rewrite <-Hd, handler_send in Hh.
        * injection Hwant as Hd. rewrite <-Hd, handler_read in Hh. by injection Hh as ->.
    - by rewrite Hd, handler_send in Hh.
  Qed.
  Lemma tracks_read i rs l l' fe fes r now unix rnd : linv cf lfd l → linv cf lfd l' →
    l_pc l = PRun [] (fe :: fes) → handler_of (fe_data fe) = HRead i → readHandler cf i r now unix rnd (set_pc l (PRun [] fes)) = Ok l' →
    (∀ j, tracks j (rs j) l) → tracks i (rs i ++ [r]) l' ∧ ∀ j, j ≠ i → tracks j (rs j) l'.
  Proof.
    intros Hinv Hinv' Hpc Hh Hrd Htr. pose proof (who_reads _ _ _ _ Hinv Hpc Hh) as Hcl. destruct Hinv as [Hb _], Hinv' as [Hb' _].
    destruct (lb_cli _ _ _ _ Hb _ _ Hcl) as [_ Hn]. unfold readHandler in Hrd. cbn [set_pc l_net] in Hrd.
    destruct (l_net l !! i) as [n|] eqn:En; [|done]. injection Hn as Hn. rewrite decide_True in Hrd.
    2: { cbn [set_pc l_kernel]. apply (lb_open _ _ _ _ Hb). right. rewrite Hn. by eexists. }
    assert (Hno : OFree i ∉ l_trace l) by (by apply (lb_conn _ _ _ _ Hb _ _) in Hcl as [_ ?]).
    pose proof (Htr i) as Hi. unfold tracks in Hi. rewrite En in Hi. destruct Hi as (k & R1 & [->|?]); [|done].
    assert (Hlt : (i < length (l_net l))%nat) by (by eapply lookup_lt_Some).
    set (l0 := set_pc l (PRun [] fes)) in *.
    (* what the execution leaves is told by the two parts of the result *)
    assert (Hkey : ∀ x, readQueryFromClient (exec_command cf i now unix rnd) (n_parser n) r l0 = Ok x → OStuck i ∉ l_trace x.2 →
      readQueryFromClient record (n_parser n) r (asked i (l_trace l)) = Ok (x.1, asked i (l_trace x.2)) ∧
      (∀ j, j ≠ i → asked j (l_trace x.2) = asked j (l_trace l)) ∧ l_net x.2 = l_net l ∧ ∃ os, l_trace x.2 = l_trace l ++ os).
    { assert (Hnil : ∃ os, l_trace l = l_trace l ++ os) by (exists []; by rewrite app_nil_r).
      intros x. unfold readQueryFromClient. destruct r as [[|b ch]| | |]; try (intros [= <-] _; by split_and!).
      destruct (fill _ _) as [c1|]; [|done]. unfold processInputBuffer.
      destruct (input_loop (exec_command cf i now unix rnd) 2 c1 l0) as [[[c2 l2] e]| |] eqn:E; [|done..]. cbn [mbind res_bind]. intros Hx Hs.
      assert (Hs2 : OStuck i ∉ l_trace l2) by (destruct e; by injection Hx as <-).
      destruct (loop_end _ _ _ _ _ _ _ _ _ _ _ E Hs2) as (I1 & I2 & I3 & I4). cbn [l0 set_pc l_trace] in I1. rewrite I1. cbn [mbind res_bind].
      destruct e; injection Hx as <-; by split_and!. }
    destruct (readQueryFromClient _ _ r l0) as [[c l2]| |] eqn:E; [|done..]. cbn [mbind res_bind fst snd] in Hrd. specialize (Hkey _ eq_refl). cbn [fst snd] in Hkey.
    pose proof (lb_stuck _ _ _ _ Hb' i) as Hst. destruct c as [p|]; injection Hrd as <-.
    - cbn [set_net l_trace] in Hst. destruct (Hkey Hst) as (K1 & K2 & K3 & os & K4). split.
      + unfold tracks. cbn [set_net l_net l_trace]. rewrite K3, list_lookup_insert by done. exists (Open p). split; [|by left].
        rewrite reads_concat, R1. cbn [mbind res_bind fst snd reads]. rewrite K1. done.
      + intros j Hj. pose proof (Htr j) as Hi. unfold tracks in *. cbn [set_net l_net l_trace]. rewrite K3, list_lookup_insert_ne by done. rewrite (K2 j Hj).
        destruct (l_net l !! j); [|done]. destruct Hi as (k & H1 & H2). exists k. split; [done|]. rewrite K4. set_solver.
    - destruct (free_other i (n_fd n) l2) as [(os2 & F1 & F2) _].
      assert (F3 : l_net (free i (n_fd n) l2) = l_net l2 ∧ OFree i ∈ l_trace (free i (n_fd n) l2)).
      { unfold free. destruct (RemoveFileEvent _ _ _ _) as [[el kk] ok]. destruct (RemoveFileEvent _ _ el kk) as [[el' kk'] ok']. cbn [see l_net l_trace set_loop set_clients]. set_solver. }
      destruct F3 as [F3 F4]. assert (Hst2 : OStuck i ∉ l_trace l2) by (rewrite F1 in Hst; set_solver).
      destruct (Hkey Hst2) as (K1 & K2 & K3 & os & K4). split.
      + unfold tracks. rewrite F3, K3, En. exists Closed. split; [|by right]. rewrite reads_concat, R1. cbn [mbind res_bind fst snd reads]. rewrite K1.
        cbn [mbind res_bind fst snd]. by rewrite F1, asked_app, (no_cmd_asked os2), app_nil_r.
      + intros j Hj. pose proof (Htr j) as Hi. unfold tracks in *. rewrite F3, K3, F1, asked_app, (no_cmd_asked os2), app_nil_r, (K2 j Hj) by done.
        destruct (l_net l !! j); [|done]. destruct Hi as (k & H1 & H2). exists k. split; [done|]. rewrite K4. set_solver.
  Qed.
  Theorem lreach_tracks now acts l : lreach cf lfd now acts l → ∀ i, tracks i (inbox cf i acts (linit cf lfd now)) l.
  Proof.
    revert l. induction acts as [|a acts IH] using rev_ind; intros l Hr.
    - destruct Hr as (_ & _ & _ & [= <-] & _). intros i. unfold tracks.
      assert (l_net (linit cf lfd now) = []) as ->. { unfold linit. by destruct (AddFileEvent _ _ _ _ _) as [[el k] ok]. }
      split; [done|]. apply no_cmd_asked, Forall_forall. intros o Ho. by apply linit_trace in Ho as [->|[f ->]].
    - pose proof (lreach_ok _ _ _ _ _ Hr) as Hinv'. destruct Hr as (H1 & H2 & Hbt & H3 & H4). rewrite lrun_snoc in H3.
      destruct (lrun cf acts (linit cf lfd now)) as [l0| |] eqn:E0; [|done..]. cbn [mbind res_bind] in H3.
      assert (Hr0 : lreach cf lfd now acts l0).
      { split_and!; [by apply Forall_app in H1 as [? _]|done|done|done|]. exact (small_back _ _ (lstep_prefix _ _ _ _ H3) H4). }
      specialize (IH _ Hr0). pose proof (lreach_ok _ _ _ _ _ Hr0) as Hinv. intros i. rewrite (inbox_snoc _ _ _ _ _ _ E0).
      destruct (next_read a l0) as [[j r]|] eqn:En; cbn [read_by].
      + unfold next_read in En. destruct a as [| | | |[|r' now' unix rnd|]| | |]; try done. destruct (l_pc l0) as [| |[|te tes] [|fe fes]] eqn:Hpc; try done.
        destruct (handler_of (fe_data fe)) as [|j'|] eqn:Hh; [done| |done]. injection En as -> ->. cbn [lstep] in H3. rewrite Hpc, Hh in H3.
        destruct (tracks_read j (λ j, inbox cf j acts (linit cf lfd now)) l0 l fe fes r now' unix rnd) as [T1 T2]; try done.
        destruct (decide (j = i)) as [->|]; [done|]. rewrite app_nil_r. by apply T2.
      + rewrite app_nil_r. eapply tracks_other; [apply IH|by eapply lstep_other].
  Qed.
End ends.

(** * Who is served *)
(** the client for which something is executed or to which something is written *)
Definition served (o : obs) : option nat := match o with OCmd i _ _ _ | OWrite i _ => Some i | _ => None end.
(** [i] alone is served, and as long as it is connected *)
Definition serves (i : nat) (l l' : lstate) : Prop := ∃ os1 os2, l_trace l' = l_trace l ++ os1 ++ os2 ∧
  Forall (λ o, (served o = None ∨ served o = Some i) ∧ o ≠ OFree i) os1 ∧ Forall (λ o, served o = None) os2.
Definition serves_on (i : nat) (l l' : lstate) : Prop := ∃ os1, l_trace l' = l_trace l ++ os1 ∧
  Forall (λ o, (served o = None ∨ served o = Some i) ∧ o ≠ OFree i) os1.
Definition quiet (l l' : lstate) : Prop := ∃ os, l_trace l' = l_trace l ++ os ∧ Forall (λ o, served o = None) os.
Lemma quiet_same l l' : l_trace l' = l_trace l → quiet l l'.
Proof. intros H. exists []. rewrite app_nil_r. split; [done|by apply Forall_nil_2]. Qed.
Lemma quiet_see l l' o : l_trace l' = l_trace l ++ [o] → served o = None → quiet l l'.
Proof. intros H1 H2. exists [o]. split; [done|by apply Forall_singleton]. Qed.
Lemma quiet_trans l1 l2 l3 : quiet l1 l2 → quiet l2 l3 → quiet l1 l3.
Proof. intros (os & H1 & H2) (os' & G1 & G2). exists (os ++ os'). rewrite G1, H1, app_assoc. split; [done|by apply Forall_app]. Qed.
Lemma on_same i l l' : l_trace l' = l_trace l → serves_on i l l'.
Proof. intros H. exists []. rewrite app_nil_r. split; [done|by apply Forall_nil_2]. Qed.
Lemma on_see i l l' o : l_trace l' = l_trace l ++ [o] → (served o = None ∨ served o = Some i) ∧ o ≠ OFree i → serves_on i l l'.
Proof. intros H1 H2. exists [o]. split; [done|by apply Forall_singleton]. Qed.
Lemma on_trans i l1 l2 l3 : serves_on i l1 l2 → serves_on i l2 l3 → serves_on i l1 l3.
Proof. intros (os & H1 & H2) (os' & G1 & G2). exists (os ++ os'). rewrite G1, H1, app_assoc. split; [done|by apply Forall_app]. Qed.
Lemma on_serves i l1 l2 l3 : serves_on i l1 l2 → quiet l2 l3 → serves i l1 l3.
Proof. intros (os & H1 & H2) (os' & G1 & G2). exists os, os'. rewrite G1, H1, app_assoc. done. Qed.
Lemma on_serve i l1 l2 l3 : serves_on i l1 l2 → serves i l2 l3 → serves i l1 l3.
Proof. intros (os & H1 & H2) (os1 & os2 & G1 & G2 & G3). exists (os ++ os1), os2. rewrite G1, H1, !app_assoc. split; [done|]. split; [by apply Forall_app|done]. Qed.
Lemma on_only i l1 l2 : serves_on i l1 l2 → serves i l1 l2.
Proof. intros H. eapply on_serves; [done|by apply quiet_same]. Qed.
Lemma quiet_serves i l l' : quiet l l' → serves i l l'.
Proof. intros H. eapply on_serves; [by apply on_same|done]. Qed.
Lemma free_quiet i fd l : quiet l (free i fd l).
Proof.
  unfold free. destruct (RemoveFileEvent _ _ _ _) as [[el k] ok]. destruct (RemoveFileEvent _ _ el k) as [[el' k'] ok']. by eapply quiet_see.
Qed.
Lemma note_quiet l l1 : quiet l1 (note_rewrite l l1) ∧ ∀ i, serves_on i l1 (note_rewrite l l1).
Proof. unfold note_rewrite. destruct (_ && _); (split; [|intros i]); [by eapply quiet_see|eapply on_see; [done|by split; [left|]]|by apply quiet_same|by apply on_same]. Qed.
Lemma exec_serves cf i now unix rs l args l' failed : exec_command cf i now unix rs l args = Ok (l', failed) → serves_on i l l'.
Proof.
  unfold exec_command. destruct (l_net l !! i) as [n|]; [|done]. unfold do_sys. destruct (step _ _ _) as [y| |]; [|done..]. cbn [mbind res_bind].
  set (l1 := note_rewrite l _). assert (H1 : serves_on i l l1).
  { unfold l1. eapply on_trans; [|apply note_quiet]. by apply on_same. }
  clearbody l1. set (r := drop _ _). set (g := drop _ (log_of l1)). clearbody r g. set (l2 := see l1 _).
  assert (H2 : serves_on i l l2). { eapply on_trans; [done|]. eapply on_see; [done|]. split; [by right|done]. }
  clearbody l2. destruct (_ && _); [|by intros [= <- <-]]. destruct (AddFileEvent _ _ _ _ _) as [[el k] ok]. destruct ok; intros [= <- <-].
  - eapply on_trans; [done|]. by apply on_same.
  - eapply on_trans; [done|]. eapply on_see; [done|]. split; [by left|done].
Qed.
Lemma loop_serves cf i now unix rs fuel : ∀ c l c2 l' e, input_loop (exec_command cf i now unix rs) fuel c l = Ok (c2, l', e) → serves_on i l l'.
Proof.
  induction fuel as [|fuel IH]; intros c l c2 l' e; cbn [input_loop]; (destruct (q_len c >? 0); [|intros [= <- <- <-]; by apply on_same]); [done|].
  destruct (detect c) as [c1| |]; [|done..]. cbn [mbind res_bind]. destruct (dispatch c1) as [[c3 out]| |]; [|done..]. cbn [mbind res_bind].
  destruct out as [er|[]]; [intros [= <- <- <-]; by apply on_same| |intros [= <- <- <-]; by apply on_same].
  destruct (c_args c3) as [|a0 args]; [by apply IH|].
  destruct (exec_command cf i now unix rs l (a0 :: args)) as [[l1 failed]| |] eqn:E1; [|done..]. apply exec_serves in E1. cbn [mbind res_bind].
  destruct failed; [by intros [= <- <- <-]|]. intros H%IH. by eapply on_trans.
Qed.
Lemma read_serves cf i r now unix rs l l' : readHandler cf i r now unix rs l = Ok l' → serves i l l'.
Proof.
  unfold readHandler. destruct (l_net l !! i) as [n|]; [|done]. generalize (if decide (n_fd n ∈ k_open (l_kernel l)) then r else RFail). clear r. intros r.
  destruct (readQueryFromClient _ _ r l) as [[c l2]| |] eqn:E; [|done..]. cbn [mbind res_bind fst snd].
  assert (H : serves_on i l l2).
  { unfold readQueryFromClient in E. destruct r as [[|b ch]| | |]; try (injection E as <- <-; by apply on_same). destruct (fill _ _) as [c1|]; [|done].
    unfold processInputBuffer in E. destruct (input_loop _ 2 c1 l) as [[[c2 l3] e]| |] eqn:E3; [|done..]. apply loop_serves in E3. cbn [mbind res_bind] in E.
    by destruct e; injection E as _ <-. }
  destruct c; intros [= <-]; eapply on_serves; [done|by apply quiet_same|done|apply free_quiet].
Qed.
Lemma send_serves cf i ws : ∀ l l', sendHandler cf i ws l = Ok l' → serves i l l'.
Proof.
  induction ws as [|w ws IH]; intros l l'; cbn [sendHandler]; (destruct (l_net l !! i) as [n|] eqn:Hn; [|done]); destruct (queue_of l i) as [|b q];
    try (destruct (RemoveFileEvent _ _ _ _) as [[el k] ok]; intros [= <-]; by apply quiet_serves, quiet_same); (destruct (n_sent n <? zlen b); [|done]); [done|].
  destruct (if decide _ then w else WError) as [m| |]; [|intros [= <-]; by apply quiet_serves, quiet_same|intros [= <-]; apply quiet_serves, free_quiet].
  destruct (_ && _); [|done]. set (l1 := see l _). assert (H1 : serves_on i l l1) by (eapply on_see; [done|split; [by right|done]]). clearbody l1.
  destruct (_ =? zlen b).
  - unfold do_sys. destruct (step _ _ _) as [y| |]; [|done..]. cbn [mbind res_bind]. intros H%IH. eapply on_serve; [|exact H].
    eapply on_trans; [done|]. by apply on_same.
  - intros [= <-]. apply on_only. eapply on_trans; [done|]. by apply on_same.
Qed.
Lemma send_closed cf i ws l l' n b q : l_net l !! i = Some n → queue_of l i = b :: q → n_fd n ∉ k_open (l_kernel l) → sendHandler cf i ws l = Ok l' → quiet l l'.
Proof.
  intros Hn Hq Hno. destruct ws as [|w ws]; cbn [sendHandler]; rewrite Hn, Hq; (destruct (n_sent n <? zlen b); [|done]); [done|]. rewrite decide_False by done.
  intros [= <-]. apply free_quiet.
Qed.
Lemma cron_quiet cf now rs l l' : serverCron cf now rs l = Ok l' → quiet l l'.
Proof.
  unfold serverCron, do_sys. destruct (step _ (EvCron now rs) _) as [y| |]; [|done..]. cbn [mbind res_bind]. set (l1 := set_sys l y _).
  assert (H1 : quiet l l1) by (by apply quiet_same). clearbody l1.
  destruct (if growth_check cf l1 then _ else _) as [l2| |] eqn:E2; [|done..]. cbn [mbind res_bind]. intros H.
  assert (H2 : quiet l1 l2).
  { destruct (growth_check cf l1); [|injection E2 as <-; by apply quiet_same]. unfold start_rewrite, do_sys in E2.
    destruct (step _ EvRewrite _) as [y2| |]; [|done..]. cbn [mbind res_bind] in E2. injection E2 as <-.
    eapply quiet_trans; [|apply note_quiet]. by apply quiet_same. }
  eapply quiet_trans; [done|]. eapply quiet_trans; [done|]. unfold done_callback in H. destruct (l_done l2) as [|d rest]; [injection H as <-; by apply quiet_same|].
  unfold do_sys in H. destruct (step _ (EvDone d) _) as [y2| |]; [|done..]. cbn [mbind res_bind] in H. injection H as <-. by eapply quiet_see.
Qed.
Lemma accept_quiet cf a l l' : acceptTCPHandler cf a l = Ok l' → quiet l l'.
Proof.
  unfold acceptTCPHandler. destruct a as [|fd|fd]; [intros [= <-]; by apply quiet_same|destruct (decide _); [done|intros [= <-]; by apply quiet_same]|].
  destruct (decide _); [done|]. unfold do_sys. destruct (step _ EvConnect _) as [y| |]; [|done..]. cbn [mbind res_bind]. set (l1 := L _ _ _ _ _ _ _ _ _ _ _ _ _).
  assert (H1 : quiet l l1) by (by eapply quiet_see).
  clearbody l1. destruct (AddFileEvent _ _ _ _ _) as [[el k] ok]. intros H. eapply quiet_trans; [exact H1|].
  destruct ok; injection H as <-; [by apply quiet_same|]. eapply quiet_trans; [|apply free_quiet]. by apply quiet_same.
Qed.
Section served.
  Context (cf : lconfig) (lfd : Z).
  Lemma step_serves a l l' : linv cf lfd l → lstep cf a l = Ok l' →
    quiet l l' ∨ ∃ i fd, l_clients l !! fd = Some i ∧ serves i l l'.
  Proof.
    intros Hinv. destruct a as [|now rep| |now rs after|f| |d|]; cbn [lstep]; destruct (l_pc l) as [| |[|te tes] fes] eqn:Hpc; try done; intros H;
      try (left; injection H as <-; by apply quiet_same);
      try (left; injection H as <-; by eapply quiet_see);
      try (left; destruct (l_bg l); [done|]; destruct (l_done l); [|done]; injection H as <-; by apply quiet_same).
    - left. unfold flush in H. destruct (bool_decide _); cbn [mbind res_bind] in H; [injection H as <-; by eapply quiet_see|]. unfold do_sys in H.
      destruct (step _ _ _) as [y| |]; [|done..]. cbn [mbind res_bind] in H. injection H as <-. by eapply quiet_see.
    - left. destruct (bool_decide _); [|done]. injection H as <-. by eapply quiet_see.
    - left. destruct (serverCron cf now rs l) as [l1| |] eqn:E1; [|done..]. cbn [mbind res_bind] in H. eapply quiet_trans; [by eapply cron_quiet|].
      destruct (te_once te); [destruct (RemoveTimeEvent _ _) as [el ok]|]; injection H as <-; by apply quiet_same.
    - destruct fes as [|fe fes]; [done|]. destruct f as [a|r now unix rs|ws]; destruct (handler_of (fe_data fe)) as [|i|i] eqn:Hh; try done.
      + left. eapply quiet_trans; [|by eapply accept_quiet]. by apply quiet_same.
      + right. exists i, (fe_fd fe). split; [by eapply who_reads|]. eapply on_serve; [|by eapply read_serves]. by apply on_same.
      + destruct Hinv as [Hb Hp]. rewrite Hpc in Hp. destruct Hp as (_ & Hpe & _).
        destruct (Hpe 0%nat fe eq_refl) as (w & Hw & [Hwant|(_ & _ & j & Hd & Hno & Hn & Hq)]).
        * right. exists i, (fe_fd fe). split; [|eapply on_serve; [|by eapply send_serves]; by apply on_same].
          unfold want in Hwant. destruct (decide _).
          -- destruct w; [done|]. injection Hwant as Hd. by rewrite <-Hd in Hh.
          -- destruct (l_clients l !! fe_fd fe) as [j|]; [|done]. destruct w.
             ++ destruct (decide _); [done|]. injection Hwant as Hd. rewrite <-Hd, handler_send in Hh. by injection Hh as ->.
             ++ injection Hwant as Hd. by rewrite <-Hd, handler_read in Hh.
        * left. rewrite Hd, handler_send in Hh. injection Hh as ->. destruct (l_net l !! i) as [n|] eqn:En; [|done]. injection Hn as Hn.
          destruct (queue_of l i) as [|b q] eqn:Eq; [done|]. eapply quiet_trans; [|eapply send_closed; [..|exact H]]; [by apply quiet_same|done|done|by rewrite Hn].
    - left. destruct fes; [|done]. injection H as <-. by apply quiet_same.
  Qed.
  (** whoever is served is connected at that moment *)
  Definition in_turn (t : list obs) : Prop := ∀ ta o tb i, t = ta ++ o :: tb → served o = Some i → (∃ fd, OConnect i fd ∈ ta) ∧ OFree i ∉ ta.
  Lemma in_turn_app t os : in_turn t → (∀ ta o tb i, os = ta ++ o :: tb → served o = Some i → (∃ fd, OConnect i fd ∈ t ++ ta) ∧ OFree i ∉ t ++ ta) → in_turn (t ++ os).
  Proof.
    intros H1 H2 ta o tb i Ht Hs. apply app_eq_inv in Ht as [(k & E1 & E2)|(k & E1 & E2)].
    - destruct k as [|o' k]; [|injection E2 as <- E2; subst t; by eapply (H1 ta)]. rewrite app_nil_r in E1. subst ta.
      destruct (H2 [] o tb i) as [G1 G2]; [done|done|]. by rewrite app_nil_r in G1, G2.
    - subst ta. by eapply H2.
  Qed.
  Lemma lreach_in_turn now acts l : lreach cf lfd now acts l → in_turn (l_trace l).
  Proof.
    revert l. induction acts as [|a acts IH] using rev_ind; intros l Hr.
    - destruct Hr as (_ & _ & _ & [= <-] & _). intros ta o tb i Ht. assert (Ho : o ∈ l_trace (linit cf lfd now)) by (rewrite Ht; set_solver).
      by apply linit_trace in Ho as [->|[f ->]].
    - destruct Hr as (H1 & H2 & Hbt & H3 & H4). rewrite lrun_snoc in H3.
      destruct (lrun cf acts (linit cf lfd now)) as [l0| |] eqn:E0; [|done..]. cbn [mbind res_bind] in H3.
      assert (Hr0 : lreach cf lfd now acts l0).
      { split_and!; [by apply Forall_app in H1 as [? _]|done|done|done|]. exact (small_back _ _ (lstep_prefix _ _ _ _ H3) H4). }
      specialize (IH _ Hr0). pose proof (lreach_ok _ _ _ _ _ Hr0) as Hinv.
      destruct (step_serves _ _ _ Hinv H3) as [(os & -> & Hq)|(i & fd & Hc & os1 & os2 & -> & S1 & S2)].
      + apply in_turn_app; [done|]. intros ta o tb j -> Hs. apply Forall_app in Hq as [_ Hq]. apply Forall_cons in Hq as [Hq _]. congruence.
      + destruct Hinv as [Hb _]. apply (lb_conn _ _ _ _ Hb) in Hc as [C1 C2]. apply in_turn_app; [done|]. intros ta o tb j Ht Hs.
        rewrite Forall_forall in S1, S2. apply app_eq_inv in Ht as [(k & E1 & E2)|(k & E1 & E2)].
        * destruct k as [|o' k]; [|injection E2 as <- E2].
          -- assert (Ho : o ∈ os2) by (simpl in E2; rewrite <-E2; left). apply S2 in Ho. congruence.
          -- assert (Ho : o ∈ os1) by (rewrite E1; set_solver). pose proof (S1 _ Ho) as [[Hx|Hx] _]; [congruence|]. assert (j = i) as -> by congruence.
             split; [exists fd; set_solver|]. intros [Hf|Hf]%elem_of_app; [done|]. assert (Hf' : OFree i ∈ os1) by (rewrite E1; set_solver). by apply S1 in Hf' as [_ ?].
        * assert (Ho : o ∈ os2) by (rewrite E2; set_solver). apply S2 in Ho. congruence.
  Qed.
End served.
