(** The loader executes the records of the file one after the other, and a server
    that has loaded a log satisfies the invariant. *)
From Verif Require Import Base Float DictModel DictProofs DictProofs2 DictProofs3 DictProofs4 DictRun DatabaseModel SetModel SetProofs QuicklistModel QuicklistProofs SkiplistModel ZsetModel
  Strconv RespSpec ServerModel CommandModel CommandSem CommandInv CommandInv2 CommandProofs1 CommandProofs2
  CommandTop SystemModel AofModel AofProofs1 AofProofs2.
From Coq Require Import ZifyBool ZifyNat.

(** * Records *)
Lemma read_arg_size r r' a : read_arg r = Ok (r', a) → (size_ r' < size_ r)%nat.
Proof.
  unfold read_arg. destruct (readLine_total r) as (r1 & o & -> & _ & H1). cbn [mbind res_bind fst snd].
  destruct o as [buf|]; [|done]. cbn [deref mbind res_bind]. assert (Hs : (size_ r1 < size_ r)%nat) by (apply H1; eauto). clear H1.
  destruct (number "$" buf) as [n| |]; [|done..]. cbn [mbind res_bind]. destruct (negb _); [done|].
  pose proof (Read_size (Z.to_nat n) r1) as H2. destruct (Read (Z.to_nat n) r1) as [r2 [g|]]; [|done].
  cbn [fst snd deref mbind res_bind] in *. pose proof (Read_size 2 r2) as H3. destruct (Read 2 r2) as [r3 [g'|]]; [|done].
  cbn [fst snd deref mbind res_bind] in *. intros [= <- _]. lia.
Qed.
Lemma read_args_size : ∀ n r r' l, read_args n r = Ok (r', l) → (size_ r' + length l ≤ size_ r)%nat.
Proof.
  induction n as [|n IH]; intros r r' l; cbn [read_args]; [intros [= <- <-]; simpl; lia|].
  destruct (read_arg r) as [[r1 a]| |] eqn:E1; [|done..]. cbn [mbind res_bind fst snd].
  destruct (read_args n r1) as [[r2 l2]| |] eqn:E2; [|done..]. cbn [mbind res_bind fst snd]. intros [= <- <-].
  apply IH in E2. apply read_arg_size in E1. cbn [length]. lia.
Qed.
Lemma read_command_size r r' l : read_command r = Ok (r', Some l) → (size_ r' + length l < size_ r)%nat.
Proof.
  unfold read_command. destruct (readLine_total r) as (r1 & o & -> & _ & H1). cbn [mbind res_bind fst snd].
  destruct o as [buf|]; [|done]. assert (Hs : (size_ r1 < size_ r)%nat) by (apply H1; eauto). clear H1.
  destruct (number "*" buf) as [n| |]; [|done..]. cbn [mbind res_bind]. destruct (negb _); [done|].
  destruct (read_args (Z.to_nat n) r1) as [[r2 l2]| |] eqn:E2; [|done..]. cbn [mbind res_bind fst snd]. intros [= <- <-].
  apply read_args_size in E2. lia.
Qed.
(** the loader has executed all records *)
Lemma load_records {S} (exec : nat → list bytes → S → res S) file s s' : load_file exec file s = (s', Ok tt) →
  replay exec 0 (records file) s = (s', Ok tt) ∧ (sum_list (length <$> records file) ≤ length file)%nat.
Proof.
  assert (H : ∀ fuel j r s, load_loop exec fuel j r s = (s', Ok tt) → ∃ cmds,
    (∀ j' acc, load_loop (λ _ args s, Ok (s ++ [args])) fuel j' r acc = (acc ++ cmds, Ok tt)) ∧
    replay exec j cmds s = (s', Ok tt) ∧ (sum_list (length <$> cmds) ≤ size_ r)%nat).
  { clear s. induction fuel as [|fuel IH]; intros j r s H; [done|]. rewrite load_loop_S in H.
    destruct (read_command r) as [[r1 [args|]]| |] eqn:E1; [| |done..].
    2:{ injection H as <-. exists []. split; [|split; [done|simpl; lia]]. intros j' acc. rewrite load_loop_S, E1, app_nil_r. done. }
    destruct (exec j args s) as [s1| |] eqn:E2; [|done..]. apply IH in H as (cmds & H1 & H2 & H3). exists (args :: cmds). split.
    { intros j' acc. rewrite load_loop_S, E1, H1, <-app_assoc. done. }
    split; [cbn [replay]; by rewrite E2|]. apply read_command_size in E1. cbn [fmap list_fmap sum_list sum_list_with] in *. simpl. lia. }
  unfold load_file at 1. intros HL. apply H in HL as (cmds & H1 & H2 & H3).
  assert (records file = cmds) as ->.
  { unfold records, load_file. by rewrite H1. }
  split; [done|]. by unfold size_, NewReader in H3.
Qed.

(** * One record *)
Lemma exec_logged_ok E N w args w' : w_ok N w → room N args →
  (∀ a cmd, args !! 0%nat = Some a → lookupCommand E (lib_lower (e_lib E) a) = Some cmd → bad_arity (cmd_arity cmd) args = false) →
  exec_logged E args w = Ok (w', tt) →
  w_ok (N + length args) w' ∧ length (s_dbs (w_srv w')) = length (s_dbs (w_srv w)) ∧ lst (w_srv w') = lst (w_srv w).
Proof.
  intros Hw Hroom Hargs HE. destruct args as [|a l]; [done|]. specialize (Hargs a).
  assert (HwS : w_ok (N + length (a :: l)) w) by (eapply w_ok_mono; [|exact Hw]; lia).
  unfold exec_logged in HE. rewrite (bind_ok _ _ _ _ _ (arg_run (a :: l) 0 a w eq_refl)) in HE.
  unfold lookupCommand in *. destruct (list_find _ (commandTable E)) as [[i cmd]|] eqn:EF.
  2:{ injection HE as <-. split; [done|]. done. }
  apply list_find_Some in EF as (Hi & Hn & _). cbn [fmap option_fmap option_map snd] in *.
  assert (Hin : cmd ∈ commandTable E) by (by eapply elem_of_list_lookup_2). specialize (Hargs cmd eq_refl eq_refl).
  pose proof (data_table E) as HT. rewrite Forall_forall in HT. destruct (cur_view N w Hw) as (D & HD & Ha).
  assert (Hkeep : ∀ c m r, (c_db c < length (s_dbs (w_srv w)))%nat → c_out c = c_out (w_cl w) → replies m r →
    (_ ← put_cl c; m) w = Ok (w', tt) → w_ok (N + length (a :: l)) w' ∧ length (s_dbs (w_srv w')) = length (s_dbs (w_srv w)) ∧ lst (w_srv w') = lst (w_srv w)).
  { intros c m r Hc Ho Hm Er. destruct (tends_client E (N + length (a :: l)) (a :: l) w c m r HwS Hc Ho Hm) as (w2 & Er2 & Hw2 & Hv & _ & _ & Hl & _).
    rewrite Er in Er2. injection Er2 as <-. split; [done|]. rewrite andb_false_r in Hl. split; [|done]. apply (f_equal v_dbs) in Hv. simpl in Hv.
    apply (f_equal length) in Hv. unfold abs_dbs in Hv. by rewrite !fmap_length in Hv. }
  assert (Hkeep' : ∀ m r, replies m r →
    m w = Ok (w', tt) → w_ok (N + length (a :: l)) w' ∧ length (s_dbs (w_srv w')) = length (s_dbs (w_srv w)) ∧ lst (w_srv w') = lst (w_srv w)).
  { intros m r Hm Er. destruct (tends_reply E (N + length (a :: l)) (a :: l) w m r HwS Hm) as (w2 & Er2 & Hw2 & Hv & _ & _ & Hl & _).
    rewrite Er in Er2. injection Er2 as <-. split; [done|]. rewrite andb_false_r in Hl. split; [|done]. apply (f_equal v_dbs) in Hv. simpl in Hv.
    apply (f_equal length) in Hv. unfold abs_dbs in Hv. by rewrite !fmap_length in Hv. }
  destruct (HT cmd Hin) as [(R & HR & Href & _)|[->|[->| ->]]].
  - destruct (Href _ _ _ _ _ Hargs Ha Hroom) as (ro & Hro & Hend). destruct ro as [[D' r n]| |]; [|by rewrite HE in Hend..].
    destruct Hend as (w2 & E1 & Ha'). rewrite HE in E1. injection E1 as <-. split; [apply Ha'|]. split.
    + pose proof (At_view _ _ _ _ _ _ Ha') as Hv. apply (f_equal v_dbs) in Hv. simpl in Hv. apply (f_equal length) in Hv.
      rewrite insert_length in Hv. unfold abs_dbs in Hv. by rewrite !fmap_length in Hv.
    + by destruct (log_of_lst _ _ (at_log _ _ _ _ _ _ Ha')).
  - destruct l as [|a1 [|]]; [by vm_compute in Hargs| |exfalso; by apply (arity_pos 1) in Hargs].
    simpl cmd_proc in HE. unfold selectCommand in HE. rewrite (bind_ok _ _ _ _ _ (arg_run [a; a1] 1 a1 w eq_refl)) in HE.
    destruct (Atoi a1) as [idx|]; [|eapply Hkeep'; [apply rError|exact HE]].
    rewrite (bind_ok get_srv _ w w (w_srv w) eq_refl) in HE.
    destruct (Z.leb_spec (zlen (s_dbs (w_srv w))) idx) as [Hhi|Hlo]; [eapply Hkeep'; [apply rError|exact HE]|].
    destruct (Z.ltb_spec idx 0) as [Hneg|Hpos]; [done|].
    rewrite (bind_ok get_cl _ w w (w_cl w) eq_refl) in HE. eapply Hkeep; [..|exact HE]; [|done|apply rOK]. simpl. unfold zlen in *. lia.
  - destruct l as [|a1 [|]]; [by vm_compute in Hargs| |exfalso; by apply (arity_pos 1) in Hargs].
    simpl cmd_proc in HE. unfold authCommand in HE. rewrite (bind_ok _ _ _ _ _ (arg_run [a; a1] 1 a1 w eq_refl)) in HE.
    rewrite (bind_ok get_cl _ w w (w_cl w) eq_refl) in HE.
    case_decide; (eapply Hkeep; [..|exact HE]; [apply Hw|done|first [apply rOK|apply rError]]).
  - simpl cmd_proc in HE. unfold bgRewriteAofCommand in HE. rewrite (bind_ok get_srv _ w w (w_srv w) eq_refl) in HE.
    destruct (s_task (w_srv w)) eqn:Et; [eapply Hkeep'; [apply rSimple|exact HE]|].
    destruct (copy_dbs_spec N (s_dbs (w_srv w)) (so_dbs _ _ (wo_srv _ _ Hw))) as (snap & EC & _); [by eapply room_small|].
    set (s' := set_task (set_dbs (w_srv w) (s_dbs (w_srv w))) true (Some snap)) in *.
    assert (EL : lift (rewriteAppendOnlyFileBackground (w_srv w)) w = Ok (w, s')).
    { unfold lift, rewriteAppendOnlyFileBackground. rewrite Et, EC. done. }
    rewrite (bind_ok _ _ _ _ _ EL) in HE. set (w2 := W s' (w_cl w) (w_rnd w)) in *.
    assert (EP : put_srv s' w = Ok (w2, tt)) by done. rewrite (bind_ok _ _ _ _ _ EP) in HE.
    assert (Hw2 : w_ok (N + length (a :: l)) w2).
    { destruct HwS as [[H1 H2 H3 H4] H5 H6 H7]. split; done. }
    destruct (tends_reply E _ (a :: l) w2 _ _ Hw2 (rSimple (B "Background append only file rewriting started")))
      as (w3 & Er & Hw3 & Hv & _ & _ & Hl & _). rewrite HE in Er. injection Er as <-. rewrite andb_false_r in Hl.
    split; [done|]. split; [|done]. apply (f_equal v_dbs) in Hv. simpl in Hv.
    apply (f_equal length) in Hv. unfold abs_dbs in Hv. by rewrite !fmap_length in Hv.
Qed.

(** * The whole log *)
Lemma new_server_ok n : srv_ok 0 (NewServer n).
Proof.
  split; simpl; try done.
  - apply Forall_replicate. split_and!; try apply dinv_New; simpl; by rewrite NewDict_map.
  - split.
    + intros i k o (db & Hi & Hk). apply lookup_replicate in Hi as [-> _]. simpl in Hk. by rewrite NewDict_map in Hk.
    + intros i k o i' k' (db & Hi & Hk). apply lookup_replicate in Hi as [-> _]. simpl in Hk. by rewrite NewDict_map in Hk.
Qed.
Lemma restart_ok cf clock file rs w' : (0 < cf_dbs cf)%nat → Forall (record_ok cf) (records file) → Forall (λ r, 0 ≤ r) rs →
  Z.of_nat (length file) < 2 ^ 42 → restart cf clock file rs = (w', Ok tt) →
  w_ok (length file) w' ∧ length (s_dbs (w_srv w')) = cf_dbs cf ∧ lst (w_srv w') = LS 0 [] [].
Proof.
  intros Hdbs Hrec Hrs Hsz HR. unfold restart, loadAppendOnlyFile in HR. apply load_records in HR as [HR Hlen].
  assert (Hw0 : w_ok 0 (W (NewServer (cf_dbs cf)) NewClient rs)).
  { split; simpl; try done; [apply new_server_ok|by rewrite replicate_length]. }
  assert (H : ∀ cmds j N w, w_ok N w → Forall (record_ok cf) cmds → (N + sum_list (length <$> cmds) ≤ length file)%nat →
    length (s_dbs (w_srv w)) = cf_dbs cf → lst (w_srv w) = LS 0 [] [] →
    replay (exec_at cf clock) j cmds w = (w', Ok tt) →
    w_ok (length file) w' ∧ length (s_dbs (w_srv w')) = cf_dbs cf ∧ lst (w_srv w') = LS 0 [] []).
  { clear HR Hw0 Hrec Hlen. induction cmds as [|args cmds IH]; intros j N w Hw Hc Hl H1 H2 HR.
    { injection HR as <-. split; [|done]. eapply w_ok_mono; [|done]. simpl in Hl. lia. }
    apply Forall_cons in Hc as [Hc Hcs]. cbn [replay] in HR. unfold exec_at in HR at 1. cbn [fmap list_fmap sum_list sum_list_with] in Hl. simpl in Hl.
    destruct (exec_logged (env_at cf (clock j) 0) args w) as [[w1 []]| |] eqn:E1; [|done..]. cbn [mbind res_bind fst] in HR.
    apply (exec_logged_ok _ N) in E1 as (G1 & G2 & G3); [|done| |].
    - eapply (IH _ (N + length args)%nat); try done; [lia|congruence|congruence].
    - unfold room, small, max_entries. lia.
    - intros a cmd Ha Hcmd. unfold lookupCommand in Hcmd. destruct (list_find _ _) as [[i c]|] eqn:EF; [|done].
      injection Hcmd as <-. apply list_find_Some in EF as (Hi & Hn & Hmin).
      specialize (Hc a). unfold lookupCommand in Hc.
      assert (Ht : (λ c : command, (cmd_name c, cmd_arity c)) <$> commandTable (env_at cf 0 0) = (λ c : command, (cmd_name c, cmd_arity c)) <$> commandTable (env_at cf (clock j) 0))
        by (by rewrite !arities_ok).
      assert (∃ c', list_find (λ c, cmd_name c = lib_lower (cf_lib cf) a) (commandTable (env_at cf 0 0)) = Some (i, c') ∧ cmd_arity c' = cmd_arity c) as (c' & EF' & Har).
      { assert (Hi' : ((λ c : command, (cmd_name c, cmd_arity c)) <$> commandTable (env_at cf 0 0)) !! i = Some (cmd_name c, cmd_arity c)).
        { rewrite Ht, list_lookup_fmap, Hi. done. }
        rewrite list_lookup_fmap in Hi'. destruct (commandTable (env_at cf 0 0) !! i) as [c'|] eqn:Hc'; [|done]. injection Hi' as Hn' Ha'.
        exists c'. split; [|done]. apply list_find_Some. split; [done|]. split; [by rewrite Hn'|].
        intros k z Hk Hlt Hz. assert (Hk' : ((λ c : command, (cmd_name c, cmd_arity c)) <$> commandTable (env_at cf (clock j) 0)) !! k = Some (cmd_name z, cmd_arity z)).
        { rewrite <-Ht, list_lookup_fmap, Hk. done. }
        rewrite list_lookup_fmap in Hk'. destruct (commandTable (env_at cf (clock j) 0) !! k) as [z'|] eqn:Hz'; [|done]. injection Hk' as Hn2 _.
        by apply (Hmin k z' Hz' Hlt); rewrite Hn2. }
      rewrite <-Har. eapply Hc; [done|]. by rewrite EF'. }
  eapply (H _ 0%nat 0%nat); try done. simpl; by rewrite replicate_length.
Qed.
