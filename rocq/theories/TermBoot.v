(** Restarts end: the loader reads every file to its end, and executes commands that end. *)
From Verif Require Import Base Float DictModel DictProofs DictProofs2 DictProofs3 DictProofs4 DictRun
  DatabaseModel SetModel QuicklistModel QuicklistProofs SkiplistModel ZsetModel
  Strconv RespSpec ServerModel CommandModel CommandSem CommandInv CommandInv2 CommandProofs1 CommandProofs2
  CommandTop CommandFrame SystemModel SystemProofs LoadModel AofModel AofProofs1 AofProofs2 BootProofs CommandFacts PropsCommand PropsData ZcmdProofs RandomProofs SafeProofs
  TermProofs TermCmd TermDraw TermMore.
From Coq Require Import ZifyBool ZifyNat.

(** * The loader *)
Lemma term_read_arg r : term (read_arg r).
Proof. destruct (read_arg_total r) as [-> |(? & ? & -> & _)]; done. Qed.
Lemma term_read_args n : ∀ r, term (read_args n r).
Proof. induction n as [|n IH]; intros r; [done|]. cbn [read_args]. apply term_bind; [apply term_read_arg|]. intros [r1 a] _. by apply term_bind. Qed.
Lemma term_number c buf : term (number c buf).
Proof. unfold number. destruct buf; [done|]. destruct (_ =? _)%char; [|done]. apply term_deref. Qed.
Lemma term_read_command r : term (read_command r).
Proof.
  unfold read_command. destruct (readLine_total r) as (r1 & o & -> & _). cbn [mbind res_bind fst snd]. destruct o as [buf|]; [|done].
  apply term_bind; [apply term_number|]. intros n _. destruct (negb _); [done|]. apply term_bind; [apply term_read_args|done].
Qed.
(** a load that does not end hangs in one of the records *)
Lemma load_hangs {X} (exec : nat → list bytes → X → res X) file s : (load_file exec file s).2 = OutOfFuel →
  ∃ pre args post s1, records file = pre ++ args :: post ∧ replay exec 0 pre s = (s1, Ok tt) ∧ exec (length pre) args s1 = OutOfFuel ∧
    (sum_list (length <$> pre) + length args ≤ length file)%nat.
Proof.
  set (rec := λ (_ : nat) (args : list bytes) (s : list (list bytes)), Ok (s ++ [args])).
  assert (Hacc : ∀ fuel j r acc, (load_loop rec fuel j r acc).1 = acc ++ (load_loop rec fuel 0 r []).1).
  { induction fuel as [|fuel IH]; intros j r acc; cbn [load_loop]; [by rewrite app_nil_r|].
    destruct (read_command r) as [[r1 [args|]]| |]; [|by rewrite app_nil_r..]. unfold rec at 1 3. rewrite IH. rewrite (IH _ _ ([] ++ [args])). by rewrite <-app_assoc. }
  assert (H : ∀ fuel j r s, (size_ r < fuel)%nat → (load_loop exec fuel j r s).2 = OutOfFuel → ∃ pre args post s1,
    (load_loop rec fuel 0 r []).1 = pre ++ args :: post ∧ replay exec j pre s = (s1, Ok tt) ∧ exec (j + length pre)%nat args s1 = OutOfFuel ∧
    (sum_list (length <$> pre) + length args ≤ size_ r)%nat).
  { clear s. induction fuel as [|fuel IH]; intros j r s Hsz; [lia|]. cbn [load_loop].
    pose proof (term_read_command r) as Hr. destruct (read_command r) as [[r1 [args|]]| |] eqn:E1; [|done..]. clear Hr.
    destruct (exec j args s) as [s1| |] eqn:E2; [|done|].
    - intros H. apply read_command_size in E1. apply IH in H as (pre & a & post & s2 & H1 & H2 & H3 & H4); [|lia].
      exists (args :: pre), a, post, s2. unfold rec at 1. rewrite Hacc, H1. split; [done|]. cbn [replay]. rewrite E2.
      replace (S j) with (j + 1)%nat by lia. split; [done|].
      replace (j + length (args :: pre))%nat with (j + 1 + length pre)%nat by (simpl; lia). split; [done|]. cbn [fmap list_fmap sum_list sum_list_with] in *. simpl. lia.
    - intros _. exists [], args. unfold rec at 1. rewrite Hacc. eexists _, s. split; [done|]. split; [done|]. apply read_command_size in E1. simpl. rewrite Nat.add_0_r. split; [done|lia]. }
  unfold load_file. intros HL. apply H in HL as (pre & args & post & s1 & H1 & H2 & H3 & H4); [|unfold size_, NewReader; simpl; lia].
  exists pre, args, post, s1. split; [exact H1|]. split; [done|]. split; [done|]. by unfold size_, NewReader in H4.
Qed.

(** * One record *)
Lemma w_list N w d D key q : w_ok N w → abs_dbs (w_srv w) !! d = Some D → a_keys D !! key = Some (AList q) → wf q.
Proof.
  intros [[_ Hh _ _] _ _ _] HD Hk. unfold abs_dbs in HD. rewrite list_lookup_fmap in HD.
  destruct (s_dbs (w_srv w) !! d) as [db|]; [|done]. injection HD as <-. simpl in Hk. rewrite lookup_fmap in Hk.
  destruct (d_map (db_dict db) !! key) as [[|o]|]; try done. simpl in Hk. destruct (s_heap (w_srv w) !! o) as [x|] eqn:Hx; [|done].
  pose proof (Forall_lookup_1 _ _ _ _ Hh Hx) as Ho. destruct x; try done. simpl in Hk. by injection Hk as ->.
Qed.
Section record.
  Variable E : env.
  Lemma ends_term w0 N (r : res (world * unit)) ro : ends w0 N r ro → term ro → term r.
  Proof. destruct ro as [[D' r' n]| |]; [|by intros ->|done]. by intros (w' & -> & _). Qed.
  (** executing a record can only hang in one of the drawing commands, and not for ever *)
  Lemma exec_hangs N w a l : w_ok N w → room N (a :: l) →
    (∀ cmd, lookupCommand E (lib_lower (e_lib E) a) = Some cmd → bad_arity (cmd_arity cmd) (a :: l) = false) →
    Forall finite_db (abs_dbs (w_srv w)) → exec_logged E (a :: l) w = OutOfFuel →
    lib_lower (e_lib E) a ∈ drawing ∧ ∃ x, Forall (λ r, 0 ≤ r) x ∧ exec_logged E (a :: l) (more_w w x) ≠ OutOfFuel.
  Proof.
    intros Hw Hroom Hargs Hfin HE. assert (HwS : w_ok (N + length (a :: l)) w) by (eapply w_ok_mono; [|exact Hw]; lia).
    unfold exec_logged in *. rewrite (bind_ok _ _ _ _ _ (arg_run (a :: l) 0 a w eq_refl)) in HE.
    assert (Hrun : ∀ x, (a0 ← arg (a :: l) 0; match lookupCommand E (lib_lower (e_lib E) a0) with None => ret tt | Some cmd => cmd_proc cmd (a :: l) end) (more_w w x)
      = match lookupCommand E (lib_lower (e_lib E) a) with None => ret tt | Some cmd => cmd_proc cmd (a :: l) end (more_w w x)).
    { intros x. by rewrite (bind_ok _ _ _ _ _ (arg_run (a :: l) 0 a (more_w w x) eq_refl)). }
    unfold lookupCommand in *. destruct (list_find _ (commandTable E)) as [[i cmd]|] eqn:EF; [|done].
    apply list_find_Some in EF as (Hi & Hn & _). cbn [fmap option_fmap option_map snd] in *. specialize (Hargs cmd eq_refl).
    assert (Hin : cmd ∈ commandTable E) by (by eapply elem_of_list_lookup_2).
    pose proof (data_table E) as HT. rewrite Forall_forall in HT. destruct (cur_view N w Hw) as (D & HD & Ha).
    assert (HfD : finite_db D) by (exact (Forall_lookup_1 _ _ _ _ Hfin HD)).
    destruct (HT cmd Hin) as [(R & HR & Href & _)|[->|[->| ->]]].
    - destruct (Href _ _ _ _ _ Hargs Ha Hroom) as (ro & Hro & Hend). destruct ro as [[D' r n]| |].
      { destruct Hend as (w2 & E1 & _). by rewrite HE in E1. } { simpl in Hend. by rewrite HE in Hend. }
      rewrite Hn in HR. assert (Hs : sem E (lib_lower (e_lib E) a) (a :: l) D OutOfFuel) by (exists R; split; [exact HR|exact Hro]).
      assert (Hd : lib_lower (e_lib E) a ∈ drawing).
      { eapply sem_term; [exact HfD| |exact Hs]. intros key q. by eapply w_list. }
      split; [exact Hd|].
      unfold drawing in Hd. rewrite !elem_of_cons, elem_of_nil in Hd. destruct Hd as [Hd|[Hd|[Hd|[]]]]; rewrite Hd in *.
      + assert (cmd = Cmd (B "randomget") (randomGetCommand E) 1) as ->.
        { assert (HF : Forall (λ c, cmd_name c ≠ B "randomget" ∨ c = Cmd (B "randomget") (randomGetCommand E) 1) (commandTable E)).
          { repeat (apply Forall_cons; split; [first [by right|by left]|]). by apply Forall_nil_2. }
          destruct (Forall_lookup_1 _ _ _ _ HF Hi) as [Hx|Hx]; [congruence|done]. }
        destruct (randomget_more E _ _ D _ (a :: l) Ha) as (x & D' & r & Hx & HE'). exists x. split; [done|].
        rewrite Hrun. by apply (ends_term _ _ _ _ HE').
      + assert (cmd = Cmd (B "spop") (sPopCommand E) 2) as ->.
        { assert (HF : Forall (λ c, cmd_name c ≠ B "spop" ∨ c = Cmd (B "spop") (sPopCommand E) 2) (commandTable E)).
          { repeat (apply Forall_cons; split; [first [by right|by left]|]). by apply Forall_nil_2. }
          destruct (Forall_lookup_1 _ _ _ _ HF Hi) as [Hx|Hx]; [congruence|done]. }
        cbn [cmd_arity] in Hargs. apply (arity_pos 1) in Hargs. destruct l as [|key [|? ?]]; try done.
        apply (sem_inv _ _ (sem_spop E)) in Hs; [|in_table].
        unfold sem_spop in Hs. cbv zeta in Hs. unfold set_at in Hs. destruct (a_keys (purge E key D) !! key) as [[| | |s|]|] eqn:Hk; try done.
        destruct Hs as [[_ ?]|(Hne & _)]; [done|].
        destruct (spop_more E _ _ D _ a key s Ha Hk Hne) as (x & m & Hx & HE'). exists x. split; [done|].
        rewrite Hrun. by apply (ends_term _ _ _ _ HE').
      + assert (cmd = Cmd (B "zadd") (zAddCommand E) (-4)) as ->.
        { assert (HF : Forall (λ c, cmd_name c ≠ B "zadd" ∨ c = Cmd (B "zadd") (zAddCommand E) (-4)) (commandTable E)).
          { repeat (apply Forall_cons; split; [first [by right|by left]|]). by apply Forall_nil_2. }
          destruct (Forall_lookup_1 _ _ _ _ HF Hi) as [Hx|Hx]; [congruence|done]. }
        exists (replicate (length l) 65535). assert (Hx : Forall (λ r, 0 ≤ r) (replicate (length l) 65535)) by (by apply Forall_replicate).
        split; [done|]. rewrite Hrun. cbn [cmd_proc cmd_arity] in *.
        assert (Ha' : CommandInv.At w N D [] 0 (more_w w (replicate (length l) 65535))).
        { apply At_rnd; [done|]. apply Forall_app. split; [apply Hw|done]. }
        pose proof (zadd_run E (a :: l) w N D _ Hargs Ha' Hroom) as Hend2. apply (ends_term _ _ _ _ Hend2).
        destruct l as [|key l]; [done|]. unfold zadd_out. destruct (negb _); [done|].
        intros Hp. apply new_fuel in Hp as ([m s] & Hk & Hp); [|apply AKZset_law]. revert Hp. apply term_zadd_all; cbn [snd].
        * destruct Hk as [Hk|[_ [= _ ->]]]; [|apply NewSkiplist_finite]. eapply HfD. exact Hk.
        * cbn [more_w with_rs w_rnd]. unfold stopping. rewrite filter_app, app_length.
          assert (Hst : ∀ n, (n ≤ stopping (replicate n 65535%Z))%nat).
          { induction n as [|n IH]; [lia|]. unfold stopping in *. cbn [replicate]. rewrite filter_cons_True by (vm_compute; done). cbn [length]. lia. }
          specialize (Hst (length (key :: l))). unfold stopping in Hst. cbn [length] in *. pose proof (Nat.div_le_upper_bound (length l) 2 (length l)). lia.
    - exfalso. destruct l as [|a1 [|]]; [by vm_compute in Hargs| |by apply (arity_pos 1) in Hargs].
      simpl cmd_proc in HE. unfold selectCommand in HE. rewrite (bind_ok _ _ _ _ _ (arg_run [a; a1] 1 a1 w eq_refl)) in HE.
      destruct (Atoi a1) as [idx|]; [|done].
      rewrite (bind_ok get_srv _ w w (w_srv w) eq_refl) in HE.
      destruct (Z.leb_spec (zlen (s_dbs (w_srv w))) idx) as [Hhi|Hlo]; [done|]. destruct (Z.ltb_spec idx 0) as [Hneg|Hpos]; done.
    - exfalso. destruct l as [|a1 [|]]; [by vm_compute in Hargs| |by apply (arity_pos 1) in Hargs].
      simpl cmd_proc in HE. unfold authCommand in HE. rewrite (bind_ok _ _ _ _ _ (arg_run [a; a1] 1 a1 w eq_refl)) in HE.
      rewrite (bind_ok get_cl _ w w (w_cl w) eq_refl) in HE. case_decide; done.
    - exfalso. simpl cmd_proc in HE. unfold bgRewriteAofCommand in HE. rewrite (bind_ok get_srv _ w w (w_srv w) eq_refl) in HE.
      destruct (s_task (w_srv w)) eqn:Et; [done|].
      destruct (copy_dbs_spec N (s_dbs (w_srv w)) (so_dbs _ _ (wo_srv _ _ Hw))) as (snap & EC & _); [by eapply room_small|].
      set (s' := set_task (set_dbs (w_srv w) (s_dbs (w_srv w))) true (Some snap)) in *.
      assert (EL : lift (rewriteAppendOnlyFileBackground (w_srv w)) w = Ok (w, s')).
      { unfold lift, rewriteAppendOnlyFileBackground. rewrite Et, EC. done. }
      by rewrite (bind_ok _ _ _ _ _ EL) in HE.
  Qed.
End record.

(** * The whole file *)
Lemma more_nil w : more_w w [] = w.
Proof. destruct w. unfold more_w, with_rs. simpl. by rewrite app_nil_r. Qed.
Lemma more_app w x y : more_w (more_w w x) y = more_w w (x ++ y).
Proof. unfold more_w, with_rs. simpl. by rewrite <-app_assoc. Qed.
Lemma w_ok_more N w x : w_ok N w → Forall (λ r, 0 ≤ r) x → w_ok N (more_w w x).
Proof. intros [? ? ? ?] Hx. split; try done. simpl. by apply Forall_app. Qed.
Lemma record_arity cf now args : record_ok cf args → ∀ a cmd, args !! 0%nat = Some a →
  lookupCommand (env_at cf now 0) (lib_lower (e_lib (env_at cf now 0)) a) = Some cmd → bad_arity (cmd_arity cmd) args = false.
Proof. intros Hc a cmd Ha Hcmd. pose proof (lookup_arity_any cf now a cmd Hcmd) as (c' & EF' & Har). rewrite <-Har. by eapply Hc. Qed.
Lemma load_ends cf clock fuel : ∀ j r N w, (size_ r < fuel)%nat → w_ok N w → Z.of_nat (N + size_ r) < 2 ^ 42 →
  Forall (record_ok cf) (load_loop (λ _ args s, Ok (s ++ [args])) fuel 0 r []).1 → Forall finite_db (abs_dbs (w_srv w)) →
  ∃ x, Forall (λ r, 0 ≤ r) x ∧ (load_loop (exec_at cf clock) fuel j r (more_w w x)).2 ≠ OutOfFuel.
Proof.
  set (rec := λ (_ : nat) (args : list bytes) (s : list (list bytes)), Ok (s ++ [args])).
  assert (Hacc : ∀ fuel j r acc, (load_loop rec fuel j r acc).1 = acc ++ (load_loop rec fuel 0 r []).1).
  { clear. induction fuel as [|fuel IH]; intros j r acc; cbn [load_loop]; [by rewrite app_nil_r|].
    destruct (read_command r) as [[r1 [args|]]| |]; [|by rewrite app_nil_r..]. unfold rec at 1 3. rewrite IH. rewrite (IH _ _ ([] ++ [args])). by rewrite <-app_assoc. }
  induction fuel as [|fuel IH]; intros j r N w Hsz Hw Hroom Hrec Hfin; [lia|]. cbn [load_loop] in *.
  pose proof (term_read_command r) as Hr. destruct (read_command r) as [[r1 [args|]]| |] eqn:E1; [|by exists []..|done]. clear Hr.
  unfold rec in Hrec at 1. rewrite Hacc in Hrec. apply Forall_app in Hrec as [Hc Hrec]. apply Forall_cons in Hc as [Hc _].
  apply read_command_size in E1.
  assert (Hargs : room N args) by (unfold room, small, max_entries; lia).
  assert (Hone : ∃ x0, Forall (λ r, 0 ≤ r) x0 ∧ exec_logged (env_at cf (clock j) 0) args (more_w w x0) ≠ OutOfFuel).
  { destruct (exec_logged (env_at cf (clock j) 0) args w) as [o| |] eqn:E2; [exists []; by rewrite more_nil, E2..|].
    destruct args as [|a l]; [done|].
    by destruct (exec_hangs _ N w a l Hw Hargs (λ cmd, record_arity cf (clock j) _ Hc a cmd eq_refl) Hfin E2) as (_ & Hx). }
  destruct Hone as (x0 & Hx0 & H0). pose proof (w_ok_more N w x0 Hw Hx0) as Hw0.
  destruct (exec_logged (env_at cf (clock j) 0) args (more_w w x0)) as [[w1 []]| |] eqn:E2; [| |done].
  - destruct (exec_logged_ok _ N _ _ _ Hw0 Hargs (record_arity cf (clock j) _ Hc) E2) as (Hw1 & _).
    pose proof (exec_logged_dbs finite_db sem_finite _ N _ _ _ Hw0 Hargs (record_arity cf (clock j) _ Hc) E2 Hfin) as Hfin1.
    destruct (IH (j + 1)%nat r1 (N + length args)%nat w1) as (x & Hx & Hl); [lia|done|lia|done|done|].
    exists (x0 ++ x). split; [by apply Forall_app|]. rewrite <-more_app. unfold exec_at at 1.
    pose proof (more_exec (env_at cf (clock j) 0) args (more_w w x0) x) as Hm. rewrite Hm; rewrite E2; [|done]. exact Hl.
  - exists x0. split; [done|]. unfold exec_at at 1. by rewrite E2.
Qed.
Lemma restart_hangs cf clock file rs : (0 < cf_dbs cf)%nat → Forall (record_ok cf) (records file) → Forall (λ r, 0 ≤ r) rs →
  Z.of_nat (length file) < 2 ^ 42 →
  ((restart cf clock file rs).2 = OutOfFuel → ∃ a l, a :: l ∈ records file ∧ lib_lower (cf_lib cf) a ∈ drawing) ∧
  ∃ x, Forall (λ r, 0 ≤ r) x ∧ (restart cf clock file (rs ++ x)).2 ≠ OutOfFuel.
Proof.
  intros Hdbs Hrec Hrs Hsz.
  assert (Hw0 : w_ok 0 (W (NewServer (cf_dbs cf)) NewClient rs)).
  { split; simpl; try done; [apply new_server_ok|by rewrite replicate_length]. }
  assert (Hf0 : Forall finite_db (abs_dbs (NewServer (cf_dbs cf)))).
  { unfold abs_dbs. simpl. apply Forall_fmap, Forall_replicate. simpl. unfold abs_db. simpl. rewrite NewDict_map, fmap_empty. by intros ???. }
  split.
  - intros HR. unfold restart, loadAppendOnlyFile in HR. apply load_hangs in HR as (pre & args & post & w1 & H1 & H2 & H3 & Hlen). rewrite H1 in Hrec.
    apply Forall_app in Hrec as [Hpre Hrec]. apply Forall_cons in Hrec as [Hc _].
    assert (H : ∀ cmds j N w, w_ok N w → Forall (record_ok cf) cmds → (N + sum_list (length <$> cmds) ≤ length file)%nat →
      Forall finite_db (abs_dbs (w_srv w)) → replay (exec_at cf clock) j cmds w = (w1, Ok tt) →
      w_ok (N + sum_list (length <$> cmds)) w1 ∧ Forall finite_db (abs_dbs (w_srv w1))).
    { clear H2 Hw0 Hlen Hpre. induction cmds as [|args' cmds IH]; intros j N w Hw Hcs Hl Hf HR. { injection HR as <-. simpl. by rewrite Nat.add_0_r. }
      apply Forall_cons in Hcs as [Hc' Hcs]. cbn [replay] in HR. unfold exec_at in HR at 1. cbn [fmap list_fmap sum_list sum_list_with] in *. simpl in Hl.
      destruct (exec_logged (env_at cf (clock j) 0) args' w) as [[w2 []]| |] eqn:E1; [|done..]. cbn [mbind res_bind fst] in HR.
      assert (Hroom : room N args') by (unfold room, small, max_entries; lia).
      pose proof (exec_logged_ok _ N _ _ _ Hw Hroom (record_arity cf (clock j) _ Hc') E1) as (G1 & _).
      pose proof (exec_logged_dbs finite_db sem_finite _ N _ _ _ Hw Hroom (record_arity cf (clock j) _ Hc') E1 Hf) as G2.
      simpl. rewrite Nat.add_assoc. eapply IH; try done. lia. }
    destruct (H pre 0%nat 0%nat _ Hw0 Hpre ltac:(lia) Hf0 H2) as [Hw1 Hf1].
    unfold exec_at in H3. destruct (exec_logged (env_at cf (clock (length pre)) 0) args w1) as [?| |] eqn:E3; try done.
    destruct args as [|a l]; [done|]. assert (Hroom : room (0 + sum_list (length <$> pre)) (a :: l)) by (unfold room, small, max_entries; simpl in *; lia).
    destruct (exec_hangs _ _ w1 a l Hw1 Hroom (λ cmd, record_arity cf (clock (length pre)) _ Hc a cmd eq_refl) Hf1 E3) as (Hd & _).
    exists a, l. split; [|exact Hd]. rewrite H1. apply elem_of_app. right. by left.
  - destruct (load_ends cf clock (length file + 1) 0 (NewReader file) 0 _ ltac:(unfold size_, NewReader; simpl; lia) Hw0) as (x & Hx & HL); [..|by exists x].
    + unfold size_, NewReader. simpl. lia.
    + exact Hrec.
    + exact Hf0.
Qed.
