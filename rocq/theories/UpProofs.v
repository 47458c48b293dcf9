(** Which restarts panic. *)
From Verif Require Import Base Float DictModel DictProofs DictProofs2 DictProofs3 DictProofs4 DictRun
  DatabaseModel SetModel QuicklistModel QuicklistProofs SkiplistModel ZsetModel
  Strconv RespSpec ServerModel CommandModel CommandSem CommandInv CommandInv2 CommandProofs1 CommandProofs2 CommandProofs4
  CommandTop CommandFrame SystemModel SystemProofs LoadModel AofModel AofProofs1 AofProofs2 AofProofs4 LoadProofs BootProofs CommandFacts PropsCommand PropsData
  ZcmdProofs ListcmdProofs RandomProofs SafeProofs PropsSafe RndFrame TermCmd TermMore TermBoot LogProofs SolidProofs SolidCmd.
From Coq Require Import ZifyBool ZifyNat.

(** the records of a file, and how reading it ends *)
Definition read_only (file : bytes) : loaded (list (list bytes)) := load_file (λ _ args s, Ok (s ++ [args])) file [].
(** a load that panics does so in the reader or in one of the records *)
Lemma load_panics {X} (exec : nat → list bytes → X → res X) file s : (load_file exec file s).2 = Panic →
  (read_only file).2 = Panic ∨
  ∃ pre args post s1, records file = pre ++ args :: post ∧ replay exec 0 pre s = (s1, Ok tt) ∧ exec (length pre) args s1 = Panic ∧
    (sum_list (length <$> pre) + length args ≤ length file)%nat.
Proof.
  set (rec := λ (_ : nat) (args : list bytes) (s : list (list bytes)), Ok (s ++ [args])).
  assert (Hacc : ∀ fuel j r acc, (load_loop rec fuel j r acc).1 = acc ++ (load_loop rec fuel 0 r []).1).
  { induction fuel as [|fuel IH]; intros j r acc; cbn [load_loop]; [by rewrite app_nil_r|].
    destruct (read_command r) as [[r1 [args|]]| |]; [|by rewrite app_nil_r..]. unfold rec at 1 3. rewrite IH. rewrite (IH _ _ ([] ++ [args])). by rewrite <-app_assoc. }
  assert (Hend : ∀ fuel j r acc, (load_loop rec fuel j r acc).2 = (load_loop rec fuel 0 r []).2).
  { induction fuel as [|fuel IH]; intros j r acc; cbn [load_loop]; [done|].
    destruct (read_command r) as [[r1 [args|]]| |]; [|done..]. unfold rec at 1 3. rewrite IH. by rewrite (IH _ _ ([] ++ [args])). }
  assert (H : ∀ fuel j r s, (load_loop exec fuel j r s).2 = Panic → (load_loop rec fuel 0 r []).2 = Panic ∨ ∃ pre args post s1,
    (load_loop rec fuel 0 r []).1 = pre ++ args :: post ∧ replay exec j pre s = (s1, Ok tt) ∧ exec (j + length pre)%nat args s1 = Panic ∧
    (sum_list (length <$> pre) + length args ≤ size_ r)%nat).
  { clear s. induction fuel as [|fuel IH]; intros j r s; [done|]. cbn [load_loop].
    destruct (read_command r) as [[r1 [args|]]| |] eqn:E1; [|done|by left|done].
    destruct (exec j args s) as [s1| |] eqn:E2; [| |done].
    - intros H. apply read_command_size in E1. apply IH in H as [H|(pre & a & post & s2 & H1 & H2 & H3 & H4)].
      { left. unfold rec at 1. by rewrite Hend. }
      right. exists (args :: pre), a, post, s2. unfold rec at 1. rewrite Hacc, H1. split; [done|]. cbn [replay]. rewrite E2.
      replace (S j) with (j + 1)%nat by lia. split; [done|].
      replace (j + length (args :: pre))%nat with (j + 1 + length pre)%nat by (simpl; lia). split; [done|]. cbn [fmap list_fmap sum_list sum_list_with] in *. simpl. lia.
    - intros _. right. exists [], args. unfold rec at 1. rewrite Hacc. eexists _, s. split; [done|]. split; [done|]. apply read_command_size in E1. simpl. rewrite Nat.add_0_r. split; [done|lia]. }
  unfold load_file. intros HL. apply H in HL as [HL|(pre & args & post & s1 & H1 & H2 & H3 & H4)]; [by left|right].
  exists pre, args, post, s1. split; [exact H1|]. split; [done|]. split; [done|]. by unfold size_, NewReader in H4.
Qed.

(** * What is left of the random numbers *)
Definition drops {A} (m : M A) : Prop := ∀ w w' a, m w = Ok (w', a) → ∃ r, w_rnd w = r ++ w_rnd w'.
Lemma drops_still {A} (m : M A) : still m → drops m.
Proof. intros H w w' a E. exists []. by rewrite (H _ _ _ E). Qed.
Lemma drops_bind {A C} (m : M A) (f : A → M C) : drops m → (∀ a, drops (f a)) → drops (m ≫= f).
Proof.
  intros Hm Hf w w' c. unfold mbind, M_bind. destruct (m w) as [[w1 a]| |] eqn:E; try done. intros E2.
  destruct (Hm _ _ _ E) as [r1 ->]. destruct (Hf _ _ _ _ E2) as [r2 ->]. exists (r1 ++ r2). by rewrite app_assoc.
Qed.
Lemma drops_rnd {A} (f : list Z → res (A * list Z)) : (∀ rs a rs', f rs = Ok (a, rs') → ∃ r, rs = r ++ rs') → drops (with_rnd f).
Proof. intros H w w' a. unfold with_rnd. destruct (f (w_rnd w)) as [[x rs]| |] eqn:E; try done. intros [= <- <-]. simpl. by eapply H. Qed.
Lemma GetRandomKey_drops {K V} `{Countable K} (hash : K → Z) (d : dict K V) rs d' o rs' :
  GetRandomKey hash d rs = Ok (d', o, rs') → ∃ r, rs = r ++ rs'.
Proof.
  assert (Hd : ∀ (d : dict K V) rs b rs', draw_bucket d rs = Ok (b, rs') → ∃ r, rs = r ++ rs').
  { clear. intros d rs. induction rs as [|r rs IH]; intros b rs'; [done|]. cbn [draw_bucket]. destruct (deref (d_ht0 d)) as [h0| |]; [|done..]. cbn [mbind res_bind].
    match goal with |- ((?m ≫= _) = _) → _ => destruct m as [[|e c]| |] end; try done; cbn [mbind res_bind].
    - intros Hx. apply IH in Hx as [r0 ->]. by exists (r :: r0).
    - intros [= _ <-]. by exists [r]. }
  unfold GetRandomKey. destruct (d_ht0 d); [|intros [= _ _ <-]; by exists []]. destruct (Size d) as [n| |]; [|done..]. cbn [mbind res_bind].
  destruct (n =? 0); [intros [= _ _ <-]; by exists []|]. destruct (maybe_step hash d) as [d1| |]; [|done..]. cbn [mbind res_bind].
  destruct (draw_bucket d1 rs) as [[b rs2]| |] eqn:Ed; [|done..]. cbn [mbind res_bind fst snd]. apply Hd in Ed as [r0 ->].
  destruct rs2 as [|r rs2]; [done|]. destruct (go_index b _) as [e| |]; [|done..]. cbn [mbind res_bind]. intros [= _ _ <-]. exists (r0 ++ [r]). by rewrite <-app_assoc.
Qed.
Lemma drawn_drops n rs rs' : drawn n rs rs' → ∃ r, rs = r ++ rs'.
Proof.
  intros (m & _ & H). revert rs H. induction m as [|m IH]; intros rs; cbn [drew]; [intros ->; by exists []|].
  intros (lv & rs1 & H1 & H2). apply randomLevel_suffix in H1 as [r1 ->]. apply IH in H2 as [r2 ->]. exists (r1 ++ r2). by rewrite app_assoc.
Qed.
Section drops.
  Variable E : env.
  Lemma drops_random_loop fuel : drops (random_loop E fuel).
  Proof.
    induction fuel as [|fuel IH]; cbn [random_loop]; [by intros w w' a|].
    apply drops_bind; [apply drops_still, still_get_db|intros db]. apply drops_bind.
    { apply drops_rnd. intros rs a rs'. destruct (GetRandomKey _ _ _) as [[[d o] rs1]| |] eqn:Eg; try done. cbn [mbind res_bind fst snd]. intros [= _ <-].
      exact (GetRandomKey_drops _ _ _ _ _ _ Eg). }
    intros r. apply drops_bind; [apply drops_still, still_put_db|intros _]. destruct r.2 as [e|]; [|apply drops_still, still_addReply].
    apply drops_bind; [apply drops_still, still_expireIfNeeded|]. intros []; [done|apply drops_still, still_addReply].
  Qed.
  Lemma drops_spop args : drops (sPopCommand E args).
  Proof.
    unfold sPopCommand. apply drops_bind; [apply drops_still, still_arg|intros key]. apply drops_bind; [apply drops_still, still_get_if_exist|].
    intros [o|[]]; try (apply drops_still, still_addReply).
    apply drops_bind; [apply drops_still, still_on_obj|intros n]. destruct (n =? 0); [apply drops_still, still_addReply|].
    apply drops_bind.
    { unfold on_obj_rnd. apply drops_bind; [apply drops_still, still_load|intros x]. apply drops_bind; [apply drops_still, still_lift|intros v].
      apply drops_bind; [|intros r; apply drops_bind; [apply drops_still, still_store|intros; apply drops_still, still_ret]].
      apply drops_rnd. intros rs a rs'. unfold GetRandom. destruct (GetRandomKey _ _ _) as [[[d e] rs1]| |] eqn:Eg; try done. cbn [mbind res_bind fst snd].
      destruct (deref e); try done. cbn [mbind res_bind]. intros [= _ <-]. exact (GetRandomKey_drops _ _ _ _ _ _ Eg). }
    intros m. apply drops_bind; [apply drops_still, still_on_obj|]. intros [[]|]; first [apply drops_still, still_addReply|
      apply drops_bind; [apply drops_still, still_add_dirty|intros; apply drops_still, still_addReply]].
  Qed.
  Lemma drops_exec args : drops (exec_logged E args).
  Proof.
    destruct args as [|a l]; [by intros w w' u|]. destruct (decide (lib_lower (e_lib E) a ∈ [B "randomget"; B "spop"])) as [Hn|Hn].
    2:{ intros w w' u HE. by eapply drawn_drops, exec_takes. }
    unfold exec_logged. apply drops_bind; [apply drops_still, still_arg|]. intros a0. unfold lookupCommand.
    destruct (list_find (λ c, cmd_name c = lib_lower (e_lib E) a0) (commandTable E)) as [[i cmd]|] eqn:EF; [|apply drops_still, still_ret].
    apply list_find_Some in EF as (Hi & Hc & _). cbn [fmap option_fmap option_map snd].
    destruct (Forall_lookup_1 _ _ _ _ (still_table E) Hi) as [Hd|Hs]; [|by apply drops_still].
    assert (HF : Forall (λ c, cmd_name c ∉ drawers ∨ c = Cmd (B "randomget") (randomGetCommand E) 1 ∨ c = Cmd (B "spop") (sPopCommand E) 2 ∨ c = Cmd (B "zadd") (zAddCommand E) (-4)) (commandTable E)).
    { repeat (apply Forall_cons; split; [first [by right; left|by right; right; left|by right; right; right|left; apply (bool_decide_unpack _); by vm_compute]|]). by apply Forall_nil_2. }
    destruct (Forall_lookup_1 _ _ _ _ HF Hi) as [Hx|[->|[->| ->]]]; [done|..]; cbn [cmd_proc].
    - intros w w' u HE. by eapply drops_random_loop.
    - apply drops_spop.
    - intros w w' u HE. by eapply drawn_drops, takes_zadd.
  Qed.
End drops.

(** * One record *)
Section record.
  Variable E : env.
  Lemma sem_panics name args D : (∀ key q, a_keys D !! key = Some (AList q) → wf q) → solid_db D → sem E name args D Panic → name ∈ can_crash.
  Proof.
    intros Hwf Hsol Hs. pose proof (sem_calm _ _ _ _ Hs) as Hrisk.
    assert (Hall : Forall (λ n, n = B "lpush" ∨ n = B "lpop" ∨ n ∈ [B "zrem"; B "zremrangebyrank"; B "zremrangebyscore"; B "zcount"] ∨ n ∈ can_crash) risky).
    { apply (bool_decide_unpack _). by vm_compute. }
    rewrite Forall_forall in Hall. destruct (Hall _ Hrisk) as [Hn|[Hn|[Hn|?]]]; [..|done]; exfalso.
    3:{ revert Hn. by eapply sem_zsafe. }
    all: rewrite Hn in Hs.
    - apply (sem_inv _ _ (sem_push lpush_all)) in Hs; [|in_table]. unfold sem_push, fn in Hs. destruct args as [|a [|key l]]; [done..|]. injection Hs as Hs.
      apply new_panic in Hs as (q & Hq & Hs); [|apply AKList_law].
      assert (wf q) as Hw by (destruct Hq as [Hq|[_ ->]]; [by eapply Hwf|apply wf_New]).
      destruct (lpush_all_spec l q Hw) as (q' & E1 & _). by rewrite E1 in Hs.
    - apply (sem_inv _ _ (sem_pop E PopFront)) in Hs; [|in_table]. unfold sem_pop, fn in Hs. destruct args as [|a [|key l]]; [done..|]. injection Hs as Hs.
      apply existing_panic in Hs as (q & Hq & Hs); [|apply AKList_law].
      assert (wf q) as Hw by (by eapply Hwf).
      pose proof (PopFront_spec q Hw) as HP. unfold Len in Hs. rewrite (wf_length q Hw) in Hs.
      destruct (qels q) as [|v x]; [done|]. destruct HP as (q' & E1 & _). cbn [length] in Hs.
      replace (Z.of_nat (S (length x)) =? 0) with false in Hs by lia. by rewrite E1 in Hs.
  Qed.
  (** SELECT of a negative index, ZADD with draws that overflow a level, or another of the
      commands of C49 *)
  Definition crasher (lib : lib) (rs : list Z) (args : list bytes) : Prop :=
    match args with
    | [] => True
    | a :: l => lib_lower lib a ∈ can_crash ∧
        (lib_lower lib a = B "select" → ∃ b n, l !! 0%nat = Some b ∧ Atoi b = Some n ∧ n < 0) ∧
        (lib_lower lib a = B "zadd" → ¬ level_ok rs)
    end.
  Lemma exec_panics N w args : w_ok N w → room N args → Forall solid_db (abs_dbs (w_srv w)) →
    (∀ a cmd, args !! 0%nat = Some a → lookupCommand E (lib_lower (e_lib E) a) = Some cmd → bad_arity (cmd_arity cmd) args = false) →
    exec_logged E args w = Panic → crasher (e_lib E) (w_rnd w) args.
  Proof.
    intros Hw Hroom Hsol Hargs HE. destruct args as [|a l]; [done|]. specialize (Hargs a).
    unfold exec_logged in *. rewrite (bind_ok _ _ _ _ _ (arg_run (a :: l) 0 a w eq_refl)) in HE.
    unfold lookupCommand in *. destruct (list_find _ (commandTable E)) as [[i cmd]|] eqn:EF; [|done].
    apply list_find_Some in EF as (Hi & Hn & _). cbn [fmap option_fmap option_map snd] in *. specialize (Hargs cmd eq_refl eq_refl).
    assert (Hin : cmd ∈ commandTable E) by (by eapply elem_of_list_lookup_2).
    pose proof (data_table E) as HT. rewrite Forall_forall in HT. destruct (cur_view N w Hw) as (D & HD & Ha).
    assert (Hz : lib_lower (e_lib E) a = B "zadd" → ¬ level_ok (w_rnd w)).
    { intros Hz. rewrite Hz in Hn. assert (cmd = Cmd (B "zadd") (zAddCommand E) (-4)) as ->.
      { assert (HF : Forall (λ c, cmd_name c ≠ B "zadd" ∨ c = Cmd (B "zadd") (zAddCommand E) (-4)) (commandTable E)).
        { repeat (apply Forall_cons; split; [first [by right|by left]|]). by apply Forall_nil_2. }
        rewrite Forall_forall in HF. by destruct (HF _ Hin). }
      cbn [cmd_arity cmd_proc] in *. pose proof (zadd_run E (a :: l) w N D w Hargs Ha Hroom) as Hend.
      destruct (zadd_out E (a :: l) (w_rnd w) D) as [[D' r n]| |] eqn:Eo.
      - destruct Hend as (w2 & E1 & _). by rewrite HE in E1.
      - eapply zadd_overflow; [by eapply Forall_lookup_1| |exact Eo]. destruct l; [by vm_compute in Hargs|simpl; lia].
      - simpl in Hend. by rewrite HE in Hend. }
    destruct (HT cmd Hin) as [(R & HR & Href & _)|[->|[->| ->]]].
    - destruct (Href _ _ _ _ _ Hargs Ha Hroom) as (ro & Hro & Hend). destruct ro as [[D' r n]| |].
      { destruct Hend as (w2 & E1 & _). by rewrite HE in E1. } 2:{ simpl in Hend. by rewrite HE in Hend. }
      rewrite Hn in HR. assert (Hs : sem E (lib_lower (e_lib E) a) (a :: l) D Panic) by (exists R; split; [exact HR|exact Hro]).
      split; [eapply sem_panics; [intros key q; by eapply w_list|by eapply Forall_lookup_1|exact Hs]|]. split; [|done].
      intros Hsel. apply sem_not_special in Hs. exfalso. apply Hs. rewrite Hsel. by left.
    - cbn [cmd_name] in Hn. split; [rewrite <-Hn; by left|]. split; [|done]. intros _.
      destruct l as [|a1 [|]]; [by vm_compute in Hargs| |by apply (arity_pos 1) in Hargs].
      simpl cmd_proc in HE. unfold selectCommand in HE. rewrite (bind_ok _ _ _ _ _ (arg_run [a; a1] 1 a1 w eq_refl)) in HE.
      destruct (Atoi a1) as [idx|] eqn:Ei; [|done].
      rewrite (bind_ok get_srv _ w w (w_srv w) eq_refl) in HE.
      destruct (Z.leb_spec (zlen (s_dbs (w_srv w))) idx) as [Hhi|Hlo]; [done|]. destruct (Z.ltb_spec idx 0) as [Hneg|Hpos]; [|done].
      by exists a1, idx.
    - exfalso. destruct l as [|a1 [|]]; [by vm_compute in Hargs| |by apply (arity_pos 1) in Hargs].
      simpl cmd_proc in HE. unfold authCommand in HE. rewrite (bind_ok _ _ _ _ _ (arg_run [a; a1] 1 a1 w eq_refl)) in HE.
      rewrite (bind_ok get_cl _ w w (w_cl w) eq_refl) in HE. case_decide; done.
    - exfalso. simpl cmd_proc in HE. unfold bgRewriteAofCommand in HE. rewrite (bind_ok get_srv _ w w (w_srv w) eq_refl) in HE.
      destruct (s_task (w_srv w)) eqn:Et; [done|].
      destruct (copy_dbs_spec N (s_dbs (w_srv w)) (so_dbs _ _ (wo_srv _ _ Hw))) as (snap & EC & _); [by eapply room_small|].
      set (s' := set_task (set_dbs (w_srv w) (s_dbs (w_srv w))) true (Some snap)) in *.
      assert (EL : lift (rewriteAppendOnlyFileBackground (w_srv w)) w = Ok (w, s')).
      { unfold lift, rewriteAppendOnlyFileBackground. rewrite Et, EC. done. }
      by rewrite (bind_ok _ _ _ _ _ EL) in HE.
  Qed.
End record.

(** * The whole file *)
Lemma restart_panics cf clock file rs : (0 < cf_dbs cf)%nat → Forall (record_ok cf) (records file) → Forall (λ r, 0 ≤ r) rs →
  Z.of_nat (length file) < 2 ^ 42 → (restart cf clock file rs).2 = Panic →
  (read_only file).2 = Panic ∨ ∃ args, args ∈ records file ∧ crasher (cf_lib cf) rs args.
Proof.
  intros Hdbs Hrec Hrs Hsz HR.
  assert (Hw0 : w_ok 0 (W (NewServer (cf_dbs cf)) NewClient rs)).
  { split; simpl; try done; [apply new_server_ok|by rewrite replicate_length]. }
  assert (Hf0 : Forall solid_db (abs_dbs (NewServer (cf_dbs cf)))).
  { unfold abs_dbs. simpl. apply Forall_fmap, Forall_replicate. simpl. unfold abs_db. simpl. rewrite NewDict_map, fmap_empty. by intros ???. }
  unfold restart, loadAppendOnlyFile in HR. apply load_panics in HR as [HR|(pre & args & post & w1 & H1 & H2 & H3 & Hlen)]; [by left|right]. rewrite H1 in Hrec.
  apply Forall_app in Hrec as [Hpre Hrec]. apply Forall_cons in Hrec as [Hc _].
  assert (H : ∀ cmds j N w, w_ok N w → Forall (record_ok cf) cmds → (N + sum_list (length <$> cmds) ≤ length file)%nat →
    Forall solid_db (abs_dbs (w_srv w)) → replay (exec_at cf clock) j cmds w = (w1, Ok tt) →
    w_ok (N + sum_list (length <$> cmds)) w1 ∧ Forall solid_db (abs_dbs (w_srv w1)) ∧ ∃ r, w_rnd w = r ++ w_rnd w1).
  { clear H2 Hw0 Hlen Hpre. induction cmds as [|args' cmds IH]; intros j N w Hw Hcs Hl Hf HR. { injection HR as <-. simpl. rewrite Nat.add_0_r. split; [done|]. split; [done|]. by exists []. }
    apply Forall_cons in Hcs as [Hc' Hcs]. cbn [replay] in HR. unfold exec_at in HR at 1. cbn [fmap list_fmap sum_list sum_list_with] in *. simpl in Hl.
    destruct (exec_logged (env_at cf (clock j) 0) args' w) as [[w2 []]| |] eqn:E1; [|done..]. cbn [mbind res_bind fst] in HR.
    assert (Hroom : room N args') by (unfold room, small, max_entries; lia).
    pose proof (exec_logged_ok _ N _ _ _ Hw Hroom (record_arity cf (clock j) _ Hc') E1) as (G1 & _).
    pose proof (exec_logged_dbs solid_db sem_solid _ N _ _ _ Hw Hroom (record_arity cf (clock j) _ Hc') E1 Hf) as G2.
    destruct (drops_exec _ _ _ _ _ E1) as [r0 Hr0].
    simpl. rewrite Nat.add_assoc. destruct (IH (j + 1)%nat (N + length args')%nat w2) as (I1 & I2 & r1 & Hr1); try done; [lia|].
    split; [done|]. split; [done|]. exists (r0 ++ r1). by rewrite Hr0, Hr1, app_assoc. }
  destruct (H pre 0%nat 0%nat _ Hw0 Hpre ltac:(lia) Hf0 H2) as (Hw1 & Hs1 & r0 & Hr0). cbn [w_rnd] in Hr0.
  unfold exec_at in H3. destruct (exec_logged (env_at cf (clock (length pre)) 0) args w1) as [?| |] eqn:E3; try done.
  exists args. split; [rewrite H1; apply elem_of_app; right; by left|].
  assert (Hroom : room (0 + sum_list (length <$> pre)) args) by (unfold room, small, max_entries; simpl in *; lia).
  pose proof (exec_panics (env_at cf (clock (length pre)) 0) _ w1 args Hw1 Hroom Hs1 (record_arity cf (clock (length pre)) _ Hc) E3) as HC.
  destruct args as [|a l]; [done|]. destruct HC as (C1 & C2 & C3). split; [done|]. split; [done|]. intros Hz Hok. apply (C3 Hz). rewrite Hr0 in Hok. by eapply level_ok_suffix.
Qed.
(** reading a log of whole records *)
Lemma read_only_own cf text : lower_ok (cf_lib cf) → own_log cf text → readable text → (read_only text).2 = Ok tt.
Proof.
  intros Hlow (cmds & -> & Hc) Hrd.
  assert (Hne : Forall (λ c, c ≠ []) cmds) by (eapply Forall_impl; [exact Hc|]; intros c Hx; by apply (own_good cf)).
  pose proof (readable_ok _ Hne Hrd) as Hok. unfold read_only. by rewrite (load_file_all _ _ _ Hok), replay_records.
Qed.
