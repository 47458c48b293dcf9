(** Where the observations of a run of the loop are in its history. *)
From Verif Require Import Base Float DictModel DatabaseModel SetModel QuicklistModel SkiplistModel ZsetModel
  Strconv RespSpec RespModel RespProofs ServerModel CommandModel CommandInv CommandExt SystemModel SystemProofs EventModel PropsEvent PropsResp LoopModel LoopProofs PropsLoop EndProofs.
From Verif Require PropsAof.
From Coq Require Import ZifyBool ZifyNat.
Import PropsAof (whole_log).

Section traced.
  Context (cf : lconfig) (lfd : Z).
  Notation scf := (lc_sys cf).
  (** after every command of the trace the log was that of the trace so far; the log
      is replaced only by [EvDone]; without a replacement the file only grows *)
  Record traced (l : lstate) : Prop := {
    tr_cmd : ∀ ta i args q lg tb, l_trace l = ta ++ OCmd i args q lg :: tb → ∃ h now unix rs y',
      h ++ [EvCommand i args now unix rs] `prefix_of` l_hist l ∧ run scf (h ++ [EvCommand i args now unix rs]) (init_sys scf) = Ok y' ∧
      whole_log y' = logged (ta ++ [OCmd i args q lg]) ∧ requests h = commands ta;
    tr_done : ∀ f, OReplace f ∈ l_trace l → ∃ d, EvDone d ∈ l_hist l;
    tr_flush : (∀ d, EvDone d ∉ l_hist l) → ∀ f s, OFlush f s ∈ l_trace l → f `prefix_of` y_file (l_sys l)
  }.
  (** observations that are not commands *)
  Definition news (l : lstate) (o : obs) : Prop :=
    match o with
    | OCmd _ _ _ _ => False
    | OReplace _ => ∃ d, EvDone d ∈ l_hist l
    | OFlush f _ => f = y_file (l_sys l)
    | _ => True
    end.
  Lemma run_rest evs evs' y y' : run scf evs (init_sys scf) = Ok y → run scf (evs ++ evs') (init_sys scf) = Ok y' → run scf evs' y = Ok y'.
  Proof.
    generalize (init_sys scf). induction evs as [|e evs IH]; intros y0; cbn [run app]; [by intros [= ->]|].
    destruct (step scf e y0) as [y1| |]; [|done..]. cbn [mbind res_bind]. apply IH.
  Qed.
  Lemma file_grows l l' : run scf (l_hist l) (init_sys scf) = Ok (l_sys l) → run scf (l_hist l') (init_sys scf) = Ok (l_sys l') →
    l_hist l `prefix_of` l_hist l' → evs_ok cf (l_hist l) → evs_ok cf (l_hist l') → (∀ d, EvDone d ∉ l_hist l') → y_file (l_sys l) `prefix_of` y_file (l_sys l').
  Proof.
    intros H1 H2 [t Ht] [_ (t1 & E1 & _)] [_ (t2 & E2 & F2)] Hd. rewrite Ht in H2. pose proof (run_rest _ _ _ _ H1 H2) as H3.
    eapply PropsAof.C41_crash_partial; [exact H1|exact H3| |].
    - intros d Hin. apply (Hd d). rewrite Ht. apply elem_of_app. by right.
    - rewrite Ht, E1, <-app_assoc in E2. apply app_inv_head in E2 as <-. by apply Forall_app in F2 as [_ ?].
  Qed.
  Lemma traced_new l l' os : traced l → run scf (l_hist l) (init_sys scf) = Ok (l_sys l) → run scf (l_hist l') (init_sys scf) = Ok (l_sys l') →
    l_hist l `prefix_of` l_hist l' → evs_ok cf (l_hist l) → evs_ok cf (l_hist l') → l_trace l' = l_trace l ++ os → Forall (news l') os → traced l'.
  Proof.
    intros [T1 T2 T3] R R' Hp Hev Hev' Ht Hn. rewrite Forall_forall in Hn. split.
    - intros ta i args q lg tb Hx. rewrite Ht in Hx. destruct (app_eq_inv _ _ _ _ Hx) as [(k & E1 & E2)|(k & E1 & E2)].
      + destruct k as [|o k]; [cbn [app] in E2; destruct (Hn (OCmd i args q lg)); rewrite <-E2; left|].
        injection E2 as <- E2. destruct (T1 _ _ _ _ _ _ E1) as (h & now & unix & rs & y' & X1 & X2). exists h, now, unix, rs, y'.
        split; [by etrans|done].
      + exfalso. apply (Hn (OCmd i args q lg)). rewrite E2. apply elem_of_app. right. left.
    - intros f Hf. rewrite Ht in Hf. apply elem_of_app in Hf as [Hf|Hf]; [|by apply (Hn _ Hf)].
      destruct (T2 f Hf) as [d Hd]. exists d. destruct Hp as [t ->]. apply elem_of_app. by left.
    - intros Hd f s Hf. rewrite Ht in Hf. apply elem_of_app in Hf as [Hf|Hf]; [|by rewrite (Hn _ Hf)].
      etrans; [|by eapply (file_grows l)]. eapply T3; [|done]. intros d Hin. apply (Hd d). destruct Hp as [t ->]. apply elem_of_app. by left.
  Qed.
  Lemma exec_shape i now unix rs l args l' failed : exec_command cf i now unix rs l args = Ok (l', failed) →
    l_hist l' = l_hist l ++ [EvCommand i args now unix rs] ∧
    ∃ os q lg os', l_trace l' = l_trace l ++ os ++ OCmd i args q lg :: os' ∧ (os = [] ∨ os = [ORewrite]) ∧ (os' = [] ∨ os' = [OStuck i]).
  Proof.
    unfold exec_command. destruct (l_net l !! i) as [n|]; [|done]. unfold do_sys. destruct (step _ _ _) as [y| |]; [|done..]. cbn [mbind res_bind].
    set (l1 := note_rewrite l _).
    assert (H1 : l_hist l1 = l_hist l ++ [EvCommand i args now unix rs] ∧ ∃ os, l_trace l1 = l_trace l ++ os ∧ (os = [] ∨ os = [ORewrite])).
    { unfold l1, note_rewrite. destruct (_ && _); (split; [done|]); [by exists [ORewrite]; split; [|by right]|].
      exists []. rewrite app_nil_r. by split; [|by left]. }
    clearbody l1. destruct H1 as (N1 & os & T1 & F1). set (r := drop _ _). set (g := drop _ (log_of l1)). clearbody r g. set (l2 := see l1 _).
    assert (H3 : l_trace l2 = l_trace l ++ os ++ [OCmd i args r g]) by (unfold l2; cbn [see l_trace]; by rewrite T1, app_assoc).
    assert (H4 : l_hist l2 = l_hist l1) by done. clearbody l2.
    destruct (_ && _); [destruct (AddFileEvent _ _ _ _ _) as [[el k] ok]; destruct ok|]; intros [= <- <-]; cbn [see set_loop l_hist l_trace];
      (split; [by rewrite H4|]); exists os, r, g; [exists []|exists [OStuck i]|exists []]; rewrite H3, <-?app_assoc; by auto.
  Qed.
  Lemma traced_exec i now unix rs l args l' failed : traced l → lbase cf lfd None l → lbase cf lfd None l' →
    exec_command cf i now unix rs l args = Ok (l', failed) → traced l'.
  Proof.
    intros [T1 T2 T3] Hb Hb' Hx. pose proof (exec_prefix _ _ _ _ _ _ _ _ _ Hx) as Hp.
    destruct (exec_shape _ _ _ _ _ _ _ _ Hx) as (Hh & os & q & lg & os' & Ht & Ho & Ho').
    assert (os' = []) as ->. { destruct Ho' as [->| ->]; [done|]. destruct (lb_stuck _ _ _ _ Hb' i). rewrite Ht. set_solver. }
    split.
    - intros ta j args' q' lg' tb E. rewrite Ht, app_assoc in E. apply snoc_split in E as [(-> & <- & [= <- <- <- <-])|(tc & -> & E)].
      + exists (l_hist l), now, unix, rs, (l_sys l'). rewrite <-Hh. split; [done|]. split; [apply Hb'|]. split; [unfold whole_log; rewrite (lb_log _ _ _ _ Hb'), Ht, app_assoc; done|].
        rewrite commands_app, (lb_cmds _ _ _ _ Hb). destruct Ho as [->| ->]; by rewrite app_nil_r.
      + destruct (app_eq_inv _ _ _ _ E) as [(k & E1 & E2)|(k & E1 & E2)].
        * destruct k as [|o k]; [cbn [app] in E2; by destruct Ho as [->| ->]|]. injection E2 as <- E2.
          destruct (T1 _ _ _ _ _ _ E1) as (h & now' & unix' & rs' & y' & X1 & X2). exists h, now', unix', rs', y'. split; [by etrans|done].
        * exfalso. destruct Ho as [->| ->]; destruct k as [|? [|]]; done.
    - intros f Hf. rewrite Ht in Hf. apply elem_of_app in Hf as [Hf|Hf]; [|exfalso; destruct Ho as [->| ->]; set_solver].
      destruct (T2 f Hf) as [d Hd]. exists d. rewrite Hh. apply elem_of_app. by left.
    - intros Hd f s Hf. rewrite Ht in Hf. apply elem_of_app in Hf as [Hf|Hf]; [|exfalso; destruct Ho as [->| ->]; set_solver].
      etrans; [|by eapply (file_grows l); [apply Hb|apply Hb'|done|apply Hb|apply Hb'|..]]. eapply T3; [|done]. intros d Hin. apply (Hd d). rewrite Hh. apply elem_of_app. by left.
  Qed.
  Lemma traced_input i fd now unix rs fuel c l c' l' e : (0 < cf_dbs scf)%nat → lbase cf lfd None l → live l i fd → Forall (λ r, 0 ≤ r) rs → traced l →
    input_loop (exec_command cf i now unix rs) fuel c l = Ok (c', l', e) → small_hist l' → traced l'.
  Proof.
    intros Hcf Hb Hl Hrs. revert c l Hb Hl.
    induction fuel as [|fuel IH]; intros c l Hb Hl HT; simpl; destruct (q_len c >? 0); try done;
      [by intros [= <- <- <-] _| |by intros [= <- <- <-] _].
    destruct (detect c) as [c1| |]; [|done..]. cbn [mbind res_bind]. destruct (dispatch c1) as [[c2 out]| |]; [|done..]. cbn [mbind res_bind].
    destruct out as [e'|[]]; [by intros [= <- <- <-] _| |by intros [= <- <- <-] _].
    destruct (c_args c2) as [|a args]; [by apply IH|].
    destruct (exec_command cf i now unix rs l (a :: args)) as [[l1 f]| |] eqn:Ex; [|done..]. cbn [mbind res_bind].
    assert (Hnil : a :: args ≠ []) by done.
    destruct f.
    - intros [= <- <- <-] Hs. destruct (exec_ok cf lfd _ fd _ _ _ _ _ _ _ Hcf Hb Hl Hnil Hrs Ex Hs) as (_ & [=] & _).
    - intros H Hs. pose proof (input_prefix _ _ _ _ _ _ _ _ _ _ _ H) as Hp.
      assert (Hs1 : small_hist l1) by (by eapply small_back).
      destruct (exec_ok cf lfd _ fd _ _ _ _ _ _ _ Hcf Hb Hl Hnil Hrs Ex Hs1) as (E1 & _ & _ & E3 & _).
      eapply IH; [| |by eapply (traced_exec _ _ _ _ l)|done|done]; done.
  Qed.
  (** what is seen besides commands: nothing about the log except in AFlush and ACron *)
  Definition dull (o : obs) : Prop := match o with OCmd _ _ _ _ | OReplace _ | OFlush _ _ => False | _ => True end.
  Definition dulls (l l' : lstate) : Prop := ∃ os, l_trace l' = l_trace l ++ os ∧ Forall dull os.
  Lemma dulls_same l l' : l_trace l' = l_trace l → dulls l l'.
  Proof. intros H. exists []. rewrite app_nil_r. split; [done|by apply Forall_nil_2]. Qed.
  Lemma dulls_see l l' o : l_trace l' = l_trace l ++ [o] → dull o → dulls l l'.
  Proof. intros H Ho. exists [o]. split; [done|by apply Forall_singleton]. Qed.
  Lemma dulls_trans l1 l2 l3 : dulls l1 l2 → dulls l2 l3 → dulls l1 l3.
  Proof. intros (os & H1 & H2) (os' & G1 & G2). exists (os ++ os'). rewrite G1, H1, app_assoc. split; [done|by apply Forall_app]. Qed.
  Lemma free_dulls i fd l : dulls l (free i fd l).
  Proof. unfold free. destruct (RemoveFileEvent _ _ _ _) as [[el k] ok]. destruct (RemoveFileEvent _ _ el k) as [[el' k'] ok']. by eapply dulls_see. Qed.
  Lemma note_dulls l l1 : dulls l1 (note_rewrite l l1).
  Proof. unfold note_rewrite. destruct (_ && _); [by eapply dulls_see|by apply dulls_same]. Qed.
  Lemma send_dulls i ws : ∀ l l', sendHandler cf i ws l = Ok l' → dulls l l'.
  Proof.
    induction ws as [|w ws IH]; intros l l'; cbn [sendHandler]; (destruct (l_net l !! i) as [n|] eqn:Hn; [|done]); destruct (queue_of l i) as [|b q];
      try (destruct (RemoveFileEvent _ _ _ _) as [[el k] ok]; intros [= <-]; by apply dulls_same); (destruct (n_sent n <? zlen b); [|done]); [done|].
    destruct (if decide _ then w else WError) as [m| |]; [|intros [= <-]; by apply dulls_same|intros [= <-]; apply free_dulls].
    destruct (_ && _); [|done]. set (l1 := see l _). assert (H1 : dulls l l1) by (by eapply dulls_see). clearbody l1.
    destruct (_ =? zlen b).
    - unfold do_sys. destruct (step _ _ _) as [y| |]; [|done..]. cbn [mbind res_bind]. intros H%IH. eapply dulls_trans; [done|]. eapply dulls_trans; [|exact H].
      by apply dulls_same.
    - intros [= <-]. eapply dulls_trans; [done|]. by apply dulls_same.
  Qed.
  Lemma accept_dulls a l l' : acceptTCPHandler cf a l = Ok l' → dulls l l'.
  Proof.
    unfold acceptTCPHandler. destruct a as [|fd|fd]; [intros [= <-]; by apply dulls_same|destruct (decide _); [done|intros [= <-]; by apply dulls_same]|].
    destruct (decide _); [done|]. unfold do_sys. destruct (step _ EvConnect _) as [y| |]; [|done..]. cbn [mbind res_bind]. set (l1 := L _ _ _ _ _ _ _ _ _ _ _ _ _).
    assert (H1 : dulls l l1) by (by eapply dulls_see).
    clearbody l1. destruct (AddFileEvent _ _ _ _ _) as [[el k] ok]. intros H. eapply dulls_trans; [exact H1|].
    destruct ok; injection H as <-; [by apply dulls_same|]. eapply dulls_trans; [|apply free_dulls]. by apply dulls_same.
  Qed.
  Lemma cron_news now rs l l' : serverCron cf now rs l = Ok l' → ∃ os, l_trace l' = l_trace l ++ os ∧ Forall (news l') os.
  Proof.
    unfold serverCron, do_sys. destruct (step _ (EvCron now rs) _) as [y| |]; [|done..]. cbn [mbind res_bind]. set (l1 := set_sys l y _).
    assert (H1 : dulls l l1) by (by apply dulls_same). clearbody l1.
    destruct (if growth_check cf l1 then _ else _) as [l2| |] eqn:E2; [|done..]. cbn [mbind res_bind]. intros H.
    assert (H2 : dulls l1 l2).
    { destruct (growth_check cf l1); [|injection E2 as <-; by apply dulls_same]. unfold start_rewrite, do_sys in E2.
      destruct (step _ EvRewrite _) as [y2| |]; [|done..]. cbn [mbind res_bind] in E2. injection E2 as <-.
      eapply dulls_trans; [|apply note_dulls]. by apply dulls_same. }
    destruct (dulls_trans _ _ _ H1 H2) as (os & Ho & Hf).
    assert (Hnews : ∀ l3, Forall (news l3) os) by (intros l3; eapply Forall_impl; [exact Hf|intros []; done]).
    unfold done_callback in H. destruct (l_done l2) as [|d rest]; [injection H as <-; by exists os|].
    unfold do_sys in H. destruct (step _ (EvDone d) _) as [y2| |]; [|done..]. cbn [mbind res_bind] in H. injection H as <-.
    eexists (os ++ [_]). cbn [see set_sizes set_bg set_sys l_trace]. rewrite Ho, <-app_assoc. split; [done|]. apply Forall_app. split; [done|].
    apply Forall_singleton. cbn. exists d. apply elem_of_app. right. left.
  Qed.
  Lemma lstep_news a l l' : lstep cf a l = Ok l' → next_read a l = None → ∃ os, l_trace l' = l_trace l ++ os ∧ Forall (news l') os.
  Proof.
    assert (Hd : ∀ l l', dulls l l' → ∃ os, l_trace l' = l_trace l ++ os ∧ Forall (news l') os).
    { intros l1 l2 (os & Ho & Hf). exists os. split; [done|]. eapply Forall_impl; [exact Hf|intros []; done]. }
    unfold next_read. destruct a as [|now rep| |now rs after|f| |d|]; cbn [lstep]; destruct (l_pc l) as [| |[|te tes] fes] eqn:Hpc; try done; intros H Hr;
      try (injection H as <-; by apply Hd, dulls_same);
      try (injection H as <-; by eapply Hd, dulls_see);
      try (destruct (l_bg l); [done|]; destruct (l_done l); [|done]; injection H as <-; by apply Hd, dulls_same).
    - unfold flush in H. destruct (bool_decide _); cbn [mbind res_bind] in H; [injection H as <-; eexists [_]; split; [done|]; by apply Forall_singleton|]. unfold do_sys in H.
      destruct (step _ _ _) as [y| |]; [|done..]. cbn [mbind res_bind] in H. injection H as <-. eexists [_]; split; [done|]; by apply Forall_singleton.
    - destruct (bool_decide _); [|done]. injection H as <-. by eapply Hd, dulls_see.
    - destruct (serverCron cf now rs l) as [l1| |] eqn:E1; [|done..]. cbn [mbind res_bind] in H. destruct (cron_news _ _ _ _ E1) as (os & Ho & Hn).
      exists os. assert (Hx : l_trace l' = l_trace l1 ∧ l_hist l' = l_hist l1 ∧ l_sys l' = l_sys l1).
      { destruct (te_once te); [destruct (RemoveTimeEvent _ _) as [el ok]|]; by injection H as <-. }
      destruct Hx as (-> & Hh & Hy). split; [done|]. eapply Forall_impl; [exact Hn|]. intros o. unfold news. by rewrite Hh, Hy.
    - destruct fes as [|fe fes]; [done|]. destruct f as [a|r now unix rs|ws]; destruct (handler_of (fe_data fe)); try done; apply Hd.
      + eapply dulls_trans; [|by eapply accept_dulls]. by apply dulls_same.
      + eapply dulls_trans; [|by eapply send_dulls]. by apply dulls_same.
    - destruct fes; [|done]. injection H as <-. by apply Hd, dulls_same.
  Qed.
  Lemma traced_read l l' i r now unix rs fe fes : (0 < cf_dbs scf)%nat → linv cf lfd l → linv cf lfd l' → Forall (λ r, 0 ≤ r) rs → small_hist l' →
    l_pc l = PRun [] (fe :: fes) → handler_of (fe_data fe) = HRead i → readHandler cf i r now unix rs (set_pc l (PRun [] fes)) = Ok l' → traced l → traced l'.
  Proof.
    intros Hcf Hinv Hinv' Hrs Hs Hpc Hh Hrd HT. pose proof (who_reads _ _ _ _ _ _ Hinv Hpc Hh) as Hcl. destruct Hinv as [Hb _], Hinv' as [Hb' _].
    apply (pc_base _ _ _ _ (PRun [] fes)) in Hb. set (l0 := set_pc l _) in *.
    assert (HT0 : traced l0) by (destruct HT; by split). assert (Hl0 : live l0 i (fe_fd fe)) by done. clearbody l0.
    unfold readHandler in Hrd. destruct (l_net l0 !! i) as [n|]; [|done]. set (r' := if decide _ then r else RFail) in *. clearbody r'.
    destruct (readQueryFromClient _ _ _ _) as [x| |] eqn:Ex; [|done..]. cbn [mbind res_bind] in Hrd.
    assert (Hx : small_hist x.2 → traced x.2 ∧ lbase cf lfd None x.2).
    { unfold readQueryFromClient in Ex. destruct r' as [[|b ch]| | |]; try (injection Ex as <-; by split).
      destruct (fill _ _) as [c1|]; [|done]. unfold processInputBuffer in Ex.
      destruct (input_loop (exec_command cf i now unix rs) 2 c1 l0) as [[[c2 l2] e]| |] eqn:E; [|done..]. cbn [mbind res_bind] in Ex.
      assert (x.2 = l2) as -> by (destruct e as [[]|]; by injection Ex as <-). intros Hs2.
      split; [exact (traced_input _ _ _ _ _ _ _ _ _ _ _ Hcf Hb Hl0 Hrs HT0 E Hs2)|]. by destruct (input_ok cf lfd _ _ _ _ _ _ _ _ _ _ _ Hcf Hb Hl0 Hrs E Hs2). }
    assert (Hfin : ∀ os, l_hist l' = l_hist x.2 → l_trace l' = l_trace x.2 ++ os → Forall dull os → traced l').
    { intros os H1 H2 H3. destruct Hx as [HT2 Hb2]; [unfold small_hist in *; by rewrite <-H1|]. eapply (traced_new x.2); [done|apply Hb2|apply Hb'|by rewrite H1|apply Hb2|apply Hb'|done|].
      eapply Forall_impl; [exact H3|intros []; done]. }
    destruct x.1; injection Hrd as <-.
    - apply (Hfin []); [done|by rewrite app_nil_r|by apply Forall_nil_2].
    - destruct (free_dulls i (n_fd n) x.2) as (os & Ho & Hf). by apply (Hfin os); [apply free_hist|..].
  Qed.
  Lemma traced_run acts l l' : (0 < cf_dbs scf)%nat → Forall act_ok acts → linv cf lfd l → traced l → lrun cf acts l = Ok l' → small_hist l' → traced l'.
  Proof.
    intros Hcf Ha. revert l. induction Ha as [|a acts Ha _ IH]; intros l Hl HT; cbn [lrun]; [by intros [= <-]|].
    destruct (lstep cf a l) as [l1| |] eqn:E; [|done..]. cbn [mbind res_bind]. intros H Hsm.
    assert (Hs1 : small_hist l1) by (eapply small_back; [|exact Hsm]; by eapply lrun_prefix).
    assert (Hl1 : linv cf lfd l1) by exact (step_ok cf lfd a l l1 Hcf Hl Ha E Hs1). eapply IH; [done| |done|done].
    destruct (next_read a l) as [[i r]|] eqn:En.
    - unfold next_read in En. destruct a as [| | | |f| | |]; try done. destruct f as [|r' now unix rs|]; try done.
      destruct (l_pc l) as [| |[|] [|fe fes]] eqn:Hpc; try done. destruct (handler_of (fe_data fe)) as [|j|] eqn:Eh; try done. injection En as <- <-.
      cbn [lstep] in E. rewrite Hpc, Eh in E. exact (traced_read l l1 j r' now unix rs fe fes Hcf Hl Hl1 Ha Hs1 Hpc Eh E HT).
    - destruct (lstep_news _ _ _ E En) as (os & Ho & Hn). eapply (traced_new l); [done|apply Hl|apply Hl1|by eapply lstep_prefix|apply Hl|apply Hl1|done|done].
  Qed.
  Lemma lreach_traced now acts l : lreach cf lfd now acts l → traced l.
  Proof.
    intros (H1 & H2 & Hbt & H3 & H4). eapply traced_run; try done.
    - apply linit_ok; [done..|]. apply lrun_prefix in H3 as [t Ht].
      assert (Hh : l_hist (linit cf lfd now) = born cf) by (unfold linit; by destruct (AddFileEvent _ _ _ _ _) as [[el k] ok]).
      rewrite Ht, total_app, Hh in H4. lia.
    - split.
      + intros ta i args q lg tb Ht. assert (Ho : OCmd i args q lg ∈ l_trace (linit cf lfd now)) by (rewrite Ht; set_solver).
        by apply linit_trace in Ho as [?|[f ?]].
      + intros f Hf. by apply linit_trace in Hf as [?|[g ?]].
      + intros _ f s Hf. by apply linit_trace in Hf as [?|[g ?]].
  Qed.
End traced.
