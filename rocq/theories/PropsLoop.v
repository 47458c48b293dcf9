(** The running server: C25 (delivery of replies), C42 (the log before the reply),
    C43 (automatic rewrite), C46 (waiting for writability).

    The statements speak about the observations of a run ([l_trace]), with the
    following functions of LoopProofs.v:
    [written i t]: the bytes write(2) accepted for client [i];
    [queued i t]: the replies of the commands of client [i];
    [logged t]: the log found at the start or the last replacement of the log followed by the log records of the
    commands executed since;
    [replaced t]: the size of the last replacement, 0 without one;
    [starts t], [ends t]: rewrites started, log files replaced. *)
From Verif Require Import Base Float DictModel DatabaseModel SetModel QuicklistModel SkiplistModel ZsetModel
  Strconv RespSpec RespModel ServerModel CommandModel CommandInv CommandFacts ReplySpec PropsReply SystemModel SystemProofs EventModel PropsEvent LoopModel LoopProofs ExampleLib.
From Coq Require Import ZifyBool ZifyNat.

(** * The loop refines the system of SystemModel.v *)
(** every theorem about [reaches] holds for a running server, and the commands that
    are executed are those of the trace *)
Theorem loop_refines cf lfd now acts l : lreach cf lfd now acts l →
  reaches (lc_sys cf) (l_hist l) (l_sys l) ∧ requests (l_hist l) = commands (l_trace l).
Proof.
  intros H. pose proof (lreach_ok _ _ _ _ _ H) as [Hb _]. destruct H as (_ & H2 & _ & _ & H4). split; [by eapply base_reaches|]. symmetry. apply Hb.
Qed.
Print Assumptions loop_refines.

(** * C25 *)
Theorem C25_delivery cf lfd now acts l i : lreach cf lfd now acts l →
  written i (l_trace l) `prefix_of` queued i (l_trace l) ∧ (queue_of l i = [] → written i (l_trace l) = queued i (l_trace l)).
Proof.
  intros H. pose proof (lreach_ok _ _ _ _ _ H) as [Hb _]. destruct (l_net l !! i) as [n|] eqn:Hn.
  - destruct (lb_stream _ _ _ _ Hb i n Hn) as [_ S2]. rewrite <-S2. split; [by apply prefix_app_r|]. intros ->. change (mjoin (@nil bytes)) with (@nil ascii). rewrite drop_nil. by rewrite app_nil_r.
  - apply lookup_ge_None in Hn. destruct (lb_none _ _ _ _ Hb i Hn) as [-> ->]. done.
Qed.
Print Assumptions C25_delivery.

(** the requests of client [i] with the bytes queued in reply *)
Fixpoint answers (i : nat) (t : list obs) : list (list bytes * bytes) :=
  match t with
  | [] => []
  | OCmd j args q _ :: t => (if decide (j = i) then [(args, q)] else []) ++ answers i t
  | _ :: t => answers i t
  end.
Lemma answers_queued i t : queued i t = mjoin (answers i t).*2.
Proof. induction t as [|o t IH]; [done|]. destruct o; simpl; rewrite ?IH; try done. by case_decide. Qed.
Lemma answers_in i t args q : (args, q) ∈ answers i t → ∃ lg, OCmd i args q lg ∈ t.
Proof.
  induction t as [|o t IH]; [by intros ?%elem_of_nil|]. intros H.
  destruct o as [j fd|j a q' lg|j b|j| |f s| |f|f|j]; simpl in H; try (destruct (IH H) as [lg' ?]; exists lg'; by right).
  apply elem_of_app in H as [H|H]; [|destruct (IH H) as [lg' ?]; exists lg'; by right].
  case_decide as Hd; [|by apply elem_of_nil in H]. apply elem_of_list_singleton in H. injection H as -> ->. subst j. exists lg. left.
Qed.
Lemma just_reply cf i args q lg : lib_plain (cf_lib (lc_sys cf)) → justified cf (OCmd i args q lg) → Forall plain args → ∃ v, one_value q v.
Proof.
  intros HL (h & y & c & now & unix & rs & y' & c' & os & Hr & [He1 He2] & Hc & Hst & Hr' & Hc' & Ho & -> & Hlg) Hp.
  assert (Hok : cmd_ok (lc_sys cf) h args rs).
  { split; [done|]. split; [done|]. destruct Hr' as [(_ & _ & Hs) _]. rewrite total_app in Hs. cbn in Hs. lia. }
  destruct (C24_one_reply_partial _ _ _ _ _ _ _ _ _ _ HL Hr Hc Hok Hst) as (c2 & sent & Hc2 & Hs & _ & Hv).
  assert (c2 = c') as -> by congruence. rewrite Ho, mjoin_app in Hs. apply app_inv_head in Hs as ->. destruct Hv as [Hv|[_ Hv]]; done.
Qed.
(** A client whose arguments contain no CR or LF receives one RESP value per
    request, in the order of the requests, and nothing else. *)
Theorem C25_replies cf lfd now acts l i : lreach cf lfd now acts l → lib_plain (cf_lib (lc_sys cf)) →
  Forall (λ a, Forall plain a.1) (answers i (l_trace l)) →
  ∃ vs, Forall2 one_value (answers i (l_trace l)).*2 vs ∧ written i (l_trace l) `prefix_of` mjoin (answers i (l_trace l)).*2 ∧
    (queue_of l i = [] → written i (l_trace l) = mjoin (answers i (l_trace l)).*2).
Proof.
  intros H HL Hp. destruct (C25_delivery _ _ _ _ _ i H) as [D1 D2]. rewrite answers_queued in D1, D2.
  pose proof (lreach_ok _ _ _ _ _ H) as [Hb _]. pose proof (lb_just _ _ _ _ Hb) as Hj. rewrite Forall_forall in Hj.
  assert (Hv : Forall (λ a, ∃ v, one_value a.2 v) (answers i (l_trace l))).
  { apply Forall_forall. intros [args q] Hin. rewrite Forall_forall in Hp. pose proof (Hp _ Hin) as Hpl. apply answers_in in Hin as [lg Hin].
    apply Hj in Hin. by eapply just_reply. }
  enough (∃ vs, Forall2 one_value (answers i (l_trace l)).*2 vs) as [vs Hvs] by (by exists vs).
  clear -Hv. induction Hv as [|a t [v Hv] _ [vs IH]]; [exists []; by apply Forall2_nil_2|]. exists (v :: vs). cbn [fmap list_fmap]. by apply Forall2_cons.
Qed.
Print Assumptions C25_replies.

(** * C46 *)
(** the registrations of a connected client *)
Theorem C46_registration cf lfd now acts l i fd : lreach cf lfd now acts l → OConnect i fd ∈ l_trace l → OFree i ∉ l_trace l →
  (is_Some (el_file (l_loop l) !! getFileEventMapKey fd TypeFileEventWritable) ↔ queue_of l i ≠ []) ∧
  k_int (l_kernel l) !! fd = Some (if decide (queue_of l i = []) then EPOLLIN else EPOLLIN + EPOLLOUT) ∧
  el_file (l_loop l) !! getFileEventMapKey fd TypeFileEventReadable = Some (FE fd TypeFileEventReadable (h_read i)) ∧
  (queue_of l i ≠ [] → el_file (l_loop l) !! getFileEventMapKey fd TypeFileEventWritable = Some (FE fd TypeFileEventWritable (h_send i))).
Proof.
  intros H Hc Hf. pose proof (lreach_ok _ _ _ _ _ H) as [Hb _]. assert (Hcl : l_clients l !! fd = Some i) by (by apply (lb_conn _ _ _ _ Hb)).
  destruct (lb_cli _ _ _ _ Hb _ _ Hcl) as [Hne _]. destruct (lb_tab _ _ _ _ Hb) as (T & BT & BW).
  pose proof (mi_file _ _ BT fd false) as F0. pose proof (mi_file _ _ BT fd true) as F1. pose proof (mi_int _ _ BT fd) as FI. cbn [fst snd] in F0, F1, FI.
  unfold interest in FI. rewrite !BW in *. unfold want in F0, F1, FI. destruct (decide (fd = lfd)) as [?|_]; [done|]. rewrite Hcl in F0, F1, FI.
  change (typ true) with TypeFileEventWritable in F1. change (typ false) with TypeFileEventReadable in F0. cbn [fmap option_fmap option_map] in F0. split; [|split; [|split]].
  - rewrite F1. destruct (decide (queue_of l i = [] ∧ None ≠ Some i)) as [[Hq _]|Hq]; cbn; [split; [by intros [? ?]|done]|]. split; [|by eauto]. intros _ He. by apply Hq.
  - rewrite FI. destruct (decide (queue_of l i = [] ∧ None ≠ Some i)) as [[Hq _]|Hq]; [rewrite (decide_True (P := queue_of l i = [])) by done; done|]. rewrite (decide_False (P := queue_of l i = [])); [done|]. intros He. by apply Hq.
  - exact F0.
  - intros Hq. rewrite F1. rewrite decide_False; [done|]. by intros [? _].
Qed.
Print Assumptions C46_registration.
(** no command is executed without its reply being registered for sending, and no
    descriptor is watched or kept open but those of the connected clients *)
Theorem C46_no_leftovers cf lfd now acts l : lreach cf lfd now acts l →
  (∀ i, OStuck i ∉ l_trace l) ∧
  (∀ fd, fd ∈ k_open (l_kernel l) ↔ fd = lfd ∨ ∃ i, OConnect i fd ∈ l_trace l ∧ OFree i ∉ l_trace l) ∧
  (∀ fd, is_Some (k_int (l_kernel l) !! fd) ↔ fd ∈ k_open (l_kernel l)) ∧
  (∀ fd, is_Some (l_clients l !! fd) ↔ ∃ i, OConnect i fd ∈ l_trace l ∧ OFree i ∉ l_trace l).
Proof.
  intros H. pose proof (lreach_ok _ _ _ _ _ H) as [Hb _].
  assert (Hcl : ∀ fd, is_Some (l_clients l !! fd) ↔ ∃ i, OConnect i fd ∈ l_trace l ∧ OFree i ∉ l_trace l).
  { intros fd. split; [intros [i Hi]; exists i; by apply (lb_conn _ _ _ _ Hb)|intros [i Hi]; exists i; by apply (lb_conn _ _ _ _ Hb)]. }
  split; [apply Hb|]. split; [|split; [|done]].
  - intros fd. rewrite (lb_open _ _ _ _ Hb). by rewrite Hcl.
  - intros fd. destruct (lb_tab _ _ _ _ Hb) as (T & BT & BW). pose proof (mi_int _ _ BT fd) as FI. cbn [fst snd] in FI. split.
    + rewrite FI. intros Hs. unfold interest in Hs. destruct (T !! (fd, false)) eqn:E0.
      * apply (mi_live _ _ BT fd false). cbn. by rewrite E0.
      * destruct (T !! (fd, true)) eqn:E1; [|by destruct Hs]. apply (mi_live _ _ BT fd true). cbn. by rewrite E1.
    + intros Ho. rewrite FI. apply (lb_open _ _ _ _ Hb) in Ho.
      assert (HT : is_Some (T !! (fd, false))).
      { rewrite BW. unfold want. case_decide; [by eexists|]. destruct Ho as [?|[i Hi]]; [done|]. rewrite Hi. by eexists. }
      unfold interest. destruct HT as [h ->]. destruct (T !! (fd, true)); by eexists.
Qed.
Print Assumptions C46_no_leftovers.

(** a socket that accepts everything empties the queue *)
Definition drain (sent : Z) (q : list bytes) : list write_result :=
  match q with [] => [] | b :: q => WOk (zlen b - sent) :: ((λ b, WOk (zlen b)) <$> q) end.
Lemma send_drains cf lfd i fd q : (0 < cf_dbs (lc_sys cf))%nat → ∀ l n, lbase cf lfd (Some i) l → live l i fd → running (l_trace l) i → small_hist l →
  l_net l !! i = Some n → queue_of l i = q → ∃ l', sendHandler cf i (drain (n_sent n) q) l = Ok l' ∧ queue_of l' i = [].
Proof.
  intros Hcf. induction q as [|b q IH]; intros l n Hb Hl Hr Hsm Hn Hq.
  - cbn [drain sendHandler]. rewrite Hn, Hq. destruct (RemoveFileEvent _ _ _ _) as [[el k] ok]. eexists. split; [reflexivity|]. exact Hq.
  - destruct (lb_stream _ _ _ _ Hb i n Hn) as [S1 _]. rewrite Hq in S1. simpl in S1. destruct (lb_cli _ _ _ _ Hb _ _ Hl) as [Hne Hnf]. rewrite Hn in Hnf. injection Hnf as Hnf.
    cbn [drain sendHandler]. rewrite Hn, Hq. replace (n_sent n <? zlen b) with true by lia.
    rewrite decide_True by (rewrite Hnf; apply (lb_open _ _ _ _ Hb); right; by exists i).
    replace (0 <=? zlen b - n_sent n) with true by lia. replace (zlen b - n_sent n <=? zlen b - n_sent n) with true by lia. cbn [andb].
    replace (n_sent n + (zlen b - n_sent n) =? zlen b) with true by lia.
    unfold do_sys. cbn [set_net see l_sys].
    destruct (step (lc_sys cf) (EvSent i 1) (l_sys l)) as [y| |] eqn:Hst; [|by cbn [step] in Hst; destruct (y_cls (l_sys l) !! i)..]. cbn [mbind res_bind].
    destruct (write_whole cf lfd i fd (zlen b - n_sent n) l n b q y Hcf Hsm Hb Hr Hn Hnf Hq) as [W1 _]; [lia|lia|exact Hst|]. cbv zeta in W1. rewrite Hnf.
    set (l2 := set_sys _ y _) in *.
    assert (Hi : (i < length (l_net l))%nat) by (by eapply lookup_lt_Some).
    assert (Q2 : queue_of l2 i = q).
    { unfold l2, queue_of. cbn [set_sys l_sys]. cbn [step] in Hst. unfold queue_of in Hq. destruct (y_cls (l_sys l) !! i) as [c|] eqn:Hc; [|done]. injection Hst as <-. cbn [y_cls].
      rewrite list_lookup_insert by (by eapply lookup_lt_Some). cbn in *. by rewrite Hq. }
    assert (N2 : l_net l2 !! i = Some (Net fd (n_parser n) 0)) by (by apply list_lookup_insert).
    assert (Hr2 : running (l_trace l2) i). { cbn [l2 set_sys set_net see l_trace]. apply running_app; [done|]. by intros ?%elem_of_list_singleton. }
    assert (Hs2 : small_hist l2). { unfold small_hist in *. cbn [l2 set_sys l_hist set_net see]. rewrite total_app. cbn. lia. }
    destruct (IH l2 _ W1 Hl Hr2 Hs2 N2 Q2) as (l' & Hl' & Hq').
    exists l'. split; [|done]. rewrite <-Hl'. f_equal. cbn [n_sent]. unfold drain. destruct q as [|b' q']; [done|]. cbn [fmap list_fmap]. by rewrite Z.sub_0_r.
Qed.
Theorem C46_not_stranded cf lfd now acts l i fd fes : lreach cf lfd now acts l → OConnect i fd ∈ l_trace l → OFree i ∉ l_trace l →
  l_pc l = PRun [] (FE fd TypeFileEventWritable (h_send i) :: fes) →
  ∃ ws l', lstep cf (AFile (FSend ws)) l = Ok l' ∧ queue_of l' i = [].
Proof.
  intros H Hc Hf Hpc. pose proof (lreach_ok _ _ _ _ _ H) as [Hb Hp]. rewrite Hpc in Hp. destruct Hp as (_ & P2 & P3 & _).
  assert (Hcl : l_clients l !! fd = Some i) by (by apply (lb_conn _ _ _ _ Hb)). destruct H as (_ & Hcf & _ & _ & Hsm).
  assert (Hq : queue_of l i ≠ []).
  { destruct (P2 0%nat _ eq_refl) as (w & Hw & Hx). cbn [fe_mask fe_fd fe_data] in *. assert (w = true) as -> by (by destruct w).
    destruct Hx as [Hx|(_ & _ & j & Hj & _ & _ & Hx)]; [by apply want_send in Hx as (_ & _ & ?)|]. apply send_inj in Hj as ->. done. }
  assert (Hn : is_Some (l_net l !! i)). { destruct (lb_cli _ _ _ _ Hb _ _ Hcl) as [_ Hx]. destruct (l_net l !! i); [by eexists|done]. }
  destruct Hn as [n Hn]. pose proof (pc_base _ _ _ _ (PRun [] fes) Hb) as Hb1. set (l1 := set_pc l (PRun [] fes)) in *.
  destruct (send_drains cf lfd i fd (queue_of l i) Hcf l1 n) as (l' & Hl' & Hq'); try done.
  { eapply lbase_swap; [|exact Hb1]. intros. symmetry. by apply want_sending. }
  { apply (P3 (FE fd TypeFileEventWritable (h_send i))); [left|done]. }
  exists (drain (n_sent n) (queue_of l i)), l'. split; [|done]. cbn [lstep]. rewrite Hpc. cbn [fe_data]. rewrite handler_send. exact Hl'.
Qed.
Print Assumptions C46_not_stranded.

(** * C42 *)
(** when beforeSleep is over the file contains every record, and all of it is on
    disk with appendfsync always *)
Theorem C42_flushed cf lfd now acts l ta f s tb : lreach cf lfd now acts l → l_trace l = ta ++ OFlush f s :: tb →
  f = logged ta ∧ (lc_always cf = true → s = zlen f).
Proof. intros H Ht. pose proof (lreach_ok _ _ _ _ _ H) as [Hb _]. by eapply (go_flush _ _ (lb_good _ _ _ _ Hb)). Qed.
Print Assumptions C42_flushed.

Definition is_flush_obs (o : obs) : bool := match o with OFlush _ _ => true | _ => false end.
Ltac aassoc := repeat progress (rewrite <-?app_assoc; cbn [app]); done.
Lemma first_flush t : (∃ f s, OFlush f s ∈ t) → ∃ u f s v, t = u ++ OFlush f s :: v ∧ ∀ f s, OFlush f s ∉ u.
Proof.
  intros (f & s & H). induction t as [|o t IH]; [by apply elem_of_nil in H|]. destruct (is_flush_obs o) eqn:E.
  - destruct o; try done. exists [], file, synced, t. split; [done|]. intros. apply not_elem_of_nil.
  - apply elem_of_cons in H as [<-|H]; [done|]. destruct (IH H) as (u & f' & s' & v & -> & Hu). exists (o :: u), f', s', v. split; [done|].
    intros f2 s2 Hx. apply elem_of_cons in Hx as [<-|Hx]; [done|by eapply Hu].
Qed.
Lemma logged_grows t u : (∀ f, OReplace f ∉ u) → (∀ f, OBoot f ∉ u) → logged t `prefix_of` logged (t ++ u).
Proof.
  revert t. induction u as [|o u IH]; intros t Hu Hv; [by rewrite app_nil_r|]. rewrite (cons_middle o t u), (app_assoc t [o] u). etrans; [|apply IH].
  - rewrite logged_app. destruct o; simpl; try done; [by apply prefix_app_r|exfalso; eapply (Hv file); left|exfalso; eapply (Hu file); left].
  - intros f Hf. apply (Hu f). by right.
  - intros f Hf. apply (Hv f). by right.
Qed.
(** A client that has no unsent replies when an iteration of the loop begins: no
    byte is sent to it after a command of this iteration before a flush has put the
    log, with the record of the command, on disk.
    Missing: clients that still have unsent replies (see [C42_refuted]). *)
Theorem C42_ack_partial cf lfd now acts l t1 i args q lg t2 b t3 : lreach cf lfd now acts l → lc_always cf = true →
  l_trace l = t1 ++ OCmd i args q lg :: t2 ++ OWrite i b :: t3 →
  (∀ ta tb, t1 = ta ++ OWait :: tb → OWait ∉ tb → written i ta = queued i ta) →
  ∃ u f v, t2 = u ++ OFlush f (zlen f) :: v ∧ logged t1 ++ lg `prefix_of` f.
Proof.
  intros H Hal Ht Hidle. pose proof (lreach_ok _ _ _ _ _ H) as [Hb _]. pose proof (lb_good _ _ _ _ Hb) as Hg.
  destruct (go_write _ _ Hg (t1 ++ OCmd i args q lg :: t2) i b t3) as (x1 & x2 & Hx & Hx2 & Hne); [by rewrite Ht, <-app_assoc|].
  (* the wait is after the command *)
  assert (Hy : ∃ y, t2 = y ++ OWait :: x2 ∧ x1 = t1 ++ OCmd i args q lg :: y).
  { destruct (app_eq_inv _ _ _ _ Hx) as [(k & E1 & E2)|(k & E1 & E2)].
    - (* t1 = x1 ++ k *) destruct k as [|o k]; [by injection E2|]. injection E2 as <- E2. exfalso. apply Hne. apply (Hidle x1 k E1). intros Hw. apply Hx2. rewrite E2.
      rewrite elem_of_app. by left.
    - destruct k as [|o k]; [by injection E2|]. injection E2 as <- E2. by exists k. }
  destruct Hy as (y & -> & ->).
  destruct (go_wait _ _ Hg (t1 ++ OCmd i args q lg :: y) (x2 ++ OWrite i b :: t3)) as (f0 & s0 & Hlast).
  { rewrite Ht. aassoc. }
  assert (Hin : OFlush f0 s0 ∈ y).
  { destruct y as [|o y _] using rev_ind; [rewrite last_snoc in Hlast; done|]. rewrite app_comm_cons, app_assoc, last_snoc in Hlast. injection Hlast as ->.
    apply elem_of_app. right. left. }
  destruct (first_flush y) as (u & f & s & v & -> & Hu); [by exists f0, s0|].
  assert (Htr : l_trace l = (t1 ++ OCmd i args q lg :: u) ++ OFlush f s :: (v ++ OWait :: x2 ++ OWrite i b :: t3)).
  { rewrite Ht. aassoc. }
  destruct (C42_flushed _ _ _ _ _ _ _ _ _ H Htr) as [Hf Hs]. rewrite (Hs Hal) in *. exists u, f, (v ++ OWait :: x2). split; [by rewrite <-app_assoc|].
  assert (HR : ∀ g, OReplace g ∉ u).
  { intros g (u1 & u2 & ->)%elem_of_list_split.
    destruct (go_replace _ _ Hg (t1 ++ OCmd i args q lg :: u1) g (u2 ++ OFlush f (zlen f) :: v ++ OWait :: x2 ++ OWrite i b :: t3))
      as (z1 & g1 & s1 & z2 & Hz & Hq).
    { rewrite Htr. aassoc. }
    destruct (app_eq_inv _ _ _ _ Hz) as [(k & E1 & E2)|(k & E1 & E2)].
    - destruct k as [|o k]; [by injection E2|]. injection E2 as <- E2. rewrite E2 in Hq. apply Forall_app in Hq as [_ [[] _]%Forall_cons].
    - destruct k as [|o k]; [by injection E2|]. injection E2 as <- E2. apply (Hu g1 s1). rewrite E2. apply elem_of_app. left. apply elem_of_app. right. left. }
  assert (HB : ∀ g, OBoot g ∉ u).
  { intros g (u1 & u2 & ->)%elem_of_list_split. pose proof (go_boot _ _ Hg (t1 ++ OCmd i args q lg :: u1) g (u2 ++ OFlush f (zlen f) :: v ++ OWait :: x2 ++ OWrite i b :: t3)) as Hx0.
    destruct t1; [|by feed specialize Hx0; [rewrite Htr; aassoc|]]. feed specialize Hx0; [rewrite Htr; aassoc|done]. }
  rewrite Hf, (cons_middle _ t1 u), (app_assoc t1 [_] u). etrans; [|by apply logged_grows]. by rewrite logged_app.
Qed.
Print Assumptions C42_ack_partial.

(** * C43 *)
(** the log has grown enough: sizes of the file now and after the last rewrite *)
Definition grown (cf : lconfig) (size base : Z) : Prop :=
  0 < lc_percent cf ∧ lc_min cf < size ∧ lc_percent cf * (base `max` 1) ≤ (size - base `max` 1) * 100.
Lemma growth_spec cf lfd l : lbase cf lfd None l → 0 ≤ lc_min cf → zlen (y_file (l_sys l)) * 100 < 2 ^ 64 →
  growth_check cf l = true ↔ s_task (y_srv (l_sys l)) = false ∧ grown cf (zlen (y_file (l_sys l))) (replaced (l_trace l)).
Proof.
  intros Hb Hmin Hbig. pose proof (lb_cur _ _ _ _ Hb) as Hc. destruct (lb_size _ _ _ _ Hb) as [Hr Hle]. unfold growth_check, grown. rewrite <-Hr, <-Hc in *.
  destruct (s_task (y_srv (l_sys l))); [split; [done|by intros [? _]]|]. cbn [negb andb].
  destruct (lc_percent cf >? 0) eqn:Ep; [|split; [done|lia]]. destruct (l_cur l >? lc_min cf) eqn:Em; [|split; [done|lia]]. cbn [andb].
  set (base := if l_base l =? 0 then 1 else l_base l). assert (Hbase : l_base l `max` 1 = base) by (unfold base; destruct (l_base l =? 0) eqn:E; lia). rewrite Hbase.
  assert (0 < base ≤ l_cur l) by (unfold base; destruct (l_base l =? 0) eqn:E; lia).
  unfold wrapu64. rewrite (Z.mod_small (l_cur l * 100)) by lia.
  assert (Hq : 100 ≤ l_cur l * 100 / base) by (apply Z.div_le_lower_bound; nia).
  assert (Hq2 : l_cur l * 100 / base ≤ l_cur l * 100) by (apply Z.div_le_upper_bound; nia).
  rewrite Z.mod_small by lia.
  assert (Hdiv : ∀ k, k ≤ l_cur l * 100 / base ↔ k * base ≤ l_cur l * 100).
  { intros k. split; intros Hk.
    - pose proof (Z.mul_div_le (l_cur l * 100) base). nia.
    - apply Z.div_le_lower_bound; [lia|]. lia. }
  split.
  - intros Hg. split; [done|]. split; [lia|]. split; [lia|]. assert (Hx : lc_percent cf + 100 ≤ l_cur l * 100 / base) by lia. apply Hdiv in Hx. nia.
  - intros (_ & _ & _ & Hx). assert (Hy : lc_percent cf + 100 ≤ l_cur l * 100 / base) by (apply Hdiv; nia). lia.
Qed.
(** serverCron starts a rewrite exactly when none is running and the log has grown *)
Theorem C43_automatic cf lfd now acts l now' rs after l' os : lreach cf lfd now acts l → 0 ≤ lc_min cf → zlen (y_file (l_sys l)) * 100 < 2 ^ 64 →
  Forall (λ r, 0 ≤ r) rs → lstep cf (ACron now' rs after) l = Ok l' → l_trace l' = l_trace l ++ os →
  ORewrite ∈ os ↔ starts (l_trace l) = ends (l_trace l) ∧ grown cf (zlen (y_file (l_sys l))) (replaced (l_trace l)).
Proof.
  intros H Hmin Hbig Hrs Hst Hos. pose proof (lreach_ok _ _ _ _ _ H) as [Hb _].
  pose proof (lb_count _ _ _ _ Hb) as Hcount.
  pose proof (growth_spec cf lfd l Hb Hmin Hbig) as Hg.
  cbn [lstep] in Hst. destruct (l_pc l) as [| |[|te tes] fes]; try done.
  destruct (serverCron cf now' rs l) as [l1| |] eqn:Ec; [|done..]. cbn [mbind res_bind] in Hst.
  assert (Htr : l_trace l' = l_trace l1). { destruct (te_once te); [destruct (RemoveTimeEvent _ _)|]; by injection Hst as <-. }
  rewrite Htr in Hos. clear Hst Htr l'.
  unfold serverCron, do_sys in Ec. destruct (step (lc_sys cf) (EvCron now' rs) (l_sys l)) as [y| |] eqn:Hst; [|done..]. cbn [mbind res_bind] in Ec.
  cbn [step] in Hst. destruct (databasesCron _ _ rs) as [r| |]; [|done..]. cbn [mbind res_bind] in Hst. injection Hst as <-.
  set (l2 := set_sys l _ _) in *.
  assert (Hg2 : growth_check cf l2 = growth_check cf l) by done.
  assert (Hdone : ∀ l3 l4, done_callback cf l3 = Ok l4 → ∃ os', l_trace l4 = l_trace l3 ++ os' ∧ ORewrite ∉ os').
  { intros l3 l4 Hd. unfold done_callback in Hd. destruct (l_done l3) as [|dump rest].
    - injection Hd as <-. exists []. rewrite app_nil_r. split; [done|apply not_elem_of_nil].
    - unfold do_sys in Hd. destruct (step _ _ _) as [y3| |]; [|done..]. cbn [mbind res_bind] in Hd. injection Hd as <-. eexists. split; [reflexivity|].
      by intros ?%elem_of_list_singleton. }
  assert (Hiff : growth_check cf l = true ↔ starts (l_trace l) = ends (l_trace l) ∧ grown cf (zlen (y_file (l_sys l))) (replaced (l_trace l))).
  { rewrite Hg. destruct (s_task (y_srv (l_sys l))); [|split; intros [? ?]; split; [lia|done|done|done]].
    split; [by intros [? _]|]. intros [? _]. lia. }
  rewrite <-Hiff, <-Hg2. destruct (growth_check cf l2) eqn:Eg.
  - split; [done|]. intros _. pose proof (growth_task _ _ Eg) as Etk. unfold start_rewrite, do_sys in Ec. destruct (step _ EvRewrite _) as [y2| |] eqn:Hst; [|done..]. cbn [mbind res_bind] in Ec.
    cbn [step] in Hst. unfold rewriteAppendOnlyFileBackground in Hst. rewrite Etk in Hst. destruct (copy_dbs _) as [r2| |]; [|done..]. cbn [mbind res_bind] in Hst. injection Hst as <-.
    unfold note_rewrite in Ec. rewrite Etk in Ec. cbn [negb andb set_sys l_sys y_srv set_task s_task] in Ec. apply Hdone in Ec as (os' & E & _).
    cbn [see set_bg set_sys l_trace l2] in E. rewrite E, <-app_assoc in Hos. apply app_inv_head in Hos as <-. left.
  - cbn [mbind res_bind] in Ec. apply Hdone in Ec as (os' & E & Hn). cbn [l2 set_sys l_trace] in E. rewrite E in Hos. apply app_inv_head in Hos as <-. done.
Qed.
Print Assumptions C43_automatic.
(** the unsigned subtraction: aofCurrentSize*100/base - 100 is not negative whenever
    it is computed *)
Theorem C43_no_underflow cf lfd now acts l : lreach cf lfd now acts l → 0 ≤ lc_min cf → lc_min cf < l_cur l →
  let base := if l_base l =? 0 then 1 else l_base l in 0 ≤ l_base l ∧ 0 ≤ l_cur l * 100 / base - 100.
Proof.
  intros H Hmin Hlt. pose proof (lreach_ok _ _ _ _ _ H) as [Hb _]. destruct (lb_size _ _ _ _ Hb) as [_ Hle]. cbv zeta. split; [lia|].
  destruct (l_base l =? 0) eqn:E; [rewrite Z.div_1_r; lia|]. enough (100 ≤ l_cur l * 100 / l_base l) by lia. apply Z.div_le_lower_bound; lia.
Qed.
Print Assumptions C43_no_underflow.
(** at most one rewrite runs; the sizes the decision is based on are those of the file *)
Theorem C43_one_rewrite cf lfd now acts l : lreach cf lfd now acts l →
  (ends (l_trace l) ≤ starts (l_trace l) ≤ S (ends (l_trace l)))%nat ∧ (l_bg l + length (l_done l))%nat = (starts (l_trace l) - ends (l_trace l))%nat ∧
  l_cur l = zlen (y_file (l_sys l)) ∧ l_base l = replaced (l_trace l).
Proof.
  intros H. pose proof (lreach_ok _ _ _ _ _ H) as [Hb _]. pose proof (lb_count _ _ _ _ Hb) as Hc. pose proof (lb_bg _ _ _ _ Hb) as Hbg.
  pose proof (lb_cur _ _ _ _ Hb). destruct (lb_size _ _ _ _ Hb) as [? _]. split; [destruct (s_task _); lia|]. split; [destruct (s_task _); lia|]. done.
Qed.
Print Assumptions C43_one_rewrite.

(** * A concrete server *)
(** one iteration of the loop at time [t] with the given ready descriptors *)
Definition iter (t : Z) (ready : list (Z * Z)) (fs : list fact) : list act :=
  AFlush :: AWait t ready :: (AFile <$> fs) ++ [ANext].
Definition rnd : list Z := [65535; 65534; 65533; 65532; 65531; 65530; 65529; 65528].
Definition data (s : String.string) : fact := FRead (RData (encode (words s))) 0 0 rnd.
Global Arguments data s%string.
Definition lcf (cf : config) : lconfig := LCfg cf true 100 10 None.
(** descriptor 3 listens; a client connects and is number 0, descriptor 7 *)
Definition connect : list act := iter 0 [(3, EPOLLIN)] [FAccept (AcOk 7)].
Definition act_check (a : act) : bool :=
  match a with
  | ACron _ rs _ | AFile (FRead _ _ _ rs) => forallb (λ r, 0 <=? r) rs
  | _ => true
  end.
Definition boots_check (cf : lconfig) : bool :=
  forallb (event_check (lc_sys cf)) (born cf) && match run (lc_sys cf) (born cf) (init_sys (lc_sys cf)) with Ok _ => true | _ => false end.
Lemma boots_check_ok cf : boots_check cf = true → boots cf.
Proof.
  unfold boots_check, boots. intros [H1 H2]%andb_true_iff. split.
  - rewrite forallb_forall in H1. apply Forall_forall. intros e He. apply elem_of_list_In in He. by apply event_check_ok, H1.
  - destruct (run _ _ _) as [y| |]; [by exists y|done..].
Qed.
Lemma lreach_check cf lfd now acts l : forallb act_check acts = true → (0 <? cf_dbs (lc_sys cf))%nat = true → boots_check cf = true → lrun cf acts (linit cf lfd now) = Ok l →
  (Z.of_nat (total (l_hist l)) <? 2 ^ 42) = true → lreach cf lfd now acts l.
Proof.
  intros H1 H2 Hb H3 H4. split; [|split; [by apply Nat.ltb_lt|split; [by apply boots_check_ok|split; [done|by apply Z.ltb_lt]]]].
  rewrite forallb_forall in H1. apply Forall_forall. intros a Ha. apply elem_of_list_In in Ha. apply H1 in Ha.
  destruct a as [| | |? rs ?|[|? ? ? rs|]| | |]; try done; cbn in *; apply Forall_forall; intros x Hx; apply elem_of_list_In in Hx;
    rewrite forallb_forall in Ha; apply Ha in Hx; lia.
Qed.
Ltac run_acts := eexists; split; [apply lreach_check; [by vm_compute|by vm_compute|by vm_compute|vm_compute; reflexivity|by vm_compute]|].

(** A write is acknowledged before it is in the log file: the client sends a second
    request before it has fetched the reply of the first, and its socket is reported
    readable and writable at the same time. *)
Definition early : list act :=
  connect ++ iter 0 [(7, EPOLLIN)] [data "GET a"] ++
  [AFlush; AWait 0 [(7, 5)]; AFile (data "SET a b"); AFile (FSend [WOk 5; WOk 5])].
Theorem C42_refuted : ∃ l, lreach (lcf cf0) 3 0 early l ∧ lc_always (lcf cf0) = true ∧
  ∃ t1 t2 lg b, l_trace l = t1 ++ OCmd 0 [B "SET"; B "a"; B "b"] b lg :: t2 ++ [OWrite 0 b] ∧ (∀ f s, OFlush f s ∉ t2) ∧ b = B "+OK" ++ CRLF ∧
    lg ≠ [] ∧ y_file (l_sys l) = [] ∧ l_synced l = 0.
Proof.
  run_acts. split; [done|]. 
  eexists [_; _; _; _; _; _; _; _], [_], _, _. split; [vm_compute; reflexivity|]. split; [|by vm_compute].
  intros f s ?%elem_of_list_singleton. done.
Qed.
Print Assumptions C42_refuted.

(** The reply of a command goes out in three pieces, with an EAGAIN between them. *)
Definition pieces : list act :=
  connect ++ iter 0 [(7, EPOLLIN)] [data "SET a b"] ++
  iter 0 [(7, 5)] [data "GET a"; FSend [WOk 2]] ++ iter 0 [(7, EPOLLOUT)] [FSend [WRetry]] ++ iter 0 [(7, EPOLLOUT)] [FSend [WOk 3; WOk 4]].
Example C25_example : ∃ l, lreach (lcf cf0) 3 0 pieces l ∧
  answers 0 (l_trace l) = [(words "SET a b", B "+OK" ++ CRLF); (words "GET a", B "$1" ++ CRLF ++ B "b" ++ CRLF)] ∧
  written 0 (l_trace l) = B "+OK" ++ CRLF ++ B "$1" ++ CRLF ∧ Forall (λ a, Forall plain a.1) (answers 0 (l_trace l)) ∧
  queue_of l 0 = [B "$1" ++ CRLF ++ B "b" ++ CRLF].
Proof.
  run_acts. split; [by vm_compute|]. split; [by vm_compute|]. split; [|by vm_compute]. vm_compute. repeat constructor; done.
Qed.
(** the hypotheses of C46: the client above still waits, and a write that is accepted
    completely leaves it without unsent replies *)
Example C46_example : ∃ l, lreach (lcf cf0) 3 0 (pieces ++ [AFlush; AWait 0 [(7, EPOLLOUT)]]) l ∧
  OConnect 0 7 ∈ l_trace l ∧ OFree 0 ∉ l_trace l ∧ k_int (l_kernel l) !! 7 = Some 5 ∧
  l_pc l = PRun [] [FE 7 TypeFileEventWritable (h_send 0)] ∧
  ∃ l', lstep (lcf cf0) (AFile (FSend [WOk 3])) l = Ok l' ∧ queue_of l' 0 = [] ∧ k_int (l_kernel l') !! 7 = Some 1 ∧
    written 0 (l_trace l') = queued 0 (l_trace l').
Proof.
  run_acts. split; [vm_compute; repeat constructor|]. split; [vm_compute; intros H; repeat (apply elem_of_cons in H as [H|H]; [discriminate H|]); by apply elem_of_nil in H|].
  split; [by vm_compute|]. split; [by vm_compute|]. eexists. split; [vm_compute; reflexivity|]. split; [by vm_compute|]. split; by vm_compute.
Qed.
(** a client is freed by its read handler while its writable event is pending: the
    descriptor is closed twice, the tables stay right *)
Example C46_freed_example : ∃ l, lreach (lcf cf0) 3 0 (connect ++ iter 0 [(7, EPOLLIN)] [data "GET a"] ++
    iter 0 [(7, 5)] [FRead (RData []) 0 0 []; FSend [WOk 5]]) l ∧
  OFree 0 ∈ l_trace l ∧ base.elements (k_open (l_kernel l)) = [3] ∧ l_clients l !! 7 = None ∧ written 0 (l_trace l) = [].
Proof.
  run_acts. split; [vm_compute; repeat constructor|]. split; [by vm_compute|]. split; by vm_compute.
Qed.
(** the hypotheses of [C42_ack_partial]: the record is on disk before the reply is sent *)
Example C42_example : ∃ l, lreach (lcf cf0) 3 0 (connect ++ iter 0 [(7, EPOLLIN)] [data "SET a b"] ++ iter 0 [(7, EPOLLOUT)] [FSend [WOk 5]]) l ∧
  ∃ t1 lg t2 t3, l_trace l = t1 ++ OCmd 0 [B "SET"; B "a"; B "b"] (B "+OK" ++ CRLF) lg :: t2 ++ OWrite 0 (B "+OK" ++ CRLF) :: t3 ∧
    (∀ ta tb, t1 = ta ++ OWait :: tb → OWait ∉ tb → written 0 ta = queued 0 ta) ∧
    lg = encode (words "SET a b") ∧ y_file (l_sys l) = lg ∧ l_synced l = zlen lg.
Proof.
  run_acts. eexists [_; _; _; _; _], _, [_; _], []. split; [vm_compute; reflexivity|]. split; [|by vm_compute].
  intros ta tb Ht Hn. assert (Hw : ∀ t, written 0 t = [] ∧ queued 0 t = [] ∨ ∃ o, o ∈ t ∧ match o with OWrite _ _ | OCmd _ _ _ _ => True | _ => False end).
  { intros t. induction t as [|o t [IH|(o' & H1 & H2)]]; [by left| |right; exists o'; split; [by right|done]].
    destruct o; try (by left); right; eexists; (split; [left|done]). }
  destruct (Hw ta) as [[-> ->]|(o & H1 & H2)]; [done|]. exfalso.
  assert (Hin : o ∈ ta ++ OWait :: tb) by (apply elem_of_app; by left). rewrite <-Ht in Hin.
  repeat (apply elem_of_cons in Hin as [->|Hin]; [done|]). by apply elem_of_nil in Hin.
Qed.
(** the hypotheses of C43: the log of 27 bytes exceeds the minimum of 10 and has
    grown by more than 100 percent; the rewrite replaces it *)
Definition grow_acts : list act := connect ++ iter 0 [(7, EPOLLIN)] [data "SET a b"] ++ [AFlush; AWait 5 []].
Example C43_example : ∃ l, lreach (lcf cf0) 3 0 grow_acts l ∧ starts (l_trace l) = ends (l_trace l) ∧
  grown (lcf cf0) (zlen (y_file (l_sys l))) (replaced (l_trace l)) ∧
  ∃ l', lrun (lcf cf0) [ACron 5 [] 5; ANext; AFlush; ADone (encode (words "SET a b")); AWait 9 []; ACron 9 [] 9] l = Ok l' ∧
    ends (l_trace l') = 1%nat ∧ l_base l' = 27 ∧ y_file (l_sys l') = encode (words "SET a b").
Proof.
  run_acts. split; [by vm_compute|]. split; [vm_compute; repeat split; done|]. eexists. split; [vm_compute; reflexivity|]. split; [by vm_compute|]. split; by vm_compute.
Qed.
