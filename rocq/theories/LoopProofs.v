(** Invariant of the running server (LoopModel.v). *)
From Verif Require Import Base Float DictModel DatabaseModel SetModel QuicklistModel SkiplistModel ZsetModel
  Strconv RespSpec RespModel ServerModel CommandModel CommandInv CommandExt SystemModel SystemProofs EventModel PropsEvent LoopModel.
From Coq Require Import ZifyBool ZifyNat.

(** * What a trace says *)
(** bytes written to client [i], bytes queued for it, bytes logged *)
Fixpoint written (i : nat) (t : list obs) : bytes :=
  match t with
  | [] => []
  | OWrite j b :: t => (if decide (j = i) then b else []) ++ written i t
  | _ :: t => written i t
  end.
Fixpoint queued (i : nat) (t : list obs) : bytes :=
  match t with
  | [] => []
  | OCmd j _ q _ :: t => (if decide (j = i) then q else []) ++ queued i t
  | _ :: t => queued i t
  end.
(** what the log must contain: the log found at the start or the last replacement, and
    the records since *)
Definition logged (t : list obs) : bytes :=
  foldl (λ b o, match o with OCmd _ _ _ lg => b ++ lg | OReplace f | OBoot f => f | _ => b end) [] t.
(** size of the log after the last replacement *)
Definition replaced (t : list obs) : Z := foldl (λ z o, match o with OReplace f => zlen f | _ => z end) 0 t.
Lemma written_app i t t' : written i (t ++ t') = written i t ++ written i t'.
Proof. induction t as [|o t IH]; [done|]. destruct o; simpl; rewrite ?IH, ?app_assoc; done. Qed.
Lemma queued_app i t t' : queued i (t ++ t') = queued i t ++ queued i t'.
Proof. induction t as [|o t IH]; [done|]. destruct o; simpl; rewrite ?IH, ?app_assoc; done. Qed.
Lemma logged_app t t' : logged (t ++ t') = foldl (λ b o, match o with OCmd _ _ _ lg => b ++ lg | OReplace f | OBoot f => f | _ => b end) (logged t) t'.
Proof. unfold logged. by rewrite foldl_app. Qed.
(** rewrites started and finished; the commands *)
Fixpoint starts (t : list obs) : nat := match t with [] => 0 | ORewrite :: t => S (starts t) | _ :: t => starts t end.
Fixpoint ends (t : list obs) : nat := match t with [] => 0 | OReplace _ :: t => S (ends t) | _ :: t => ends t end.
Fixpoint commands (t : list obs) : list (nat * list bytes) :=
  match t with [] => [] | OCmd i args _ _ :: t => (i, args) :: commands t | _ :: t => commands t end.
Fixpoint requests (evs : list event) : list (nat * list bytes) :=
  match evs with [] => [] | EvCommand i args _ _ _ :: evs => (i, args) :: requests evs | _ :: evs => requests evs end.
Lemma starts_app t t' : starts (t ++ t') = (starts t + starts t')%nat.
Proof. induction t as [|o t IH]; [done|]. destruct o; simpl; rewrite ?IH; done. Qed.
Lemma ends_app t t' : ends (t ++ t') = (ends t + ends t')%nat.
Proof. induction t as [|o t IH]; [done|]. destruct o; simpl; rewrite ?IH; done. Qed.
Lemma commands_app t t' : commands (t ++ t') = commands t ++ commands t'.
Proof. induction t as [|o t IH]; [done|]. destruct o; simpl; rewrite ?IH; done. Qed.
Lemma requests_app t t' : requests (t ++ t') = requests t ++ requests t'.
Proof. induction t as [|o t IH]; [done|]. destruct o; simpl; rewrite ?IH; done. Qed.
Lemma replaced_app t t' : replaced (t ++ t') = foldl (λ z o, match o with OReplace f => zlen f | _ => z end) (replaced t) t'.
Proof. unfold replaced. by rewrite foldl_app. Qed.

(** client [i] had unsent replies when the current iteration began *)
Definition running (t : list obs) (i : nat) : Prop :=
  ∃ t1 t2, t = t1 ++ OWait :: t2 ∧ OWait ∉ t2 ∧ written i t1 ≠ queued i t1.
(** nothing but quiet observations since the last flush *)
Definition quiet (o : obs) : Prop := match o with OWait | OFlush _ _ | ORewrite | OReplace _ => True | _ => False end.
Definition fresh (t : list obs) : Prop := ∃ t1 f s t2, t = t1 ++ OFlush f s :: t2 ∧ Forall quiet t2.
Definition is_flush (o : option obs) : Prop := ∃ f s, o = Some (OFlush f s).
Record good (always : bool) (t : list obs) : Prop := {
  go_wait : ∀ ta tb, t = ta ++ OWait :: tb → is_flush (last ta);
  go_write : ∀ ta i b tb, t = ta ++ OWrite i b :: tb → running ta i;
  go_flush : ∀ ta f s tb, t = ta ++ OFlush f s :: tb → f = logged ta ∧ (always = true → s = zlen f);
  go_replace : ∀ ta f tb, t = ta ++ OReplace f :: tb → fresh ta;
  go_boot : ∀ ta f tb, t = ta ++ OBoot f :: tb → ta = []
}.
Lemma snoc_split (t ta tb : list obs) o x : t ++ [o] = ta ++ x :: tb → (tb = [] ∧ t = ta ∧ o = x) ∨ ∃ tc, tb = tc ++ [o] ∧ t = ta ++ x :: tc.
Proof.
  intros H. destruct tb as [|y tb _] using rev_ind.
  - left. apply app_inj_tail in H as [-> ->]. done.
  - right. exists tb. rewrite app_comm_cons, app_assoc in H. apply app_inj_tail in H as [-> ->]. done.
Qed.
Lemma good_nil b : good b [].
Proof. split; intros; by destruct ta. Qed.
Lemma good_snoc b t o : good b t → (o = OWait → is_flush (last t)) → (∀ i c, o = OWrite i c → running t i) →
  (∀ f s, o = OFlush f s → f = logged t ∧ (b = true → s = zlen f)) → (∀ f, o = OReplace f → fresh t) → (∀ f, o = OBoot f → t = []) → good b (t ++ [o]).
Proof.
  intros [H1 H2 H3 H4 H5] Hw Hr Hf Hp Hbo. split.
  - intros ta tb [(_ & <- & ->)|(tc & _ & ->)]%snoc_split; [by apply Hw|by eapply H1].
  - intros ta i c tb [(_ & <- & ->)|(tc & _ & ->)]%snoc_split; [by eapply Hr|by eapply H2].
  - intros ta f s tb [(_ & <- & ->)|(tc & _ & ->)]%snoc_split; [by eapply Hf|by eapply H3].
  - intros ta f tb [(_ & <- & ->)|(tc & _ & ->)]%snoc_split; [by eapply Hp|by eapply H4].
  - intros ta f tb [(_ & <- & ->)|(tc & _ & ->)]%snoc_split; [by eapply Hbo|by eapply H5].
Qed.
Lemma fresh_app t os : fresh t → Forall quiet os → fresh (t ++ os).
Proof. intros (t1 & f & s & t2 & -> & H) Ho. exists t1, f, s, (t2 ++ os). split; [by rewrite <-app_assoc|]. by apply Forall_app. Qed.
Lemma fresh_flush t : is_flush (last t) → fresh t.
Proof. intros (f & s & H). apply last_Some in H as [t1 ->]. exists t1, f, s, []. split; [done|by apply Forall_nil_2]. Qed.
Lemma running_app t os i : running t i → OWait ∉ os → running (t ++ os) i.
Proof.
  intros (t1 & t2 & -> & H1 & H2) Hn. exists t1, (t2 ++ os). split; [by rewrite <-app_assoc|]. split; [|done].
  rewrite elem_of_app. by intros [?|?].
Qed.

(** * The invariant *)
Section inv.
  Variable cf : lconfig.
  Variable lfd : Z.
  Notation scf := (lc_sys cf).

  (** the events that must be registered; [x]: a client whose replies are being sent *)
  Definition want (x : option nat) (l : lstate) (fd : Z) (w : bool) : option nat :=
    if decide (fd = lfd) then if w then None else Some h_accept
    else match l_clients l !! fd with
         | None => None
         | Some i => if w then if decide (queue_of l i = [] ∧ x ≠ Some i) then None else Some (h_send i) else Some (h_read i)
         end.
  Definition sent_ok (sent : Z) (q : list bytes) : Prop :=
    match q with [] => sent = 0 | b :: _ => 0 ≤ sent < zlen b end.
  (** a command of the trace is a step of SystemModel.v *)
  Definition justified (o : obs) : Prop :=
    match o with
    | OCmd i args q lg =>
        ∃ h y c now unix rs y' c' os, reaches scf h y ∧ event_ok scf (EvCommand i args now unix rs) ∧ y_cls y !! i = Some c ∧
          step scf (EvCommand i args now unix rs) y = Ok y' ∧ reaches scf (h ++ [EvCommand i args now unix rs]) y' ∧ y_cls y' !! i = Some c' ∧
          c_out c' = c_out c ++ os ∧ q = mjoin os ∧ s_aofbuf (y_srv y') = s_aofbuf (y_srv y) ++ lg
    | _ => True
    end.
  (** only the beginning is a start from a log *)
  Definition evs_ok (h : list event) : Prop :=
    Forall (event_ok scf) h ∧ ∃ t, h = born cf ++ t ∧ Forall (λ e, ¬ is_boot e) t.
  Lemma evs_snoc h e : evs_ok h → event_ok scf e → ¬ is_boot e → evs_ok (h ++ [e]).
  Proof.
    intros [H1 (t & -> & H2)] He Hb. split; [apply Forall_app; split; [done|by apply Forall_singleton]|].
    exists (t ++ [e]). split; [by rewrite app_assoc|]. apply Forall_app. split; [done|]. by apply Forall_singleton.
  Qed.
  Record lbase (x : option nat) (l : lstate) : Prop := {
    lb_run : run scf (l_hist l) (init_sys scf) = Ok (l_sys l);
    lb_evs : evs_ok (l_hist l);
    lb_len : length (l_net l) = length (y_cls (l_sys l));
    lb_tab : ∃ T : gmap (Z * bool) nat, mirrors (l_loop l, l_kernel l) (k_open (l_kernel l), T) ∧ ∀ fd w, T !! (fd, w) = want x l fd w;
    lb_cli : ∀ fd i, l_clients l !! fd = Some i → fd ≠ lfd ∧ n_fd <$> l_net l !! i = Some fd;
    lb_open : ∀ fd, fd ∈ k_open (l_kernel l) ↔ fd = lfd ∨ is_Some (l_clients l !! fd);
    lb_conn : ∀ fd i, l_clients l !! fd = Some i ↔ OConnect i fd ∈ l_trace l ∧ OFree i ∉ l_trace l;
    lb_seen : ∀ i, (∃ fd, OConnect i fd ∈ l_trace l) ∨ OFree i ∈ l_trace l → (i < length (l_net l))%nat;
    lb_stuck : ∀ i, OStuck i ∉ l_trace l;
    lb_stream : ∀ i n, l_net l !! i = Some n → sent_ok (n_sent n) (queue_of l i) ∧
      written i (l_trace l) ++ drop (Z.to_nat (n_sent n)) (mjoin (queue_of l i)) = queued i (l_trace l);
    lb_none : ∀ i, (length (l_net l) ≤ i)%nat → written i (l_trace l) = [] ∧ queued i (l_trace l) = [];
    lb_bg : (l_bg l + length (l_done l))%nat = if s_task (y_srv (l_sys l)) then 1%nat else 0%nat;
    lb_cur : l_cur l = zlen (y_file (l_sys l));
    lb_size : l_base l = replaced (l_trace l) ∧ 0 ≤ l_base l ≤ l_cur l;
    lb_sync : lc_always cf = true → l_synced l = zlen (y_file (l_sys l));
    lb_log : y_file (l_sys l) ++ s_aofbuf (y_srv (l_sys l)) = logged (l_trace l);
    lb_good : good (lc_always cf) (l_trace l);
    lb_count : starts (l_trace l) = (ends (l_trace l) + if s_task (y_srv (l_sys l)) then 1 else 0)%nat;
    lb_cmds : commands (l_trace l) = requests (l_hist l);
    lb_just : Forall justified (l_trace l)
  }.
  (** what one piece of work leaves alone *)
  Record follows (l l' : lstate) : Prop := {
    fo_pc : l_pc l' = l_pc l;
    fo_trace : ∃ os, l_trace l' = l_trace l ++ os ∧ OWait ∉ os;
    fo_hist : l_hist l `prefix_of` l_hist l'
  }.
  Lemma follows_refl l : follows l l.
  Proof. split; [done| |done]. exists []. rewrite app_nil_r. split; [done|by apply not_elem_of_nil]. Qed.
  Lemma follows_trans l1 l2 l3 : follows l1 l2 → follows l2 l3 → follows l1 l3.
  Proof.
    intros [H1 (os & H2 & H3) H4] [G1 (os' & G2 & G3) G4]. split; [congruence| |by etrans].
    exists (os ++ os'). rewrite G2, H2, <-app_assoc. split; [done|]. rewrite elem_of_app. by intros [?|?].
  Qed.
  Lemma follows_running l l' i : follows l l' → running (l_trace l) i → running (l_trace l') i.
  Proof. intros [_ (os & -> & Hn) _] H. by apply running_app. Qed.
  Definition small_hist (l : lstate) : Prop := Z.of_nat (total (l_hist l)) < 2 ^ 42.
  Lemma small_back l l' : l_hist l `prefix_of` l_hist l' → small_hist l' → small_hist l.
  Proof. unfold small_hist. intros [k ->]. rewrite total_app. lia. Qed.

  Lemma base_reaches x l : (0 < cf_dbs scf)%nat → lbase x l → small_hist l → reaches scf (l_hist l) (l_sys l).
  Proof. intros Hn Hb Hs. split; [split; [apply Hb|done]|apply Hb]. Qed.
  Lemma run_snoc evs e y0 y : run scf evs y0 = Ok y → run scf (evs ++ [e]) y0 = step scf e y.
  Proof.
    revert y0. induction evs as [|e' evs IH]; intros y0; simpl.
    - intros [= ->]. by destruct (step scf e y).
    - destruct (step scf e' y0) as [y1| |]; try done. apply IH.
  Qed.
  Lemma queue_out l i c : y_cls (l_sys l) !! i = Some c → queue_of l i = c_out c.
  Proof. unfold queue_of. by intros ->. Qed.

  (** ** Registration *)
  Lemma mir_add (el : loop) (k : kernel) (open : gset Z) (T : gmap (Z * bool) nat) (fd : Z) (w : bool) (h : nat) : mirrors (el, k) (open, T) → T !! (fd, w) = None → fd ∈ open →
    ∃ el' k', AddFileEvent fd (typ w) h el k = (el', k', true) ∧ mirrors (el', k') (open, <[(fd, w) := h]> T).
  Proof.
    intros Hm HN Ho. destruct (do_op_mirrors (FAdd fd w h) (el, k) (open, T) Hm I) as [H1 H2].
    cbn [do_op spec_op fst snd] in *. rewrite decide_True in H1, H2 by done. destruct (AddFileEvent fd (typ w) h el k) as [[el' k'] ok]. cbn in *. subst. by eauto.
  Qed.
  Lemma mir_remove (el : loop) (k : kernel) (open : gset Z) (T : gmap (Z * bool) nat) (fd : Z) (w : bool) : mirrors (el, k) (open, T) →
    ∃ el' k' ok, RemoveFileEvent fd (typ w) el k = (el', k', ok) ∧ mirrors (el', k') (open, delete (fd, w) T).
  Proof.
    intros Hm. destruct (do_op_mirrors (FRemove fd w) (el, k) (open, T) Hm I) as [H1 _].
    cbn [do_op spec_op fst snd] in *. destruct (RemoveFileEvent fd (typ w) el k) as [[el' k'] ok]. exists el', k', ok. split; [done|].
    case_decide as Hd; cbn in H1; [done|]. rewrite delete_notin; [done|]. by apply eq_None_not_Some.
  Qed.
  Lemma mir_close (el : loop) (k : kernel) (open : gset Z) (T : gmap (Z * bool) nat) (fd : Z) : mirrors (el, k) (open, T) → T !! (fd, false) = None → T !! (fd, true) = None →
    mirrors (el, k_close fd k) (open ∖ {[fd]}, T).
  Proof. intros Hm H1 H2. apply (do_op_mirrors (FClose fd) (el, k) (open, T) Hm). done. Qed.
  Lemma mir_new (el : loop) (k : kernel) (open : gset Z) (T : gmap (Z * bool) nat) (fd : Z) : mirrors (el, k) (open, T) → mirrors (el, EventModel.k_new fd k) ({[fd]} ∪ open, T).
  Proof. intros Hm. by apply (do_op_mirrors (FOpen fd) (el, k) (open, T) Hm). Qed.
  Lemma mirrors_open (el : loop) (k : kernel) (open : gset Z) (T : gmap (Z * bool) nat) : mirrors (el, k) (open, T) → k_open k = open.
  Proof. by intros [H _ _ _]. Qed.
  Lemma mirrors_time el el' k sp : el_file el' = el_file el → mirrors (el, k) sp → mirrors (el', k) sp.
  Proof. intros He [H1 H2 H3 H4]. split; cbn in *; try done. by rewrite He. Qed.

  Ltac rest3 B18 B19 := rewrite ?starts_app, ?ends_app, ?commands_app, ?requests_app; cbn [starts ends commands requests]; rewrite ?app_nil_r, ?B18, ?B19; try done; try lia;
    try (apply Forall_app; split; [done|by apply Forall_singleton]).

  (** ** free *)
  Lemma free_follows i fd l : follows l (free i fd l).
  Proof.
    unfold free. destruct (RemoveFileEvent _ _ _ _) as [[el k] ok]. destruct (RemoveFileEvent _ _ el k) as [[el' k'] ok'].
    split; [done| |done]. exists [OFree i]. split; [done|]. by intros ?%elem_of_list_singleton.
  Qed.
  Lemma free_want i fd l x fd' w : want x (free i fd l) fd' w = if decide (fd' = fd) then if decide (fd = lfd) then want x l fd w else None else want x l fd' w.
  Proof.
    unfold free. destruct (RemoveFileEvent _ _ _ _) as [[el k] ok]. destruct (RemoveFileEvent _ _ el k) as [[el' k'] ok']. unfold want. cbn.
    unfold queue_of. cbn. destruct (decide (fd' = fd)) as [->|Hne]; [rewrite lookup_delete|rewrite lookup_delete_ne by done]; by repeat case_decide.
  Qed.
  Lemma free_base i fd l x : n_fd <$> l_net l !! i = Some fd → fd ≠ lfd → l_clients l !! fd = Some i ∨ l_clients l !! fd = None →
    lbase x l → lbase x (free i fd l) ∧ fd ∉ k_open (l_kernel (free i fd l)).
  Proof.
    intros Hn Hne Hc Hb. pose proof (free_want i fd l x) as Hw. destruct Hb as [B1 B2 B3 (T & BT & BW) B5 B6 B7 B8 B9 B10 B11 B12 B13 B14 B15 B16 B17 B18 B19 B20].
    assert (Hi : (i < length (l_net l))%nat). { destruct (l_net l !! i) eqn:E; [|done]. by eapply lookup_lt_Some. }
    unfold free in *.
    destruct (mir_remove _ _ _ _ fd false BT) as (el1 & k1 & ok1 & E1 & M1). change (typ false) with TypeFileEventReadable in E1. rewrite E1 in *.
    destruct (mir_remove _ _ _ _ fd true M1) as (el2 & k2 & ok2 & E2 & M2). change (typ true) with TypeFileEventWritable in E2. rewrite E2 in *.
    pose proof (mirrors_open _ _ _ _ M2) as Ho2.
    assert (M3 : mirrors (el2, k_close fd k2) (k_open (l_kernel l) ∖ {[fd]}, delete (fd, true) (delete (fd, false) T))).
    { apply mir_close; [done| |apply lookup_delete]. rewrite lookup_delete_ne by done. apply lookup_delete. }
    split; [|cbn; rewrite Ho2; set_solver].
    split; cbn [see set_loop set_clients l_sys l_net l_clients l_loop l_kernel l_pc l_cur l_base l_done l_bg l_synced l_hist l_trace]; try done.
    - exists (delete (fd, true) (delete (fd, false) T)). split; [cbn [k_close k_open]; by rewrite Ho2|]. intros fd' w. rewrite Hw.
      destruct (decide (fd' = fd)) as [->|Hne']; [rewrite decide_False by done; destruct w; [by rewrite lookup_delete|rewrite lookup_delete_ne by done; by rewrite lookup_delete]|].
      rewrite !lookup_delete_ne by congruence. apply BW.
    - intros fd' j [Hne' Hj]%lookup_delete_Some. by apply B5.
    - intros fd'. cbn [k_close k_open]. rewrite Ho2, elem_of_difference, elem_of_singleton, B6. destruct (decide (fd' = fd)) as [->|Hne'].
      + rewrite lookup_delete. split; [by intros [_ ?]|]. intros [?|[? ?]]; done.
      + rewrite lookup_delete_ne by done. split; [by intros [? _]|done].
    - intros fd' j. rewrite !elem_of_app, !elem_of_list_singleton. split.
      + intros [Hne' Hj]%lookup_delete_Some. pose proof (B5 _ _ Hj) as [_ Hnj]. apply B7 in Hj as [H1 H2]. split; [by left|].
        intros [?|[= ->]]; [done|]. congruence.
      + intros [[H1|?] H2]; [|done]. assert (Hj : l_clients l !! fd' = Some j) by (apply B7; split; [done|]; intros ?; apply H2; by left).
        rewrite lookup_delete_ne; [done|]. intros <-. apply H2. right. f_equal. destruct Hc; congruence.
    - intros j [[fd' H]|H]; rewrite elem_of_app, elem_of_list_singleton in H.
      + destruct H as [H|?]; [|done]. apply B8. left. by exists fd'.
      + destruct H as [H|[= ->]]; [|done]. apply B8. by right.
    - intros j. rewrite elem_of_app, elem_of_list_singleton. intros [H|?]; [by apply (B9 j)|done].
    - intros j n Hj. rewrite written_app, queued_app, !app_nil_r. by apply B10.
    - intros j Hj. rewrite written_app, queued_app, !app_nil_r. by apply B11.
    - rewrite replaced_app. done.
    - by rewrite logged_app.
    - apply good_snoc; done.
    - rest3 B18 B19.
    - rest3 B18 B19.
    - rest3 B18 B19.
  Qed.
  (** ** One command *)
  Lemma mjoin_app (a b : list bytes) : mjoin (a ++ b) = mjoin a ++ mjoin b.
  Proof. induction a as [|x a IH]; [done|]. simpl. rewrite <-app_assoc. f_equal. exact IH. Qed.
  Lemma mjoin_nonempty (q : list bytes) : Forall (λ o, o ≠ []) q → mjoin q = [] → q = [].
  Proof. destruct q as [|b q]; [done|]. intros [H _]%Forall_cons. simpl. by intros [-> _]%app_eq_nil. Qed.
  Lemma sent_le sent (q : list bytes) : sent_ok sent q → (Z.to_nat sent ≤ length (mjoin q))%nat.
  Proof. destruct q as [|b q]; simpl; [intros ->; simpl; lia|]. intros [_ H]. change (mjoin (b :: q)) with (b ++ mjoin q). rewrite app_length. unfold zlen in H. lia. Qed.
  Definition live (l : lstate) (i : nat) (fd : Z) : Prop := l_clients l !! fd = Some i.

  Lemma client_of x l i n : lbase x l → l_net l !! i = Some n → ∃ c, y_cls (l_sys l) !! i = Some c ∧ queue_of l i = c_out c.
  Proof.
    intros Hb Hn. apply lookup_lt_Some in Hn. rewrite (lb_len _ _ Hb) in Hn. apply lookup_lt_is_Some in Hn as [c Hc]. exists c. split; [done|].
    by apply queue_out.
  Qed.
  Lemma nonempty_queue x l i : (0 < cf_dbs scf)%nat → lbase x l → small_hist l → Forall (λ o, o ≠ []) (queue_of l i).
  Proof.
    intros Hn Hb Hs. pose proof (base_reaches x l Hn Hb Hs) as Hr. apply reaches_ok in Hr as [_ _ H]. unfold queue_of.
    destruct (y_cls (l_sys l) !! i) as [c|] eqn:E; [|by apply Forall_nil_2]. simpl. by apply (Forall_lookup_1 _ _ _ _ H E).
  Qed.
  Lemma exec_ok i fd now unix rs l args l' failed : (0 < cf_dbs scf)%nat → lbase None l → live l i fd → args ≠ [] → Forall (λ r, 0 ≤ r) rs →
    exec_command cf i now unix rs l args = Ok (l', failed) → small_hist l' →
    lbase None l' ∧ failed = false ∧ follows l l' ∧ live l' i fd ∧ l_net l' = l_net l ∧ k_open (l_kernel l') = k_open (l_kernel l) ∧
    (∀ fd' w, fd' ≠ fd → want None l' fd' w = want None l fd' w) ∧ (queue_of l i ≠ [] → queue_of l' i ≠ []).
  Proof.
    intros Hcf Hb Hlive Hargs Hrs Hx Hs'. pose proof Hb as [B1 B2 B3 (T & BT & BW) B5 B6 B7 B8 B9 B10 B11 B12 B13 B14 B15 B16 B17 B18 B19 B20].
    unfold live in Hlive. destruct (B5 _ _ Hlive) as [Hfdl Hnfd].
    unfold exec_command in Hx. destruct (l_net l !! i) as [n|] eqn:Hn; [|done]. injection Hnfd as Hnfd.
    destruct (client_of None l i n Hb Hn) as (c & Hc & Hq).
    unfold do_sys in Hx. destruct (step scf (EvCommand i args now unix rs) (l_sys l)) as [y'| |] eqn:Hst; try done.
    cbn [mbind res_bind] in Hx.
    pose proof (run_snoc _ (EvCommand i args now unix rs) _ _ B1) as Hrun. rewrite Hst in Hrun.
    cbn [step] in Hst. rewrite Hc in Hst.
    destruct (processCommand (env_at scf now unix) args (W (y_srv (l_sys l)) c rs)) as [[w' []]| |] eqn:Hp; try done.
    cbn [mbind res_bind fst] in Hst. injection Hst as Hy'.
    pose proof (process_grows _ _ _ _ Hp) as ([os Hos] & Htask & t & Hbuf & _). cbn [w_srv w_cl] in Hos, Htask, Hbuf.
    set (l1 := note_rewrite l (set_sys l y' [EvCommand i args now unix rs])) in Hx.
    (* the state before the registration *)
    set (l2 := see l1 _) in Hx.
    Ltac fld2 l1 l2 := subst l2; cbn [see l_sys l_hist l_net l_clients l_loop l_kernel l_pc l_cur l_base l_synced l_done]; subst l1; unfold note_rewrite; match goal with |- context [if ?b then _ else _] => destruct b end; done.
    assert (Hsys : l_sys l2 = y') by fld2 l1 l2.
    assert (Hhist : l_hist l2 = l_hist l ++ [EvCommand i args now unix rs]) by fld2 l1 l2.
    assert (Hnet : l_net l2 = l_net l) by fld2 l1 l2.
    assert (Hcli : l_clients l2 = l_clients l) by fld2 l1 l2.
    assert (Hloop : l_loop l2 = l_loop l ∧ l_kernel l2 = l_kernel l ∧ l_pc l2 = l_pc l) by fld2 l1 l2.
    assert (Hsz : l_cur l2 = l_cur l ∧ l_base l2 = l_base l ∧ l_synced l2 = l_synced l ∧ l_done l2 = l_done l) by fld2 l1 l2.
    destruct Hloop as (HL1 & HL2 & HL3). destruct Hsz as (HS1 & HS2 & HS3 & HS4).
    assert (Hqi : queue_of l2 i = c_out c ++ os).
    { unfold queue_of. rewrite Hsys, <-Hy'. cbn. rewrite list_lookup_insert by (by eapply lookup_lt_Some). cbn. done. }
    assert (Hqj : ∀ j, j ≠ i → queue_of l2 j = queue_of l j).
    { intros j Hj. unfold queue_of. rewrite Hsys, <-Hy'. cbn. by rewrite list_lookup_insert_ne. }
    assert (Hcmd : ∃ pre, l_trace l2 = l_trace l ++ pre ++ [OCmd i args (mjoin os) t] ∧ (pre = [] ∨ pre = [ORewrite])).
    { assert (Ho : OCmd i args (drop (length (mjoin (queue_of l i))) (mjoin (queue_of l1 i))) (drop (length (log_of l)) (log_of l1)) = OCmd i args (mjoin os) t).
      { f_equal.
        - assert (queue_of l1 i = queue_of l2 i) as -> by done. rewrite Hqi, Hq, mjoin_app. apply drop_app.
        - assert (log_of l1 = log_of l2) as -> by done. unfold log_of. rewrite Hsys, <-Hy'. cbn. rewrite Hbuf. apply drop_app. }
      unfold l2. rewrite Ho. unfold l1, note_rewrite. match goal with |- context [if ?b then _ else _] => destruct b end; cbn; [exists [ORewrite]|exists []]; (split; [by rewrite <-?app_assoc|auto]). }
    destruct Hcmd as (pre & Htr & Hpre).
    assert (Hbg : (l_bg l2 + length (l_done l2))%nat = if s_task (y_srv (l_sys l2)) then 1%nat else 0%nat).
    { rewrite HS4, Hsys. unfold l2, l1, note_rewrite. cbn [set_sys l_sys]. rewrite <-Hy' in *. cbn [y_srv] in *.
      destruct (s_task (y_srv (l_sys l))) eqn:Ht0.
      - destruct (Htask eq_refl) as [-> _]. cbn. lia.
      - destruct (s_task (w_srv w')); cbn; lia. }
    assert (Hcnt : (starts pre + if s_task (y_srv (l_sys l)) then 1 else 0)%nat = if s_task (y_srv (l_sys l2)) then 1%nat else 0%nat).
    { assert (Hpre2 : l_trace l2 = l_trace l ++ (if negb (s_task (y_srv (l_sys l))) && s_task (y_srv y') then [ORewrite] else []) ++ [OCmd i args (mjoin os) t]).
      { assert (Ho : OCmd i args (drop (length (mjoin (queue_of l i))) (mjoin (queue_of l1 i))) (drop (length (log_of l)) (log_of l1)) = OCmd i args (mjoin os) t).
        { assert (E : l_trace l2 = l_trace l1 ++ [OCmd i args (drop (length (mjoin (queue_of l i))) (mjoin (queue_of l1 i))) (drop (length (log_of l)) (log_of l1))]) by done.
          rewrite E, app_assoc in Htr. by apply app_inj_tail in Htr as [_ ?]. }
        unfold l2. rewrite Ho. unfold l1, note_rewrite. cbn [set_sys l_sys y_srv]. destruct (negb _ && s_task (y_srv y')); cbn [see set_bg set_sys l_trace app]; by rewrite <-?app_assoc. }
      rewrite Htr in Hpre2. apply app_inv_head, app_inj_tail in Hpre2 as [-> _]. rewrite Hsys. rewrite <-Hy' in *. cbn [y_srv] in *.
      destruct (s_task (y_srv (l_sys l))) eqn:Ht0; [destruct (Htask eq_refl) as [-> _]; done|]. by destruct (s_task (w_srv w')). }
    assert (Hevent : event_ok scf (EvCommand i args now unix rs)) by (by split).
    assert (Hs2 : small_hist l2 → Forall (λ o, o ≠ []) (c_out c ++ os)).
    { intros Hs. assert (Hr : reaches scf (l_hist l2) (l_sys l2)).
      { split; [split; [|done]|].
        - rewrite Hhist. apply evs_snoc; [done|done|by intros []].
        - rewrite Hhist, Hsys. exact Hrun. }
      apply reaches_ok in Hr as [_ _ H]. rewrite <-Hqi. unfold queue_of. destruct (y_cls (l_sys l2) !! i) as [c2|] eqn:E; [|by apply Forall_nil_2]. by apply (Forall_lookup_1 _ _ _ _ H E). }
    assert (HnW : OWait ∉ pre ++ [OCmd i args (mjoin os) t]).
    { rewrite elem_of_app, elem_of_list_singleton. intros [H|H]; [|done]. destruct Hpre as [-> | ->]; [by apply elem_of_nil in H|by apply elem_of_list_singleton in H]. }
    assert (Hwr : ∀ j, written j (l_trace l2) = written j (l_trace l)).
    { intros j. rewrite Htr, written_app. destruct Hpre as [-> | ->]; cbn; by rewrite app_nil_r. }
    assert (Hqu : ∀ j, queued j (l_trace l2) = queued j (l_trace l) ++ (if decide (i = j) then mjoin os else [])).
    { intros j. rewrite Htr, queued_app. destruct Hpre as [-> | ->]; cbn; by rewrite app_nil_r. }
    assert (Hin : ∀ o, (∀ q lg, o ≠ OCmd i args q lg) → o ≠ ORewrite → o ∈ l_trace l2 ↔ o ∈ l_trace l).
    { intros o H1 H2. rewrite Htr, !elem_of_app, elem_of_list_singleton. split; [|by left]. intros [?|[H|H]]; [done| |by edestruct H1].
      destruct Hpre as [-> | ->]; [by apply elem_of_nil in H|by apply elem_of_list_singleton in H]. }
    (* everything except the table *)
    assert (Hmid : ∀ l3, l_sys l3 = l_sys l2 → l_hist l3 = l_hist l2 → l_net l3 = l_net l2 → l_clients l3 = l_clients l2 → k_open (l_kernel l3) = k_open (l_kernel l) →
      l_cur l3 = l_cur l2 → l_base l3 = l_base l2 → l_synced l3 = l_synced l2 → l_done l3 = l_done l2 → l_bg l3 = l_bg l2 → l_trace l3 = l_trace l2 → l_pc l3 = l_pc l2 → small_hist l3 →
      (∃ T : gmap (Z * bool) nat, mirrors (l_loop l3, l_kernel l3) (k_open (l_kernel l3), T) ∧ ∀ fd w, T !! (fd, w) = want None l3 fd w) →
      lbase None l3 ∧ false = false ∧ follows l l3 ∧ live l3 i fd ∧ l_net l3 = l_net l ∧ k_open (l_kernel l3) = k_open (l_kernel l) ∧
      (∀ fd' w, fd' ≠ fd → want None l3 fd' w = want None l fd' w) ∧ (queue_of l i ≠ [] → queue_of l3 i ≠ [])).
    { intros l3 E1 E2 E3 E4 E5 E6 E7 E8 E9 E10 E11 E12 Hs3 HT.
      assert (HsE : small_hist l2) by (unfold small_hist in *; by rewrite <-E2). specialize (Hs2 HsE).
      assert (Hqe : ∀ j, queue_of l3 j = queue_of l2 j) by (intros j; unfold queue_of; by rewrite E1).
      split; [|split; [done|split; [|split; [|split; [|split; [|split]]]]]].
      - split; rewrite ?E1, ?E2, ?E3, ?E4, ?E5, ?E6, ?E7, ?E8, ?E9, ?E10, ?E11, ?E12; try done.
        + rewrite Hhist, Hsys. exact Hrun.
        + rewrite Hhist. apply evs_snoc; [done|done|by intros []].
        + rewrite Hnet, Hsys, <-Hy'. cbn. by rewrite insert_length.
        + rewrite <-E5. exact HT.
        + rewrite Hcli, Hnet. done.
        + rewrite Hcli. done.
        + intros fd' j. rewrite Hcli, !Hin by done. apply B7.
        + intros j H. rewrite Hnet. apply B8. destruct H as [[fd' H]|H]; rewrite Hin in H by done; [left; by exists fd'|by right].
        + intros j H. rewrite Hin in H by done. by apply (B9 j).
        + intros j n' Hj. rewrite Hnet in Hj. rewrite Hqe. destruct (B10 j n' Hj) as [S1 S2]. rewrite Hwr, Hqu.
          destruct (decide (i = j)) as [<-|Hne].
          * rewrite Hqi. assert (n' = n) as -> by congruence. rewrite Hq in S1, S2. split.
            { destruct (c_out c) as [|b q] eqn:Eq; [|done]. simpl in S1 |- *. rewrite S1. destruct os as [|b os']; [done|]. simpl.
              simpl in Hs2. apply Forall_cons in Hs2 as [Hb0 _]. destruct b; [done|]. unfold zlen. simpl. lia. }
            { rewrite mjoin_app, drop_app_le by (by apply sent_le). rewrite app_assoc. by f_equal. }
          * rewrite Hqj by done. rewrite app_nil_r. done.
        + intros j Hj. rewrite Hnet in Hj. rewrite Hwr, Hqu. destruct (decide (i = j)) as [<-|]; [|rewrite app_nil_r; by apply B11].
          apply lookup_lt_Some in Hn. lia.
        + rewrite HS1, Hsys, <-Hy'. done.
        + rewrite HS2, HS1, Htr, replaced_app. destruct Hpre as [-> | ->]; done.
        + intros Ha. rewrite HS3, Hsys, <-Hy'. cbn. by apply B15.
        + rewrite Hsys, <-Hy'. cbn [y_file y_srv]. rewrite Hbuf, app_assoc, B16.
          rewrite Htr, logged_app. by destruct Hpre as [-> | ->].
        + rewrite Htr, app_assoc. apply good_snoc; [|done..]. destruct Hpre as [-> | ->]; [by rewrite app_nil_r|]. by apply good_snoc.
        + rewrite Htr, !starts_app, !ends_app, B18. rewrite <-Hcnt. destruct Hpre as [-> | ->]; cbn [starts ends]; lia.
        + rewrite Htr, Hhist, !commands_app, requests_app, B19. by destruct Hpre as [-> | ->].
        + rewrite Htr. apply Forall_app. split; [done|]. apply Forall_app. split; [destruct Hpre as [-> | ->]; [by apply Forall_nil_2|by apply Forall_singleton]|].
          apply Forall_singleton. exists (l_hist l), (l_sys l), c, now, unix, rs, y', (w_cl w'), os.
          assert (Hs0 : small_hist l). { eapply small_back; [|exact HsE]. rewrite Hhist. by eexists. }
          split; [by eapply base_reaches|]. split; [done|]. split; [done|]. split; [|split].
          * cbn [step]. rewrite Hc, Hp. cbn [mbind res_bind fst]. by rewrite Hy'.
          * split; [|exact Hrun]. unfold small_hist in HsE. rewrite Hhist in HsE. split; [|done]. apply evs_snoc; [done|done|by intros []].
          * rewrite <-Hy'. cbn [y_cls y_srv]. rewrite list_lookup_insert by (by eapply lookup_lt_Some). done.
      - split; [by rewrite E12, HL3| |].
        + rewrite E11, Htr. by eexists.
        + rewrite E2, Hhist. by eexists.
      - unfold live. by rewrite E4, Hcli.
      - by rewrite E3.
      - done.
      - intros fd' w Hne. unfold want. rewrite E4, Hcli. case_decide; [done|]. destruct (l_clients l !! fd') as [j|] eqn:Ej; [|done].
        assert (j ≠ i). { intros ->. pose proof (B5 _ _ Ej) as [_ Hx1]. rewrite Hn in Hx1. cbn in Hx1. congruence. }
        by rewrite Hqe, Hqj.
      - rewrite Hqe, Hqi, Hq. by destruct (c_out c). }
    assert (Hopen : fd ∈ k_open (l_kernel l)). { apply B6. right. by rewrite Hlive. }
    rewrite Hnfd in Hx.
    assert (Hwant2 : ∀ fd' w, want None l2 fd' w = if decide ((fd', w) = (fd, true)) then if decide (c_out c ++ os = []) then None else Some (h_send i) else want None l fd' w).
    { intros fd' w. unfold want. rewrite Hcli. destruct (decide ((fd', w) = (fd, true))) as [[= -> ->]|Hne].
      - rewrite decide_False by done. rewrite Hlive, Hqi. destruct (decide (c_out c ++ os = [])); [by rewrite decide_True by done|rewrite decide_False by (by intros [? _]); done].
      - case_decide; [done|]. destruct (l_clients l !! fd') as [j|] eqn:Ej; [|done]. destruct w; [|done].
        assert (j ≠ i). { intros ->. pose proof (B5 _ _ Ej) as [_ Hx1]. rewrite Hn in Hx1. cbn in Hx1. apply Hne. congruence. }
        by rewrite Hqj. }
    destruct (bool_decide (queue_of l i = []) && negb (bool_decide (queue_of l2 i = []))) eqn:Ereg.
    - apply andb_prop in Ereg as [R1 R2]. apply bool_decide_eq_true in R1. apply negb_true_iff, bool_decide_eq_false in R2.
      rewrite HL1, HL2 in Hx.
      destruct (mir_add (l_loop l) (l_kernel l) _ T fd true (h_send i) BT) as (el' & k' & EA & HM); [|done|].
      { rewrite BW. unfold want. rewrite decide_False by done. rewrite Hlive. by rewrite decide_True. }
      change (typ true) with TypeFileEventWritable in EA. rewrite EA in Hx. injection Hx as <- <-.
      apply Hmid; try done; [by apply (mirrors_open _ _ _ _ HM)|].
      exists (<[(fd, true) := h_send i]> T). split.
      { cbn [set_loop l_loop l_kernel]. by rewrite (mirrors_open _ _ _ _ HM). }
      intros fd' w. assert (want None (set_loop l2 el' k') fd' w = want None l2 fd' w) as -> by done. rewrite Hwant2.
      rewrite Hqi in R2. rewrite (decide_False (P := c_out c ++ os = [])) by done.
      destruct (decide ((fd', w) = (fd, true))) as [[= -> ->]|Hne]; [by rewrite lookup_insert|]. rewrite lookup_insert_ne by congruence. apply BW.
    - injection Hx as <- <-. apply Hmid; try done; [by rewrite HL2|]. exists T. rewrite HL1, HL2. split; [done|].
      intros fd' w. rewrite Hwant2, BW. destruct (decide ((fd', w) = (fd, true))) as [[= -> ->]|Hne]; [|done].
      unfold want. rewrite decide_False by done. rewrite Hlive, Hq. rewrite Hqi, Hq in Ereg.
      destruct (c_out c) as [|b q]; [|by rewrite !decide_False by (intros [=] || by intros [[=] _])].
      rewrite decide_True by done. destruct os; [done|]. done.
  Qed.
  (** ** The read handler *)
  Lemma exec_prefix i now unix rs l args l' failed : exec_command cf i now unix rs l args = Ok (l', failed) → l_hist l `prefix_of` l_hist l'.
  Proof.
    unfold exec_command. destruct (l_net l !! i) as [n|]; [|done]. unfold do_sys.
    destruct (step scf (EvCommand i args now unix rs) (l_sys l)) as [y'| |]; [|done..]. cbn [mbind res_bind]. intros Hx.
    assert (Hl : ∀ l1, l_hist l1 = l_hist l ++ [EvCommand i args now unix rs] → l_hist l `prefix_of` l_hist l1) by (intros l1 ->; by eexists).
    assert (Hn : l_hist (note_rewrite l (set_sys l y' [EvCommand i args now unix rs])) = l_hist l ++ [EvCommand i args now unix rs]).
    { unfold note_rewrite. match goal with |- context [if ?b then _ else _] => destruct b end; done. }
    match type of Hx with (if ?b then _ else _) = _ => destruct b end; [|injection Hx as <- <-; by apply Hl].
    destruct (AddFileEvent _ _ _ _ _) as [[el k] ok]. destruct ok; injection Hx as <- <-; by apply Hl.
  Qed.
  Lemma input_prefix i now unix rs fuel c l c' l' e :
    input_loop (exec_command cf i now unix rs) fuel c l = Ok (c', l', e) → l_hist l `prefix_of` l_hist l'.
  Proof.
    revert c l. induction fuel as [|fuel IH]; intros c l; simpl; destruct (q_len c >? 0); try done; [by intros [= <- <- <-]| |by intros [= <- <- <-]].
    destruct (detect c) as [c1| |]; [|done..]. cbn [mbind res_bind]. destruct (dispatch c1) as [[c2 out]| |]; [|done..]. cbn [mbind res_bind].
    destruct out as [e'|[]]; [by intros [= <- <- <-]| |by intros [= <- <- <-]].
    destruct (c_args c2) as [|a args]; [apply IH|].
    destruct (exec_command cf i now unix rs l (a :: args)) as [[l1 f]| |] eqn:Ex; [|done..]. cbn [mbind res_bind]. apply exec_prefix in Ex.
    destruct f; [by intros [= <- <- <-]|]. intros H. etrans; [done|by eapply IH].
  Qed.
  (** what the commands of one client change *)
  Record works (i : nat) (fd : Z) (l l' : lstate) : Prop := {
    wk_base : lbase None l';
    wk_follows : follows l l';
    wk_live : live l' i fd;
    wk_net : l_net l' = l_net l;
    wk_open : k_open (l_kernel l') = k_open (l_kernel l);
    wk_want : ∀ fd' w, fd' ≠ fd → want None l' fd' w = want None l fd' w;
    wk_queue : queue_of l i ≠ [] → queue_of l' i ≠ []
  }.
  Lemma works_refl i fd l : lbase None l → live l i fd → works i fd l l.
  Proof. intros H1 H2. split; try done. apply follows_refl. Qed.
  Lemma works_trans i fd l1 l2 l3 : works i fd l1 l2 → works i fd l2 l3 → works i fd l1 l3.
  Proof.
    intros [A1 A2 A3 A4 A5 A6 A7] [B1 B2 B3 B4 B5 B6 B7]. split; try done; [by eapply follows_trans|congruence|congruence| |auto].
    intros fd' w Hne. by rewrite B6, A6.
  Qed.
  Lemma input_ok i fd now unix rs fuel c l c' l' e : (0 < cf_dbs scf)%nat → lbase None l → live l i fd → Forall (λ r, 0 ≤ r) rs →
    input_loop (exec_command cf i now unix rs) fuel c l = Ok (c', l', e) → small_hist l' → works i fd l l'.
  Proof.
    intros Hcf Hb Hl Hrs. revert c l Hb Hl.
    induction fuel as [|fuel IH]; intros c l Hb Hl; simpl; destruct (q_len c >? 0); try done;
      [intros [= <- <- <-] _; by apply works_refl| |intros [= <- <- <-] _; by apply works_refl].
    destruct (detect c) as [c1| |]; [|done..]. cbn [mbind res_bind]. destruct (dispatch c1) as [[c2 out]| |]; [|done..]. cbn [mbind res_bind].
    destruct out as [e'|[]]; [intros [= <- <- <-] _; by apply works_refl| |intros [= <- <- <-] _; by apply works_refl].
    destruct (c_args c2) as [|a args]; [by apply IH|].
    destruct (exec_command cf i now unix rs l (a :: args)) as [[l1 f]| |] eqn:Ex; [|done..]. cbn [mbind res_bind].
    destruct f.
    - intros [= <- <- <-] Hs. eapply exec_ok in Ex as (_ & [=] & _); done.
    - intros H Hs. pose proof (input_prefix _ _ _ _ _ _ _ _ _ _ H) as Hp.
      assert (Hs1 : small_hist l1) by (by eapply small_back).
      assert (Hnil : a :: args ≠ []) by done.
      destruct (exec_ok _ _ _ _ _ _ _ _ _ Hcf Hb Hl Hnil Hrs Ex Hs1) as (E1 & _ & E2 & E3 & E4 & E5 & E6 & E7).
      eapply works_trans; [|by eapply IH]. by split.
  Qed.
  Lemma set_net_base x l i n n' : lbase x l → l_net l !! i = Some n → n_fd n' = n_fd n → n_sent n' = n_sent n → lbase x (set_net l i n').
  Proof.
    intros [B1 B2 B3 (T & BT & BW) B5 B6 B7 B8 B9 B10 B11 B12 B13 B14 B15 B16 B17 B18 B19 B20] Hn Hf Hse.
    assert (Hlt : (i < length (l_net l))%nat) by (by eapply lookup_lt_Some).
    split; cbn [set_net l_sys l_net l_clients l_loop l_kernel l_pc l_cur l_base l_done l_bg l_synced l_hist l_trace]; try done.
    - by rewrite insert_length.
    - by exists T.
    - intros fd j Hj. destruct (B5 _ _ Hj) as [H1 H2]. split; [done|]. destruct (decide (j = i)) as [->|]; [|by rewrite list_lookup_insert_ne].
      rewrite list_lookup_insert by done. rewrite Hn in H2. cbn in *. congruence.
    - intros j H. rewrite insert_length. by apply B8.
    - intros j m. destruct (decide (j = i)) as [->|]; [|rewrite list_lookup_insert_ne by done; apply B10].
      rewrite list_lookup_insert by done. intros [= <-]. rewrite Hse. by apply (B10 i n).
    - intros j Hj. rewrite insert_length in Hj. by apply B11.
  Qed.
  (** after the handler of [fd]: a client that is gone, or the same clients *)
  Record handled (i : nat) (fd : Z) (l l' : lstate) : Prop := {
    hd_base : lbase None l';
    hd_follows : follows l l';
    hd_want : ∀ fd' w, fd' ≠ fd → want None l' fd' w = want None l fd' w;
    hd_self : (live l' i fd ∧ (queue_of l i ≠ [] → queue_of l' i ≠ [])) ∨
              (fd ∉ k_open (l_kernel l') ∧ n_fd <$> l_net l' !! i = Some fd ∧ (queue_of l i ≠ [] → queue_of l' i ≠ []))
  }.
  Lemma free_handled i fd l l' : works i fd l l' → handled i fd l (free i fd l').
  Proof.
    intros [W1 W2 W3 W4 W5 W6 W7]. destruct (lb_cli _ _ W1 _ _ W3) as [Hne Hn].
    destruct (free_base i fd l' None Hn Hne (or_introl W3) W1) as [F1 F2].
    assert (Hnet : l_net (free i fd l') = l_net l' ∧ queue_of (free i fd l') i = queue_of l' i).
    { unfold free. destruct (RemoveFileEvent _ _ _ _) as [[el k] ok]. by destruct (RemoveFileEvent _ _ el k) as [[el' k'] ok']. }
    destruct Hnet as [N1 N2].
    split; [done| | |].
    - eapply follows_trans; [done|apply free_follows].
    - intros fd' w Hf. rewrite free_want, decide_False by done. by apply W6.
    - right. split; [done|]. by rewrite N1, N2.
  Qed.
  Lemma read_prefix i r now unix rs l l' : readHandler cf i r now unix rs l = Ok l' → l_hist l `prefix_of` l_hist l'.
  Proof.
    unfold readHandler. destruct (l_net l !! i) as [n|] eqn:Hn; [|done]. set (r' := if decide _ then r else RFail). clearbody r'.
    unfold readQueryFromClient.
    assert (Hf : ∀ l1, l_hist (free i (n_fd n) l1) = l_hist l1).
    { intros l1. unfold free. destruct (RemoveFileEvent _ _ _ _) as [[el k] ok]. by destruct (RemoveFileEvent _ _ el k) as [[el' k'] ok']. }
    destruct r' as [[|b chunk]| | |]; cbn [mbind res_bind fst snd]; try (intros [= <-]; by rewrite ?Hf).
    destruct (fill _ _) as [c1|]; [|done]. cbn [mbind res_bind].
    destruct (processInputBuffer _ c1 l) as [[[c2 l1] e]| |] eqn:Ep; [|done..]. cbn [mbind res_bind].
    apply input_prefix in Ep. destruct e; cbn [mbind res_bind fst snd]; intros [= <-]; by rewrite ?Hf.
  Qed.
  Lemma read_ok i fd r now unix rs l l' : (0 < cf_dbs scf)%nat → lbase None l → live l i fd → Forall (λ r, 0 ≤ r) rs →
    readHandler cf i r now unix rs l = Ok l' → small_hist l' → handled i fd l l'.
  Proof.
    intros Hcf Hb Hl Hrs. unfold readHandler. destruct (l_net l !! i) as [n|] eqn:Hn; [|done].
    destruct (lb_cli _ _ Hb _ _ Hl) as [Hne Hnf]. rewrite Hn in Hnf. injection Hnf as Hnf. rewrite Hnf.
    set (r' := if decide _ then r else RFail). clearbody r'. unfold readQueryFromClient.
    assert (Hf : ∀ l1, l_hist (free i fd l1) = l_hist l1).
    { intros l1. unfold free. destruct (RemoveFileEvent _ _ _ _) as [[el k] ok]. by destruct (RemoveFileEvent _ _ el k) as [[el' k'] ok']. }
    assert (Hkeep : ∀ l1 p, works i fd l l1 → handled i fd l (set_net l1 i (Net fd p (n_sent n)))).
    { intros l1 p [W1 W2 W3 W4 W5 W6 W7]. assert (Hn1 : l_net l1 !! i = Some n) by (by rewrite W4). split.
      - by apply (set_net_base None l1 i n).
      - destruct W2 as [? ? ?]. by split.
      - intros fd' w Hd. by rewrite <-W6.
      - left. split; [done|]. exact W7. }
    pose proof (works_refl i fd l Hb Hl) as Hrefl.
    destruct r' as [[|b chunk]| | |]; cbn [mbind res_bind fst snd]; try (intros [= <-] _; by (apply Hkeep || apply free_handled)).
    destruct (fill _ _) as [c1|]; [|done]. cbn [mbind res_bind].
    destruct (processInputBuffer _ c1 l) as [[[c2 l1] e]| |] eqn:Ep; [|done..]. cbn [mbind res_bind].
    intros H Hs. assert (works i fd l l1).
    { eapply input_ok; try done. destruct e; cbn [fst snd] in H; injection H as <-; [|done]. unfold small_hist in *. by rewrite Hf in Hs. }
    destruct e; cbn [fst snd] in H; injection H as <-; [by apply free_handled|by apply Hkeep].
  Qed.
  (** ** The write handler *)
  Lemma lbase_swap x y l : (∀ fd w, want x l fd w = want y l fd w) → lbase x l → lbase y l.
  Proof.
    intros Hw [B1 B2 B3 (T & BT & BW) B5 B6 B7 B8 B9 B10 B11 B12 B13 B14 B15 B16 B17 B18 B19 B20]. split; try done.
    exists T. split; [done|]. intros fd w. by rewrite BW.
  Qed.
  Lemma want_sending l i : queue_of l i ≠ [] → ∀ fd w, want (Some i) l fd w = want None l fd w.
  Proof.
    intros Hq fd w. unfold want. case_decide; [done|]. destruct (l_clients l !! fd) as [j|]; [|done]. destruct w; [|done].
    destruct (decide (j = i)) as [->|]; [by rewrite !decide_False by naive_solver|].
    destruct (decide (queue_of l j = [])); [rewrite !decide_True by (split; [done|congruence]); done|by rewrite !decide_False by naive_solver].
  Qed.
  Lemma write_split (b : bytes) (q : list bytes) (s m : Z) : 0 ≤ s → 0 ≤ m → s + m ≤ zlen b →
    drop (Z.to_nat s) (mjoin (b :: q)) = take (Z.to_nat m) (drop (Z.to_nat s) b) ++ drop (Z.to_nat (s + m)) (mjoin (b :: q)).
  Proof.
    intros H1 H2 H3. unfold zlen in H3. change (mjoin (b :: q)) with (b ++ mjoin q).
    rewrite !drop_app_le by lia. rewrite app_assoc. f_equal.
    replace (Z.to_nat (s + m)) with (Z.to_nat s + Z.to_nat m)%nat by lia. rewrite <-drop_drop. by rewrite take_drop.
  Qed.
  (* one write that leaves something of the first reply *)
  Lemma write_part i fd m l n b q : lbase (Some i) l → running (l_trace l) i → l_net l !! i = Some n → n_fd n = fd → queue_of l i = b :: q →
    0 ≤ m → n_sent n + m < zlen b →
    lbase (Some i) (set_net (see l (OWrite i (take (Z.to_nat m) (drop (Z.to_nat (n_sent n)) b)))) i (Net fd (n_parser n) (n_sent n + m))).
  Proof.
    intros [B1 B2 B3 (T & BT & BW) B5 B6 B7 B8 B9 B10 B11 B12 B13 B14 B15 B16 B17 B18 B19 B20] Hr Hn Hf Hq Hm Hlt.
    assert (Hi : (i < length (l_net l))%nat) by (by eapply lookup_lt_Some).
    destruct (B10 _ _ Hn) as [S1 S2]. rewrite Hq in S1, S2. simpl in S1.
    split; cbn [see set_net l_sys l_net l_clients l_loop l_kernel l_pc l_cur l_base l_done l_bg l_synced l_hist l_trace]; try done.
    - by rewrite insert_length.
    - by exists T.
    - intros fd' j Hj. destruct (B5 _ _ Hj) as [H1 H2]. split; [done|]. destruct (decide (j = i)) as [->|]; [|by rewrite list_lookup_insert_ne].
      rewrite list_lookup_insert by done. rewrite Hn in H2. cbn in *. congruence.
    - intros fd' j. rewrite !elem_of_app, !elem_of_list_singleton, B7. split; [intros [? ?]; split; [by left|by intros [?|?]]|].
      intros [[?|?] H2]; [|done]. split; [done|]. intros ?. apply H2. by left.
    - intros j H. rewrite insert_length. apply B8. destruct H as [[fd' H]|H]; rewrite elem_of_app, elem_of_list_singleton in H; destruct H as [H|H]; try done; [left; by exists fd'|by right].
    - intros j. rewrite elem_of_app, elem_of_list_singleton. intros [H|H]; [by apply (B9 j)|done].
    - intros j n' Hj. rewrite written_app, queued_app. cbn [written queued]. rewrite !app_nil_r.
      change (queue_of (set_net (see l (OWrite i (take (Z.to_nat m) (drop (Z.to_nat (n_sent n)) b)))) i (Net fd (n_parser n) (n_sent n + m))) j) with (queue_of l j).
      destruct (decide (j = i)) as [->|Hne].
      + rewrite list_lookup_insert in Hj by done. injection Hj as <-. cbn [n_sent]. rewrite decide_True by done. rewrite Hq. split; [simpl; lia|].
        rewrite <-app_assoc, <-write_split by lia. done.
      + rewrite list_lookup_insert_ne in Hj by done. rewrite decide_False by done. rewrite app_nil_r. by apply B10.
    - intros j Hj. rewrite insert_length in Hj. rewrite written_app, queued_app. cbn [written queued]. rewrite !app_nil_r.
      rewrite decide_False by lia. rewrite app_nil_r. by apply B11.
    - rewrite replaced_app. done.
    - by rewrite logged_app.
    - apply good_snoc; try done. by intros j c [= <- _].
    - rest3 B18 B19.
    - rest3 B18 B19.
    - rest3 B18 B19.
  Qed.
  (* one write that completes the first reply *)
  Lemma write_whole i fd m l n b q y : (0 < cf_dbs scf)%nat → small_hist l → lbase (Some i) l → running (l_trace l) i → l_net l !! i = Some n → n_fd n = fd → queue_of l i = b :: q →
    0 ≤ m → n_sent n + m = zlen b → step scf (EvSent i 1) (l_sys l) = Ok y →
    let l2 := set_sys (set_net (see l (OWrite i (take (Z.to_nat m) (drop (Z.to_nat (n_sent n)) b)))) i (Net fd (n_parser n) 0)) y [EvSent i 1] in
    lbase (Some i) l2 ∧ (∀ fd' w, fd' ≠ fd → l_clients l !! fd = Some i → want (Some i) l2 fd' w = want (Some i) l fd' w).
  Proof.
    intros Hcf Hsm Hb Hr Hn Hf Hq Hm Hlt Hst. pose proof (nonempty_queue _ _ i Hcf Hb Hsm) as Hne.
    destruct Hb as [B1 B2 B3 (T & BT & BW) B5 B6 B7 B8 B9 B10 B11 B12 B13 B14 B15 B16 B17 B18 B19 B20].
    assert (Hi : (i < length (l_net l))%nat) by (by eapply lookup_lt_Some).
    destruct (B10 _ _ Hn) as [S1 S2]. rewrite Hq in S1, S2. simpl in S1.
    pose proof (run_snoc _ (EvSent i 1) _ _ B1) as Hrun. rewrite Hst in Hrun.
    cbn [step] in Hst. unfold queue_of in Hq. destruct (y_cls (l_sys l) !! i) as [c|] eqn:Hc; [|done]. cbn in Hq. injection Hst as Hy.
    intros l2.
    assert (Qi : queue_of l2 i = q).
    { unfold l2, queue_of. cbn [set_sys l_sys]. rewrite <-Hy. cbn [y_cls]. rewrite list_lookup_insert by (by eapply lookup_lt_Some). cbn. by rewrite Hq. }
    assert (Qj : ∀ j, j ≠ i → queue_of l2 j = queue_of l j).
    { intros j Hj. unfold l2, queue_of. cbn [set_sys l_sys]. rewrite <-Hy. cbn [y_cls]. by rewrite list_lookup_insert_ne. }
    assert (Hw : ∀ fd' w, want (Some i) l2 fd' w = want (Some i) l fd' w).
    { intros fd' w. unfold want. case_decide; [done|]. cbn [l2 set_sys set_net see l_clients]. destruct (l_clients l !! fd') as [j|]; [|done]. destruct w; [|done].
      destruct (decide (j = i)) as [->|]; [|by rewrite Qj]. by rewrite !decide_False by naive_solver. }
    split; [|by intros; apply Hw].
    assert (Hsrv : y_srv y = y_srv (l_sys l) ∧ y_file y = y_file (l_sys l)) by (by rewrite <-Hy). destruct Hsrv as [Hsrv Hfile].
    split; unfold l2; cbn [set_sys see set_net l_sys l_net l_clients l_loop l_kernel l_pc l_cur l_base l_done l_bg l_synced l_hist l_trace]; rewrite ?Hsrv, ?Hfile; try done.
    - apply evs_snoc; [done|done|by intros []].
    - rewrite insert_length, B3, <-Hy. cbn [y_cls]. by rewrite insert_length.
    - exists T. split; [done|]. intros fd' w. rewrite BW. symmetry. apply Hw.
    - intros fd' j Hj. destruct (B5 _ _ Hj) as [H1 H2]. split; [done|]. destruct (decide (j = i)) as [->|]; [|by rewrite list_lookup_insert_ne].
      rewrite list_lookup_insert by done. rewrite Hn in H2. cbn in *. congruence.
    - intros fd' j. rewrite !elem_of_app, !elem_of_list_singleton, B7. split; [intros [? ?]; split; [by left|by intros [?|?]]|].
      intros [[?|?] H2]; [|done]. split; [done|]. intros ?. apply H2. by left.
    - intros j H. rewrite insert_length. apply B8. destruct H as [[fd' H]|H]; rewrite elem_of_app, elem_of_list_singleton in H; destruct H as [H|H]; try done; [left; by exists fd'|by right].
    - intros j. rewrite elem_of_app, elem_of_list_singleton. intros [H|H]; [by apply (B9 j)|done].
    - intros j n' Hj. rewrite written_app, queued_app. cbn [written queued]. rewrite !app_nil_r.
      fold l2. destruct (decide (j = i)) as [->|Hne'].
      + rewrite list_lookup_insert in Hj by done. injection Hj as <-. cbn [n_sent]. rewrite decide_True by done. rewrite Qi. split.
        * destruct q as [|b' q']; simpl; [done|]. rewrite (queue_out _ _ _ Hc), Hq in Hne. apply Forall_cons in Hne as [_ [Hb' _]%Forall_cons]. destruct b'; [done|]. unfold zlen. simpl. lia.
        * rewrite <-S2, <-app_assoc. f_equal. rewrite (write_split b q (n_sent n) m) by lia. f_equal.
          rewrite Hlt. unfold zlen. rewrite Nat2Z.id. change (mjoin (b :: q)) with (b ++ mjoin q). by rewrite drop_app.
      + rewrite list_lookup_insert_ne in Hj by done. rewrite decide_False by done. rewrite app_nil_r. rewrite Qj by done. by apply B10.
    - intros j Hj. rewrite insert_length in Hj. rewrite written_app, queued_app. cbn [written queued]. rewrite !app_nil_r.
      rewrite decide_False by lia. rewrite app_nil_r. by apply B11.
    - rewrite replaced_app. done.
    - by rewrite logged_app.
    - apply good_snoc; try done. by intros j c' [= <- _].
    - rest3 B18 B19.
    - rest3 B18 B19.
    - rest3 B18 B19.
  Qed.
  Lemma free_hist i fd l : l_hist (free i fd l) = l_hist l.
  Proof. unfold free. destruct (RemoveFileEvent _ _ _ _) as [[el k] ok]. by destruct (RemoveFileEvent _ _ el k) as [[el' k'] ok']. Qed.
  Lemma send_prefix i ws l l' : sendHandler cf i ws l = Ok l' → l_hist l `prefix_of` l_hist l'.
  Proof.
    revert l. induction ws as [|w ws IH]; intros l; cbn [sendHandler]; (destruct (l_net l !! i) as [n|]; [|done]);
      (destruct (queue_of l i) as [|b q]; [destruct (RemoveFileEvent _ _ _ _) as [[el k] ok]; by intros [= <-]|]); (destruct (n_sent n <? zlen b); [|done]); [done|].
    destruct (if decide _ then w else WError) as [m| |]; [|by intros [= <-]|intros [= <-]; by rewrite free_hist].
    destruct (_ && _); [|done]. destruct (_ =? zlen b); [|by intros [= <-]].
    unfold do_sys. destruct (step _ _ _) as [y| |]; [|done..]. cbn [mbind res_bind]. intros H%IH. etrans; [|done]. by eexists.
  Qed.
  Lemma send_ok i fd ws l l' : (0 < cf_dbs scf)%nat → lbase (Some i) l → live l i fd → running (l_trace l) i → small_hist l →
    sendHandler cf i ws l = Ok l' → lbase None l' ∧ follows l l' ∧ (∀ fd' w, fd' ≠ fd → want None l' fd' w = want (Some i) l fd' w).
  Proof.
    intros Hcf. revert l. induction ws as [|w ws IH]; intros l Hb Hl Hr Hsm; cbn [sendHandler];
      destruct (lb_cli _ _ Hb _ _ Hl) as [Hne Hnf]; (destruct (l_net l !! i) as [n|] eqn:Hn; [|done]); injection Hnf as Hnf;
      destruct (lb_stream _ _ Hb i n Hn) as [S1 S2].
    - (* both cases of an empty queue are alike *)
      destruct (queue_of l i) as [|b q] eqn:Hq; [|simpl in S1; destruct (n_sent n <? zlen b); done]. shelve.
    - destruct (queue_of l i) as [|b q] eqn:Hq; [shelve|]. simpl in S1. replace (n_sent n <? zlen b) with true by lia.
      assert (Hwf : ∀ l1, follows l l1 → lbase None l1 → (∀ fd' w, fd' ≠ fd → want None l1 fd' w = want (Some i) l fd' w) →
        lbase None l1 ∧ follows l l1 ∧ (∀ fd' w, fd' ≠ fd → want None l1 fd' w = want (Some i) l fd' w)) by done.
      assert (Hq' : queue_of l i ≠ []) by (by rewrite Hq).
      assert (Hb0 : lbase None l) by (eapply lbase_swap; [by apply want_sending|done]).
      destruct (if decide _ then w else WError) as [m| |].
      + destruct (0 <=? m) eqn:E1; [|done]. destruct (m <=? zlen b - n_sent n) eqn:E2; [|done]. cbn [andb].
        destruct (n_sent n + m =? zlen b) eqn:E3.
        * unfold do_sys. destruct (step _ _ _) as [y| |] eqn:Hst; [|done..]. cbn [mbind res_bind].
          destruct (write_whole i fd m l n b q y Hcf Hsm Hb Hr Hn Hnf Hq) as [W1 W2]; [lia|lia|exact Hst|]. cbv zeta in W1, W2. rewrite Hnf.
          set (l2 := set_sys _ y _) in *. intros H.
          assert (Hf2 : follows l l2).
          { split; [done| |by eexists]. exists [OWrite i (take (Z.to_nat m) (drop (Z.to_nat (n_sent n)) b))]. split; [done|]. by intros ?%elem_of_list_singleton. }
          destruct (IH l2) as (I1 & I2 & I3); [done|done|by eapply follows_running| |done|].
          { unfold small_hist in *. cbn [l2 set_sys l_hist set_net see]. rewrite total_app. cbn. lia. }
          split; [done|]. split; [by eapply follows_trans|]. intros fd' w' Hd. rewrite I3 by done. by apply W2.
        * intros [= <-].
          pose proof (write_part i fd m l n b q Hb Hr Hn Hnf Hq ltac:(lia) ltac:(lia)) as W1. rewrite Hnf. set (l2 := set_net _ i _) in *.
          split; [|split].
          -- eapply lbase_swap; [|exact W1]. apply want_sending. exact Hq'.
          -- split; [done| |done]. exists [OWrite i (take (Z.to_nat m) (drop (Z.to_nat (n_sent n)) b))]. split; [done|]. by intros ?%elem_of_list_singleton.
          -- intros fd' w' Hd. symmetry. by rewrite (want_sending l i Hq').
      + intros [= <-]. split; [done|]. split; [apply follows_refl|]. intros. by rewrite want_sending.
      + intros [= <-]. rewrite Hnf. destruct (free_base i fd l None) as [F1 F2]; [by rewrite Hn, <-Hnf|done|by left|done|].
        split; [done|]. split; [apply free_follows|]. intros fd' w' Hd. rewrite free_want, decide_False by done. by rewrite want_sending.
    Unshelve.
    all: destruct Hb as [B1 B2 B3 (T & BT & BW) B5 B6 B7 B8 B9 B10 B11 B12 B13 B14 B15 B16 B17 B18 B19 B20].
    all: destruct (mir_remove _ _ _ _ (n_fd n) true BT) as (el1 & k1 & ok1 & E1 & M1); change (typ true) with TypeFileEventWritable in E1; rewrite E1.
    all: intros [= <-]; pose proof (mirrors_open _ _ _ _ M1) as Ho.
    all: assert (Hw : ∀ fd' w', want None (set_loop l el1 k1) fd' w' = if decide ((fd', w') = (fd, true)) then None else want (Some i) l fd' w').
    1, 3: intros fd' w'; unfold want; cbn [set_loop l_clients]; change (queue_of (set_loop l el1 k1)) with (queue_of l);
      destruct (decide ((fd', w') = (fd, true))) as [[= -> ->]|Hd];
      [rewrite decide_False by done; unfold live in Hl; rewrite Hl; by rewrite decide_True by done|];
      case_decide; [done|]; destruct (l_clients l !! fd') as [j|] eqn:Ej; [|done]; destruct w'; [|done];
      assert (j ≠ i) by (intros ->; pose proof (B5 _ _ Ej) as [_ Hx]; rewrite Hn in Hx; cbn in Hx; apply Hd; congruence);
      destruct (decide (queue_of l j = [])); [rewrite !decide_True by (split; [done|congruence]); done|by rewrite !decide_False by naive_solver].
    all: split; [|split].
    all: [> | |intros fd' w' Hd; rewrite Hw; by rewrite decide_False by congruence ..| | |intros fd' w' Hd; rewrite Hw; by rewrite decide_False by congruence].
    2, 4: split; [done|exists []; cbn; by rewrite app_nil_r; split; [|apply not_elem_of_nil]|done].
    all: split; cbn [set_loop l_sys l_net l_clients l_loop l_kernel l_pc l_cur l_base l_done l_bg l_synced l_hist l_trace]; try done; [|by rewrite Ho].
    all: exists (delete (n_fd n, true) T); rewrite Ho; split; [done|]; intros fd' w'; rewrite Hw, Hnf;
      destruct (decide ((fd', w') = (fd, true))) as [[= -> ->]|Hd]; [by rewrite lookup_delete|rewrite lookup_delete_ne by congruence; apply BW].
  Qed.
  (** ** The accept handler *)
  Lemma accept_ok a l l' : lbase None l → acceptTCPHandler cf a l = Ok l' →
    lbase None l' ∧ follows l l' ∧ (∀ fd' w, fd' ∈ k_open (l_kernel l) → want None l' fd' w = want None l fd' w) ∧ total (l_hist l') = total (l_hist l).
  Proof.
    intros Hb. destruct a as [|fd|fd]; cbn [acceptTCPHandler]; [intros [= <-]; split; [done|split; [apply follows_refl|done]]|
      destruct (decide _); [done|]; intros [= <-]; split; [done|split; [apply follows_refl|done]]|].
    destruct (decide (fd ∈ k_open (l_kernel l))) as [|Hfd]; [done|]. unfold do_sys.
    pose proof Hb as [B1 B2 B3 (T & BT & BW) B5 B6 B7 B8 B9 B10 B11 B12 B13 B14 B15 B16 B17 B18 B19 B20].
    pose proof (run_snoc _ EvConnect _ _ B1) as Hrun. cbn [step] in *. cbn [mbind res_bind].
    set (i := length (l_net l)). set (y := Sys _ _ _) in *.
    assert (Hfl : fd ≠ lfd) by (intros ->; apply Hfd, B6; by left).
    assert (Hcl : l_clients l !! fd = None). { apply eq_None_not_Some. intros Hx. apply Hfd, B6. by right. }
    cbn [set_sys l_loop l_kernel l_sys l_net l_clients l_hist l_trace l_pc l_cur l_base l_done l_bg l_synced].
    pose proof (mir_new _ _ _ _ fd BT) as M1.
    destruct (mir_add _ _ _ _ fd false (h_read i) M1) as (el' & k' & EA & M2); [rewrite BW; unfold want; rewrite decide_False by done; by rewrite Hcl|set_solver|].
    change (typ false) with TypeFileEventReadable in EA. rewrite EA. intros [= <-]. cbn [set_loop set_clients l_clients].
    pose proof (mirrors_open _ _ _ _ M2) as Ho.
    set (l' := set_clients _ _).
    assert (Hq : ∀ j, queue_of l' j = queue_of l j).
    { intros j. unfold queue_of, l', y. cbn [set_clients set_loop l_sys y_cls]. destruct (decide (j < length (y_cls (l_sys l)))%nat) as [Hj|Hj].
      - by rewrite lookup_app_l.
      - rewrite lookup_app_r by lia. rewrite (lookup_ge_None_2 (y_cls (l_sys l))) by lia. destruct (j - _)%nat as [|[|m]]; done. }
    assert (Qi : queue_of l i = []). { unfold queue_of. rewrite lookup_ge_None_2; [done|]. unfold i. lia. }
    assert (Hw : ∀ fd' w, want None l' fd' w = if decide (fd' = fd) then if w then None else Some (h_read i) else want None l fd' w).
    { intros fd' w. unfold want. cbn [l' set_clients l_clients]. destruct (decide (fd' = fd)) as [->|Hd].
      - rewrite decide_False by done. rewrite lookup_insert, Hq, Qi. by rewrite decide_True.
      - rewrite lookup_insert_ne by done. destruct (decide _); [done|]. destruct (l_clients l !! fd'); [|done]. by rewrite Hq. }
    split; [|split; [|split]].
    - split; unfold l'; cbn [set_clients set_loop l_loop l_kernel l_sys l_net l_clients l_hist l_trace l_pc l_cur l_base l_done l_bg l_synced]; try done.
      + apply evs_snoc; [done|done|by intros []].
      + unfold y. cbn [y_cls]. rewrite !app_length. cbn. lia.
      + exists (<[(fd, false) := h_read i]> T). split; [by rewrite Ho|]. intros fd' w. fold l'. rewrite Hw.
        destruct (decide (fd' = fd)) as [->|Hd].
        * destruct w; [rewrite lookup_insert_ne by done|by rewrite lookup_insert]. rewrite BW. unfold want. rewrite decide_False by done. by rewrite Hcl.
        * rewrite lookup_insert_ne by congruence. apply BW.
      + intros fd' j. destruct (decide (fd' = fd)) as [->|Hd].
        * rewrite lookup_insert. intros [= <-]. split; [done|]. unfold i. by rewrite list_lookup_middle.
        * rewrite lookup_insert_ne by done. intros Hj. destruct (B5 _ _ Hj) as [H1 H2]. split; [done|].
          destruct (l_net l !! j) as [n|] eqn:En; [|done]. rewrite (lookup_app_l_Some _ _ _ _ En). done.
      + intros fd'. rewrite Ho, elem_of_union, elem_of_singleton, B6. destruct (decide (fd' = fd)) as [->|Hd].
        * rewrite lookup_insert. split; [right; by eauto|by left].
        * rewrite lookup_insert_ne by done. split; [by intros [?|?]|by right].
      + intros fd' j. rewrite !elem_of_app, !elem_of_list_singleton. destruct (decide (fd' = fd)) as [->|Hd].
        * rewrite lookup_insert. split.
          -- intros [= <-]. split; [by right|]. intros [H|H]; [|done]. assert (i < length (l_net l))%nat by (apply B8; by right). unfold i in *. lia.
          -- intros [[H|[= ->]] H2]; [|done]. assert (Hx : l_clients l !! fd = Some j) by (apply B7; split; [done|]; intros ?; apply H2; by left). congruence.
        * rewrite lookup_insert_ne by done. rewrite B7. split; [intros [? ?]; split; [by left|by intros [?|?]]|].
          intros [[?|[= ? ?]] H2]; [|done]. split; [done|]. intros ?. apply H2. by left.
      + intros j. rewrite app_length. cbn. intros [[fd' H]|H]; rewrite elem_of_app, elem_of_list_singleton in H.
        * destruct H as [H|[= -> _]]; [|unfold i; lia]. assert (j < length (l_net l))%nat by (apply B8; left; by exists fd'). lia.
        * destruct H as [H|?]; [|done]. assert (j < length (l_net l))%nat by (apply B8; by right). lia.
      + intros j. rewrite elem_of_app, elem_of_list_singleton. intros [H|H]; [by apply (B9 j)|done].
      + intros j n Hj. fold l'. rewrite Hq, written_app, queued_app. cbn [written queued]. rewrite !app_nil_r.
        apply lookup_app_Some in Hj as [Hj|[Hj1 Hj2]]; [by apply B10|]. apply list_lookup_singleton_Some in Hj2 as [Hj2 <-].
        assert (j = i) as -> by (unfold i; lia). rewrite Qi. destruct (B11 i) as [-> ->]; [unfold i; lia|]. done.
      + intros j. rewrite app_length. cbn. intros Hj. rewrite written_app, queued_app. cbn [written queued]. rewrite !app_nil_r. apply B11. lia.
      + rewrite replaced_app. done.
      + by rewrite logged_app.
      + by apply good_snoc.
      + cbn [y y_srv]. rest3 B18 B19.
      + rest3 B18 B19.
      + rest3 B18 B19.
    - split; [done| |by eexists]. exists [OConnect i fd]. split; [done|]. by intros ?%elem_of_list_singleton.
    - intros fd' w Hin. rewrite Hw. by rewrite decide_False by congruence.
    - unfold l'. cbn [set_clients set_loop l_hist]. rewrite total_app. cbn. lia.
  Qed.

  (** ** Work that does not touch the connections *)
  Lemma quiet_in os o t : Forall quiet os → ¬ quiet o → o ∈ t ++ os ↔ o ∈ t.
  Proof. intros Hq Hn. rewrite elem_of_app. split; [|by left]. intros [?|H]; [done|]. rewrite Forall_forall in Hq. by apply Hq in H. Qed.
  Lemma quiet_streams os i : Forall quiet os → written i os = [] ∧ queued i os = [].
  Proof. induction 1 as [|o os Ho _ IH]; [done|]. by destruct o. Qed.
  Lemma quiet_commands os : Forall quiet os → commands os = [].
  Proof. induction 1 as [|o os Ho _ IH]; [done|]. by destruct o. Qed.
  Record same (l l' : lstate) : Prop := {
    sa_net : l_net l' = l_net l;
    sa_cli : l_clients l' = l_clients l;
    sa_ker : l_kernel l' = l_kernel l;
    sa_file : el_file (l_loop l') = el_file (l_loop l);
    sa_cls : y_cls (l_sys l') = y_cls (l_sys l);
    sa_hist : total (l_hist l') = total (l_hist l);
    sa_pre : l_hist l `prefix_of` l_hist l';
    sa_trace : ∃ os, l_trace l' = l_trace l ++ os ∧ Forall quiet os
  }.
  Lemma same_refl l : same l l.
  Proof. split; try done. exists []. split; [by rewrite app_nil_r|by apply Forall_nil_2]. Qed.
  Lemma same_trans l1 l2 l3 : same l1 l2 → same l2 l3 → same l1 l3.
  Proof.
    intros [A1 A2 A3 A4 A5 A6 A7 (os & A8 & A9)] [B1 B2 B3 B4 B5 B6 B7 (os' & B8 & B9)]. split; try congruence; [by etrans|].
    exists (os ++ os'). split; [rewrite B8, A8; by rewrite <-app_assoc|]. by apply Forall_app.
  Qed.
  Lemma same_queue l l' i : same l l' → queue_of l' i = queue_of l i.
  Proof. intros H. unfold queue_of. by rewrite (sa_cls _ _ H). Qed.
  Lemma same_want x l l' fd w : same l l' → want x l' fd w = want x l fd w.
  Proof. intros H. unfold want. rewrite (sa_cli _ _ H). destruct (decide _); [done|]. destruct (l_clients l !! fd); [|done]. by rewrite (same_queue _ _ _ H). Qed.
  Lemma same_base l l' : lbase None l → same l l' →
    run scf (l_hist l') (init_sys scf) = Ok (l_sys l') → evs_ok (l_hist l') →
    (l_bg l' + length (l_done l'))%nat = (if s_task (y_srv (l_sys l')) then 1%nat else 0%nat) →
    l_cur l' = zlen (y_file (l_sys l')) → l_base l' = replaced (l_trace l') → 0 ≤ l_base l' ≤ l_cur l' →
    (lc_always cf = true → l_synced l' = zlen (y_file (l_sys l'))) →
    y_file (l_sys l') ++ s_aofbuf (y_srv (l_sys l')) = logged (l_trace l') →
    good (lc_always cf) (l_trace l') →
    starts (l_trace l') = (ends (l_trace l') + if s_task (y_srv (l_sys l')) then 1 else 0)%nat → requests (l_hist l') = requests (l_hist l) → lbase None l'.
  Proof.
    intros Hb Hsa. destruct Hb as [B1 B2 B3 (T & BT & BW) B5 B6 B7 B8 B9 B10 B11 B12 B13 B14 B15 B16 B17 B18 B19 B20]. intros.
    destruct Hsa as [A1 A2 A3 A4 A5 A6 A7 (os & A8 & A9)] eqn:Es. clear Es.
    split; rewrite ?A1, ?A2, ?A3, ?A5; try done.
    - exists T. split; [by eapply mirrors_time|]. intros fd w. rewrite BW. symmetry. by apply same_want.
    - intros fd i. rewrite A8, !(quiet_in os) by (done || tauto). apply B7.
    - intros i. rewrite A8. intros Hx. apply B8. destruct Hx as [[fd Hx]|Hx]; rewrite quiet_in in Hx by (done || tauto); [left; by exists fd|by right].
    - intros i. rewrite A8, quiet_in by (done || tauto). apply B9.
    - intros i n Hn. rewrite (same_queue _ _ _ Hsa), A8, written_app, queued_app. destruct (quiet_streams os i A9) as (-> & ->). rewrite !app_nil_r. by apply B10.
    - intros i Hi. rewrite A8, written_app, queued_app. destruct (quiet_streams os i A9) as (-> & ->). rewrite !app_nil_r. by apply B11.
    - rewrite A8, commands_app, (quiet_commands os A9), app_nil_r. congruence.
    - rewrite A8. apply Forall_app. split; [done|]. eapply Forall_impl; [exact A9|]. intros o. by destruct o.
  Qed.
  Lemma same_follows l l' : same l l' → l_pc l' = l_pc l → OWait ∉ drop (length (l_trace l)) (l_trace l') → follows l l'.
  Proof.
    intros [A1 A2 A3 A4 A5 A6 A7 (os & A8 & A9)] Hp Hw. split; [done| |done]. exists os. split; [done|]. by rewrite A8, drop_app in Hw.
  Qed.
  (* the flush before sleeping *)
  Lemma flush_ok l l' : lbase None l → flush cf l = Ok l' →
    lbase None l' ∧ same l l' ∧ log_of l' = [] ∧ l_trace l' = l_trace l ∧ l_pc l' = l_pc l.
  Proof.
    intros Hb. pose proof Hb as [B1 B2 B3 BT B5 B6 B7 B8 B9 B10 B11 B12 B13 B14 B15 B16 B17 B18 B19 B20]. unfold flush.
    destruct (bool_decide _) eqn:E; [apply bool_decide_eq_true in E; intros [= <-]; split; [done|]; split; [apply same_refl|done]|].
    unfold do_sys. pose proof (run_snoc _ EvFlush _ _ B1) as Hrun. cbn [step] in *. cbn [mbind res_bind]. set (y := Sys _ _ _) in *. intros [= <-].
    assert (Hsa : same l (set_sizes (set_sys l y [EvFlush]) (l_cur l + zlen (log_of l)) (l_base l) (if lc_always cf then zlen (y_file y) else l_synced l))).
    { split; try done; cbn [set_sizes set_sys l_hist]; [rewrite total_app; cbn; lia|by eexists|]. exists []. split; [by rewrite app_nil_r|by apply Forall_nil_2]. }
    split; [|split; [exact Hsa|done]].
    apply (same_base l); try done; cbn [set_sizes set_sys l_sys l_hist l_cur l_base l_synced l_trace l_bg l_done].
    - apply evs_snoc; [done|done|by intros []].
    - rewrite B13. unfold y, zlen, log_of. cbn [y_file]. rewrite app_length. lia.
    - apply B14.
    - unfold zlen. destruct B14 as [_ ?]. lia.
    - intros ->. done.
    - cbn [y y_file y_srv s_aofbuf set_log]. by rewrite app_nil_r.
    - by rewrite requests_app, app_nil_r.
  Qed.
  Lemma growth_task l : growth_check cf l = true → s_task (y_srv (l_sys l)) = false.
  Proof. unfold growth_check. by destruct (s_task (y_srv (l_sys l))). Qed.
  Definition kept (l l' : lstate) : Prop := lbase None l' ∧ same l l' ∧ log_of l' = log_of l ∧ l_pc l' = l_pc l ∧ OWait ∉ drop (length (l_trace l)) (l_trace l').
  Lemma kept_trans l1 l2 l3 : kept l1 l2 → kept l2 l3 → kept l1 l3.
  Proof.
    intros (A1 & A2 & A3 & A4 & A5) (B1 & B2 & B3 & B4 & B5). split; [done|]. split; [by eapply same_trans|]. split; [congruence|]. split; [congruence|].
    destruct (sa_trace _ _ A2) as (os & E1 & _), (sa_trace _ _ B2) as (os' & E2 & _). rewrite E2, E1 in *. rewrite drop_app in A5, B5.
    rewrite <-app_assoc, drop_app. rewrite elem_of_app. by intros [?|?].
  Qed.
  Lemma cron_ok now rs l l' : lbase None l → log_of l = [] → fresh (l_trace l) → Forall (λ r, 0 ≤ r) rs → serverCron cf now rs l = Ok l' → kept l l'.
  Proof.
    intros Hb Hlog Hfr Hrs. unfold serverCron, do_sys.
    assert (Hrefl : ∀ l, lbase None l → kept l l).
    { intros l0 H0. split; [done|]. split; [apply same_refl|]. split; [done|]. split; [done|]. rewrite drop_all. apply not_elem_of_nil. }
    (* databasesCron *)
    destruct (step scf (EvCron now rs) (l_sys l)) as [y| |] eqn:Hst; [|done..]. cbn [mbind res_bind].
    assert (K1 : kept l (set_sys l y [EvCron now rs])).
    { pose proof Hb as [B1 B2 B3 BT B5 B6 B7 B8 B9 B10 B11 B12 B13 B14 B15 B16 B17 B18 B19 B20].
      pose proof (run_snoc _ (EvCron now rs) _ _ B1) as Hrun. rewrite Hst in Hrun. cbn [step] in Hst.
      destruct (databasesCron _ _ rs) as [r| |]; [|done..]. cbn [mbind res_bind] in Hst. injection Hst as <-.
      assert (Hsa : same l (set_sys l (Sys (set_dbs (y_srv (l_sys l)) r.1) (y_cls (l_sys l)) (y_file (l_sys l))) [EvCron now rs])).
      { split; try done; cbn [set_sys l_hist]; [rewrite total_app; cbn; lia|by eexists|]. exists []. split; [by rewrite app_nil_r|by apply Forall_nil_2]. }
      split; [|split; [done|split; [done|split; [done|rewrite drop_all; apply not_elem_of_nil]]]].
      apply (same_base l); try done; cbn [set_sys l_hist l_trace l_base l_cur]; [|apply B14|apply B14|by rewrite requests_app, app_nil_r].
      apply evs_snoc; [done|done|by intros []]. }
    set (l1 := set_sys l y [EvCron now rs]) in *. clearbody l1. intros H. eapply kept_trans; [exact K1|]. destruct K1 as (Hb1 & Hsa1 & Hl1 & _). rewrite <-Hl1 in Hlog. destruct (sa_trace _ _ Hsa1) as (os1 & Et1 & Hq1). pose proof (fresh_app _ _ Hfr Hq1) as Hfr1. rewrite <-Et1 in Hfr1. clear Hb Hst Hsa1 Hl1 Hfr Et1 Hq1 l y. rename l1 into l.
    (* the rewrite because of growth *)
    destruct (if growth_check cf l then start_rewrite cf l else Ok l) as [l1| |] eqn:E1; [|done..]. cbn [mbind res_bind] in H.
    assert (K2 : kept l l1).
    { destruct (growth_check cf l) eqn:Eg; [|injection E1 as <-; by apply Hrefl]. apply growth_task in Eg.
      pose proof Hb1 as [B1 B2 B3 BT B5 B6 B7 B8 B9 B10 B11 B12 B13 B14 B15 B16 B17 B18 B19 B20].
      unfold start_rewrite, do_sys in E1. destruct (step scf EvRewrite (l_sys l)) as [y| |] eqn:Hst; [|done..]. cbn [mbind res_bind] in E1.
      pose proof (run_snoc _ EvRewrite _ _ B1) as Hrun. rewrite Hst in Hrun. cbn [step] in Hst. unfold rewriteAppendOnlyFileBackground in Hst. rewrite Eg in Hst.
      destruct (copy_dbs _) as [r| |]; [|done..]. cbn [mbind res_bind] in Hst. injection Hst as <-.
      unfold note_rewrite in E1. rewrite Eg in E1. cbn [negb andb set_sys l_sys y_srv set_task s_task] in E1. injection E1 as <-.
      set (l1 := see _ ORewrite). rewrite Eg in B12.
      assert (Hsa : same l l1).
      { split; try done; cbn [l1 see set_bg set_sys l_hist l_trace]; [rewrite total_app; cbn; lia|by eexists|]. exists [ORewrite]. split; [done|by apply Forall_singleton]. }
      split; [|split; [done|split; [done|split; [done|]]]].
      - apply (same_base l); try done; cbn [l1 see set_bg set_sys l_hist l_trace l_base l_cur l_sys l_bg l_done y_srv s_task set_task].
        + apply evs_snoc; [done|done|by intros []].
        + lia.
        + rewrite replaced_app. apply B14.
        + apply B14.
        + by rewrite logged_app.
        + by apply good_snoc.
        + rewrite starts_app, ends_app, B18, Eg. cbn. lia.
        + by rewrite requests_app, app_nil_r.
      - cbn [l1 see set_bg set_sys l_trace]. rewrite drop_app. by intros ?%elem_of_list_singleton. }
    eapply kept_trans; [exact K2|]. destruct K2 as (Hb2 & Hsa1 & Hl1 & _). rewrite <-Hl1 in Hlog. destruct (sa_trace _ _ Hsa1) as (os2 & Et1 & Hq1). pose proof (fresh_app _ _ Hfr1 Hq1) as Hfr. rewrite <-Et1 in Hfr. clear Hb1 Hsa1 Hl1 Hfr1 Et1 Hq1 E1 l. rename l1 into l.
    (* the end of a rewrite *)
    unfold done_callback in H. destruct (l_done l) as [|dump rest] eqn:Ed; [injection H as <-; by apply Hrefl|].
    pose proof Hb2 as [B1 B2 B3 BT B5 B6 B7 B8 B9 B10 B11 B12 B13 B14 B15 B16 B17 B18 B19 B20].
    unfold do_sys in H. destruct (step scf (EvDone dump) (l_sys l)) as [y| |] eqn:Hst; [|done..]. cbn [mbind res_bind] in H.
    pose proof (run_snoc _ (EvDone dump) _ _ B1) as Hrun. rewrite Hst in Hrun. cbn [step] in Hst. rewrite Ed in B12. cbn [length] in B12.
    destruct (s_task (y_srv (l_sys l))) eqn:Et; [|lia]. injection Hst as <-. injection H as <-.
    set (l1 := see _ (OReplace _)).
    assert (Hsa : same l l1).
    { split; try done; cbn [l1 see set_bg set_sys set_sizes l_hist l_trace]; [rewrite total_app; cbn; lia|by eexists|].
      eexists [OReplace _]. split; [done|by apply Forall_singleton]. }
    split; [|split; [done|split; [done|split; [done|]]]].
    - apply (same_base l); try done; cbn [l1 see set_bg set_sys set_sizes l_hist l_trace l_base l_cur l_sys l_bg l_done l_synced y_srv s_task set_task].
      + apply evs_snoc; [done|done|by intros []].
      + lia.
      + by rewrite replaced_app.
      + unfold zlen. lia.
      + by intros ->.
      + rewrite logged_app. cbn. cbn in Hlog. unfold log_of in Hlog. rewrite Hlog. by rewrite app_nil_r.
      + apply good_snoc; try done.
      + rewrite starts_app, ends_app, B18. cbn. lia.
      + by rewrite requests_app, app_nil_r.
    - cbn [l1 see set_bg set_sys set_sizes l_trace]. rewrite drop_app. by intros ?%elem_of_list_singleton.
  Qed.
  (** ** The events of one iteration *)
  Fixpoint ord (fes : list fevent) : Prop :=
    match fes with
    | [] => True
    | fe :: rest => (∀ k fe', rest !! k = Some fe' → fe_fd fe' = fe_fd fe → k = 0%nat ∧ fe_mask fe = typ false ∧ fe_mask fe' = typ true) ∧ ord rest
    end.
  (** the client was freed by its read handler, and its writable event is next *)
  Definition stale (l : lstate) (fd : Z) (d : nat) : Prop :=
    ∃ i, d = h_send i ∧ fd ∉ k_open (l_kernel l) ∧ n_fd <$> l_net l !! i = Some fd ∧ queue_of l i ≠ [].
  Definition pend (l : lstate) (fes : list fevent) : Prop :=
    ∀ k fe, fes !! k = Some fe → ∃ w, fe_mask fe = typ w ∧
      (want None l (fe_fd fe) w = Some (fe_data fe) ∨ (k = 0%nat ∧ w = true ∧ stale l (fe_fd fe) (fe_data fe))).
  Definition runs (l : lstate) (fes : list fevent) : Prop :=
    ∀ fe i, fe ∈ fes → fe_data fe = h_send i → running (l_trace l) i.
  Definition linv (l : lstate) : Prop :=
    lbase None l ∧
    match l_pc l with
    | PSleep => True
    | PWait => is_flush (last (l_trace l)) ∧ log_of l = []
    | PRun tes fes => ord fes ∧ pend l fes ∧ runs l fes ∧ (tes ≠ [] → log_of l = [] ∧ fresh (l_trace l))
    end.

  Lemma typ_inj w w' : typ w = typ w' → w = w'.
  Proof. by destruct w, w'. Qed.
  Lemma handler_read i : handler_of (h_read i) = HRead i.
  Proof.
    unfold h_read, handler_of. rewrite Nat.even_mul. cbn [orb Nat.even]. f_equal. apply Nat.div2_double.
  Qed.
  Lemma handler_send i : handler_of (h_send i) = HSend i.
  Proof.
    unfold h_send, handler_of. rewrite Nat.even_succ, Nat.odd_mul. cbn [andb Nat.odd Nat.even negb]. f_equal. apply Nat.div2_succ_double.
  Qed.
  Lemma send_inj i j : h_send i = h_send j → i = j.
  Proof. unfold h_send. lia. Qed.
  Lemma read_send i j : h_read i ≠ h_send j.
  Proof. unfold h_read, h_send. lia. Qed.
  Lemma want_open x l fd w h : lbase x l → want x l fd w = Some h → fd ∈ k_open (l_kernel l).
  Proof. intros Hb Hw. destruct (lb_tab _ _ Hb) as (T & BT & BW). apply (mi_live _ _ BT fd w). cbn. rewrite BW, Hw. by eexists. Qed.
  Lemma pc_base x l p : lbase x l → lbase x (set_pc l p).
  Proof. intros [? ? ? ? ? ? ? ? ? ? ? ? ? ? ? ? ? ? ? ?]. by split. Qed.

  Lemma ready_shape (el : loop) (k : kernel) (open : gset Z) (T : gmap (Z * bool) nat) (fd rev : Z) : mirrors (el, k) (open, T) →
    ∃ a b, ready_of el fd rev = a ++ b ∧ (a = [] ∨ ∃ h, a = [FE fd (typ false) h] ∧ T !! (fd, false) = Some h) ∧ (b = [] ∨ ∃ h, b = [FE fd (typ true) h] ∧ T !! (fd, true) = Some h).
  Proof.
    intros Hm. pose proof (mi_file _ _ Hm fd false) as H0. pose proof (mi_file _ _ Hm fd true) as H1. cbn [fst snd] in H0, H1.
    unfold ready_of. cbn [fmap list_fmap concat]. rewrite app_nil_r.
    change (getFileEventType EPOLLIN) with (typ false). change (getFileEventType EPOLLOUT) with (typ true). rewrite H0, H1.
    eexists _, _. split; [reflexivity|]. split.
    - destruct (negb _); [|by left]. destruct (T !! (fd, false)); [right; by eauto|by left].
    - destruct (negb _); [|by left]. destruct (T !! (fd, true)); [right; by eauto|by left].
  Qed.
  Lemma ready_in (el : loop) (k : kernel) (open : gset Z) (T : gmap (Z * bool) nat) (reported : list (Z * Z)) fe : mirrors (el, k) (open, T) → fe ∈ fileEvents el reported →
    fe_fd fe ∈ reported.*1 ∧ ∃ w, fe_mask fe = typ w ∧ T !! (fe_fd fe, w) = Some (fe_data fe).
  Proof.
    intros Hm. unfold fileEvents. induction reported as [|[fd rev] reported IH]; cbn [fmap list_fmap concat]; [by intros ?%elem_of_nil|].
    rewrite elem_of_app. intros [Hin|Hin]; [|destruct (IH Hin) as [? ?]; split; [by right|done]]. cbn [fst snd] in Hin.
    destruct (ready_shape el k open T fd rev Hm) as (a & b & E & Ha & Hb). rewrite E in Hin. apply elem_of_app in Hin as [Hin|Hin].
    - destruct Ha as [->|(h & -> & Hh)]; [by apply elem_of_nil in Hin|]. apply elem_of_list_singleton in Hin as ->. split; [left|by exists false].
    - destruct Hb as [->|(h & -> & Hh)]; [by apply elem_of_nil in Hin|]. apply elem_of_list_singleton in Hin as ->. split; [left|by exists true].
  Qed.
  Lemma ready_ord (el : loop) (k : kernel) (open : gset Z) (T : gmap (Z * bool) nat) (reported : list (Z * Z)) : mirrors (el, k) (open, T) → NoDup reported.*1 → ord (fileEvents el reported).
  Proof.
    intros Hm. induction reported as [|[fd rev] reported IH]; [done|]. cbn [fmap list_fmap fst snd]. intros [Hnin Hnd]%NoDup_cons. specialize (IH Hnd).
    assert (Hrest : ∀ j fe', fileEvents el reported !! j = Some fe' → fe_fd fe' ≠ fd).
    { intros j fe' Hj He. apply elem_of_list_lookup_2 in Hj. apply (ready_in _ _ _ _ _ _ Hm) in Hj as [Hj _]. congruence. }
    change (fileEvents el ((fd, rev) :: reported)) with (ready_of el fd rev ++ fileEvents el reported).
    destruct (ready_shape el k open T fd rev Hm) as (a & b & -> & Ha & Hb). rewrite <-app_assoc.
    assert (Hob : ord (b ++ fileEvents el reported)).
    { destruct Hb as [->|(h & -> & _)]; [done|]. cbn [app ord]. split; [|done]. intros j fe' Hj He. by apply Hrest in Hj. }
    destruct Ha as [->|(h & -> & _)]; [done|]. cbn [app ord]. split; [|done]. intros j fe' Hj He. cbn [fe_fd fe_mask] in *.
    destruct Hb as [->|(h' & -> & _)]; [by apply Hrest in Hj|]. destruct j as [|j]; [by injection Hj as <-|]. by apply Hrest in Hj.
  Qed.
  Lemma unsent l i : lbase None l → queue_of l i ≠ [] → written i (l_trace l) ≠ queued i (l_trace l).
  Proof.
    intros Hb Hq. destruct (l_net l !! i) as [n|] eqn:Hn.
    - destruct (lb_stream _ _ Hb i n Hn) as [S1 S2]. intros He. rewrite He in S2. apply (f_equal length) in S2. rewrite app_length, drop_length in S2.
      destruct (queue_of l i) as [|b q]; [done|]. simpl in S1. change (mjoin (b :: q)) with (b ++ mjoin q) in S2. rewrite app_length in S2. unfold zlen in S1. lia.
    - exfalso. apply Hq. unfold queue_of. apply lookup_ge_None in Hn. rewrite (lb_len _ _ Hb) in Hn. by rewrite lookup_ge_None_2.
  Qed.
  Lemma want_send l fd i : want None l fd true = Some (h_send i) → fd ≠ lfd ∧ l_clients l !! fd = Some i ∧ queue_of l i ≠ [].
  Proof.
    unfold want. case_decide; [done|]. destruct (l_clients l !! fd) as [j|]; [|done]. case_decide as Hd; [done|]. intros [= Hj].
    assert (j = i) as -> by (unfold h_send in Hj; lia). split; [done|]. split; [done|]. intros He. by apply Hd.
  Qed.

  Lemma wait_ok now reported l l' : linv l → l_pc l = PWait → lstep cf (AWait now reported) l = Ok l' → linv l'.
  Proof.
    intros [Hb Hp] Epc. rewrite Epc in Hp. destruct Hp as [Hlast Hlog]. cbn [lstep]. rewrite Epc. case_bool_decide as Hnd; [|done]. intros [= <-].
    set (fes := fileEvents (l_loop l) reported). pose proof (lb_tab _ _ Hb) as (T & BT & BW).
    set (l2 := see _ OWait).
    assert (Hsa : same l l2). { split; try done. exists [OWait]. split; [done|by apply Forall_singleton]. }
    assert (Hb2 : lbase None l2).
    { pose proof Hb as [? ? ? ? ? ? ? ? ? ? ? ? ? [? ?] ? B16 B17 B18 B19 B20]. apply (same_base l); try done; cbn [l2 see set_pc l_trace l_base].
      - by rewrite replaced_app.
      - by rewrite logged_app.
      - by apply good_snoc.
      - rewrite starts_app, ends_app, B18. cbn [starts ends l2 see set_pc l_sys]. lia. }
    split; [done|]. cbn [l2 see set_pc l_pc].
    split; [by eapply ready_ord|].
    assert (Hin : ∀ fe, fe ∈ fes → ∃ w, fe_mask fe = typ w ∧ want None l (fe_fd fe) w = Some (fe_data fe)).
    { intros fe Hin. destruct (ready_in _ _ _ _ _ _ BT Hin) as [_ (w & Hw & HT)]. exists w. split; [done|]. by rewrite <-BW. }
    split; [|split].
    - intros k fe Hk. destruct (Hin fe) as (w & Hw & HT); [by eapply elem_of_list_lookup_2|]. exists w. split; [done|]. left.
      by rewrite (same_want None l l2).
    - intros fe i He Hd. destruct (Hin fe He) as (w & Hw & HT). rewrite Hd in HT.
      assert (w = true) as ->.
      { destruct w; [done|]. exfalso. unfold want in HT. case_decide; [by injection HT|]. destruct (l_clients l !! fe_fd fe) as [j|]; [|done].
        assert (HT2 : h_read j = h_send i) by congruence. by apply read_send in HT2. }
      apply want_send in HT as (_ & _ & Hq). exists (l_trace l), []. split; [done|]. split; [by apply not_elem_of_nil|]. by apply unsent.
    - intros _. split; [done|]. cbn [l2 see set_pc l_trace]. apply fresh_app; [by apply fresh_flush|by apply Forall_singleton].
  Qed.
  Lemma intr_ok l l' : linv l → l_pc l = PWait → lstep cf AIntr l = Ok l' → linv l'.
  Proof.
    intros [Hb Hp] Epc. rewrite Epc in Hp. destruct Hp as [Hlast Hlog]. cbn [lstep]. rewrite Epc. intros [= <-].
    set (l2 := see _ OWait).
    assert (Hsa : same l l2). { split; try done. exists [OWait]. split; [done|by apply Forall_singleton]. }
    assert (Hb2 : lbase None l2).
    { pose proof Hb as [? ? ? ? ? ? ? ? ? ? ? ? ? [? ?] ? B16 B17 B18 B19 B20]. apply (same_base l); try done; cbn [l2 see set_pc l_trace l_base].
      - by rewrite replaced_app.
      - by rewrite logged_app.
      - by apply good_snoc.
      - rewrite starts_app, ends_app, B18. cbn [starts ends l2 see set_pc l_sys]. lia. }
    split; [done|]. cbn [l2 see set_pc l_pc]. split; [done|]. split; [intros k fe Hk; by rewrite lookup_nil in Hk|]. split; [intros fe i He; by apply elem_of_nil in He|done].
  Qed.
  Lemma lstep_prefix a l l' : lstep cf a l = Ok l' → l_hist l `prefix_of` l_hist l'.
  Proof.
    destruct a as [|now reported| |now rs after|f| |dump| ]; cbn [lstep]; destruct (l_pc l) as [| |tes fes]; try done;
      try (by intros [= <-]).
    - unfold flush. destruct (bool_decide _); [by intros [= <-]|]. unfold do_sys. cbn [step mbind res_bind]. intros [= <-]. by eexists.
    - destruct (bool_decide _); [|done]. by intros [= <-].
    - destruct tes as [|te tes]; [done|].
      destruct (serverCron cf now rs l) as [l1| |] eqn:Ec; [|done..]. cbn [mbind res_bind].
      assert (Hp : l_hist l `prefix_of` l_hist l1).
      { revert Ec. unfold serverCron, do_sys. destruct (step scf (EvCron now rs) (l_sys l)) as [y| |]; [|done..]. cbn [mbind res_bind]. intros H.
        destruct (if growth_check cf _ then _ else _) as [l2| |] eqn:E2; [|done..]. cbn [mbind res_bind] in H.
        assert (P2 : l_hist l `prefix_of` l_hist l2).
        { destruct (growth_check _ _); [|injection E2 as <-; by eexists]. unfold start_rewrite, do_sys in E2.
          destruct (step scf EvRewrite _) as [y2| |]; [|done..]. cbn [mbind res_bind] in E2. injection E2 as <-. unfold note_rewrite.
          destruct (negb _ && _); cbn [see set_bg set_sys l_hist]; rewrite <-app_assoc; by eexists. }
        etrans; [exact P2|]. unfold done_callback in H. destruct (l_done l2) as [|d rest]; [by injection H as <-|]. unfold do_sys in H.
        destruct (step scf (EvDone d) _) as [y2| |]; [|done..]. cbn [mbind res_bind] in H. injection H as <-. by eexists. }
      destruct (te_once te); [destruct (RemoveTimeEvent _ _) as [el ok]|]; by intros [= <-].
    - destruct tes as [|te tes]; [|done]. destruct fes as [|fe fes]; [done|]. destruct f as [a|r now unix rs|ws]; destruct (handler_of (fe_data fe)) as [|i|i]; try done.
      + unfold acceptTCPHandler. destruct a as [|fd|fd]; [by intros [= <-]|destruct (decide _); [done|by intros [= <-]]|]. destruct (decide _); [done|].
        unfold do_sys. cbn [step mbind res_bind]. destruct (AddFileEvent _ _ _ _ _) as [[el k] ok]. destruct ok; intros [= <-]; [by eexists|rewrite free_hist; by eexists].
      + intros H%read_prefix. exact H.
      + intros H%send_prefix. exact H.
    - destruct tes; [|done]. destruct fes; [|done]. by intros [= <-].
    - destruct (l_bg l); [done|]. destruct (l_done l); [|done]. by intros [= <-].
    - destruct (l_bg l); [done|]. destruct (l_done l); [|done]. by intros [= <-].
    - destruct (l_bg l); [done|]. destruct (l_done l); [|done]. by intros [= <-].
  Qed.
  Lemma file_ok f fe fes l l' : (0 < cf_dbs scf)%nat → linv l → l_pc l = PRun [] (fe :: fes) → act_ok (AFile f) →
    lstep cf (AFile f) l = Ok l' → small_hist l' → linv l'.
  Proof.
    intros Hcf [Hb0 Hp] Epc Ha Hst Hsm. pose proof (small_back _ _ (lstep_prefix _ _ _ Hst) Hsm) as Hsm0. rewrite Epc in Hp. destruct Hp as ([Hof Hor] & Hpe & Hru & _).
    cbn [lstep] in Hst. rewrite Epc in Hst. pose proof (pc_base _ _ (PRun [] fes) Hb0) as Hb. set (l1 := set_pc l (PRun [] fes)) in *.
    assert (Hpe1 : pend l1 (fe :: fes)) by exact Hpe. assert (Hru1 : runs l1 (fe :: fes)) by exact Hru. assert (Hsm1 : small_hist l1) by exact Hsm0.
    assert (Hpc : l_pc l1 = PRun [] fes) by done. clearbody l1. clear Hpe Hru Hb0 Epc Hsm0. clear l. rename l1 into l.
    assert (Hrest : ∀ k fe', fes !! k = Some fe' → ∃ w, fe_mask fe' = typ w ∧ want None l (fe_fd fe') w = Some (fe_data fe')).
    { intros k fe' Hk. destruct (Hpe1 (S k) fe' Hk) as (w & Hw & [Hx|(? & _)]); [by exists w|done]. }
    assert (Hfin : ∀ l2, lbase None l2 → follows l l2 → pend l2 fes → linv l2).
    { intros l2 H1 H2 H3. split; [done|]. rewrite (fo_pc _ _ H2), Hpc. split; [done|]. split; [done|]. split; [|done].
      intros fe' i He Hd. eapply follows_running; [done|]. apply (Hru1 fe'); [by right|done]. }
    destruct (Hpe1 0%nat fe eq_refl) as (w & Hw & Hcase).
    (* the writable event: nothing more about this descriptor *)
    assert (Hother : w = true → ∀ k fe', fes !! k = Some fe' → fe_fd fe' ≠ fe_fd fe).
    { intros -> k fe' Hk He. destruct (Hof _ _ Hk He) as (_ & Hx & _). rewrite Hw in Hx. by apply typ_inj in Hx. }
    destruct Hcase as [Hwant|(_ & -> & i & Hd & Hno & Hn & Hq)].
    - pose proof (want_open _ _ _ _ _ Hb Hwant) as Hopen. unfold want in Hwant. destruct (decide (fe_fd fe = lfd)) as [Hl|Hl].
      + (* accept *)
        destruct w; [done|]. injection Hwant as Hd. rewrite <-Hd in Hst. destruct f as [a| |]; try done. cbn [handler_of h_accept] in Hst.
        destruct (accept_ok _ _ _ Hb Hst) as (A1 & A2 & A3 & _). apply Hfin; [done..|]. intros k fe' Hk. destruct (Hrest k fe' Hk) as (w & H1 & H2).
        exists w. split; [done|]. left. rewrite A3; [done|]. by eapply want_open.
      + destruct (l_clients l !! fe_fd fe) as [i|] eqn:Hcl; [|done]. destruct w.
        * (* send *)
          case_decide as Hq; [done|]. injection Hwant as Hd. rewrite <-Hd, handler_send in Hst. destruct f as [|r now unix rs|ws]; try done.
          assert (Hq' : queue_of l i ≠ []) by (intros He; by apply Hq).
          destruct (send_ok i (fe_fd fe) ws l l') as (S1 & S2 & S3); try done.
          { eapply lbase_swap; [|done]. intros. symmetry. by apply want_sending. }
          { apply (Hru1 fe); [left|done]. }
          apply Hfin; [done..|]. intros k fe' Hk. destruct (Hrest k fe' Hk) as (w & H1 & H2). exists w. split; [done|]. left.
          rewrite S3 by (by eapply Hother). by rewrite want_sending.
        * (* read *)
          injection Hwant as Hd. rewrite <-Hd, handler_read in Hst. destruct f as [|r now unix rs|ws]; try done.
          destruct (read_ok i (fe_fd fe) r now unix rs l l' Hcf Hb Hcl Ha Hst Hsm) as [H1 H2 H3 H4]. apply Hfin; [done..|].
          intros k fe' Hk. destruct (Hrest k fe' Hk) as (w & E1 & E2). exists w. split; [done|]. destruct (decide (fe_fd fe' = fe_fd fe)) as [He|Hne].
          -- destruct (Hof _ _ Hk He) as (-> & _ & Hx). rewrite E1 in Hx. apply typ_inj in Hx as ->. rewrite He in E2 |- *.
             assert (Hdata : fe_data fe' = h_send i ∧ queue_of l i ≠ []).
             { unfold want in E2. rewrite decide_False in E2 by done. rewrite Hcl in E2. case_decide as Hq; [done|]. injection E2 as <-. split; [done|]. intros Hx. by apply Hq. }
             destruct Hdata as [Hdat Hq]. rewrite Hdat. destruct H4 as [[Hlive H4]|(Hno & Hn & H4)].
             ++ left. unfold want. rewrite decide_False by done. unfold live in Hlive. rewrite Hlive. rewrite decide_False; [done|]. intros [Hx _]. by apply H4.
             ++ right. split; [done|]. split; [done|]. exists i. auto.
          -- left. by rewrite H3.
    - (* the event of a client that is gone *)
      rewrite Hd, handler_send in Hst. destruct f as [|r now unix rs|ws]; try done. destruct (l_net l !! i) as [n|] eqn:Hni; [|done]. injection Hn as Hn.
      assert (Hs : l' = free i (fe_fd fe) l).
      { destruct (lb_stream _ _ Hb i n Hni) as [S1 _]. destruct ws as [|w ws]; cbn [sendHandler] in Hst; rewrite Hni in Hst; destruct (queue_of l i) as [|b q]; try done; simpl in S1;
          replace (n_sent n <? zlen b) with true in Hst by lia; [done|]. rewrite decide_False in Hst by (by rewrite Hn). injection Hst as <-. by rewrite Hn. }
      subst l'.
      assert (Hlf : fe_fd fe ≠ lfd) by (intros He; apply Hno, (lb_open _ _ Hb); by left).
      assert (Hcn : l_clients l !! fe_fd fe = None). { apply eq_None_not_Some. intros Hx. apply Hno, (lb_open _ _ Hb). by right. }
      destruct (free_base i (fe_fd fe) l None) as [F1 F2]; [by rewrite Hni, <-Hn|done|by right|done|].
      apply Hfin; [done|apply free_follows|]. intros k fe' Hk. destruct (Hrest k fe' Hk) as (w & H1 & H2). exists w. split; [done|]. left.
      rewrite free_want, decide_False by (by eapply Hother). done.
  Qed.
  Lemma step_ok a l l' : (0 < cf_dbs scf)%nat → linv l → act_ok a → lstep cf a l = Ok l' → small_hist l' → linv l'.
  Proof.
    intros Hcf Hl Ha Hst Hsm. destruct a as [|now reported| |now rs after|f| |dump| ].
    - pose proof Hl as [Hb Hp]. cbn [lstep] in Hst. destruct (l_pc l) eqn:Epc; try done. destruct (flush cf l) as [l1| |] eqn:Ef; [|done..]. cbn [mbind res_bind] in Hst.
      injection Hst as <-. destruct (flush_ok _ _ Hb Ef) as (F1 & F2 & F3 & F4 & F5).
      split; [|cbn [see set_pc l_pc l_trace]; split; [rewrite last_snoc; by eexists _, _|done]].
      set (l2 := see _ (OFlush _ _)).
      assert (Hsa : same l1 l2). { split; try done. eexists [OFlush _ _]. split; [done|by apply Forall_singleton]. }
      pose proof F1 as [? ? ? ? ? ? ? ? ? ? ? ? ? [? ?] ? B16 B17 B18 B19 B20]. apply (same_base l1); try done; cbn [l2 see set_pc l_trace l_base].
      + by rewrite replaced_app.
      + by rewrite logged_app.
      + apply good_snoc; try done. intros f s [= <- <-]. split; [|by apply F1]. unfold log_of in F3. by rewrite <-B16, F3, app_nil_r.
      + rewrite starts_app, ends_app, B18. cbn [starts ends l2 see set_pc l_sys]. lia.
    - destruct (l_pc l) eqn:Epc; cbn [lstep] in Hst; rewrite Epc in Hst; try done. eapply wait_ok; [done..|]. cbn [lstep]. by rewrite Epc.
    - destruct (l_pc l) eqn:Epc; cbn [lstep] in Hst; rewrite Epc in Hst; try done. eapply intr_ok; [done..|]. cbn [lstep]. by rewrite Epc.
    - pose proof Hl as [Hb Hp]. cbn [lstep] in Hst. destruct (l_pc l) as [| |[|te tes] fes] eqn:Epc; try done. destruct Hp as (P1 & P2 & P3 & P4). destruct (P4 ltac:(done)) as [P5 P6].
      destruct (serverCron cf now rs l) as [l1| |] eqn:Ec; [|done..]. cbn [mbind res_bind] in Hst.
      destruct (cron_ok _ _ _ _ Hb P5 P6 Ha Ec) as (C1 & C2 & C3 & C4 & C5).
      assert (Hgen : ∀ el p, el_file el = el_file (l_loop l1) → p = PRun tes fes ∨ p = PSleep → linv (set_pc (set_loop l1 el (l_kernel l1)) p)).
      { intros el p Hel Hpc. set (l2 := set_pc _ p).
        assert (Hsa : same l1 l2). { split; try done. exists []. split; [by rewrite app_nil_r|by apply Forall_nil_2]. }
        assert (Hb2 : lbase None l2).
        { pose proof C1 as [? ? ? ? ? ? ? ? ? ? ? ? ? [? ?] ? B16 B17 B18 B19 B20]. by apply (same_base l1). }
        split; [done|]. cbn [l2 set_pc l_pc]. destruct Hpc as [-> | ->]; [|done]. split; [done|].
        assert (Hsa2 : same l l2) by (by eapply same_trans).
        assert (Hf2 : ∃ os, l_trace l2 = l_trace l ++ os ∧ OWait ∉ os).
        { destruct (sa_trace _ _ C2) as (os & E & _). exists os. rewrite E, drop_app in C5. done. }
        split; [|split].
        - intros k fe Hk. destruct (P2 k fe Hk) as (w & Hw & Hx). exists w. split; [done|]. destruct Hx as [Hx|(-> & -> & i & X1 & X2 & X3 & X4)].
          + left. by rewrite (same_want None l l2).
          + right. split; [done|]. split; [done|]. exists i. split; [done|]. rewrite (sa_ker _ _ Hsa2), (sa_net _ _ Hsa2), (same_queue _ _ _ Hsa2). done.
        - intros fe i He Hd. destruct Hf2 as (os & -> & Hw). apply running_app; [|done]. by apply (P3 fe).
        - intros _. change (log_of l2) with (log_of l1). rewrite C3. split; [done|]. destruct (sa_trace _ _ C2) as (os & E & Hq). change (l_trace l2) with (l_trace l1). rewrite E. by apply fresh_app. }
      destruct (te_once te).
      + destruct (RemoveTimeEvent _ _) as [el ok] eqn:Er. injection Hst as <-. apply Hgen; [|destruct ok; auto].
        unfold RemoveTimeEvent in Er. destruct (remove_time _ _); by injection Er as <- _.
      + injection Hst as <-. apply Hgen; [done|by left].
    - destruct (l_pc l) as [| |[|te tes] [|fe fes]] eqn:Epc; try (by cbn [lstep] in Hst; rewrite Epc in Hst). by eapply file_ok.
    - pose proof Hl as [Hb Hp]. cbn [lstep] in Hst. destruct (l_pc l) as [| |[|te tes] [|fe fes]] eqn:Epc; try done. injection Hst as <-.
      split; [by apply pc_base|done].
    - cbn [lstep] in Hst. assert (Hx : match l_bg l, l_done l with S n, [] => Ok (set_bg l [dump] n) | _, _ => OutOfFuel end = Ok l') by (by destruct (l_pc l)). clear Hst.
      destruct (l_bg l) as [|n] eqn:En; [done|]. destruct (l_done l) as [|] eqn:Ed; [|done]. injection Hx as <-. destruct Hl as [Hb Hp].
      assert (Hsa : same l (set_bg l [dump] n)). { split; try done. exists []. split; [by rewrite app_nil_r|by apply Forall_nil_2]. }
      split; [|exact Hp]. pose proof Hb as [? ? ? ? ? ? ? ? ? ? ? B12 ? [? ?] ? B16 B17 B18 B19 B20]. apply (same_base l); try done.
      rewrite En, Ed in B12. cbn [set_bg l_bg l_done l_sys length] in *. lia.
    - cbn [lstep] in Hst. assert (Hx : Ok (set_sizes l (l_cur l) (l_base l) (zlen (y_file (l_sys l)))) = Ok l') by (by destruct (l_pc l)). clear Hst. injection Hx as <-.
      destruct Hl as [Hb Hp]. set (l2 := set_sizes _ _ _ _). assert (Hsa : same l l2). { split; try done. exists []. split; [by rewrite app_nil_r|by apply Forall_nil_2]. }
      split; [|exact Hp]. pose proof Hb as [? ? ? ? ? ? ? ? ? ? ? B12 ? [? ?] ? B16 B17 B18 B19 B20]. by apply (same_base l).
  Qed.
  Lemma linit_trace now o : o ∈ l_trace (linit cf lfd now) → o = ORewrite ∨ ∃ f, o = OBoot f.
  Proof.
    unfold linit. destruct (AddFileEvent _ _ _ _ _) as [[el k] ok]. cbn [l_trace]. rewrite elem_of_app. intros [H|H].
    - right. apply elem_of_list_fmap in H as (e & -> & H). unfold born in H. destruct (lc_log cf) as [[[file clock] rs]|]; [|by apply elem_of_nil in H].
      destruct (cf_aof scf); [|by apply elem_of_nil in H]. apply elem_of_list_singleton in H as ->. by exists file.
    - left. destruct (s_task _); [by apply elem_of_list_singleton in H|by apply elem_of_nil in H].
  Qed.
  Lemma born_sys : (0 < cf_dbs scf)%nat → boots cf → Z.of_nat (total (born cf)) < 2 ^ 42 →
    ∃ y, run scf (born cf) (init_sys scf) = Ok y ∧ y_cls y = [] ∧ s_aofbuf (y_srv y) = [] ∧
      logged (born_obs <$> born cf) = y_file y ∧ requests (born cf) = [] ∧ (born cf = [] → s_task (y_srv y) = false) ∧
      (born cf = [] ∨ ∃ file, born_obs <$> born cf = [OBoot file]).
  Proof.
    intros Hcf [He [y Hy]] Hs. exists y. split; [done|]. revert He Hy Hs. unfold born. destruct (lc_log cf) as [[[file clock] rs]|].
    2:{ intros _ [= <-] _. split_and!; try done. by left. }
    destruct (cf_aof scf). 2:{ intros _ [= <-] _. split_and!; try done. by left. }
    intros He Hy Hs. cbn [run] in Hy. destruct (step scf (EvBoot file clock rs) (init_sys scf)) as [y1| |] eqn:HS; [|done..]. injection Hy as <-.
    destruct (boot_lst scf [] file clock rs _ _ ltac:(done) HS) as (Hl & Hc & Hf). injection Hl as _ Hb _.
    split_and!; try done. right. by exists file.
  Qed.
  Lemma linit_ok now : (0 < cf_dbs scf)%nat → boots cf → Z.of_nat (total (born cf)) < 2 ^ 42 → linv (linit cf lfd now).
  Proof.
    intros Hcf Hboot Hs. destruct (born_sys Hcf Hboot Hs) as (y & Hy & Hcls & Hbuf & Hlog & Hreq & Htask & Hobs). destruct Hboot as [Hev _].
    unfold linit. destruct (mir_add NewEventLoop (K {[lfd]} ∅) {[lfd]} ∅ lfd false h_accept (mirrors_init _)) as (el & k & EA & M); [done|set_solver|].
    change (typ false) with TypeFileEventReadable in EA. rewrite EA, Hy. pose proof (mirrors_open _ _ _ _ M) as Ho. cbv zeta.
    set (tr := (born_obs <$> born cf) ++ _).
    assert (Hin : ∀ o, o ∈ tr → o = ORewrite ∨ ∃ f, o = OBoot f).
    { intros o. unfold tr. rewrite elem_of_app. intros [H|H]; [|left; destruct (s_task _); [by apply elem_of_list_singleton in H|by apply elem_of_nil in H]].
      right. destruct Hobs as [Hb|[f Hf]]; [rewrite Hb in H; by apply elem_of_nil in H|]. rewrite Hf in H. apply elem_of_list_singleton in H. by exists f. }
    assert (Htr : tr = [] ∨ (∃ f, tr = [OBoot f]) ∨ ∃ f, tr = [OBoot f; ORewrite]).
    { unfold tr. destruct Hobs as [Hb|[f Hf]]; [left; rewrite Hb, Htask by done; done|]. right. rewrite Hf. destruct (s_task _); [right|left]; by exists f. }
    assert (Hwq : ∀ i, written i tr = [] ∧ queued i tr = []) by (intros i; by destruct Htr as [->|[[f ->]|[f ->]]]).
    assert (Hlg : logged tr = y_file y). { unfold tr. rewrite logged_app, Hlog. by destruct (s_task _). }
    split; [|done].
    split; cbn [l_loop l_kernel l_sys l_net l_clients l_hist l_trace l_pc l_cur l_base l_done l_bg l_synced]; try done.
    - split; [done|]. exists []. split; [by rewrite app_nil_r|by apply Forall_nil_2].
    - by rewrite Hcls.
    - exists (<[(lfd, false) := h_accept]> ∅). split; [rewrite Ho; by apply (mirrors_time el)|]. intros fd w. unfold want. cbn [l_clients].
      case_decide as Hd; [subst fd; destruct w; [by rewrite lookup_insert_ne|by rewrite lookup_insert]|]. rewrite lookup_empty. rewrite lookup_insert_ne by congruence. done.
    - intros fd. rewrite Ho, elem_of_singleton, lookup_empty. split; [by left|]. intros [?|[? ?]]; done.
    - intros fd i. split; [done|]. by intros [[?|[? ?]]%Hin _].
    - intros i [[fd H]|H]; by apply Hin in H as [?|[? ?]].
    - intros i H. by apply Hin in H as [?|[? ?]].
    - split; [by destruct Htr as [->|[[f ->]|[f ->]]]|]. unfold zlen. lia.
    - by rewrite Hbuf, app_nil_r, Hlg.
    - destruct Htr as [->|[[f ->]|[f ->]]]; [apply good_nil|by apply (good_snoc _ []); [apply good_nil|..]|].
      apply (good_snoc _ [OBoot f]); try done. by apply (good_snoc _ []); [apply good_nil|..].
    - unfold tr. rewrite starts_app, ends_app. destruct Hobs as [Hb|[f Hf]]; [rewrite Hb, Htask by done; done|]. rewrite Hf. by destruct (s_task _).
    - rewrite Hreq. by destruct Htr as [->|[[f ->]|[f ->]]].
    - apply Forall_forall. intros o Hx. by apply Hin in Hx as [->|[f ->]].
  Qed.
  Lemma lrun_prefix acts l l' : lrun cf acts l = Ok l' → l_hist l `prefix_of` l_hist l'.
  Proof.
    revert l. induction acts as [|a acts IH]; intros l; cbn [lrun]; [by intros [= <-]|]. destruct (lstep cf a l) as [l1| |] eqn:E; [|done..]. cbn [mbind res_bind].
    intros H. etrans; [by eapply lstep_prefix|by eapply IH].
  Qed.
  Lemma lrun_ok acts l l' : (0 < cf_dbs scf)%nat → Forall act_ok acts → linv l → lrun cf acts l = Ok l' → small_hist l' → linv l'.
  Proof.
    intros Hcf Ha. revert l. induction Ha as [|a acts Ha _ IH]; intros l Hl; cbn [lrun]; [by intros [= <-]|]. destruct (lstep cf a l) as [l1| |] eqn:E; [|done..]. cbn [mbind res_bind].
    intros H Hsm. eapply IH; [|done|done]. eapply step_ok; try done. eapply small_back; [|done]. by eapply lrun_prefix.
  Qed.
  Lemma lreach_ok now acts l : lreach cf lfd now acts l → linv l.
  Proof.
    intros (H1 & H2 & H3 & H4 & H5). eapply lrun_ok; try done. apply linit_ok; [done..|].
    apply lrun_prefix in H4. destruct H4 as [t Ht].
    assert (Hh : l_hist (linit cf lfd now) = born cf) by (unfold linit; by destruct (AddFileEvent _ _ _ _ _) as [[el k] ok]).
    rewrite Ht, total_app, Hh in H5. lia.
  Qed.
End inv.
