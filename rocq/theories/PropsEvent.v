(** The event loop (C44, C45). *)
From Verif Require Import Base EventModel.
From Coq Require Import ZifyBool ZifyNat.

(** * C44 *)
(** The specification: a table (descriptor, writable?) -> handler. *)
Notation regs := (gmap (Z * bool) nat).
Inductive fop := FAdd (fd : Z) (w : bool) (h : nat) | FRemove (fd : Z) (w : bool) | FOpen (fd : Z) | FClose (fd : Z).
Definition spec_op (o : fop) (st : gset Z * regs) : (gset Z * regs) * bool :=
  let '(open, T) := st in
  match o with
  | FAdd fd w h =>
      if decide (T !! (fd, w) = None ∧ fd ∈ open) then ((open, <[(fd, w) := h]> T), true) else ((open, T), false)
  | FRemove fd w => if decide (is_Some (T !! (fd, w))) then ((open, delete (fd, w) T), true) else ((open, T), false)
  | FOpen fd => (({[fd]} ∪ open, T), true)
  | FClose fd => ((open ∖ {[fd]}, T), true)
  end.
(** a descriptor is closed only after its events were removed (Client.free does so) *)
Definition op_ok (o : fop) (st : gset Z * regs) : Prop :=
  match o with FClose fd => st.2 !! (fd, false) = None ∧ st.2 !! (fd, true) = None | _ => True end.
Definition typ (w : bool) : Z := if w then TypeFileEventWritable else TypeFileEventReadable.
Definition do_op (o : fop) (st : loop * kernel) : (loop * kernel) * bool :=
  match o with
  | FAdd fd w h => let '(el, k, ok) := AddFileEvent fd (typ w) h st.1 st.2 in ((el, k), ok)
  | FRemove fd w => let '(el, k, ok) := RemoveFileEvent fd (typ w) st.1 st.2 in ((el, k), ok)
  | FOpen fd => ((st.1, k_new fd st.2), true)
  | FClose fd => ((st.1, k_close fd st.2), true)
  end.
Fixpoint spec_ops (l : list fop) (st : gset Z * regs) : (gset Z * regs) * list bool :=
  match l with [] => (st, []) | o :: l => let '(st, b) := spec_op o st in let '(st, bs) := spec_ops l st in (st, b :: bs) end.
Fixpoint do_ops (l : list fop) (st : loop * kernel) : (loop * kernel) * list bool :=
  match l with [] => (st, []) | o :: l => let '(st, b) := do_op o st in let '(st, bs) := do_ops l st in (st, b :: bs) end.
Fixpoint ops_ok (l : list fop) (st : gset Z * regs) : Prop :=
  match l with [] => True | o :: l => op_ok o st ∧ ops_ok l (spec_op o st).1 end.
(** the events the kernel must watch: none, IN, OUT or both *)
Definition interest (T : regs) (fd : Z) : option Z :=
  match T !! (fd, false), T !! (fd, true) with
  | None, None => None
  | Some _, None => Some 1
  | None, Some _ => Some 4
  | Some _, Some _ => Some 5
  end.
(** the handlers run for a descriptor reported readable and/or writable *)
Definition handlers (T : regs) (fd : Z) (r w : bool) : list nat :=
  (if r then option_list (T !! (fd, false)) else []) ++ (if w then option_list (T !! (fd, true)) else []).

Lemma key_sum fd m : 0 ≤ m < 65536 → getFileEventMapKey fd m = fd * 65536 + m.
Proof.
  intros Hm. unfold getFileEventMapKey.
  assert (Hl : Z.land (Z.shiftl fd 16) m = 0).
  { apply Z.bits_inj'. intros n Hn. rewrite Z.land_spec, Z.bits_0.
    destruct (decide (n < 16)).
    - by rewrite Z.shiftl_spec_low.
    - rewrite (Z.bits_above_log2 m n), andb_false_r; [done|lia|].
      destruct (decide (m = 0)) as [->|]; [simpl; lia|]. apply Z.log2_lt_pow2; [lia|].
      apply Z.lt_le_trans with (2 ^ 16); [change (2 ^ 16) with 65536; lia|]. apply Z.pow_le_mono_r; lia. }
  rewrite <-Z.lxor_lor, <-Z.add_nocarry_lxor by done. rewrite Z.shiftl_mul_pow2 by lia. done.
Qed.
Lemma key_typ fd w : getFileEventMapKey fd (typ w) = fd * 65536 + typ w.
Proof. apply key_sum. unfold typ, TypeFileEventReadable, TypeFileEventWritable. destruct w; lia. Qed.
Lemma typ_range w : 1 ≤ typ w ≤ 2.
Proof. unfold typ, TypeFileEventReadable, TypeFileEventWritable. destruct w; lia. Qed.
Lemma key_inj fd w fd' w' : getFileEventMapKey fd (typ w) = getFileEventMapKey fd' (typ w') → fd = fd' ∧ w = w'.
Proof.
  rewrite !key_typ. intros H. pose proof (typ_range w). pose proof (typ_range w').
  assert (fd = fd') by lia. split; [done|]. subst. assert (typ w = typ w') as Ht by lia. by destruct w, w'.
Qed.
Record mirrors (st : loop * kernel) (sp : gset Z * regs) : Prop := {
  mi_open : k_open st.2 = sp.1;
  mi_file : ∀ fd w, el_file st.1 !! getFileEventMapKey fd (typ w) = (λ h, FE fd (typ w) h) <$> sp.2 !! (fd, w);
  mi_int : ∀ fd, k_int st.2 !! fd = interest sp.2 fd;
  mi_live : ∀ fd w, is_Some (sp.2 !! (fd, w)) → fd ∈ sp.1
}.
Lemma mask_of (el : loop) (T : regs) (fd : Z) : (∀ w, el_file el !! getFileEventMapKey fd (typ w) = (λ h, FE fd (typ w) h) <$> T !! (fd, w)) →
  getEpollEventMask el fd = default 0 (interest T fd).
Proof.
  intros H. unfold getEpollEventMask, interest. pose proof (H false) as H0. pose proof (H true) as H1. simpl in H0, H1. rewrite H0, H1.
  by destruct (T !! (fd, false)), (T !! (fd, true)).
Qed.
Lemma interest_insert (T : regs) fd (w : bool) h fd' : interest (<[(fd, w) := h]> T) fd' =
  if decide (fd' = fd) then Some (Z.lor (default 0 (interest T fd)) (if w then 4 else 1)) else interest T fd'.
Proof.
  unfold interest. case_decide as He.
  - subst fd'. destruct w; rewrite ?lookup_insert, ?lookup_insert_ne by congruence; by destruct (T !! (fd, false)), (T !! (fd, true)).
  - by rewrite !lookup_insert_ne by congruence.
Qed.
Lemma interest_delete (T : regs) fd (w : bool) fd' : is_Some (T !! (fd, w)) → interest (delete (fd, w) T) fd' =
  if decide (fd' = fd) then if Z.land (default 0 (interest T fd)) (not32 (if w then 4 else 1)) =? 0 then None
    else Some (Z.land (default 0 (interest T fd)) (not32 (if w then 4 else 1))) else interest T fd'.
Proof.
  intros [h Hh]. unfold interest. case_decide as He.
  - subst fd'. destruct w; rewrite ?lookup_delete, ?lookup_delete_ne by congruence; rewrite Hh; [by destruct (T !! (fd, false))|by destruct (T !! (fd, true))].
  - by rewrite !lookup_delete_ne by congruence.
Qed.
Lemma do_op_mirrors o st sp : mirrors st sp → op_ok o sp →
  mirrors (do_op o st).1 (spec_op o sp).1 ∧ (do_op o st).2 = (spec_op o sp).2.
Proof.
  destruct st as [el k], sp as [open T]. intros Hm Hok. pose proof Hm as [Ho Hf Hi Hl]. cbn [fst snd] in *.
  destruct o as [fd w h|fd w|fd|fd]; cbn [do_op spec_op fst snd].
  - unfold AddFileEvent. rewrite Hf. destruct (T !! (fd, w)) as [h0|] eqn:Hs; cbn [fmap option_fmap option_map].
    { rewrite decide_False by (intros [? _]; done). done. }
    rewrite (mask_of el T fd (Hf fd)).
    assert (Hev : Z.lor (default 0 (interest T fd)) (getEpollEventType (typ w)) = Z.lor (default 0 (interest T fd)) (if w then 4 else 1)) by (by destruct w).
    rewrite Hev. unfold epoll_ctl. rewrite Ho, Hi. destruct (decide (fd ∈ open)) as [Hfd|Hfd].
    2:{ rewrite decide_False by (by intros [_ ?]). done. }
    rewrite decide_True by done.
    assert (Hne : match (if negb (default 0 (interest T fd) =? 0) then CtlMod else CtlAdd), interest T fd with
                  | CtlAdd, None | CtlMod, Some _ => True | _, _ => False end).
    { unfold interest. by destruct (T !! (fd, false)), (T !! (fd, true)). }
    destruct (if negb (default 0 (interest T fd) =? 0) then CtlMod else CtlAdd), (interest T fd) as [x|] eqn:Hint; try done;
    (split; [|done]; split; cbn [fst snd k_open k_int el_file]; [done| | |]).
    1,4: intros fd' w'; destruct (decide ((fd', w') = (fd, w))) as [[= -> ->]|Hne'];
      [by rewrite !lookup_insert|rewrite !lookup_insert_ne; [apply Hf|congruence|intros [-> ->]%key_inj; done]].
    1,3: intros fd'; rewrite interest_insert, Hint; case_decide; [subst; by rewrite lookup_insert|rewrite lookup_insert_ne by done; apply Hi].
    all: intros fd' w' [h' Hh']; destruct (decide ((fd', w') = (fd, w))) as [[= -> ->]|Hne']; [done|];
      rewrite lookup_insert_ne in Hh' by congruence; by eapply Hl.
  - unfold RemoveFileEvent. rewrite Hf. destruct (T !! (fd, w)) as [h0|] eqn:Hs; cbn [fmap option_fmap option_map].
    2:{ rewrite decide_False by (by intros [? ?]). done. }
    rewrite decide_True by done. rewrite (mask_of el T fd (Hf fd)).
    pose proof (interest_delete T fd w) as Hid.
    assert (Hev : getEpollEventType (typ w) = if w then 4 else 1) by (by destruct w). rewrite Hev.
    unfold epoll_ctl. rewrite Ho, Hi, decide_True by (by eapply Hl).
    assert (Hsome : is_Some (interest T fd)). { unfold interest. destruct w; rewrite Hs; [by destruct (T !! (fd, false))|by destruct (T !! (fd, true))]. }
    destruct (interest T fd) as [x|] eqn:Hint; [|by destruct Hsome]. cbn [from_option id] in *.
    destruct (Z.land x (not32 (if w then 4 else 1)) =? 0) eqn:Hz; cbn [negb];
    (split; [|done]; split; cbn [fst snd k_open k_int el_file]; [done| | |]).
    1,4: intros fd' w'; destruct (decide ((fd', w') = (fd, w))) as [[= -> ->]|Hne'];
      [by rewrite !lookup_delete|rewrite !lookup_delete_ne; [apply Hf|congruence|intros [-> ->]%key_inj; done]].
    1,3: intros fd'; rewrite (Hid fd') by done; case_decide; [subst; by rewrite ?lookup_delete, ?lookup_insert|rewrite ?lookup_delete_ne, ?lookup_insert_ne by done; apply Hi].
    all: intros fd' w' [h' Hh']; destruct (decide ((fd', w') = (fd, w))) as [[= -> ->]|Hne']; [by rewrite lookup_delete in Hh'|];
      rewrite lookup_delete_ne in Hh' by congruence; by eapply Hl.
  - split; [|done]. split; cbn [fst snd k_new k_open k_int]; [by rewrite Ho|done|done|]. intros fd' w' Hs. apply elem_of_union_r. by eapply Hl.
  - destruct Hok as [H0 H1]. cbn [snd] in *. split; [|done]. split; cbn [fst snd k_close k_open k_int]; [by rewrite Ho|done| |].
    + intros fd'. destruct (decide (fd' = fd)) as [->|]; [|by rewrite lookup_delete_ne]. rewrite lookup_delete. unfold interest. by rewrite H0, H1.
    + intros fd' w' Hs. apply elem_of_difference. split; [by eapply Hl|]. intros ->%elem_of_singleton. destruct w'; [rewrite H1 in Hs|rewrite H0 in Hs]; by destruct Hs.
Qed.
Lemma do_ops_mirrors l : ∀ st sp, mirrors st sp → ops_ok l sp →
  mirrors (do_ops l st).1 (spec_ops l sp).1 ∧ (do_ops l st).2 = (spec_ops l sp).2.
Proof.
  induction l as [|o l IH]; intros st sp Hm Hok; simpl; [done|]. destruct Hok as [H1 H2].
  destruct (do_op_mirrors o st sp Hm H1) as [Hm' Hb]. destruct (do_op o st) as [st' b] eqn:E1, (spec_op o sp) as [sp' b'] eqn:E2.
  simpl in *. subst b'. destruct (IH st' sp' Hm' H2) as [Hm'' Hbs].
  destruct (do_ops l st') as [st'' bs], (spec_ops l sp') as [sp'' bs']. simpl in *. by subst.
Qed.
Lemma mirrors_init open : mirrors (NewEventLoop, K open ∅) (open, ∅).
Proof. split; cbn; intros; rewrite ?lookup_empty; try done. rewrite lookup_empty in H. by destruct H. Qed.
(** The results are those of the specification, the kernel watches exactly the
    registered events, and a report runs exactly the registered handlers. *)
Theorem C44_registration l open : ops_ok l (open, ∅) →
  let '((el, k), results) := do_ops l (NewEventLoop, K open ∅) in
  let '((_, T), results') := spec_ops l (open, ∅) in
  results = results' ∧ (∀ fd, k_int k !! fd = interest T fd) ∧
  ∀ fd revents, fe_data <$> ready_of el fd revents =
    handlers T fd (negb (Z.land revents 1 =? 0)) (negb (Z.land revents 4 =? 0)).
Proof.
  intros Hok. destruct (do_ops_mirrors l _ _ (mirrors_init open) Hok) as [Hm Hb].
  destruct (do_ops l (NewEventLoop, K open ∅)) as [[el k] bs], (spec_ops l (open, ∅)) as [[open' T] bs']. simpl in *.
  destruct Hm as [_ Hf Hi _]. split_and!; [done|done|]. intros fd revents. simpl in *. unfold ready_of, handlers. simpl.
  pose proof (Hf fd false) as H0. pose proof (Hf fd true) as H1. cbn [typ] in H0, H1.
  change (getFileEventType EPOLLIN) with TypeFileEventReadable. change (getFileEventType EPOLLOUT) with TypeFileEventWritable.
  rewrite H0, H1. unfold EPOLLIN, EPOLLOUT.
  destruct (negb (Z.land revents 1 =? 0)), (negb (Z.land revents 4 =? 0)), (T !! (fd, false)), (T !! (fd, true)); done.
Qed.
Print Assumptions C44_registration.
(** registering twice and removing what is not registered fail and change nothing *)
Theorem C44_fails_cleanly l open fd w h : ops_ok l (open, ∅) →
  let '(st, _) := do_ops l (NewEventLoop, K open ∅) in
  let T := (spec_ops l (open, ∅)).1.2 in
  (is_Some (T !! (fd, w)) → do_op (FAdd fd w h) st = (st, false)) ∧
  (T !! (fd, w) = None → do_op (FRemove fd w) st = (st, false)).
Proof.
  intros Hok. destruct (do_ops_mirrors l _ _ (mirrors_init open) Hok) as [Hm _].
  destruct (do_ops l (NewEventLoop, K open ∅)) as [[el k] bs], (spec_ops l (open, ∅)) as [[open' T] bs']. simpl in *.
  destruct Hm as [_ Hf _ _]. unfold AddFileEvent, RemoveFileEvent. simpl in *. rewrite Hf. split.
  - by intros [x ->].
  - by intros ->.
Qed.
Print Assumptions C44_fails_cleanly.
Definition demo_ops : list fop :=
  [FOpen 5; FAdd 5 false 1; FAdd 5 true 2; FAdd 5 true 3; FRemove 5 false; FOpen 6; FAdd 6 false 4; FRemove 5 true; FRemove 5 true; FClose 5].
Example C44_example : ops_ok demo_ops (∅, ∅) ∧ (do_ops demo_ops (NewEventLoop, K ∅ ∅)).2 = [true; true; true; false; true; true; true; true; false; true].
Proof. split; by vm_compute. Qed.
(** the order remove, then close matters: a descriptor closed while registered can
    never be registered again when its number is reused *)
Example C44_close_first : (do_ops [FOpen 5; FAdd 5 false 1; FClose 5; FOpen 5; FAdd 5 false 2] (NewEventLoop, K ∅ ∅)).2 = [true; true; true; true; false].
Proof. by vm_compute. Qed.

(** * C45 *)
(** The specification: the time events by identifier. *)
Definition events (el : loop) : gmap Z tevent := list_to_map ((λ te, (te_id te, te)) <$> el_time el).
(** histories: time events added and removed by the handlers of file events, and
    whole iterations (ae.go:240-246, 189-200) *)
Inductive tstep := TAct (a : taction) | TIter (now : Z) (acts : Z → list taction) (clock : Z → Z).
Definition iteration (now : Z) (acts : Z → list taction) (clock : Z → Z) (el : loop) : loop * list Z * bool :=
  process_time (timeEvents now el) acts clock el.
Definition tdo (s : tstep) (el : loop) : loop * list Z :=
  match s with
  | TAct a => (act_time a el, [])
  | TIter now acts clock => (iteration now acts clock el).1
  end.
Fixpoint thist (h : list tstep) (el : loop) : loop * list Z :=
  match h with
  | [] => (el, [])
  | s :: h => let '(el, r) := tdo s el in let '(el, r') := thist h el in (el, r ++ r')
  end.
Fixpoint occurrences (id : Z) (l : list Z) : nat :=
  match l with [] => 0%nat | x :: l => ((if decide (x = id) then 1 else 0) + occurrences id l)%nat end.

Definition twf (el : loop) : Prop := NoDup (te_id <$> el_time el) ∧ ∀ te, te ∈ el_time el → te_id te < el_next el.
Lemma events_Some el te id : twf el → events el !! id = Some te ↔ te ∈ el_time el ∧ te_id te = id.
Proof.
  intros [Hn _]. unfold events. rewrite <-elem_of_list_to_map.
  - rewrite elem_of_list_fmap. split; [intros (te' & [= -> ->] & ?); done|intros [? <-]; by exists te].
  - by rewrite <-list_fmap_compose.
Qed.
Lemma events_fresh el id : twf el → el_next el ≤ id → events el !! id = None.
Proof. intros Hw Hi. destruct (events el !! id) as [te|] eqn:E; [|done]. apply events_Some in E as [H <-]; [|done]. apply Hw in H. lia. Qed.
Lemma remove_time_Some id l l' : remove_time id l = Some l' → ∃ te l1 l2, l = l1 ++ te :: l2 ∧ l' = l1 ++ l2 ∧ te_id te = id.
Proof.
  revert l'. induction l as [|te l IH]; simpl; [done|]. intros l'. destruct (te_id te =? id) eqn:E.
  - intros [= <-]. exists te, [], l. split_and!; [done..|lia].
  - destruct (remove_time id l) as [l0|]; simpl; [|done]. intros [= <-]. destruct (IH l0 eq_refl) as (te' & l1 & l2 & -> & -> & ?). by exists te', (te :: l1), l2.
Qed.
Lemma remove_time_None id l : remove_time id l = None → ∀ te, te ∈ l → te_id te ≠ id.
Proof.
  induction l as [|te l IH]; simpl; [by intros _ te ?%elem_of_nil|]. destruct (te_id te =? id) eqn:E; [done|].
  destruct (remove_time id l); [done|]. intros _ te' [-> | ?]%elem_of_cons; [lia|by apply IH].
Qed.
(** what the two calls do to the table *)
Lemma add_wf once interval now el : twf el → twf (AddTimeEvent once interval now el).
Proof.
  intros [H1 H2]. split; cbn.
  - apply NoDup_cons. split; [|done]. intros (te & He & Hin)%elem_of_list_fmap. apply H2 in Hin. lia.
  - intros te [-> | H]%elem_of_cons; cbn; [lia|]. apply H2 in H. lia.
Qed.
Lemma add_events once interval now el : events (AddTimeEvent once interval now el) = <[el_next el := TE (el_next el) once (now + interval) interval]> (events el).
Proof. done. Qed.
Lemma remove_events id el : twf el → twf (RemoveTimeEvent id el).1 ∧ events (RemoveTimeEvent id el).1 = delete id (events el) ∧
  ((RemoveTimeEvent id el).2 = true ↔ is_Some (events el !! id)) ∧ el_next (RemoveTimeEvent id el).1 = el_next el.
Proof.
  intros Hw. unfold RemoveTimeEvent. destruct (remove_time id (el_time el)) as [l'|] eqn:E; cbn [fst snd].
  - apply remove_time_Some in E as (te & l1 & l2 & He & -> & Hi). subst id. destruct Hw as [H1 H2]. rewrite He in H1, H2.
    rewrite fmap_app, fmap_cons in H1.
    assert (Hp : NoDup (te_id <$> l1 ++ l2)). { rewrite fmap_app. rewrite <-Permutation_middle in H1. by apply NoDup_cons in H1 as [_ ?]. }
    split_and!; cbn; [split; [done|]| | |done].
    + intros te' Hin. apply H2. apply elem_of_app in Hin as [?|?]; apply elem_of_app; [by left|right; by apply elem_of_list_further].
    + unfold events. cbn. rewrite He, !fmap_app, fmap_cons, !list_to_map_app, list_to_map_cons.
      rewrite delete_union, delete_insert_delete. rewrite <-delete_union. rewrite delete_notin; [done|].
      rewrite <-list_to_map_app, <-fmap_app. apply not_elem_of_list_to_map_1. rewrite <-list_fmap_compose.
      change (fst ∘ (λ te0, (te_id te0, te0))) with te_id. rewrite fmap_app, elem_of_app.
      apply NoDup_app in H1 as (_ & Hd & [Hnn _]%NoDup_cons). intros [H|H]; [|done]. by apply (Hd _ H), elem_of_list_here.
    + split; [|done]. intros _. exists te. apply events_Some; [by split; rewrite He; [rewrite fmap_app, fmap_cons|]|]. rewrite He. split; [|done]. apply elem_of_app. right. apply elem_of_list_here.
  - pose proof (remove_time_None _ _ E) as Hn. assert (HN : events el !! id = None).
    { destruct (events el !! id) as [te|] eqn:Ee; [|done]. apply events_Some in Ee as [? ?]; [|done]. by destruct (Hn te). }
    split_and!; [done|by rewrite delete_notin| |done]. split; [done|]. rewrite HN. by intros [? ?].
Qed.
Definition resched (when : Z) (te : tevent) : tevent := TE (te_id te) (te_once te) when (te_interval te).
Lemma set_when_events id when el : twf el → twf (set_when id when el) ∧ events (set_when id when el) = alter (resched when) id (events el).
Proof.
  intros Hw.
  assert (Hi : te_id <$> el_time (set_when id when el) = te_id <$> el_time el).
  { cbn. rewrite <-list_fmap_compose. apply list_fmap_ext. intros _ te _. cbn. by destruct (te_id te =? id). }
  assert (Hw' : twf (set_when id when el)).
  { destruct Hw as [H1 H2]. split; [by rewrite Hi|]. intros te Hin. cbn in *. apply elem_of_list_fmap in Hin as (te0 & -> & Hin). apply H2 in Hin. by destruct (te_id te0 =? id). }
  split; [done|]. apply map_eq. intros j. apply option_eq. intros te. rewrite events_Some by done. cbn. rewrite elem_of_list_fmap.
  destruct (decide (j = id)) as [->|Hne].
  - rewrite lookup_alter. destruct (events el !! id) as [te0|] eqn:E; cbn.
    + apply events_Some in E as [E1 E2]; [|done]. split.
      * intros [(te1 & -> & Hin) He]. assert (Hx : te_id te1 = id) by (by destruct (te_id te1 =? id)).
        assert (events el !! id = Some te1) as H1 by (by apply events_Some). assert (events el !! id = Some te0) as H0 by (by apply events_Some).
        rewrite H1 in H0. injection H0 as ->. rewrite Hx, Z.eqb_refl. unfold resched. by rewrite Hx.
      * intros [= <-]. unfold resched. cbn. rewrite E2. split; [|done]. exists te0. by rewrite E2, Z.eqb_refl.
    + split; [|done]. intros [(te1 & -> & Hin) He]. assert (Hx : te_id te1 = id) by (by destruct (te_id te1 =? id)).
      assert (events el !! id = Some te1) as H1 by (by apply events_Some). congruence.
  - rewrite lookup_alter_ne by done. rewrite events_Some by done. split.
    + intros [(te1 & -> & Hin) He]. destruct (te_id te1 =? id) eqn:E; cbn in *; [lia|done].
    + intros [Hin <-]. split; [|done]. exists te. by rewrite (proj2 (Z.eqb_neq _ _)).
Qed.
(** nothing is created under an old identifier *)
Definition older (el el' : loop) : Prop := twf el' ∧ el_next el ≤ el_next el' ∧
  ∀ id te', id < el_next el → events el' !! id = Some te' → ∃ te, events el !! id = Some te ∧ te_once te' = te_once te.
Lemma older_refl el : twf el → older el el.
Proof. intros H. split_and!; [done|lia|]. intros id te' _ ?. by exists te'. Qed.
Lemma older_trans el1 el2 el3 : older el1 el2 → older el2 el3 → older el1 el3.
Proof.
  intros (H1 & H2 & H3) (G1 & G2 & G3). split; [done|]. split; [lia|]. intros id te' Hid H. destruct (G3 id te') as (te & H' & ->); [lia|done|].
  by apply H3.
Qed.
Lemma act_older a el : twf el → older el (act_time a el).
Proof.
  intros Hw. destruct a as [once interval now|id]; cbn [act_time].
  - split; [by apply add_wf|]. split; [cbn; lia|]. intros id te' Hid H. rewrite add_events, lookup_insert_ne in H by lia. by exists te'.
  - destruct (remove_events id el Hw) as (H1 & H2 & _ & H3). split; [done|]. split; [lia|]. intros id' te' Hid H. rewrite H2 in H.
    apply lookup_delete_Some in H as [_ H]. by exists te'.
Qed.
Lemma acts_older l : ∀ el, twf el → older el (foldl (λ el a, act_time a el) el l).
Proof.
  induction l as [|a l IH]; intros el Hw; simpl; [by apply older_refl|]. eapply older_trans; [by apply act_older|]. apply IH. by apply act_older.
Qed.
Lemma set_when_older id when el : twf el → older el (set_when id when el).
Proof.
  intros Hw. destruct (set_when_events id when el Hw) as [H1 H2]. split; [done|]. split; [done|]. intros id' te' _ H. rewrite H2 in H.
  apply lookup_alter_Some in H as [(-> & te & H & ->)|[_ H]]; [by exists te|by exists te'].
Qed.
Lemma remove_older id el : twf el → older el (RemoveTimeEvent id el).1.
Proof. apply (act_older (TRemove id)). Qed.
Lemma process_older tes acts clock : ∀ el, twf el → older el (process_time tes acts clock el).1.1.
Proof.
  induction tes as [|te tes IH]; intros el Hw; cbn [process_time]; [by apply older_refl|].
  pose proof (acts_older (acts (te_id te)) el Hw) as Ha. set (el1 := foldl _ el _) in *. destruct (te_once te).
  - pose proof (remove_older (te_id te) el1 (proj1 Ha)) as Hr. destruct (RemoveTimeEvent (te_id te) el1) as [el2 ok]. cbn [fst] in Hr.
    destruct ok; [|by eapply older_trans]. specialize (IH el2 (proj1 Hr)). destruct (process_time tes acts clock el2) as [[el3 ran] fin].
    cbn [fst] in *. by eapply older_trans, older_trans.
  - pose proof (set_when_older (te_id te) (clock (te_id te) + te_interval te) el1 (proj1 Ha)) as Hr. set (el2 := set_when _ _ el1) in *.
    specialize (IH el2 (proj1 Hr)). destruct (process_time tes acts clock el2) as [[el3 ran] fin]. cbn [fst] in *. by eapply older_trans, older_trans.
Qed.
Lemma process_prefix tes acts clock : ∀ el, (process_time tes acts clock el).1.2 `prefix_of` (te_id <$> tes) ∧
  ((process_time tes acts clock el).2 = true → (process_time tes acts clock el).1.2 = te_id <$> tes).
Proof.
  induction tes as [|te tes IH]; intros el; cbn [process_time]; [done|]. destruct (te_once te).
  - destruct (RemoveTimeEvent _ _) as [el2 ok]. destruct ok.
    + specialize (IH el2). destruct (process_time tes acts clock el2) as [[el3 ran] fin]. cbn [fst snd] in *. rewrite fmap_cons.
      split; [apply prefix_cons, IH|]. intros H. f_equal. by apply IH.
    + cbn [fst snd]. split; [|done]. rewrite fmap_cons. apply prefix_cons, prefix_nil.
  - set (el2 := set_when _ _ _). specialize (IH el2). destruct (process_time tes acts clock el2) as [[el3 ran] fin]. cbn [fst snd] in *. rewrite fmap_cons.
      split; [apply prefix_cons, IH|]. intros H. f_equal. by apply IH.
Qed.
Lemma older_None el el' id : older el el' → id < el_next el → events el !! id = None → events el' !! id = None.
Proof. intros (_ & _ & H) Hid HN. destruct (events el' !! id) as [te'|] eqn:E; [|done]. destruct (H id te' Hid E) as (te & H' & _). congruence. Qed.
Lemma process_once tes acts clock : ∀ el te, twf el → te ∈ tes → NoDup (te_id <$> tes) → te_once te = true → te_id te < el_next el →
  te_id te ∈ (process_time tes acts clock el).1.2 → events (process_time tes acts clock el).1.1 !! te_id te = None.
Proof.
  induction tes as [|te0 tes IH]; intros el te Hw Hin Hnd Honce Hid Hran; [by apply elem_of_nil in Hin|].
  cbn [process_time] in *. rewrite fmap_cons in Hnd. apply NoDup_cons in Hnd as [Hn0 Hnd].
  pose proof (acts_older (acts (te_id te0)) el Hw) as Ha. set (el1 := foldl _ el _) in *. destruct (te_once te0) eqn:Ho0.
  - pose proof (remove_older (te_id te0) el1 (proj1 Ha)) as Hr. pose proof (remove_events (te_id te0) el1 (proj1 Ha)) as (_ & He & _ & _).
    destruct (RemoveTimeEvent (te_id te0) el1) as [el2 ok]. cbn [fst] in Hr, He.
    assert (Hid2 : te_id te < el_next el2) by (destruct Ha as (_ & ? & _), Hr as (_ & ? & _); lia).
    destruct ok; cycle 1.
    { cbn [fst snd] in *. apply elem_of_list_singleton in Hran. rewrite He, Hran. apply lookup_delete. }
    pose proof (process_older tes acts clock el2 (proj1 Hr)) as Hp. pose proof (process_prefix tes acts clock el2) as [Hpre _].
    specialize (IH el2). destruct (process_time tes acts clock el2) as [[el3 ran] fin]. cbn [fst snd] in *.
    apply elem_of_cons in Hin as [-> | Hin].
    + apply (older_None el2 el3); [done|done|]. rewrite He. apply lookup_delete.
    + apply elem_of_cons in Hran as [Hx | Hran]; [|by apply IH; [apply Hr|..]].
      destruct Hn0. rewrite <-Hx. by apply elem_of_list_fmap_1.
  - pose proof (set_when_older (te_id te0) (clock (te_id te0) + te_interval te0) el1 (proj1 Ha)) as Hr. set (el2 := set_when _ _ el1) in *.
    assert (Hid2 : te_id te < el_next el2) by (destruct Ha as (_ & ? & _), Hr as (_ & ? & _); lia).
    specialize (IH el2). destruct (process_time tes acts clock el2) as [[el3 ran] fin]. cbn [fst snd] in *.
    apply elem_of_cons in Hin as [-> | Hin]; [congruence|].
    apply elem_of_cons in Hran as [Hx | Hran]; [|by apply IH; [apply Hr|..]].
    destruct Hn0. rewrite <-Hx. by apply elem_of_list_fmap_1.
Qed.
Lemma occurrences_app id l l' : occurrences id (l ++ l') = (occurrences id l + occurrences id l')%nat.
Proof. induction l as [|x l IH]; simpl; lia. Qed.
Lemma occurrences_0 id l : id ∉ l → occurrences id l = 0%nat.
Proof. induction l as [|x l IH]; [done|]. rewrite not_elem_of_cons. intros [? ?]. simpl. rewrite decide_False by done. by rewrite IH. Qed.
Lemma occurrences_1 id l : NoDup l → (occurrences id l ≤ 1)%nat.
Proof. induction 1 as [|x l Hx Hl IH]; simpl; [lia|]. case_decide; [subst; rewrite occurrences_0 by done; lia|lia]. Qed.
Lemma timeEvents_sub now el : twf el → NoDup (te_id <$> timeEvents now el) ∧ ∀ te, te ∈ timeEvents now el ↔ events el !! te_id te = Some te ∧ te_when te ≤ now.
Proof.
  intros Hw. split.
  - destruct Hw as [H _]. unfold timeEvents. induction (el_time el) as [|te l IH]; [constructor|]. rewrite fmap_cons in H. apply NoDup_cons in H as [H1 H2].
    rewrite filter_cons. case_decide; [|by apply IH]. rewrite fmap_cons. apply NoDup_cons. split; [|by apply IH].
    intros (te' & He & Hin)%elem_of_list_fmap. apply elem_of_list_filter in Hin as [_ Hin]. apply H1. rewrite He. by apply elem_of_list_fmap_1.
  - intros te. unfold timeEvents. rewrite elem_of_list_filter, events_Some by done. naive_solver.
Qed.
Lemma tdo_older s el : twf el → older el (tdo s el).1.
Proof. intros Hw. destruct s as [a|now acts clock]; cbn [tdo fst]; [by apply act_older|by apply process_older]. Qed.
Lemma thist_older h : ∀ el, twf el → older el (thist h el).1.
Proof.
  induction h as [|s h IH]; intros el Hw; cbn [thist]; [by apply older_refl|]. pose proof (tdo_older s el Hw) as Hs.
  destruct (tdo s el) as [el1 r]. cbn [fst] in *. specialize (IH el1 (proj1 Hs)). destruct (thist h el1) as [el2 r']. cbn [fst] in *. by eapply older_trans.
Qed.
Lemma tdo_ran s el id : twf el → id ∈ (tdo s el).2 → ∃ te, te_id te = id ∧ events el !! id = Some te ∧
  match s with TAct _ => False | TIter now _ _ => te_when te ≤ now end.
Proof.
  intros Hw. destruct s as [a|now acts clock]; cbn [tdo snd]; [by intros ?%elem_of_nil|]. unfold iteration. intros H.
  destruct (process_prefix (timeEvents now el) acts clock el) as [[l Hl] _].
  assert (id ∈ te_id <$> timeEvents now el) as Hin. { rewrite Hl. apply elem_of_app. by left. }
  apply elem_of_list_fmap in Hin as (te & -> & Hin). apply timeEvents_sub in Hin as [? ?]; [|done]. by exists te.
Qed.
Lemma tdo_once s el : twf el → ∀ id, (occurrences id (tdo s el).2 ≤ 1)%nat.
Proof.
  intros Hw id. destruct s as [a|now acts clock]; cbn [tdo snd]; [simpl; lia|]. apply occurrences_1. unfold iteration.
  destruct (process_prefix (timeEvents now el) acts clock el) as [[l Hl] _]. destruct (timeEvents_sub now el Hw) as [Hn _]. rewrite Hl in Hn. by apply NoDup_app in Hn as [? _].
Qed.
Lemma thist_gone h : ∀ el id, twf el → id < el_next el → events el !! id = None → occurrences id (thist h el).2 = 0%nat.
Proof.
  induction h as [|s h IH]; intros el id Hw Hid HN; cbn [thist]; [done|]. pose proof (tdo_older s el Hw) as Hs. pose proof (tdo_ran s el id Hw) as Hr.
  destruct (tdo s el) as [el1 r]. cbn [fst snd] in *. specialize (IH el1 id (proj1 Hs)). destruct (thist h el1) as [el2 r']. cbn [snd] in *.
  rewrite occurrences_app, IH; [|destruct Hs as (_ & ? & _); lia|by eapply older_None]. rewrite occurrences_0; [done|]. intros H. destruct (Hr H) as (te & _ & ? & _). congruence.
Qed.
Lemma thist_once h : ∀ el id te, twf el → events el !! id = Some te → te_once te = true → (occurrences id (thist h el).2 ≤ 1)%nat.
Proof.
  induction h as [|s h IH]; intros el id te Hw Hid Honce; cbn [thist]; [simpl; lia|].
  pose proof (tdo_older s el Hw) as Hs. pose proof (tdo_once s el Hw id) as Hle.
  assert (Hlt : id < el_next el) by (apply events_Some in Hid as [? <-]; [by apply Hw|done]).
  assert (Hgone : id ∈ (tdo s el).2 → events (tdo s el).1 !! id = None).
  { intros Hin. destruct (tdo_ran s el id Hw Hin) as (te' & Hx & Hte & Hs'). destruct s as [a|now acts clock]; [done|]. cbn [tdo] in *. unfold iteration in *.
    rewrite Hid in Hte. injection Hte as <-. subst id. apply process_once; try done; [|by apply timeEvents_sub]. by apply timeEvents_sub. }
  destruct (tdo s el) as [el1 r]. cbn [fst snd] in *. specialize (IH el1 id). pose proof (thist_gone h el1 id (proj1 Hs)) as Hg.
  destruct (thist h el1) as [el2 r']. cbn [snd] in *. rewrite occurrences_app.
  assert (Hlt1 : id < el_next el1) by (destruct Hs as (_ & ? & _); lia).
  destruct (decide (id ∈ r)) as [Hin|Hin].
  - rewrite Hg by auto. lia.
  - rewrite occurrences_0 by done. destruct (events el1 !! id) as [te1|] eqn:E1; [|rewrite Hg by done; lia].
    destruct (proj2 (proj2 Hs) id te1 Hlt E1) as (te0 & H0 & Ho). simpl. apply (IH te1); [apply Hs|done|]. congruence.
Qed.
Lemma twf_init : twf NewEventLoop.
Proof. split; cbn; [constructor|]. by intros te ?%elem_of_nil. Qed.

(** the loops reached by any history *)
Definition treach (el : loop) : Prop := ∃ h, (thist h NewEventLoop).1 = el.
Lemma treach_wf el : treach el → twf el.
Proof. intros [h <-]. apply thist_older, twf_init. Qed.
(** Adding gives a fresh identifier the deadline now + interval; removing takes away
    that event and no other, and fails iff there is none. *)
Theorem C45_calls el : treach el →
  (∀ once interval now, events (AddTimeEvent once interval now el) = <[el_next el := TE (el_next el) once (now + interval) interval]> (events el)) ∧
  events el !! el_next el = None ∧
  (∀ id, events (RemoveTimeEvent id el).1 = delete id (events el) ∧ ((RemoveTimeEvent id el).2 = true ↔ is_Some (events el !! id))).
Proof.
  intros Hw%treach_wf. split_and!; [done|apply events_fresh; [done|lia]|]. intros id. destruct (remove_events id el Hw) as (_ & H1 & H2 & _). done.
Qed.
Print Assumptions C45_calls.
(** Whatever the handlers do, an event runs in an iteration only if its deadline has
    passed, and then at most once; one-shot events run at most once ever. *)
Theorem C45_never_early el now acts clock id : treach el → id ∈ (iteration now acts clock el).1.2 →
  (∃ te, events el !! id = Some te ∧ te_when te ≤ now) ∧ occurrences id (iteration now acts clock el).1.2 = 1%nat.
Proof.
  intros Hw%treach_wf Hin. pose proof (tdo_ran (TIter now acts clock) el id Hw Hin) as (te & _ & H1 & H2).
  pose proof (tdo_once (TIter now acts clock) el Hw id) as Hle. cbn [tdo fst snd] in *. split; [by exists te|].
  assert (∀ l, id ∈ l → 0 < occurrences id l)%nat as Hpos.
  { intros l. induction l as [|x l IH]; [by intros ?%elem_of_nil|]. intros [-> | ?]%elem_of_cons; simpl; [rewrite decide_True by done; lia|]. specialize (IH H). lia. }
  specialize (Hpos _ Hin). lia.
Qed.
Print Assumptions C45_never_early.
Theorem C45_one_shot el h id te : treach el → events el !! id = Some te → te_once te = true → (occurrences id (thist h el).2 ≤ 1)%nat.
Proof. intros Hw%treach_wf. by apply thist_once. Qed.
Print Assumptions C45_one_shot.

Global Instance taction_eq_dec : EqDecision taction.
Proof. solve_decision. Defined.
(** the due events, and handlers that remove none of them *)
Definition due (el : loop) (now id : Z) : Prop := ∃ te, events el !! id = Some te ∧ te_when te ≤ now.
Definition harmless (el : loop) (now : Z) (acts : Z → list taction) : Prop := ∀ i j, due el now i → TRemove j ∈ acts i → ¬ due el now j.
Lemma acts_keep l : ∀ el id, twf el → id < el_next el → TRemove id ∉ l → events (foldl (λ el a, act_time a el) el l) !! id = events el !! id.
Proof.
  induction l as [|a l IH]; intros el id Hw Hid Hn; simpl; [done|]. apply not_elem_of_cons in Hn as [Hn1 Hn2].
  pose proof (act_older a el Hw) as Ha. rewrite IH; [|apply Ha|destruct Ha as (_ & ? & _); lia|done].
  destruct a as [once interval now|j]; cbn [act_time]; [rewrite add_events; by rewrite lookup_insert_ne by lia|].
  destruct (remove_events j el Hw) as (_ & -> & _). rewrite lookup_delete_ne; [done|congruence].
Qed.
Lemma acts_drop l : ∀ el id, twf el → id < el_next el → TRemove id ∈ l → events (foldl (λ el a, act_time a el) el l) !! id = None.
Proof.
  induction l as [|a l IH]; intros el id Hw Hid Hn; simpl; [by apply elem_of_nil in Hn|].
  pose proof (act_older a el Hw) as Ha. assert (id < el_next (act_time a el)) by (destruct Ha as (_ & ? & _); lia).
  destruct (decide (TRemove id ∈ l)); [apply IH; [apply Ha|done..]|]. apply elem_of_cons in Hn as [<- | Hn]; [|done].
  rewrite acts_keep; [|apply Ha|done..]. cbn [act_time]. destruct (remove_events id el Hw) as (_ & -> & _). apply lookup_delete.
Qed.
(** the table after an iteration, at an old identifier *)
Definition after (te : tevent) (clock : Z → Z) : option tevent :=
  if te_once te then None else Some (TE (te_id te) false (clock (te_id te) + te_interval te) (te_interval te)).
Lemma process_ok tes acts clock : ∀ el, twf el → NoDup (te_id <$> tes) → (∀ te, te ∈ tes → events el !! te_id te = Some te) →
  (∀ te te', te ∈ tes → te' ∈ tes → TRemove (te_id te') ∉ acts (te_id te)) →
  (process_time tes acts clock el).2 = true ∧
  (∀ te, te ∈ tes → events (process_time tes acts clock el).1.1 !! te_id te = after te clock) ∧
  (∀ id, id < el_next el → id ∉ te_id <$> tes → (∀ te, te ∈ tes → TRemove id ∉ acts (te_id te)) →
     events (process_time tes acts clock el).1.1 !! id = events el !! id) ∧
  (∀ id te, id < el_next el → id ∉ te_id <$> tes → te ∈ tes → TRemove id ∈ acts (te_id te) → events (process_time tes acts clock el).1.1 !! id = None).
Proof.
  induction tes as [|te0 tes IH]; intros el Hw Hnd Hin Hacts; cbn [process_time].
  { split_and!; [done|by intros te ?%elem_of_nil|done|by intros ? te ? ? ?%elem_of_nil]. }
  rewrite fmap_cons in Hnd. apply NoDup_cons in Hnd as [Hn0 Hnd].
  assert (Hlt : ∀ te, te ∈ te0 :: tes → te_id te < el_next el).
  { intros te H%Hin. apply events_Some in H as [H _]; [|done]. by apply Hw. }
  pose proof (acts_older (acts (te_id te0)) el Hw) as Ha.
  assert (Hk1 : ∀ id, id < el_next el → TRemove id ∉ acts (te_id te0) → events (foldl (λ el a, act_time a el) el (acts (te_id te0))) !! id = events el !! id).
  { intros. by apply acts_keep. }
  assert (Hd1 : ∀ id, id < el_next el → TRemove id ∈ acts (te_id te0) → events (foldl (λ el a, act_time a el) el (acts (te_id te0))) !! id = None).
  { intros. by apply acts_drop. }
  set (el1 := foldl _ el _) in *.
  assert (H0 : events el1 !! te_id te0 = Some te0).
  { rewrite Hk1; [apply Hin, elem_of_list_here|apply Hlt, elem_of_list_here|]. apply Hacts; apply elem_of_list_here. }
  assert (∃ el2, twf el2 ∧ el_next el ≤ el_next el2 ∧ events el2 !! te_id te0 = after te0 clock ∧ (∀ id, id ≠ te_id te0 → events el2 !! id = events el1 !! id) ∧
    (if te_once te0 then RemoveTimeEvent (te_id te0) el1 = (el2, true) else el2 = set_when (te_id te0) (clock (te_id te0) + te_interval te0) el1)) as (el2 & Hw2 & Hn2 & He2 & Hk2 & Heq).
  { unfold after. destruct (te_once te0) eqn:Ho.
    - destruct (remove_events (te_id te0) el1 (proj1 Ha)) as (G1 & G2 & G3 & G4). destruct (RemoveTimeEvent (te_id te0) el1) as [el2 ok]. cbn [fst snd] in *.
      exists el2. split_and!; [done|destruct Ha as (_ & ? & _); lia|rewrite G2; apply lookup_delete|intros; by rewrite G2, lookup_delete_ne|].
      f_equal. apply G3. by rewrite H0.
    - eexists. split_and!; [| | | |done]; [apply set_when_events, Ha|apply Ha|rewrite (proj2 (set_when_events _ _ _ (proj1 Ha))), lookup_alter, H0; simpl; unfold resched; by rewrite Ho|].
      intros id Hne. by rewrite (proj2 (set_when_events _ _ _ (proj1 Ha))), lookup_alter_ne. }
  pose proof (process_older tes acts clock el2 Hw2) as Hp2.
  assert (Hin2 : ∀ te, te ∈ tes → events el2 !! te_id te = Some te).
  { intros te Ht. rewrite Hk2, Hk1; [apply Hin; by apply elem_of_list_further|apply Hlt; by apply elem_of_list_further|apply Hacts; [apply elem_of_list_here|by apply elem_of_list_further]|].
    intros He. apply Hn0. rewrite <-He. by apply elem_of_list_fmap_1. }
  destruct (IH el2 Hw2 Hnd Hin2) as (I1 & I2 & I3 & I4).
  { intros te te' ? ?. apply Hacts; by apply elem_of_list_further. }
  assert (Hgo : ∃ ran, (let '(el', ran, fin) := process_time tes acts clock el2 in (el', te_id te0 :: ran, fin)) =
     ((process_time tes acts clock el2).1.1, ran, true)).
  { destruct (process_time tes acts clock el2) as [[? ran] ?]. cbn [fst snd] in *. subst. by eexists. }
  destruct Hgo as [ran Hgo].
  assert (Hall : (if te_once te0 then let '(el, ok) := RemoveTimeEvent (te_id te0) el1 in
        if ok then let '(el, ran, fin) := process_time tes acts clock el in (el, te_id te0 :: ran, fin) else (el, [te_id te0], false)
      else let '(el, ran, fin) := process_time tes acts clock (set_when (te_id te0) (clock (te_id te0) + te_interval te0) el1) in (el, te_id te0 :: ran, fin))
      = ((process_time tes acts clock el2).1.1, ran, true)).
  { destruct (te_once te0); [by rewrite Heq|by rewrite <-Heq]. }
  rewrite Hall. cbn [fst snd]. split_and!; [done| | |].
  - intros te [-> | Ht]%elem_of_cons; [|by apply I2]. rewrite I3; [done| |done|].
    + pose proof (Hlt te0 (elem_of_list_here _ _)). lia.
    + intros te Ht. apply Hacts; [by apply elem_of_list_further|apply elem_of_list_here].
  - intros id Hid Hnin Hno. rewrite fmap_cons, not_elem_of_cons in Hnin. destruct Hnin as [Hne Hnin].
    rewrite I3; [|lia|done|intros te Ht; apply Hno; by apply elem_of_list_further]. rewrite Hk2 by done. apply Hk1; [done|]. apply Hno, elem_of_list_here.
  - intros id te Hid Hnin Ht Hr. rewrite fmap_cons, not_elem_of_cons in Hnin. destruct Hnin as [Hne Hnin].
    apply elem_of_cons in Ht as [-> | Ht]; [|eapply I4; [lia|done..]].
    apply (older_None el2); [apply Hp2|lia|]. rewrite Hk2 by done. by apply Hd1.
Qed.
(** An iteration whose handlers remove no due event runs exactly the due events, each
    once.  Then a one-shot event is gone, a periodic one has the deadline "interval
    after it ran", an event removed by a handler is gone, and the others are as before.
    Partial: the claim makes no exception for handlers that remove due events. *)
Theorem C45_iteration_partial el now acts clock : treach el → harmless el now acts →
  let '(el', ran, finished) := iteration now acts clock el in
  finished = true ∧ NoDup ran ∧ (∀ id, id ∈ ran ↔ due el now id) ∧
  ∀ id te, events el !! id = Some te →
    events el' !! id =
      if te_when te <=? now then if te_once te then None else Some (TE id false (clock id + te_interval te) (te_interval te))
      else if bool_decide (Exists (λ i, TRemove id ∈ acts i) ran) then None else Some te.
Proof.
  intros Hw%treach_wf Hh. unfold iteration. destruct (timeEvents_sub now el Hw) as [Hnd Hin].
  assert (Hdue : ∀ id, id ∈ te_id <$> timeEvents now el ↔ due el now id).
  { intros id. rewrite elem_of_list_fmap. split.
    - intros (te & -> & Ht). apply Hin in Ht as [? ?]. by exists te.
    - intros (te & Ht & ?). exists te. pose proof (proj1 (events_Some el te id Hw) Ht) as [_ Hx]. split; [done|]. apply Hin. by rewrite Hx. }
  destruct (process_ok (timeEvents now el) acts clock el Hw Hnd) as (H1 & H2 & H3 & H4).
  { intros te Ht. by apply Hin. }
  { intros te te' Ht Ht' Hr. assert (due el now (te_id te)) by (apply Hdue; by apply elem_of_list_fmap_1).
    assert (due el now (te_id te')) by (apply Hdue; by apply elem_of_list_fmap_1). by apply (Hh (te_id te) (te_id te')). }
  destruct (process_prefix (timeEvents now el) acts clock el) as [_ Hran]. specialize (Hran H1).
  destruct (process_time (timeEvents now el) acts clock el) as [[el' ran] fin]. cbn [fst snd] in *. subst ran fin.
  split_and!; [done|done|done|]. intros id te Hte. pose proof (proj1 (events_Some el te id Hw) Hte) as [Hx <-].
  assert (Hlt : te_id te < el_next el) by (by apply Hw).
  destruct (te_when te <=? now) eqn:Hwhen.
  - rewrite H2; [done|]. apply Hin. split; [done|lia].
  - assert (Hnot : te_id te ∉ te_id <$> timeEvents now el). { intros (te' & ? & ?)%Hdue. rewrite Hte in H. injection H as <-. lia. }
    case_bool_decide as Hb.
    + apply Exists_exists in Hb as (i & Hi & Hr). apply elem_of_list_fmap in Hi as (te' & -> & Ht'). by eapply H4.
    + rewrite <-Hte. apply H3; [done|done|]. intros te' Ht' Hr. apply Hb. apply Exists_exists. exists (te_id te'). split; [|done]. by apply elem_of_list_fmap_1.
Qed.
Print Assumptions C45_iteration_partial.

(** The wait is positive and at most 1000 ms; it passes no deadline by more than 10 ms,
    and none at all if none has been reached when it starts.  (now1, now2: two
    successive readings of the clock.) *)
Lemma nearest_le now el : getNearestTime defaultNearestDeltaMs now el ≤ now + 1000 ∧ ∀ te, te ∈ el_time el → getNearestTime defaultNearestDeltaMs now el ≤ te_when te.
Proof.
  unfold getNearestTime, defaultNearestDeltaMs. generalize (now + 1000). induction (el_time el) as [|te l IH]; intros n; simpl; [split; [lia|by intros te ?%elem_of_nil]|].
  destruct (IH (if te_when te <? n then te_when te else n)) as [H1 H2]. split; [destruct (te_when te <? n) eqn:E; lia|].
  intros te' [-> | ?]%elem_of_cons; [destruct (te_when te <? n) eqn:E; lia|by apply H2].
Qed.
Lemma nearest_in now el : getNearestTime defaultNearestDeltaMs now el = now + 1000 ∨ ∃ te, te ∈ el_time el ∧ getNearestTime defaultNearestDeltaMs now el = te_when te.
Proof.
  unfold getNearestTime, defaultNearestDeltaMs. generalize (now + 1000). induction (el_time el) as [|te l IH]; intros n; simpl; [by left|].
  destruct (IH (if te_when te <? n then te_when te else n)) as [H|(te' & Hin & H)].
  - destruct (te_when te <? n); [right; exists te; split; [apply elem_of_list_here|done]|by left].
  - right. exists te'. split; [by apply elem_of_list_further|done].
Qed.
Theorem C45_wait_partial el now1 now2 : treach el → now1 ≤ now2 →
  0 < timeout now1 now2 el ≤ 1000 ∧
  (∀ id te, events el !! id = Some te → now2 + timeout now1 now2 el ≤ Z.max (te_when te) (now2 + 10)) ∧
  (now2 < now1 + 1000 → (∀ id te, events el !! id = Some te → now2 < te_when te) →
     ∀ id te, events el !! id = Some te → now2 + timeout now1 now2 el ≤ te_when te).
Proof.
  intros Hw%treach_wf Hn. destruct (nearest_le now1 el) as [H1 H2]. unfold timeout, defaultEpollWaitMs. cbv zeta.
  set (n := getNearestTime _ _ _) in *. split_and!.
  - destruct (n - now2 <=? 0) eqn:E; lia.
  - destruct (n - now2 <=? 0) eqn:E; lia.
  - intros id te [Hin _]%events_Some; [|done]. apply H2 in Hin. destruct (n - now2 <=? 0) eqn:E; lia.
  - intros Hgap Hnone id te He. pose proof (nearest_in now1 el) as Hni. fold n in Hni.
    assert (now2 < n). { destruct Hni as [->|(te' & Hin & ->)]; [lia|]. apply (Hnone (te_id te')). by apply events_Some. }
    apply events_Some in He as [Hin _]; [|done]. apply H2 in Hin. destruct (n - now2 <=? 0) eqn:E; lia.
Qed.
Print Assumptions C45_wait_partial.

(** ** What the claim leaves out *)
Definition no_acts : Z → list taction := λ _, [].
Definition two : loop := (thist [TAct (TAdd true 5 0); TAct (TAdd false 7 0)] NewEventLoop).1.
Lemma two_reached : treach two. Proof. by eexists. Qed.
Example C45_example : harmless two 6 no_acts ∧ (iteration 6 no_acts (λ _, 8) two).1.2 = [0] ∧
  (iteration 7 no_acts (λ _, 8) two).1.2 = [1; 0] ∧ el_time (iteration 7 no_acts (λ _, 8) two).1.1 = [TE 1 false 15 7].
Proof. split_and!; [|by vm_compute..]. intros i j _ H. by apply elem_of_nil in H. Qed.
Example C45_wait_example : timeout 0 1 two = 4 ∧ timeout 0 1 NewEventLoop = 999.
Proof. done. Qed.
(** a deadline already passed when the wait starts: 10 ms are slept *)
Theorem C45_overdue_refuted : ∃ el now1 now2 te, treach el ∧ now1 ≤ now2 ∧ te ∈ el_time el ∧ te_when te ≤ now2 ∧ timeout now1 now2 el = 10.
Proof.
  exists two, 6, 6, (TE 0 true 5 5). split; [apply two_reached|]. split_and!; try done. apply elem_of_list_further, elem_of_list_here.
Qed.
Print Assumptions C45_overdue_refuted.
(** an event removed by an earlier handler of the same iteration still runs, and if it
    is a one-shot event the iteration is abandoned: a third event, due, does not run *)
Definition three : loop := (thist [TAct (TAdd false 4 0); TAct (TAdd true 5 0); TAct (TAdd false 6 0)] NewEventLoop).1.
Theorem C45_removed_refuted : ∃ el now acts clock, treach el ∧ acts 2 = [TRemove 1] ∧
  (iteration now acts clock el).1.2 = [2; 1] ∧ due el now 0 ∧ (iteration now acts clock el).2 = false.
Proof.
  exists three, 10, (λ i, if i =? 2 then [TRemove 1] else []), (λ _, 10). split; [by eexists|]. split_and!; [done|by vm_compute| |by vm_compute].
  exists (TE 0 false 4 4). split; by vm_compute.
Qed.
Print Assumptions C45_removed_refuted.
(** a one-shot handler that removes its own event also abandons the iteration *)
Theorem C45_self_removal_refuted : ∃ el now acts clock, treach el ∧ acts 1 = [TRemove 1] ∧ acts 2 = [] ∧ acts 0 = [] ∧
  due el now 0 ∧ 0 ∉ (iteration now acts clock el).1.2 ∧ (iteration now acts clock el).2 = false.
Proof.
  exists three, 10, (λ i, if i =? 1 then [TRemove 1] else []), (λ _, 10). split; [by eexists|]. split_and!; [done..| | |by vm_compute].
  - exists (TE 0 false 4 4). split; by vm_compute.
  - assert (H : (iteration 10 (λ i, if i =? 1 then [TRemove 1] else []) (λ _, 10) three).1.2 = [2; 1]) by (by vm_compute). rewrite H.
    intros [|[|[]%elem_of_nil]%elem_of_cons]%elem_of_cons; done.
Qed.
Print Assumptions C45_self_removal_refuted.
