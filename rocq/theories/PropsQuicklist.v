(** Property theorems C08-C11: datastruct.Quicklist. *)
From Verif Require Import Base QuicklistModel QuicklistProofs.
From Coq Require Import ZifyBool ZifyNat.

(** * Specification: sequences *)
Inductive q_op (A : Type) :=
| QPushBack (v : A) | QPushFront (v : A) | QPopFront | QPopBack
| QInsert (i : Z) (v : A) | QRemove (i : Z) | QGetAt (i : Z) | QLen.
Arguments QPushBack {A}. Arguments QPushFront {A}. Arguments QPopFront {A}. Arguments QPopBack {A}.
Arguments QInsert {A}. Arguments QRemove {A}. Arguments QGetAt {A}. Arguments QLen {A}.
Inductive q_out (A : Type) :=
| QDone | QVal (o : option A) | QBool (b : bool) | QInt (n : Z).
Arguments QDone {A}. Arguments QVal {A}. Arguments QBool {A}. Arguments QInt {A}.

(** what each operation should do to a sequence *)
Definition at_index {A} (l : list A) (i : Z) : option A :=
  if i <? 0 then None else l !! Z.to_nat i.
Definition without {A} (l : list A) (i : Z) : list A :=
  if i <? 0 then l else delete (Z.to_nat i) l.
Definition list_op {A} (l : list A) (op : q_op A) : list A * q_out A :=
  match op with
  | QPushBack v => (l ++ [v], QDone)
  | QPushFront v => (v :: l, QDone)
  | QPopFront => (tail l, QVal (head l))
  | QPopBack => (take (length l - 1) l, QVal (last l))
  | QInsert i v =>
      if (0 <=? i) && (i <=? Z.of_nat (length l))
      then (take (Z.to_nat i) l ++ v :: drop (Z.to_nat i) l, QBool true) else (l, QBool false)
  | QRemove i => (without l i, QVal (at_index l i))
  | QGetAt i => (l, QVal (at_index l i))
  | QLen => (l, QInt (Z.of_nat (length l)))
  end.
Fixpoint list_run {A} (l : list A) (ops : list (q_op A)) : list A * list (q_out A) :=
  match ops with
  | [] => (l, [])
  | op :: ops => let '(l1, o) := list_op l op in let '(l2, os) := list_run l1 ops in (l2, o :: os)
  end.
Definition is_deque_op {A} (op : q_op A) : bool :=
  match op with QPushBack _ | QPushFront _ | QPopFront | QLen => true | _ => false end.

(** * Running the model *)
Section run.
  Context {A : Type} `{EqDecision A}.
  Implicit Types q : quicklist A.
  Definition q_step (q : quicklist A) (op : q_op A) : res (quicklist A * q_out A) :=
    match op with
    | QPushBack v => Ok (PushBack q v, QDone)
    | QPushFront v => q' ← PushFront q v; Ok (q', QDone)
    | QPopFront => r ← PopFront q; Ok (r.1, QVal r.2)
    | QPopBack => r ← PopBack q; Ok (r.1, QVal r.2)
    | QInsert i v => r ← Insert q i v; Ok (r.1, QBool r.2)
    | QRemove i => r ← Remove q i; Ok (r.1, QVal r.2)
    | QGetAt i => o ← QGet q i; Ok (q, QVal o)
    | QLen => Ok (q, QInt (Len q))
    end.
  Fixpoint q_run (q : quicklist A) (ops : list (q_op A)) : res (quicklist A * list (q_out A)) :=
    match ops with
    | [] => Ok (q, [])
    | op :: ops =>
        r ← q_step q op; rs ← q_run r.1 ops; Ok (rs.1, r.2 :: rs.2)
    end.
  (** every quicklist that a sequence of operations can build *)
  Definition q_reachable (q : quicklist A) : Prop :=
    ∃ ops outs, q_run NewQuicklist ops = Ok (q, outs).
  (** the stored sequence: the pages one after the other *)
  Definition contents (q : quicklist A) : list A := concat (q_pages q).

  Lemma contents_elements q : contents q = elements q.
  Proof. unfold contents, elements. induction (q_pages q) as [|p ps IH]; [done|]. simpl. by rewrite IH. Qed.

  (** the indexes that the traversal of [get] handles properly *)
  Definition first_page_len (q : quicklist A) : Z :=
    match q_pages q with [] => 0 | p :: _ => Z.of_nat (length p) end.
  Definition good_index (q : quicklist A) (i : Z) : Prop :=
    i < 0 ∨ i < Len q / 2 ∨ i < first_page_len q ∨ Len q ≤ i.
  Definition good_op (q : quicklist A) (op : q_op A) : Prop :=
    match op with
    | QPushBack _ | QPushFront _ | QPopFront | QLen => True
    | QPopBack => (length (q_pages q) ≤ 1)%nat
    | QInsert i _ => i < (Len q + 1) / 2 ∨ i ≤ first_page_len q ∨ Len q ≤ i
    | QRemove i | QGetAt i => good_index q i
    end.
  (** the same operation aimed at another position *)
  Definition redirect (op : q_op A) (pos : Z) : q_op A :=
    match op with
    | QInsert _ v => QInsert pos v | QRemove _ => QRemove pos | QGetAt _ => QGetAt pos
    | _ => op
    end.
  Definition target (op : q_op A) : Z :=
    match op with QInsert i _ | QRemove i | QGetAt i => i | _ => 0 end.

  Lemma list_remove q q' v i : 0 ≤ i → elements q !! Z.to_nat i = Some v →
    elements q' = take (Z.to_nat i) (elements q) ++ drop (S (Z.to_nat i)) (elements q) →
    (elements q', QVal (Some v)) = list_op (elements q) (QRemove i).
  Proof.
    intros Hi Hv He. simpl. unfold without, at_index. destruct (Z.ltb_spec i 0); [lia|].
    rewrite Hv, He. by rewrite delete_take_drop.
  Qed.
  Lemma list_out q i : wf q → i < 0 ∨ q_length q ≤ i →
    at_index (elements q) i = None ∧ without (elements q) i = elements q.
  Proof.
    intros [Hl _] Hi. unfold at_index, without. destruct (Z.ltb_spec i 0); [done|].
    unfold zlen in Hl. rewrite lookup_ge_None_2 by lia. split; [done|].
    rewrite delete_take_drop, take_ge, drop_ge by lia. by rewrite app_nil_r.
  Qed.
  Lemma list_insert q q' v i : wf q → 0 ≤ i ≤ q_length q →
    elements q' = take (Z.to_nat i) (elements q) ++ v :: drop (Z.to_nat i) (elements q) →
    (elements q', QBool true) = list_op (elements q) (QInsert i v).
  Proof.
    intros [Hl _] Hi He. simpl. unfold zlen in Hl.
    destruct (Z.leb_spec 0 i); [|lia]. destruct (Z.leb_spec i (Z.of_nat (length (elements q)))); [|lia].
    simpl. by rewrite He.
  Qed.

  Lemma step_good q op : wf q → good_op q op →
    ∃ q' out, q_step q op = Ok (q', out) ∧ wf q' ∧ (elements q', out) = list_op (elements q) op.
  Proof.
    intros Hwf Hg. pose proof Hwf as [Hl Hok].
    destruct op as [v|v| | |i v|i|i|]; simpl in Hg.
    - destruct (PushBack_spec q v Hwf) as [? ?]. eexists _, _. split; [done|]. split; [done|]. simpl. congruence.
    - simpl. destruct (PushFront_spec q v Hwf) as (q' & -> & ? & He). simpl.
      eexists _, _. split; [done|]. split; [done|]. by rewrite He.
    - simpl. pose proof (PopFront_spec q Hwf) as HP. destruct (elements q) as [|v l] eqn:E.
      + rewrite HP. simpl. eexists _, _. split; [done|]. split; [done|]. by rewrite E.
      + destruct HP as (q' & -> & ? & He). simpl. eexists _, _. split; [done|]. split; [done|]. by rewrite He.
    - destruct (q_pages q) as [|p [|p' ps]] eqn:E; simpl in Hg; [| |lia].
      + assert (He : elements q = []) by (unfold elements; by rewrite E).
        simpl. unfold PopBack. rewrite Remove_out by (rewrite Hl, He; unfold zlen; simpl; lia). simpl. eexists _, _. split; [done|]. split; [done|].
        rewrite He. done.
      + simpl. destruct (PopBack_one q p Hwf E) as (q' & v & -> & ? & He). simpl.
        eexists _, _. split; [done|]. split; [done|]. rewrite He, last_snoc, app_length. simpl.
        by replace (length (elements q') + 1 - 1)%nat with (length (elements q')) by lia; rewrite take_app.
    - destruct (decide (i < 0 ∨ q_length q < i)) as [Ho|Hi].
      + cbn [q_step]. rewrite Insert_out by done. simpl. eexists _, _. split; [done|]. split; [done|].
        unfold zlen in Hl. destruct Ho.
        * destruct (Z.leb_spec 0 i); [lia|done].
        * destruct (Z.leb_spec i (Z.of_nat (length (elements q)))); [lia|]. by rewrite andb_false_r.
      + destruct (Insert_good q i v Hwf) as (q' & HI & Hwf' & He).
        { lia. } { unfold Len, first_page_len, first_page, zlen in *. destruct (q_pages q); lia. }
        cbn [q_step]. rewrite HI. eexists _, _. split; [done|]. split; [done|].
        apply list_insert; (done || lia).
    - destruct (decide (i < 0 ∨ q_length q ≤ i)) as [Ho|Hi].
      + cbn [q_step]. rewrite Remove_out by done. eexists _, _. split; [done|]. split; [done|]. simpl.
        by destruct (list_out q i Hwf Ho) as [-> ->].
      + destruct (Remove_good q i Hwf) as (q' & v & HI & Hwf' & Hv & He).
        { lia. } { unfold good_index, Len, first_page_len, first_page, zlen in *. destruct (q_pages q); lia. }
        cbn [q_step]. rewrite HI. eexists _, _. split; [done|]. split; [done|].
        apply list_remove; (done || lia).
    - cbn [q_step]. destruct (decide (i < 0 ∨ q_length q ≤ i)) as [Ho|Hi].
      + rewrite Get_out by done. eexists q, _. split; [done|]. split; [done|]. simpl.
        by destruct (list_out q i Hwf Ho) as [-> _].
      + rewrite Get_good; [|done|lia|].
        2:{ unfold good_index, Len, first_page_len, first_page, zlen in *. destruct (q_pages q); lia. }
        eexists q, _. split; [done|]. split; [done|]. simpl. unfold at_index. destruct (Z.ltb_spec i 0); [lia|done].
    - eexists _, _. split; [done|]. split; [done|]. simpl. unfold Len. by rewrite Hl.
  Qed.

  Lemma step_bad q op : wf q → ¬ good_op q op →
    q_step q op = Panic ∨
    ∃ pos q' out, target op < pos ≤ Len q ∧ q_step q op = Ok (q', out) ∧ wf q' ∧
      (elements q', out) = list_op (elements q) (redirect op pos).
  Proof.
    intros Hwf Hg. pose proof Hwf as [Hl Hok].
    destruct op as [v|v| | |i v|i|i|]; simpl in Hg; try done.
    - left. simpl. rewrite PopBack_many by (done || lia). done.
    - destruct (Insert_bad q i v Hwf) as [Hp|(pos & q' & Hpos & HI & Hwf' & He)].
      + unfold Len in *. lia.
      + unfold Len, first_page_len, first_page, zlen in *. destruct (q_pages q); lia.
      + left. cbn [q_step]. by rewrite Hp.
      + right. eexists pos, q', _. cbn [q_step target redirect]. rewrite HI. unfold Len.
        assert (0 ≤ i).
        { destruct (decide (0 ≤ i)); [done|]. exfalso. apply Hg. left.
          assert (0 ≤ (Len q + 1) / 2); [|lia]. unfold Len. apply Z.div_pos; [|lia]. unfold zlen in *. lia. }
        split; [lia|]. split; [done|]. split; [done|]. apply list_insert; (done || lia).
    - unfold good_index in Hg.
      destruct (Remove_bad q i Hwf) as [Hp|(pos & q' & v & Hpos & HI & Hwf' & Hv & He)].
      + unfold Len in *. lia.
      + unfold Len, first_page_len, first_page, zlen in *. destruct (q_pages q); lia.
      + left. cbn [q_step]. by rewrite Hp.
      + right. eexists pos, q', _. cbn [q_step target redirect]. rewrite HI. unfold Len.
        split; [lia|]. split; [done|]. split; [done|]. apply list_remove; (done || lia).
    - unfold good_index in Hg.
      destruct (Get_bad q i Hwf) as [Hp|(pos & Hpos & HI)].
      + unfold Len in *. lia.
      + unfold Len, first_page_len, first_page, zlen in *. destruct (q_pages q); lia.
      + left. cbn [q_step]. by rewrite Hp.
      + right. eexists pos, q, _. cbn [q_step target redirect]. rewrite HI. unfold Len.
        split; [lia|]. split; [done|]. split; [done|]. simpl. unfold at_index.
        destruct (Z.ltb_spec pos 0); [lia|done].
  Qed.

  Lemma good_op_dec q op : good_op q op ∨ ¬ good_op q op.
  Proof.
    destruct op as [v|v| | |i v|i|i|]; simpl; unfold good_index; try (left; done); lia.
  Qed.

  Lemma step_wf q op q' out : wf q → q_step q op = Ok (q', out) → wf q'.
  Proof.
    intros Hwf Hs. destruct (good_op_dec q op) as [Hg|Hg].
    - destruct (step_good q op Hwf Hg) as (q2 & out2 & HR & Hwf' & _). congruence.
    - destruct (step_bad q op Hwf Hg) as [HR|(pos & q2 & out2 & _ & HR & Hwf' & _)]; congruence.
  Qed.
  Lemma run_wf ops : ∀ q q' outs, wf q → q_run q ops = Ok (q', outs) → wf q'.
  Proof.
    induction ops as [|op ops IH]; intros q q' outs Hwf Hr; simpl in Hr; [by simplify_eq|].
    destruct (q_step q op) as [[q1 o]| |] eqn:Es; simpl in Hr; try done.
    destruct (q_run q1 ops) as [[q2 os]| |] eqn:Er; simpl in Hr; try done. simplify_eq.
    eapply IH; [|exact Er]. by eapply step_wf.
  Qed.
  Lemma reachable_wf q : q_reachable q → wf q.
  Proof. intros (ops & outs & Hr). eapply run_wf; [apply wf_New|exact Hr]. Qed.

  Lemma deque_run ops : ∀ q, wf q → forallb is_deque_op ops = true →
    ∃ q' outs, q_run q ops = Ok (q', outs) ∧ (elements q', outs) = list_run (elements q) ops.
  Proof.
    induction ops as [|op ops IH]; intros q Hwf Hd; simpl in *.
    - eauto.
    - apply andb_true_iff in Hd as [Hd Hds].
      destruct (step_good q op Hwf) as (q1 & o & -> & Hwf1 & He); [by destruct op|]. simpl.
      destruct (IH q1 Hwf1 Hds) as (q2 & os & -> & He2). simpl.
      eexists _, _. split; [done|]. rewrite <-He. rewrite <-He2. done.
  Qed.

  (** * C08 *)
  Theorem C08_deque (q : quicklist A) (ops : list (q_op A)) :
    q_reachable q → forallb is_deque_op ops = true →
    ∃ q' outs, q_run q ops = Ok (q', outs) ∧ (contents q', outs) = list_run (contents q) ops.
  Proof.
    intros Hq Hd. destruct (deque_run ops q (reachable_wf q Hq) Hd) as (q' & outs & HR & He).
    exists q', outs. rewrite !contents_elements. done.
  Qed.

  (** * C09: the exact set of operations that are right ... *)
  Theorem C09_positional_partial (q : quicklist A) (op : q_op A) :
    q_reachable q → good_op q op →
    ∃ q' out, q_step q op = Ok (q', out) ∧ (contents q', out) = list_op (contents q) op.
  Proof.
    intros Hq Hg. destruct (step_good q op (reachable_wf q Hq) Hg) as (q' & out & HR & _ & He).
    exists q', out. rewrite !contents_elements. done.
  Qed.
  (** ... every other one panics or acts on a later position *)
  Theorem C09_positional_elsewhere (q : quicklist A) (op : q_op A) :
    q_reachable q → ¬ good_op q op →
    q_step q op = Panic ∨
    ∃ pos q' out, target op < pos ≤ Len q ∧ q_step q op = Ok (q', out) ∧
      (contents q', out) = list_op (contents q) (redirect op pos).
  Proof.
    intros Hq Hg.
    destruct (step_bad q op (reachable_wf q Hq) Hg) as [?|(pos & q' & out & Hp & HR & _ & He)]; [by left|].
    right. exists pos, q', out. rewrite !contents_elements. done.
  Qed.
  (** in particular PopBack panics as soon as there are two pages *)
  Theorem C09_PopBack_panics (q : quicklist A) :
    q_reachable q → (1 < length (q_pages q))%nat → PopBack q = Panic.
  Proof. intros Hq. apply PopBack_many. by apply reachable_wf. Qed.

  (** * C10 *)
  Theorem C10_pages (q : quicklist A) :
    q_reachable q →
    (∀ p, p ∈ q_pages q → (0 < length p ≤ 1024)%nat) ∧ Len q = Z.of_nat (length (contents q)).
  Proof.
    intros Hq%reachable_wf. pose proof Hq as [Hl Hok]. split.
    - intros p Hp. eapply Forall_forall in Hok as [Hne Hle]; [|exact Hp].
      unfold zlen, pageSize in Hle. destruct p; [done|]. simpl in *. lia.
    - rewrite contents_elements. exact Hl.
  Qed.

  (** * C11 *)
  Theorem C11_iteration (q : quicklist A) : q_reachable q → q_items q = Ok (contents q).
  Proof. intros Hq. rewrite contents_elements. apply q_items_spec. by apply reachable_wf. Qed.

  (** An iterator moved forwards (true) and backwards (false) from the first element:
      the values it returns as long as it stays inside the list *)
  Fixpoint visited (n : nat) (moves : list bool) : option (list nat) :=
    match moves with
    | [] => Some []
    | true :: moves => cons (S n) <$> visited (S n) moves
    | false :: moves => match n with O => None | S m => cons m <$> visited m moves end
    end.
  Fixpoint walk (q : quicklist A) (it : qiter) (moves : list bool) : res (list (option A)) :=
    match moves with
    | [] => Ok []
    | b :: moves => r ← (if (b : bool) then Next q it else Prev q it); l ← walk q r.1 moves; Ok (r.2 :: l)
    end.
  Theorem C11_walk (q : quicklist A) moves ns : q_reachable q → visited 0 moves = Some ns →
    Forall (λ n, (n < length (contents q))%nat) (0%nat :: ns) →
    walk q NewQuicklistIterator (true :: moves) = Ok ((λ n, contents q !! n) <$> 0%nat :: ns).
  Proof.
    intros Hq Hv Hin. apply reachable_wf in Hq. rewrite contents_elements in *.
    apply Forall_cons in Hin as [H0 Hin]. pose proof (Next_first q Hq) as HN.
    enough (Hgo : ∀ moves n ns it, on (q_pages q) it n → visited n moves = Some ns → Forall (λ n, (n < length (elements q))%nat) ns →
      walk q it moves = Ok ((λ n, elements q !! n) <$> ns)).
    { destruct (elements q) as [|v l] eqn:El; [simpl in H0; lia|]. destruct HN as (it & E1 & Hon). cbn [walk]. rewrite E1.
      cbn [mbind res_bind fst snd]. rewrite (Hgo moves 0%nat ns it Hon Hv Hin). done. }
    clear -Hq. induction moves as [|b moves IH]; intros n ns it Hon Hv Hin; [by injection Hv as <-|].
    destruct b; cbn [visited] in Hv; cbn [walk].
    - destruct (visited (S n) moves) as [ns'|] eqn:E1; [|done]. injection Hv as <-. apply Forall_cons in Hin as [Hn Hin].
      destruct (Next_on q it n Hq Hon) as [(it' & v & -> & Hon' & Hl)|(it' & _ & Hl)]; [|lia].
      cbn [mbind res_bind fst snd]. rewrite (IH _ _ _ Hon' E1 Hin). cbn. by rewrite Hl.
    - destruct n as [|m]; [done|]. destruct (visited m moves) as [ns'|] eqn:E1; [|done]. injection Hv as <-. apply Forall_cons in Hin as [Hn Hin].
      destruct (Prev_on q it (S m) Hq Hon) as [(it' & v & m' & [= <-] & -> & Hon' & Hl)|(it' & _ & Hl)]; [|lia].
      cbn [mbind res_bind fst snd]. rewrite (IH _ _ _ Hon' E1 Hin). cbn. by rewrite Hl.
  Qed.

  (** the elements from [s] to [e] inclusive *)
  Definition slice (l : list A) (s e : Z) : list A :=
    take (Z.to_nat (e - s + 1)) (drop (Z.to_nat s) l).
  Definition from_end (n i : Z) : Z := if i <? 0 then n + i else i.

  (** Range as specified, for a start in the front half or the first page and a
      range of at most 2^44 positions *)
  Theorem C11_range_partial (q : quicklist A) (start stop : Z) :
    q_reachable q →
    let s := from_end (Len q) start in let e := from_end (Len q) stop in
    s < Len q / 2 ∨ s < first_page_len q ∨ Len q ≤ s → e - s < 2 ^ 44 →
    QRange q start stop =
      Ok (if (0 <=? s) && (s <=? e) && (s <? Len q) then Some (slice (contents q) s e) else None).
  Proof.
    intros Hq%reachable_wf s e Hc Hm. rewrite contents_elements.
    destruct (decide (s < 0 ∨ e < 0 ∨ e < s ∨ q_length q ≤ s)) as [Ho|Hi].
    - rewrite (Range_empty q start stop Hq Ho). unfold Len. f_equal.
      destruct (Z.leb_spec 0 s), (Z.leb_spec s e), (Z.ltb_spec s (q_length q)); simpl; try done; lia.
    - unfold Len in Hc.
      assert (Hs : norm (q_length q) start = s) by done.
      assert (He : norm (q_length q) stop = e) by done.
      rewrite (Range_good q start stop Hq); rewrite ?Hs, ?He; clearbody s e.
      + unfold Len. destruct (Z.leb_spec 0 s), (Z.leb_spec s e), (Z.ltb_spec s (q_length q)); simpl; try lia.
        done.
      + lia.
      + lia.
      + unfold first_page_len, first_page, zlen in *. destruct (q_pages q); lia.
      + lia.
  Qed.
  (** a longer range panics in make() *)
  Theorem C11_range_huge (q : quicklist A) (start stop : Z) :
    q_reachable q →
    let s := from_end (Len q) start in let e := from_end (Len q) stop in
    0 ≤ s < Len q → 2 ^ 44 ≤ e - s → 0 ≤ stop < 2 ^ 63 → QRange q start stop = Panic.
  Proof.
    intros Hq%reachable_wf s e Hs Hm He.
    assert (Hse : e < 2 ^ 63).
    { unfold e, from_end in *. destruct (Z.ltb_spec stop 0); lia. }
    assert (Hs' : norm (q_length q) start = s) by done.
    assert (He' : norm (q_length q) stop = e) by done.
    apply (Range_huge q start stop Hq); rewrite ?Hs', ?He'; clearbody s e; unfold Len in *; lia.
  Qed.
  (** any other start panics or gives the elements from a later position *)
  Theorem C11_range_elsewhere (q : quicklist A) (start stop : Z) :
    q_reachable q →
    let s := from_end (Len q) start in let e := from_end (Len q) stop in
    s ≤ e → Len q / 2 ≤ s < Len q → first_page_len q ≤ s →
    QRange q start stop = Panic ∨
    ∃ pos, s < pos < Len q ∧ QRange q start stop = Ok (Some (slice (contents q) pos (pos + (e - s)))).
  Proof.
    intros Hq%reachable_wf s e Hse Hs Hf. rewrite contents_elements.
    destruct (Range_bad q start stop Hq) as [?|(pos & Hpos & HR)].
    - exact Hse.
    - exact Hs.
    - unfold first_page_len, first_page, zlen in *. by destruct (q_pages q).
    - by left.
    - right. exists pos. split; [done|]. rewrite HR. unfold slice.
      change (norm (q_length q) start) with s. change (norm (q_length q) stop) with e.
      by replace (pos + (e - s) - pos + 1) with (e - s + 1) by lia.
  Qed.

  Theorem C11_find (q : quicklist A) (v : A) :
    q_reachable q →
    (v ∉ contents q ∧ QFind q v = -1) ∨
    ∃ n, QFind q v = Z.of_nat n ∧ contents q !! n = Some v ∧
         ∀ m, (m < n)%nat → contents q !! m ≠ Some v.
  Proof.
    intros _. rewrite contents_elements. exact (pages_find_spec v (q_pages q) 0).
  Qed.
End run.

Print Assumptions C08_deque.
Print Assumptions C09_positional_partial.
Print Assumptions C09_positional_elsewhere.
Print Assumptions C09_PopBack_panics.
Print Assumptions C10_pages.
Print Assumptions C11_iteration.
Print Assumptions C11_walk.
Print Assumptions C11_range_partial.
Print Assumptions C11_range_huge.
Print Assumptions C11_range_elsewhere.
Print Assumptions C11_find.

(** * Witnesses *)
Definition pushes (n : nat) : list (q_op Z) := (λ i, QPushBack (Z.of_nat i)) <$> seq 0 n.
Definition q_after (ops : list (q_op Z)) : quicklist Z :=
  match q_run NewQuicklist ops with Ok (q, _) => q | _ => NewQuicklist end.
Definition runs_ok (ops : list (q_op Z)) : bool :=
  match q_run NewQuicklist ops with Ok _ => true | _ => false end.
Lemma q_after_reachable ops : runs_ok ops = true → q_reachable (q_after ops).
Proof.
  unfold runs_ok, q_after, q_reachable. intros Hr.
  destruct (q_run NewQuicklist ops) as [[q outs]| |] eqn:E; try done. eauto.
Qed.
(** 1100 elements pushed at both ends: three pages *)
Definition demo_q : quicklist Z := q_after (pushes 1100 ++ [QPushFront 7; QPopFront; QPushFront 9]).
Example C08_nonvacuous : q_reachable demo_q ∧ length (q_pages demo_q) = 3%nat ∧ Len demo_q = 1101.
Proof. split; [apply q_after_reachable|]; vm_compute; repeat split; (reflexivity || discriminate). Qed.
Example C09_good_nonvacuous : good_op demo_q (QGetAt 540) ∧ q_step demo_q (QGetAt 540) = Ok (demo_q, QVal (Some 539)).
Proof. split; [right; left; vm_compute; reflexivity|]. vm_compute. reflexivity. Qed.
Example C09_bad_nonvacuous : ¬ good_op demo_q QPopBack ∧ ¬ good_op demo_q (QGetAt 1000).
Proof. split; vm_compute; [lia|]. intros [?|[?|[?|?]]]; (discriminate || (exfalso; auto)). Qed.
(** forwards over a page boundary and back *)
Example C11_walk_example : let moves := replicate 1100 true ++ replicate 300 false in
  match visited 0 moves with
  | Some ns => forallb (λ n, n <? length (contents demo_q))%nat (0%nat :: ns) &&
      match walk demo_q NewQuicklistIterator (true :: moves) with Ok l => bool_decide (l = ((λ n, contents demo_q !! n) <$> 0%nat :: ns)) | _ => false end &&
      bool_decide (list.last ns = Some 800%nat)
  | None => false
  end = true.
Proof. vm_compute. reflexivity. Qed.
Example C11_nonvacuous :
  QRange demo_q 510 600 = Ok (Some (slice (contents demo_q) 510 600)) ∧
  QRange demo_q 0 (-1) = Ok (Some (contents demo_q)).
Proof. vm_compute. auto. Qed.

(** C09 as stated is false: RPUSH of 1025 elements, then RPOP, panics ... *)
Theorem C09_refuted :
  (∃ q : quicklist Z, q_reachable q ∧ Len q = 1025 ∧ PopBack q = Panic) ∧
  (* ... LINDEX returns an element at another position ... *)
  (∃ (q : quicklist Z) i x y, q_reachable q ∧ 0 ≤ i < Len q ∧ QGet q i = Ok (Some x) ∧
      contents q !! Z.to_nat i = Some y ∧ x ≠ y) ∧
  (* ... LREM/LSET style access panics inside the list *)
  (∃ (q : quicklist Z) i, q_reachable q ∧ 0 ≤ i < Len q ∧ Remove q i = Panic) ∧
  (∃ (q : quicklist Z) i, q_reachable q ∧ 0 ≤ i < Len q ∧ Insert q i 0 = Panic).
Proof.
  split; [|split; [|split]].
  - exists (q_after (pushes 1025)). split; [apply q_after_reachable|]; vm_compute; repeat split; (reflexivity || discriminate).
  - exists (q_after (pushes 1026 ++ replicate 1000 QPopFront ++ pushes 800)), 500, 498, 474.
    split; [apply q_after_reachable; vm_compute; reflexivity|]. vm_compute. repeat split; (reflexivity || discriminate).
  - exists (q_after (pushes 1100)), 1050. split; [apply q_after_reachable|]; vm_compute; repeat split; (reflexivity || discriminate).
  - exists (q_after (pushes 1100)), 1050. split; [apply q_after_reachable|]; vm_compute; repeat split; (reflexivity || discriminate).
Qed.
Print Assumptions C09_refuted.
(** LRANGE l 0 9223372036854775807 panics *)
Theorem C11_range_refuted :
  ∃ (q : quicklist Z), q_reachable q ∧ Len q = 1 ∧ QRange q 0 9223372036854775807 = Panic.
Proof. exists (q_after (pushes 1)). split; [apply q_after_reachable|]; vm_compute; repeat split; (reflexivity || discriminate). Qed.
Print Assumptions C11_range_refuted.
