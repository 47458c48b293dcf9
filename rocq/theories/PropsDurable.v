(** C54 for the running server: what the replies promise.

    [crash], [restart], [sim] and [whole_log] as in PropsCrash.v; the functions of a
    trace as in PropsLoop.v. *)
From Verif Require Import Base Float DictModel DatabaseModel SetModel QuicklistModel SkiplistModel ZsetModel
  Strconv RespSpec RespModel ServerModel CommandModel CommandSem CommandInv CommandFacts SystemModel SystemProofs EventModel ZcmdProofs PropsZcmd AofModel RndFrame AofProofs3 AofProofs4
  PropsAof PropsCrash PropsExpire LoopModel LoopProofs PropsLoop CrashLoop ExampleLib.
From Coq Require Import ZifyBool ZifyNat.

(** the command that follows the trace [t] is in the history [evs] *)
Definition executed_in (evs : list event) (t : list obs) (i : nat) (args : list bytes) : Prop :=
  ∃ h now unix rs, h ++ [EvCommand i args now unix rs] `prefix_of` evs ∧ requests h = commands t.

(** The first [k] bytes of the log are on disk when the machine crashes.  After a
    restart the server has a dataset of its past, and every command whose record was
    within the [k] bytes was executed before this moment, whatever the policy of
    syncing.  Missing: as in [C54_torn_partial]. *)
Theorem C54_synced_partial cf lfd now acts l H clock rs k w : lreach cf lfd now acts l →
  crash (lc_sys cf) H (l_hist l) (l_sys l) clock rs →
  restart (lc_sys cf) clock (take k (logged (l_trace l))) rs = (w, Ok tt) →
  ∃ evs0 y0, evs0 `prefix_of` l_hist l ∧ reaches (lc_sys cf) evs0 y0 ∧ Forall2 sim (abs_dbs (y_srv y0)) (abs_dbs (w_srv w)) ∧
    ∀ t1 i args q lg t2, l_trace l = t1 ++ OCmd i args q lg :: t2 → (length (logged t1 ++ lg) ≤ k)%nat → executed_in evs0 t1 i args.
Proof.
  intros Hl Hc Hw. pose proof (lreach_ok _ _ _ _ _ Hl) as [Hb _]. rewrite <-(lb_log _ _ _ _ Hb) in Hw.
  destruct (C54_torn_partial _ _ _ _ _ _ _ _ Hc Hw) as (evs0 & y0 & X1 & X2 & X3 & _ & X4).
  exists evs0, y0. split; [done|]. split; [done|]. split; [done|]. intros t1 i args q lg t2 Ht Hk.
  destruct (tr_cmd _ _ (lreach_traced _ _ _ _ _ Hl) _ _ _ _ _ _ Ht) as (h & now' & unix & rs' & y' & P1 & P2 & P3 & P4).
  exists h, now', unix, rs'. split; [|done]. apply (X4 _ y'); [done| |].
  - split; [|done]. destruct P1 as [t Ht']. destruct (cr_reach _ _ _ _ _ _ Hc) as [Hh _]. rewrite Ht' in Hh. by eapply history_prefix.
  - rewrite P3, logged_app. exact Hk.
Qed.
Print Assumptions C54_synced_partial.

(** With appendfsync always: a client that had no unsent replies when an iteration of
    the loop began, and has received a byte after a command of this iteration, finds
    the command executed after any crash and restart.  Missing: as above, and
    clients with unsent replies, see [C54_lost_refuted]. *)
Theorem C54_durable_partial cf lfd now acts l H clock rs k w : lreach cf lfd now acts l → lc_always cf = true →
  crash (lc_sys cf) H (l_hist l) (l_sys l) clock rs → l_synced l ≤ Z.of_nat k →
  restart (lc_sys cf) clock (take k (logged (l_trace l))) rs = (w, Ok tt) →
  ∃ evs0 y0, evs0 `prefix_of` l_hist l ∧ reaches (lc_sys cf) evs0 y0 ∧ Forall2 sim (abs_dbs (y_srv y0)) (abs_dbs (w_srv w)) ∧
    ∀ t1 i args q lg t2 b t3, l_trace l = t1 ++ OCmd i args q lg :: t2 ++ OWrite i b :: t3 →
      (∀ ta tb, t1 = ta ++ OWait :: tb → OWait ∉ tb → written i ta = queued i ta) → executed_in evs0 t1 i args.
Proof.
  intros Hl Hal Hc Hk Hw. destruct (C54_synced_partial _ _ _ _ _ _ _ _ _ _ Hl Hc Hw) as (evs0 & y0 & X1 & X2 & X3 & X4).
  exists evs0, y0. split; [done|]. split; [done|]. split; [done|]. intros t1 i args q lg t2 b t3 Ht Hidle.
  eapply X4; [exact Ht|]. destruct (C42_ack_partial _ _ _ _ _ _ _ _ _ _ _ _ _ Hl Hal Ht Hidle) as (u & f & v & -> & Hpre).
  pose proof (lreach_ok _ _ _ _ _ Hl) as [Hb _].
  assert (Hf : f `prefix_of` y_file (l_sys l)).
  { eapply (tr_flush _ _ (lreach_traced _ _ _ _ _ Hl)) with (s := zlen f); [|rewrite Ht; set_solver].
    intros d Hin. pose proof (cr_calm _ _ _ _ _ _ Hc) as Hcalm. rewrite Forall_forall in Hcalm. by apply Hcalm in Hin. }
  rewrite (lb_sync _ _ _ _ Hb Hal) in Hk. apply prefix_length in Hpre, Hf. unfold zlen in Hk. lia.
Qed.
Print Assumptions C54_durable_partial.

(** the hypotheses: a command, its reply, and a second command that is not yet on disk *)
Definition acked : list act := connect ++ iter 0 [(7, EPOLLIN)] [data "SET a b"] ++ iter 0 [(7, EPOLLOUT)] [FSend [WOk 5]] ++ [AFlush; AWait 0 [(7, EPOLLIN)]; AFile (data "SET c d")].
Definition l_of (acts : list act) : lstate := match lrun (lcf cf0) acts (linit (lcf cf0) 3 0) with Ok l => l | _ => linit (lcf cf0) 3 0 end.
Definition l_ok (acts : list act) : bool :=
  forallb act_check acts && match lrun (lcf cf0) acts (linit (lcf cf0) 3 0) with Ok l => Z.of_nat (total (l_hist l)) <? 2 ^ 42 | _ => false end.
Lemma l_of_reach acts : l_ok acts = true → lreach (lcf cf0) 3 0 acts (l_of acts).
Proof.
  unfold l_ok, l_of. intros [H1 H2]%andb_prop. destruct (lrun _ _ _) as [l| |] eqn:E; try done. by apply lreach_check.
Qed.
Lemma silent_part i t : Forall (λ o, match o with OWrite _ _ | OCmd _ _ _ _ => False | _ => True end) t → written i t = queued i t.
Proof. induction 1 as [|o t Ho _ IH]; [done|]. by destruct o. Qed.
Example C54_durable_example : ∃ l, lreach (lcf cf0) 3 0 acked l ∧ crash cf0 5000 (l_hist l) (l_sys l) (λ _, 3000) [] ∧ l_synced l = 27 ∧
  length (logged (l_trace l)) = 54%nat ∧
  (∃ t1 lg t2 t3, l_trace l = t1 ++ OCmd 0 [B "SET"; B "a"; B "b"] (B "+OK" ++ CRLF) lg :: t2 ++ OWrite 0 (B "+OK" ++ CRLF) :: t3 ∧
    (∀ ta tb, t1 = ta ++ OWait :: tb → OWait ∉ tb → written 0 ta = queued 0 ta)) ∧
  (let x := restart cf0 (λ _, 3000) (take 27 (logged (l_trace l))) [] in
   loads_ok x = true ∧ as_str (val (w_srv x.1) 0 (B "a")) = Some (B "b") ∧ val (w_srv x.1) 0 (B "c") = None).
Proof.
  exists (l_of acked). assert (Hl : lreach (lcf cf0) 3 0 acked (l_of acked)) by (apply l_of_reach; by vm_compute).
  split; [exact Hl|].
  assert (Hh : l_hist (l_of acked) = [EvConnect; EvCommand 0 (words "SET a b") 0 0 rnd; EvFlush; EvSent 0 1; EvCommand 0 (words "SET c d") 0 0 rnd]) by (vm_compute; reflexivity).
  pose proof (proj1 (loop_refines _ _ _ _ _ Hl)) as Hr. rewrite Hh in *. cbn [lc_sys lcf] in Hr.
  split.
  { split; [apply lower0_ok|lia|reflexivity|by vm_compute|exact Hr|apply calm_checks; by vm_compute|apply careful_history_check; by vm_compute| |intros _; lia|by apply Forall_nil_2|exact I|left; by vm_compute].
    repeat (apply Forall_cons; split); try apply Forall_nil_2; try exact I; apply (bool_decide_unpack _); by vm_compute. }
  split; [by vm_compute|]. split; [by vm_compute|].
  split; [|set (x := restart _ _ _ _); cbv zeta; split; [vm_compute; reflexivity|]; split; vm_compute; reflexivity].
  set (tr := l_trace (l_of acked)). exists (take 5 tr), (encode (words "SET a b")), (take 2 (drop 6 tr)), (drop 9 tr). split; [vm_compute; reflexivity|].
  assert (Htr : take 5 tr = [OFlush [] 0; OWait; OConnect 0 7; OFlush [] 0; OWait]) by (vm_compute; reflexivity). rewrite Htr.
  clear. intros ta tb Ht Hn. apply silent_part. apply (Forall_app _ ta (OWait :: tb)). rewrite <-Ht. repeat (apply Forall_cons; split; [exact I|]). by apply Forall_nil_2.
Qed.

(** The run of [C42_refuted]: the client has received +OK, everything written is on
    disk, and after a crash the key is not there. *)
Theorem C54_lost_refuted : ∃ l w, lreach (lcf cf0) 3 0 early l ∧ lc_always (lcf cf0) = true ∧ l_synced l = zlen (y_file (l_sys l)) ∧
  (∃ t1 lg t2 b, l_trace l = t1 ++ OCmd 0 [B "SET"; B "a"; B "b"] b lg :: t2 ++ [OWrite 0 b] ∧ b = B "+OK" ++ CRLF) ∧
  restart cf0 (λ _, 1000) (y_file (l_sys l)) [] = (w, Ok tt) ∧
  as_str (val (y_srv (l_sys l)) 0 (B "a")) = Some (B "b") ∧ val (w_srv w) 0 (B "a") = None.
Proof.
  exists (l_of early), (restart cf0 (λ _, 1000) (y_file (l_sys (l_of early))) []).1. split; [apply l_of_reach; by vm_compute|]. split; [done|].
  split; [by vm_compute|]. split; [|split; [apply loads_ok_eq; by vm_compute|by vm_compute]].
  eexists [_; _; _; _; _; _; _; _], _, [_], _. split; [vm_compute; reflexivity|done].
Qed.
Print Assumptions C54_lost_refuted.
