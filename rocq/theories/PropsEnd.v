(** From the bytes a client sends to the bytes it receives (C50, C51). *)
From Verif Require Import Base Float DictModel DatabaseModel SetModel QuicklistModel SkiplistModel ZsetModel
  Strconv RespSpec RespModel RespProofs ServerModel CommandModel CommandInv CommandExt SystemModel SystemProofs ReplySpec PropsReply EventModel PropsEvent PropsResp
  LoopModel LoopProofs PropsLoop EndProofs ExampleLib.
From Coq Require Import ZifyBool ZifyNat.

(** * C50 *)
(** What is executed for a client is what its own bytes say: the requests are those of
    a parser that sees the reads of this connection and nothing else. *)
Theorem C50_own cf lfd now acts l i : lreach cf lfd now acts l →
  ∃ k, reads record (Open RespModel.NewClient) (inbox cf i acts (linit cf lfd now)) [] = Ok (k, asked i (l_trace l)) ∧
    (k = Closed → OFree i ∈ l_trace l).
Proof.
  intros H. pose proof (lreach_tracks _ _ _ _ _ H i) as Ht. unfold tracks in Ht. destruct (l_net l !! i) as [n|].
  - destruct Ht as (k & H1 & H2). exists k. split; [done|]. intros ->. by destruct H2.
  - destruct Ht as [-> ->]. by exists (Open RespModel.NewClient).
Qed.
Print Assumptions C50_own.
(** so two servers, whatever their other clients and timers do, execute the same
    requests for clients that send the same *)
Theorem C50_isolated cf cf' lfd lfd' now now' acts acts' l l' i i' : lreach cf lfd now acts l → lreach cf' lfd' now' acts' l' →
  inbox cf i acts (linit cf lfd now) = inbox cf' i' acts' (linit cf' lfd' now') → asked i (l_trace l) = asked i' (l_trace l').
Proof.
  intros H1 H2 E. destruct (C50_own _ _ _ _ _ i H1) as (k & R & _), (C50_own _ _ _ _ _ i' H2) as (k' & R' & _). rewrite E, R' in R. by injection R as _ ->.
Qed.
Print Assumptions C50_isolated.

Lemma record_mono k rs : ∀ s k' s', reads record k rs s = Ok (k', s') → s `prefix_of` s'.
Proof.
  assert (Hl : ∀ fuel c s c2 s' e, input_loop record fuel c s = Ok (c2, s', e) → s `prefix_of` s').
  { induction fuel as [|fuel IH]; intros c s c2 s' e; cbn [input_loop]; (destruct (q_len c >? 0); [|by intros [= _ <- _]]); [done|].
    destruct (detect c) as [c1| |]; [|done..]. cbn [mbind res_bind]. destruct (dispatch c1) as [[c3 out]| |]; [|done..]. cbn [mbind res_bind].
    destruct out as [er|[]]; [by intros [= _ <- _]| |by intros [= _ <- _]]. destruct (c_args c3) as [|a0 args]; [by apply IH|].
    cbn [record mbind res_bind]. intros H%IH. etrans; [|exact H]. by apply prefix_app_r. }
  revert k. induction rs as [|r rs IH]; intros k s k' s'; [destruct k; by intros [= _ <-]|]. destruct k as [c|]; [|by intros [= _ <-]]. cbn [reads].
  destruct (readQueryFromClient record c r s) as [[k1 s1]| |] eqn:E; [|done..]. cbn [mbind res_bind fst snd]. intros H%IH. etrans; [|exact H].
  unfold readQueryFromClient in E. destruct r as [[|b ch]| | |]; try (injection E as _ <-; done). destruct (fill _ _) as [c1|]; [|done]. unfold processInputBuffer in E.
  destruct (input_loop record 2 c1 s) as [[[c2 s2] e]| |] eqn:E2; [|done..]. apply Hl in E2. cbn [mbind res_bind] in E. by destruct e; injection E as _ <-.
Qed.
Lemma record_all cmds : ∀ k s, k ≠ Closed → ∃ k', executed_all record k s cmds = Ok (k', s ++ cmds).
Proof.
  induction cmds as [|args cmds IH]; intros k s Hk; (destruct k as [c|]; [|done]); cbn [executed_all].
  - exists (Open c). by rewrite app_nil_r.
  - cbn [executed_once record mbind res_bind fst snd]. destruct (IH (Open after_reset) (s ++ [args])) as (k' & ->); [done|]. exists k'. by rewrite <-app_assoc.
Qed.

(** A client that sends its commands one per read, or split over several reads as in
    C21, has them executed once each and in order; while it sends, all the complete ones
    and no others. *)
Theorem C50_commands_partial cf lfd now acts l i done rest : lreach cf lfd now acts l → Forall well_split (done ++ rest) →
  map RData (concat (map snd done)) `prefix_of` inbox cf i acts (linit cf lfd now) →
  inbox cf i acts (linit cf lfd now) `prefix_of` map RData (concat (map snd (done ++ rest))) →
  map fst done `prefix_of` asked i (l_trace l) ∧ asked i (l_trace l) `prefix_of` map fst (done ++ rest).
Proof.
  intros H Hw [x Hx] [y Hy]. destruct (C50_own _ _ _ _ _ i H) as (k & Hk & _).
  assert (Hall : ∀ cmds, Forall well_split cmds → ∃ k', reads record (Open RespModel.NewClient) (map RData (concat (map snd cmds))) [] = Ok (k', map fst cmds)).
  { intros cmds Hc. rewrite C21_partial by (done || by left). apply (record_all _ _ []). done. }
  split.
  - destruct (Hall done) as (k1 & H1); [by apply Forall_app in Hw as [? _]|]. rewrite Hx, reads_concat, H1 in Hk. cbn [mbind res_bind fst snd] in Hk.
    by eapply record_mono.
  - destruct (Hall _ Hw) as (k1 & H1). rewrite Hy, reads_concat, Hk in H1. cbn [mbind res_bind fst snd] in H1. by eapply record_mono.
Qed.
Print Assumptions C50_commands_partial.

(** End to end: after such a client has sent its commands, each has been answered with
    one RESP value, in order, and the bytes written to it are those values from the
    start, all of them once nothing is left to send. *)
Theorem C50_partial cf lfd now acts l i cmds : lreach cf lfd now acts l → lib_plain (cf_lib (lc_sys cf)) → Forall well_split cmds →
  Forall (Forall plain) (map fst cmds) → inbox cf i acts (linit cf lfd now) = map RData (concat (map snd cmds)) →
  ∃ rs vs, answers i (l_trace l) = zip (map fst cmds) rs ∧ length rs = length cmds ∧ Forall2 one_value rs vs ∧
    written i (l_trace l) `prefix_of` mjoin rs ∧ (queue_of l i = [] → written i (l_trace l) = mjoin rs).
Proof.
  intros H HL Hw Hp Hin. assert (Ha : asked i (l_trace l) = map fst cmds).
  { destruct (C50_commands_partial _ _ _ _ _ i cmds [] H) as [[z P1] [z' P2]]; rewrite ?app_nil_r, ?Hin; [done..|]. rewrite app_nil_r in P2.
    rewrite P1 in P2 |- *. apply (f_equal length) in P2. rewrite !app_length in P2. destruct z; [by rewrite app_nil_r|simpl in P2; lia]. }
  unfold asked in Ha. destruct (C25_replies _ _ _ _ _ i H HL) as (vs & V1 & V2 & V3).
  { rewrite <-Ha in Hp. apply (Forall_fmap fst) in Hp. exact Hp. }
  exists (answers i (l_trace l)).*2, vs. rewrite <-Ha. split_and!; [|by rewrite fmap_length, <-(map_length fst cmds), <-Ha, fmap_length|done..].
  clear. induction (answers i (l_trace l)) as [|[a b] t IH]; [done|]. simpl. f_equal. exact IH.
Qed.
Print Assumptions C50_partial.

(** two clients; the command of the first is split in the middle of a word, and the
    second one's is read in between *)
Definition g0 := encode (words "SET a b").
Definition first : list bytes := [take 10 g0; drop 10 g0].
Definition two : list act :=
  connect ++ iter 0 [(3, EPOLLIN)] [FAccept (AcOk 8)] ++
  iter 0 [(7, EPOLLIN); (8, EPOLLIN)] [FRead (RData (take 10 g0)) 0 0 rnd; data "SET c d"] ++
  iter 0 [(7, EPOLLIN); (8, EPOLLOUT)] [FRead (RData (drop 10 g0)) 0 0 rnd; FSend [WOk 5]] ++
  iter 0 [(7, 5)] [data "GET c"; FSend [WOk 5; WOk 4]].
Definition sent0 : list (list bytes * list bytes) := [(words "SET a b", first); (words "GET c", [encode (words "GET c")])].
Definition sent1 : list (list bytes * list bytes) := [(words "SET c d", [encode (words "SET c d")])].
Lemma sent_split : Forall well_split sent0 ∧ Forall well_split sent1.
Proof.
  assert (Hone : ∀ args, request_ok args → (0 < length (encode args) ≤ 4096)%nat → well_split (args, [encode args])).
  { intros args H1 H2. split; [done|]. split; [by cbn; rewrite app_nil_r|]. split; [by apply Forall_singleton|]. cbn. intros j Hj. lia. }
  split; [constructor; [|constructor; [|done]]|constructor; [|done]]; try (apply Hone; [solve_ok|split; solve_le]).
  split; [solve_ok|]. split; [by vm_compute|]. split; [constructor; [split; solve_le|constructor; [split; solve_le|done]]|].
  intros j Hj. cbn [snd first length] in Hj. assert (j = 1%nat) as -> by lia. intros Ht. apply torn_length in Ht as (as1 & a & as2 & Has & Hl). revert Hl.
  destruct as1 as [|x [|y [|z as1]]]; cbn [fst] in Has; [| | |by apply (f_equal length) in Has; rewrite app_length in Has; cbn in Has; lia];
    injection Has as; subst; rewrite !app_length; vm_compute; lia.
Qed.
Example C50_example : ∃ l, lreach (lcf cf0) 3 0 two l ∧ lib_plain (cf_lib (lc_sys (lcf cf0))) ∧
  inbox (lcf cf0) 0 two (linit (lcf cf0) 3 0) = map RData (concat (map snd sent0)) ∧
  inbox (lcf cf0) 1 two (linit (lcf cf0) 3 0) = map RData (concat (map snd sent1)) ∧
  Forall well_split sent0 ∧ Forall well_split sent1 ∧ Forall (Forall plain) (map fst sent0) ∧ Forall (Forall plain) (map fst sent1) ∧
  answers 0 (l_trace l) = [(words "SET a b", B "+OK" ++ CRLF); (words "GET c", B "$1" ++ CRLF ++ B "d" ++ CRLF)] ∧
  written 0 (l_trace l) = B "+OK" ++ CRLF ++ B "$1" ++ CRLF ∧
  answers 1 (l_trace l) = [(words "SET c d", B "+OK" ++ CRLF)] ∧ written 1 (l_trace l) = B "+OK" ++ CRLF ∧ queue_of l 1 = [].
Proof.
  run_acts. destruct sent_split as [S0 S1]. split; [apply lib0_plain|]. split; [by vm_compute|]. split; [by vm_compute|]. split; [done|]. split; [done|].
  split; [vm_compute; repeat constructor; done|]. split; [vm_compute; repeat constructor; done|]. by vm_compute.
Qed.
(** Without the condition on the reads the claim is false: of two commands sent
    together the second is never executed and never answered, though the connection
    stays and further commands are answered. *)
Definition both : bytes := encode (words "SET a b") ++ encode (words "GET a").
Theorem C50_refuted : ∃ l, lreach (lcf cf0) 3 0
    (connect ++ iter 0 [(7, EPOLLIN)] [FRead (RData both) 0 0 rnd] ++ iter 0 [(7, EPOLLOUT)] [FSend [WOk 5]] ++
     iter 0 [(7, EPOLLIN)] [data "GET b"] ++ iter 0 [(7, EPOLLOUT)] [FSend [WOk 5]]) l ∧
  asked 0 (l_trace l) = [words "SET a b"; words "GET b"] ∧ l_clients l !! 7 = Some 0%nat ∧ queue_of l 0 = [] ∧
  written 0 (l_trace l) = B "+OK" ++ CRLF ++ B "$-1" ++ CRLF.
Proof. run_acts. by vm_compute. Qed.
Print Assumptions C50_refuted.

(** * C51 *)
(** Whenever a command is executed for a client or bytes are written to it, the client
    has been accepted and its connection has not been closed; and two clients that are
    connected at the same time have different descriptors.  So no byte of a reply
    reaches another connection, though descriptors are used again and events that were
    reported before a connection was closed are handled after it. *)
Theorem C51_turn cf lfd now acts l ta o tb i : lreach cf lfd now acts l → l_trace l = ta ++ o :: tb →
  (∃ args r lg, o = OCmd i args r lg) ∨ (∃ b, o = OWrite i b) →
  (∃ fd, OConnect i fd ∈ ta) ∧ OFree i ∉ ta.
Proof.
  intros H Ht Ho. eapply lreach_in_turn; [done..|]. by destruct Ho as [(args & r & lg & ->)|(b & ->)].
Qed.
Print Assumptions C51_turn.
Theorem C51_descriptors cf lfd now acts l i j fd : lreach cf lfd now acts l →
  OConnect i fd ∈ l_trace l → OFree i ∉ l_trace l → OConnect j fd ∈ l_trace l → OFree j ∉ l_trace l → i = j.
Proof.
  intros H I1 I2 J1 J2. destruct (lreach_ok _ _ _ _ _ H) as [Hb _].
  assert (l_clients l !! fd = Some i) as Hi by (by apply (lb_conn _ _ _ _ Hb)). assert (l_clients l !! fd = Some j) as Hj by (by apply (lb_conn _ _ _ _ Hb)). congruence.
Qed.
Print Assumptions C51_descriptors.
(** and the descriptor of the server itself is never a client's *)
Theorem C51_listening cf lfd now acts l i : lreach cf lfd now acts l → OFree i ∉ l_trace l → OConnect i lfd ∉ l_trace l.
Proof.
  intros H I1 I2. destruct (lreach_ok _ _ _ _ _ H) as [Hb _].
  assert (l_clients l !! lfd = Some i) as Hi by (by apply (lb_conn _ _ _ _ Hb)). by apply (lb_cli _ _ _ _ Hb) in Hi as [? _].
Qed.
Print Assumptions C51_listening.
(** Client 0 sends a request and closes before it fetches the reply; its writable event
    was reported together with the end of file.  The next client gets the same
    descriptor, and none of the bytes that were meant for client 0. *)
Definition reused : list act :=
  connect ++ iter 0 [(7, EPOLLIN)] [data "SET a secret"] ++ iter 0 [(7, EPOLLIN)] [data "GET a"] ++
  iter 0 [(7, 5)] [FRead (RData []) 0 0 []; FSend [WOk 5; WOk 10]] ++
  iter 0 [(3, EPOLLIN)] [FAccept (AcOk 7)] ++ iter 0 [(7, EPOLLIN)] [data "GET b"] ++ iter 0 [(7, EPOLLOUT)] [FSend [WOk 5]].
Example C51_example : ∃ l, lreach (lcf cf0) 3 0 reused l ∧ OConnect 0 7 ∈ l_trace l ∧ OConnect 1 7 ∈ l_trace l ∧ OFree 0 ∈ l_trace l ∧
  queue_of l 0 = [B "+OK" ++ CRLF; B "$6" ++ CRLF ++ B "secret" ++ CRLF] ∧ written 0 (l_trace l) = [] ∧
  asked 1 (l_trace l) = [words "GET b"] ∧ written 1 (l_trace l) = B "$-1" ++ CRLF.
Proof.
  run_acts. split; [vm_compute; repeat constructor|]. split; [vm_compute; repeat constructor|]. split; [vm_compute; repeat constructor|]. by vm_compute.
Qed.
