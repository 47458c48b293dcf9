(** Requests on the wire (C19-C23).

    [exec] stands for the whole of command execution, on an arbitrary state; the
    theorems hold for every [exec], in particular for one that only records the
    argument lists it is given ([record] below). *)
From Verif Require Import Base Strconv RespSpec RespModel RespProofs.
From Coq Require Import ZifyBool ZifyNat.

(** a connection between two commands: just accepted, or after a command *)
Definition after_reset : pclient := PC [] 0 TUnknown [] 0 0.
Definition idle (c : pclient) : Prop := c = NewClient ∨ c = after_reset.
(** bytes allocated in the query buffer of an idle client *)
Definition cap (c : pclient) : nat := length (q_buf c).

Section once.
  Context {St : Type} (exec : St → list bytes → res (St * bool)).
  (** [args] is executed once; the connection is closed iff the command failed *)
  Definition executed_once (s : St) (args : list bytes) : res (conn * St) :=
    x ← exec s args; let '(s', failed) := (x : St * bool) in
    Ok (if failed then Closed else Open after_reset, s').
  (** the commands are executed one after the other *)
  Fixpoint executed_all (k : conn) (s : St) (cmds : list (list bytes)) : res (conn * St) :=
    match k, cmds with
    | Open _, args :: cmds => x ← executed_once s args; executed_all x.1 x.2 cmds
    | _, _ => Ok (k, s)
    end.
End once.
Definition record (s : list (list bytes)) (args : list bytes) : res (list (list bytes) * bool) := Ok (s ++ [args], false).

Lemma idle_pc c : idle c → c = pc [] (cap c) TUnknown [] 0 0 ∧ room (cap c) = 4096%nat.
Proof. intros [-> | ->]; done. Qed.
Lemma reads_closed {St} (exec : St → list bytes → res (St * bool)) rs s : reads exec Closed rs s = Ok (Closed, s).
Proof. by destruct rs. Qed.
Section proofs.
  Context {St : Type} (exec : St → list bytes → res (St * bool)).
  Lemma idle_res c : idle c → resumes exec c (cap c) [].
  Proof. intros H. destruct (idle_pc c H) as [E _]. rewrite E at 1. apply idle_resumes. Qed.
  Lemma encode_ne args : encode args ≠ [].
  Proof. done. Qed.
  Lemma parse_encode args J k : request_ok args → parse (encode args ++ J) k = Ok (pc J k TMultiBulk args 0 0, inr true).
  Proof. intros Hok. unfold parse. cbn. change (dispatch (pc (encode args ++ J) k TMultiBulk [] 0 0) = Ok (pc J k TMultiBulk args 0 0, inr true)).
    unfold dispatch. cbn [pc c_type]. by apply processMulti_encode. Qed.
  Lemma act_encode args J k s : request_ok args → act exec (parse (encode args ++ J) k) s = executed_once exec s args.
  Proof.
    intros Hok. rewrite parse_encode by done. cbn [act mbind res_bind]. cbn [pc c_args]. destruct args as [|a args]; [by destruct Hok|].
    unfold executed_once. done.
  Qed.
  Lemma parse_wait args P E k : request_ok args → P ≠ [] → P ++ E = encode args → E ≠ [] → ¬ torn args P →
    ∃ c', parse P k = Ok (c', inr false).
  Proof.
    intros Hok HP HE HEne Hnt. assert (Hf : form P = TMultiBulk).
    { destruct P as [|x P]; [done|]. injection HE as -> _. done. }
    unfold parse. rewrite Hf. unfold dispatch. cbn [pc c_type]. by eapply multi_prefix_wait.
  Qed.
End proofs.

Ltac solve_ok := split; [done|vm_compute; congruence].
Ltac solve_le := apply Nat.leb_le; by vm_compute.
Ltac solve_fits := cbn [fits]; repeat (split; [done|]; split; [solve_le|]); exact I.

(** * C19 *)
Theorem C19_roundtrip {St} (exec : St → list bytes → res (St * bool)) c args s :
  idle c → request_ok args → (length (encode args) ≤ 4096)%nat →
  reads exec (Open c) [RData (encode args)] s = executed_once exec s args.
Proof.
  intros Hc Hok Hle. destruct (idle_pc c Hc) as [_ Hroom]. cbn [reads].
  rewrite (resumes_step exec c (cap c) [] (encode args) s); [|by apply idle_res|done|by rewrite Hroom].
  rewrite app_nil_l. rewrite <-(app_nil_r (encode args)) at 1. rewrite act_encode by done.
  destruct (executed_once exec s args) as [[[] ?]| |]; done.
Qed.
Print Assumptions C19_roundtrip.
Example C19_example :
  let args := [B "SET"; CRLF ++ [NUL] ++ B "$1"; []] in
  request_ok args ∧ (length (encode args) ≤ 4096)%nat ∧
  reads record (Open NewClient) [RData (encode args)] [] = Ok (Open after_reset, [args]).
Proof.
  cbv zeta. split; [split; [done|vm_compute; congruence]|]. split; [apply Nat.leb_le; by vm_compute|by vm_compute].
Qed.

(** * C20 *)
(** Every split whose boundaries do not fall between a payload and the end of the
    line end after it.  [fits] says that no read returns more bytes than the
    query buffer has room for (chunks of 1 to 4096 bytes always fit).  The full
    property (every split) is false: [C20_torn], [C20_refuted]. *)
Theorem C20_partial {St} (exec : St → list bytes → res (St * bool)) c args chs s :
  idle c → request_ok args → concat chs = encode args → fits (cap c) chs →
  (∀ j, (0 < j < length chs)%nat → ¬ torn args (concat (take j chs))) →
  reads exec (Open c) (map RData chs) s = executed_once exec s args.
Proof.
  intros Hc Hok Hcat Hf Hnt.
  assert (Hne : Forall (λ ch, ch ≠ []) chs).
  { clear -Hf. revert Hf. generalize (cap c). induction chs as [|ch chs IH]; intros k Hf; [done|]. destruct Hf as (? & ? & ?).
    constructor; eauto. }
  assert (Hchs : chs ≠ []) by (by intros ->).
  rewrite <-(app_nil_r (map RData chs)). rewrite (reads_app exec chs c (cap c) []); [|by apply idle_res|done|done|].
  - rewrite app_nil_l, Hcat. rewrite <-(app_nil_r (encode args)) at 1. rewrite act_encode by done.
    destruct (executed_once exec s args) as [[[] ?]| |]; done.
  - intros j Hj. rewrite app_nil_l.
    assert (Hsp : concat (take j chs) ++ concat (drop j chs) = encode args) by (rewrite <-concat_app, take_drop; done).
    assert (Hn2 : ∀ l : list bytes, Forall (λ ch, ch ≠ []) l → l ≠ [] → concat l ≠ []).
    { intros l Hl Hl0. destruct l as [|ch l]; [done|]. apply Forall_cons in Hl as [Hch _]. simpl. intros Hx. by apply app_eq_nil in Hx as [? _]. }
    eapply parse_wait; [done| |exact Hsp| |by apply Hnt].
    + apply Hn2; [by apply Forall_take|]. intros Hx. apply (f_equal length) in Hx. rewrite take_length in Hx. simpl in Hx. lia.
    + apply Hn2; [by apply Forall_drop|]. intros Hx. apply (f_equal length) in Hx. rewrite drop_length in Hx. simpl in Hx. lia.
Qed.
Print Assumptions C20_partial.

(** The condition is exact: at the first boundary inside that gap the command is
    lost; the server panics when the query buffer happens to be full and closes
    the connection otherwise, whatever follows. *)
Theorem C20_torn {St} (exec : St → list bytes → res (St * bool)) c args chs rest s E :
  idle c → request_ok args → concat chs ++ E = encode args → fits (cap c) chs →
  torn args (concat chs) →
  (∀ j, (0 < j < length chs)%nat → ¬ torn args (concat (take j chs))) →
  reads exec (Open c) (map RData chs ++ rest) s =
    match unused_list (cap c) chs with O => Panic | S _ => Ok (Closed, s) end.
Proof.
  intros Hc Hok Hcat Hf Ht Hnt.
  assert (Hne : Forall (λ ch, ch ≠ []) chs).
  { clear -Hf. revert Hf. generalize (cap c). induction chs as [|ch chs IH]; intros k Hf; [done|]. destruct Hf as (? & ? & ?).
    constructor; eauto. }
  assert (Hchs : chs ≠ []). { intros ->. destruct Ht as (as1 & a & as2 & _ & [Hx|Hx]); done. }
  assert (Hn2 : ∀ l : list bytes, Forall (λ ch, ch ≠ []) l → l ≠ [] → concat l ≠ []).
  { intros l Hl Hl0. destruct l as [|ch l]; [done|]. apply Forall_cons in Hl as [Hch _]. simpl. intros Hx. by apply app_eq_nil in Hx as [? _]. }
  rewrite (reads_app exec chs c (cap c) []); [|by apply idle_res|done|done|].
  - rewrite app_nil_l. assert (Hf2 : form (concat chs) = TMultiBulk).
    { pose proof (Hn2 chs Hne Hchs). destruct (concat chs) as [|x P] eqn:Ec; [done|]. injection Hcat as -> _. done. }
    unfold parse. rewrite Hf2. unfold dispatch. cbn [pc c_type].
    pose proof (multi_prefix_torn args (concat chs) (unused_list (cap c) chs) TMultiBulk Hok Ht) as H.
    destruct (unused_list (cap c) chs) as [|k]; [by rewrite H|]. destruct H as [c' H]. rewrite H. cbn [act mbind res_bind fst snd]. apply reads_closed.
  - intros j Hj. rewrite app_nil_l.
    assert (Hsp : concat (take j chs) ++ (concat (drop j chs) ++ E) = encode args) by (rewrite app_assoc, <-concat_app, take_drop; done).
    eapply parse_wait; [done| |exact Hsp| |by apply Hnt].
    + apply Hn2; [by apply Forall_take|]. intros Hx. apply (f_equal length) in Hx. rewrite take_length in Hx. simpl in Hx. lia.
    + intros Hx. apply app_eq_nil in Hx as [Hx _]. revert Hx. apply Hn2; [by apply Forall_drop|].
      intros Hx. apply (f_equal length) in Hx. rewrite drop_length in Hx. simpl in Hx. lia.
Qed.
Print Assumptions C20_torn.

Theorem C20_refuted : ∃ args chs, request_ok args ∧ concat chs = encode args ∧ fits 4096 chs ∧
  reads record (Open NewClient) (map RData chs) [] = Ok (Closed, []).
Proof.
  exists [B "PING"], [array_header [B "PING"] ++ bulk_header (B "PING") ++ B "PING"; CRLF].
  split; [solve_ok|]. split; [done|]. split; [solve_fits|]. by vm_compute.
Qed.
Print Assumptions C20_refuted.
(** 4096 bytes: the buffer of a new client is exactly filled by the first read *)
Theorem C20_panic_refuted : ∃ args chs, request_ok args ∧ concat chs = encode args ∧ fits 4096 chs ∧
  reads record (Open NewClient) (map RData chs) [] = Panic.
Proof.
  exists [replicate 4085 NUL], [array_header [NUL :: []] ++ bulk_header (replicate 4085 NUL) ++ replicate 4085 NUL; CRLF].
  split; [solve_ok|]. split; [by vm_compute|]. split; [solve_fits|]. by vm_compute.
Qed.
Print Assumptions C20_panic_refuted.

(** the hypotheses of [C20_partial] are met by a split into six reads *)
Lemma torn_length args P : torn args P → ∃ as1 a as2, args = as1 ++ a :: as2 ∧
  (length P = length (array_header args ++ concat (map bulk as1) ++ bulk_header a ++ a) ∨
   length P = S (length (array_header args ++ concat (map bulk as1) ++ bulk_header a ++ a))).
Proof.
  intros (as1 & a & as2 & Has & [-> | ->]); exists as1, a, as2; (split; [done|]); [by left|right].
  rewrite !app_length. simpl. lia.
Qed.
Example C20_example :
  let args := [B "GET"; B "a"] in
  let chs := [B "*"; B "2"; CRLF ++ B "$3" ++ [CR]; LF :: B "GE"; B "T" ++ CRLF ++ B "$1" ++ CRLF; B "a" ++ CRLF] in
  request_ok args ∧ concat chs = encode args ∧ fits 4096 chs ∧
  (∀ j, (0 < j < length chs)%nat → ¬ torn args (concat (take j chs))) ∧
  reads record (Open NewClient) (map RData chs) [] = Ok (Open after_reset, [args]).
Proof.
  cbv zeta. split; [|split; [|split; [|split]]].
  - split; [done|]. vm_compute. congruence.
  - done.
  - solve_fits.
  - intros j Hj Ht. simpl in Hj. apply torn_length in Ht as (as1 & a & as2 & Has & Hl).
    assert (Hl2 : (length (concat (take j [B "*"; B "2"; CRLF ++ B "$3" ++ [CR]; LF :: B "GE"; B "T" ++ CRLF ++ B "$1" ++ CRLF; B "a" ++ CRLF])) = 11
      ∨ length (concat (take j [B "*"; B "2"; CRLF ++ B "$3" ++ [CR]; LF :: B "GE"; B "T" ++ CRLF ++ B "$1" ++ CRLF; B "a" ++ CRLF])) = 12
      ∨ length (concat (take j [B "*"; B "2"; CRLF ++ B "$3" ++ [CR]; LF :: B "GE"; B "T" ++ CRLF ++ B "$1" ++ CRLF; B "a" ++ CRLF])) = 18
      ∨ length (concat (take j [B "*"; B "2"; CRLF ++ B "$3" ++ [CR]; LF :: B "GE"; B "T" ++ CRLF ++ B "$1" ++ CRLF; B "a" ++ CRLF])) = 19)%nat).
    { destruct as1 as [|x as1]; [injection Has as <- _; vm_compute in Hl |- *; tauto|].
      destruct as1 as [|y as1]; [injection Has as <- <- _; vm_compute in Hl |- *; tauto|].
      destruct as1; done. }
    assert (j = 1 ∨ j = 2 ∨ j = 3 ∨ j = 4 ∨ j = 5)%nat as Hc by lia.
    destruct Hc as [->|[->|[->|[->| ->]]]]; vm_compute in Hl2; lia.
  - by vm_compute.
Qed.
(** the hypotheses of [C20_torn] are met by the split of [C20_refuted] *)
Example C20_torn_example : torn [B "PING"] (concat [array_header [B "PING"] ++ bulk_header (B "PING") ++ B "PING"]).
Proof. exists [], (B "PING"), []. split; [done|]. left. done. Qed.

(** For arbitrary bytes: as long as the parser waits at every boundary, receiving
    the bytes in pieces has the same outcome as parsing them at once. *)
Theorem C20_incremental {St} (exec : St → list bytes → res (St * bool)) c chs last s :
  idle c → fits (cap c) (chs ++ [last]) →
  (∀ j, (0 < j ≤ length chs)%nat → ∃ c', parse (concat (take j chs)) (unused_list (cap c) (take j chs)) = Ok (c', inr false)) →
  reads exec (Open c) (map RData (chs ++ [last])) s =
  act exec (parse (concat (chs ++ [last])) (unused_list (cap c) (chs ++ [last]))) s.
Proof. intros Hc Hf Hw. by apply (reads_batch exec chs c (cap c) []); [apply idle_res|..]. Qed.
Print Assumptions C20_incremental.

(** * C21 *)
(** Whatever follows a command in the same read is discarded. *)
Theorem C21_dropped {St} (exec : St → list bytes → res (St * bool)) c args J s :
  idle c → request_ok args → (length (encode args ++ J) ≤ 4096)%nat →
  reads exec (Open c) [RData (encode args ++ J)] s = executed_once exec s args.
Proof.
  intros Hc Hok Hle. destruct (idle_pc c Hc) as [_ Hroom]. cbn [reads].
  rewrite (resumes_step exec c (cap c) [] (encode args ++ J) s); [|by apply idle_res|done|by rewrite Hroom].
  rewrite app_nil_l. rewrite act_encode by done. destruct (executed_once exec s args) as [[[] ?]| |]; done.
Qed.
Print Assumptions C21_dropped.
Theorem C21_refuted : ∃ cmds, Forall request_ok cmds ∧ (length (concat (map encode cmds)) ≤ 4096)%nat ∧
  reads record (Open NewClient) [RData (concat (map encode cmds))] [] ≠ executed_all record (Open NewClient) [] cmds.
Proof.
  exists [[B "SET"; B "a"; B "1"]; [B "SET"; B "b"; B "2"]]. split; [|split; [|by vm_compute]].
  - constructor; [solve_ok|]. constructor; [solve_ok|done].
  - solve_le.
Qed.
Print Assumptions C21_refuted.

(** Commands that do not share a read are all executed, in order.  What is
    missing for C21: several commands in one read, which is false. *)
Definition well_split (x : list bytes * list bytes) : Prop :=
  request_ok x.1 ∧ concat x.2 = encode x.1 ∧ Forall (λ ch, (0 < length ch ≤ 4096)%nat) x.2 ∧
  (∀ j, (0 < j < length x.2)%nat → ¬ torn x.1 (concat (take j x.2))).
Lemma fits_4096 chs : ∀ k, Forall (λ ch, (0 < length ch ≤ 4096)%nat) chs → fits k chs.
Proof.
  induction chs as [|ch chs IH]; intros k Hf; [done|]. apply Forall_cons in Hf as [Hch Hf]. cbn [fits].
  split; [by destruct ch; simpl in *; [lia|]|]. split; [|by apply IH].
  unfold room. destruct (Nat.ltb_spec k 4096); lia.
Qed.
Lemma reads_concat {St} (exec : St → list bytes → res (St * bool)) rs1 : ∀ k rs2 s,
  reads exec k (rs1 ++ rs2) s = (x ← reads exec k rs1 s; reads exec x.1 rs2 x.2).
Proof.
  induction rs1 as [|r rs1 IH]; intros k rs2 s; [destruct k; by cbn|]. destruct k as [c|].
  - cbn [app reads]. destruct (readQueryFromClient exec c r s) as [x| |]; cbn [mbind res_bind]; [apply IH|done|done].
  - rewrite !reads_closed. cbn. by rewrite reads_closed.
Qed.
Theorem C21_partial {St} (exec : St → list bytes → res (St * bool)) cmds : ∀ c s,
  idle c → Forall well_split cmds →
  reads exec (Open c) (map RData (concat (map snd cmds))) s = executed_all exec (Open c) s (map fst cmds).
Proof.
  induction cmds as [|[args chs] cmds IH]; intros c s Hc Hws; [done|].
  apply Forall_cons in Hws as [(Hok & Hcat & Hch & Hnt) Hws]. cbn [map concat fst snd] in *. rewrite map_app, reads_concat.
  rewrite C20_partial with (args := args); [|done|done|done|by apply fits_4096|done].
  cbn [executed_all]. unfold executed_once. destruct (exec s args) as [[s' []]| |]; cbn [mbind res_bind fst snd]; [|apply IH; [by right|done]|done|done].
  rewrite reads_closed. by destruct (map fst cmds).
Qed.
Print Assumptions C21_partial.
Example C21_example :
  let cmds := [([B "SET"; B "a"; CRLF], [encode [B "SET"; B "a"; CRLF]]); ([B "PING"], [take 1 (encode [B "PING"]); drop 1 (encode [B "PING"])])] in
  Forall well_split cmds ∧
  reads record (Open NewClient) (map RData (concat (map snd cmds))) [] = Ok (Open after_reset, [[B "SET"; B "a"; CRLF]; [B "PING"]]).
Proof.
  cbv zeta. split; [|by vm_compute]. constructor; [|constructor; [|done]].
  - unfold well_split. cbn [fst snd]. split; [split; [done|vm_compute; congruence]|]. split; [by cbn; rewrite app_nil_r|].
    split; [constructor; [split; solve_le|done]|]. cbn. intros j Hj. lia.
  - unfold well_split. cbn [fst snd]. split; [split; [done|vm_compute; congruence]|]. split; [done|].
    split; [constructor; [split; solve_le|constructor; [split; solve_le|done]]|]. intros j Hj. cbn [length] in Hj.
    assert (j = 1%nat) as -> by lia. intros Ht. apply torn_length in Ht as (as1 & a & as2 & Has & Hl).
    rewrite !app_length in Hl. vm_compute in Hl. lia.
Qed.

(** * C22 *)
(** Six requests of at most 23 bytes that crash the server. *)
Theorem C22_refuted : Forall (λ input, reads record (Open NewClient) [RData input] [] = Panic)
  [CRLF; B "*-1" ++ CRLF; B "*99999999999999999" ++ CRLF; B "*1" ++ CRLF ++ B "$-1" ++ CRLF;
   B "$-2" ++ CRLF; B "$9223372036854775807" ++ CRLF].
Proof. repeat (constructor; [by vm_compute|]). constructor. Qed.
Print Assumptions C22_refuted.

(** Where a crash needs one of: a request starting with CRLF; a line "*n" or "$n"
    with n negative or above 2^44; fewer than 2 unused bytes in the query buffer
    after some read.  What is missing for C22: these cases, which do crash. *)
Theorem C22_partial {St} (exec : St → list bytes → res (St * bool)) c chs s :
  (∀ s args, exec s args ≠ Panic) → idle c →
  reads exec (Open c) (map RData chs) s = Panic →
  ∃ l1 l2 l3 k0, chs = l1 ++ l2 ++ l3 ∧ (k0 = 0 ∨ k0 = 4096)%nat ∧
    ((∃ R, concat l2 = CRLF ++ R) ∨ bad_number (concat l2) ∨ (unused_list k0 l2 < 2)%nat).
Proof.
  intros Hexec Hc.
  assert (Hgen : ∀ chs c l k0 s, (k0 = 0 ∨ k0 = 4096)%nat → resumes exec c (unused_list k0 l) (concat l) →
    reads exec (Open c) (map RData chs) s = Panic →
    ∃ l1 l2 l3 k0, l ++ chs = l1 ++ l2 ++ l3 ∧ (k0 = 0 ∨ k0 = 4096)%nat ∧
      ((∃ R, concat l2 = CRLF ++ R) ∨ bad_number (concat l2) ∨ (unused_list k0 l2 < 2)%nat)).
  { clear c chs s Hc. induction chs as [|ch chs IH]; intros c l k0 s Hk0 Hc; [done|]. cbn [map reads].
    destruct (decide (ch = [])) as [->|Hne].
    { cbn [readQueryFromClient mbind res_bind fst snd]. rewrite reads_closed. done. }
    destruct (decide (length ch ≤ room (unused_list k0 l))%nat) as [Hle|Hgt].
    2:{ destruct Hc as (D & t & args & m & b & -> & _ & _). unfold readQueryFromClient.
        set (k := unused_list k0 l) in *. clearbody k.
        assert (Hf : fill (grow (pc D k t args m b)) ch = None).
        { unfold fill, grow. cbn [pc q_buf q_len c_type c_args c_multi c_bulk]. unfold room, maxBulk, zeros, zlen in *.
          rewrite app_length, replicate_length in *. destruct (Nat.ltb_spec k 4096).
          - replace (_ <? 4096) with true by lia. cbn [q_buf q_len]. rewrite !app_length, !replicate_length.
            replace (_ <=? _) with false by lia. done.
          - replace (_ <? 4096) with false by lia. cbn [pc q_buf q_len]. unfold zeros, zlen. rewrite !app_length, !replicate_length.
            replace (_ <=? _) with false by lia. done. }
        rewrite Hf. destruct ch; done. }
    rewrite (resumes_step _ _ _ _ _ _ Hc Hne Hle).
    assert (Hcat : concat l ++ ch = concat (l ++ [ch])) by (rewrite concat_app; simpl; by rewrite app_nil_r).
    assert (Hun : unused (unused_list k0 l) ch = unused_list k0 (l ++ [ch])) by (unfold unused_list; by rewrite fold_left_app).
    rewrite Hcat, Hun. destruct (parse (concat (l ++ [ch])) (unused_list k0 (l ++ [ch]))) as [[c' out]| |] eqn:Ep; cbn [act mbind res_bind]; [| |done].
    - destruct out as [e|[]]; cbn [act mbind res_bind].
      + cbn [fst snd]. rewrite reads_closed. done.
      + assert (Hreset : ∀ c' s', reads exec (Open (reset c')) (map RData chs) s' = Panic → ∃ l1 l2 l3 k0, l ++ ch :: chs = l1 ++ l2 ++ l3 ∧ (k0 = 0 ∨ k0 = 4096)%nat ∧
          ((∃ R, concat l2 = CRLF ++ R) ∨ bad_number (concat l2) ∨ (unused_list k0 l2 < 2)%nat)).
        { intros c2 s' Hp. destruct (IH (reset c2) [] 0%nat s') as (l1 & l2 & l3 & k1 & Hl & H); [by left|exact (idle_resumes exec 0)|done|].
          exists (l ++ ch :: l1), l2, l3, k1. split; [|done]. rewrite app_nil_l in Hl. rewrite Hl. by rewrite <-app_assoc. }
        destruct (c_args c') as [|a as_]; [apply Hreset|]. pose proof (Hexec s (a :: as_)) as He.
        destruct (exec s (a :: as_)) as [[s' []]| |]; cbn [mbind res_bind fst snd]; [rewrite reads_closed; done|apply Hreset|done|done].
      + cbn [fst snd]. intros Hp. destruct (IH c' (l ++ [ch]) k0 s) as (l1 & l2 & l3 & k1 & Hl & H); [done| |done|].
        * apply wait_resumes; [|done]. rewrite <-Hcat. intros Hx. by apply app_eq_nil in Hx as [_ ->].
        * exists l1, l2, l3, k1. split; [|done]. rewrite <-Hl. by rewrite <-app_assoc.
    - intros _. apply parse_panic in Ep. exists [], (l ++ [ch]), chs, k0. split; [by rewrite <-app_assoc|]. done. }
  intros Hp. destruct (Hgen chs c [] (cap c) s) as (l1 & l2 & l3 & k1 & Hl & H); [|by apply idle_res|done|by exists l1, l2, l3, k1].
  destruct Hc as [-> | ->]; [by right|by left].
Qed.
Print Assumptions C22_partial.
(** the theorem applies to the recording executor and to each input above *)
Example C22_example : (∀ s args, record s args ≠ Panic) ∧ idle NewClient ∧
  reads record (Open NewClient) (map RData [B "*1" ++ CRLF; B "$-1"; CRLF]) [] = Panic ∧ bad_number (concat [B "*1" ++ CRLF; B "$-1"; CRLF]).
Proof.
  split; [done|]. split; [by left|]. split; [by vm_compute|]. exists (B "*1" ++ CRLF), "$"%char, (B "-1"), [], (-1).
  split; [done|]. split; [by right|]. split; [done|by left].
Qed.

(** * C23 *)
(** words separated by single spaces *)
Fixpoint join (ws : list bytes) : bytes :=
  match ws with
  | [] => []
  | [w] => w
  | w :: ws => w ++ " "%char :: join ws
  end.
Definition word (w : bytes) : Prop := Forall (λ c, c ≠ " "%char ∧ c ≠ CR) w.
Lemma split_word w s acc : Forall (λ c, c ≠ " "%char) w → split_spaces acc (w ++ s) = split_spaces (reverse w ++ acc) s.
Proof.
  intros H. revert acc. induction H as [|c w Hc Hw IH]; intros acc; [done|]. simpl. destruct (Ascii.eqb_spec c " "); [done|].
  rewrite IH. rewrite reverse_cons, <-app_assoc. done.
Qed.
Lemma split_join ws : ws ≠ [] → Forall word ws → split_spaces [] (join ws) = ws.
Proof.
  induction ws as [|w ws IH]; intros Hne Hws; [done|]. apply Forall_cons in Hws as [Hw Hws].
  assert (Hw' : Forall (λ c, c ≠ " "%char) w) by (eapply Forall_impl; [exact Hw|]; simpl; tauto).
  destruct ws as [|w2 ws].
  - cbn [join]. rewrite <-(app_nil_r w) at 1. rewrite split_word by done. simpl. by rewrite app_nil_r, reverse_involutive.
  - change (join (w :: w2 :: ws)) with (w ++ " "%char :: join (w2 :: ws)). rewrite split_word by done.
    cbn [split_spaces]. change (" " =? " ")%char with true. cbv iota. rewrite app_nil_r, reverse_involutive. f_equal. by apply IH.
Qed.
Lemma join_plain ws : Forall word ws → plain (join ws).
Proof.
  induction ws as [|w ws IH]; intros Hws; [by constructor|]. apply Forall_cons in Hws as [Hw Hws].
  assert (Hw' : plain w) by (eapply Forall_impl; [exact Hw|]; simpl; tauto). destruct ws as [|w2 ws]; [done|].
  change (join (w :: w2 :: ws)) with (w ++ " "%char :: join (w2 :: ws)). apply Forall_app. split; [done|]. constructor; [done|]. by apply IH.
Qed.
(** The server executes the words of the line without its first byte. *)
Theorem C23_first_byte_lost {St} (exec : St → list bytes → res (St * bool)) c x ws J s :
  idle c → x ≠ "*"%char → x ≠ "$"%char → x ≠ CR → ws ≠ [] → Forall word ws →
  (length (x :: join ws ++ CRLF ++ J) ≤ 4096)%nat →
  reads exec (Open c) [RData (x :: join ws ++ CRLF ++ J)] s = executed_once exec s ws.
Proof.
  intros Hc H1 H2 H3 Hne Hws Hle. destruct (idle_pc c Hc) as [_ Hroom]. cbn [reads].
  rewrite (resumes_step exec c (cap c) [] (x :: join ws ++ CRLF ++ J) s); [|by apply idle_res|done|by rewrite Hroom].
  rewrite app_nil_l. set (k := unused _ _). clearbody k. unfold parse. cbn [form].
  destruct (Ascii.eqb_spec x "*"); [done|]. destruct (Ascii.eqb_spec x "$"); [done|]. unfold dispatch. cbn [pc c_type].
  unfold processInlineBuffer. rewrite getCRLF_pc. cbn [mbind res_bind].
  pose proof (crlf_plain (x :: join ws) J) as Hcr. rewrite <-app_comm_cons in Hcr. rewrite Hcr by (constructor; [done|by apply join_plain]).
  replace (0 + zlen (x :: join ws) =? -1) with false by (unfold zlen; lia). rewrite Z.add_0_l. cbn [pc q_buf].
  assert (go_slice ((x :: join ws ++ CRLF ++ J) ++ zeros k) 1 (zlen (x :: join ws)) = Ok (join ws)) as ->.
  { rewrite <-app_comm_cons, <-!app_assoc. apply (go_slice_app [x] (join ws)); [done|]. unfold zlen. simpl. lia. }
  cbn [mbind res_bind]. rewrite split_join by done.
  change (with_args (pc (x :: join ws ++ CRLF ++ J) k TInline [] 0 0) ws) with (pc ((x :: join ws) ++ CRLF ++ J) k TInline ws 0 0).
  rewrite app_assoc, move_pc by (unfold zlen; rewrite app_length; simpl; lia). cbn [act mbind res_bind pc c_args].
  unfold executed_once. destruct ws as [|w ws]; [done|]. destruct (exec s (w :: ws)) as [[s' []]| |]; done.
Qed.
Print Assumptions C23_first_byte_lost.
Theorem C23_refuted : ∃ ws, ws ≠ [] ∧ Forall word ws ∧
  reads record (Open NewClient) [RData (join ws ++ CRLF)] [] = Ok (Open after_reset, [[B "ET"; B "k"; B "v"]]) ∧
  executed_once record [] ws = Ok (Open after_reset, [[B "SET"; B "k"; B "v"]]).
Proof.
  exists [B "SET"; B "k"; B "v"]. split; [done|]. split; [|by vm_compute].
  repeat constructor; done.
Qed.
Print Assumptions C23_refuted.
Example C23_example : idle NewClient ∧ Forall word [B "PING"; B "x"] ∧
  reads record (Open NewClient) [RData ("!"%char :: join [B "PING"; B "x"] ++ CRLF)] [] = Ok (Open after_reset, [[B "PING"; B "x"]]).
Proof. split; [by left|]. split; [|by vm_compute]. repeat constructor; done. Qed.
