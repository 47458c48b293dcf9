(** The server starts again from its own log (C60). *)
From Verif Require Import Base Float DictModel QuicklistModel SkiplistModel ZsetModel
  Strconv RespSpec ServerModel CommandModel CommandSem CommandInv
  CommandTop CommandFrame SystemModel SystemProofs LoadModel AofModel AofProofs1 AofProofs2 AofProofs4 LoadProofs BootProofs CommandFacts ExampleLib PropsCommand PropsData
  SafeProofs PropsSafe TermMore TermBoot LogProofs PropsLog UpProofs ExampleTools.
From Coq Require Import ZifyBool ZifyNat.

(** A restart, from any file, only panics if the file is not a sequence of whole records
    (the reader panics), or if one of its records is empty, a SELECT of a negative index,
    a ZADD whose level overflows (127 successive draws raise it) or one of the other five
    commands that can end the server (C49). *)
Theorem C60_only cf evs y file clock rs : reaches cf evs y → history_ok cf (evs ++ [EvBoot file clock rs]) →
  step cf (EvBoot file clock rs) y = Panic →
  (load_file (λ _ args s, Ok (s ++ [args])) file []).2 = Panic ∨ [] ∈ records file ∨
  ∃ a l, a :: l ∈ records file ∧
    (lib_lower (cf_lib cf) a ∈ [B "rpop"; B "lindex"; B "lrange"; B "zrange"; B "zrangebyscore"] ∨
     lib_lower (cf_lib cf) a = B "zadd" ∧ ¬ level_ok rs ∨
     lib_lower (cf_lib cf) a = B "select" ∧ ∃ b n, l !! 0%nat = Some b ∧ Atoi b = Some n ∧ n < 0).
Proof.
  intros Hr (Hev & Hpos & Htot) HS. rewrite total_app in Htot. unfold total at 2 in Htot. simpl in Htot.
  apply Forall_app in Hev as [_ Hev]. apply Forall_cons in Hev as [[Hrec Hrs] _].
  cbn [step] in HS. destruct (cf_aof cf); [|done]. cbv zeta in HS.
  assert (HR : (restart cf clock file rs).2 = Panic) by (by destruct (restart cf clock file rs).2).
  destruct (restart_panics cf clock file rs Hpos Hrec Hrs ltac:(lia) HR) as [H|([|a l] & Hin & Hc)]; [by left|by right; left|].
  right. right. exists a, l. split; [done|]. destruct Hc as (Hc & Hsel & Hz). destruct (decide (lib_lower (cf_lib cf) a = B "select")) as [E|E]; [right; right; auto|].
  destruct (decide (lib_lower (cf_lib cf) a = B "zadd")) as [E2|E2]; [right; left; auto|left].
  unfold can_crash in Hc. rewrite !elem_of_cons, elem_of_nil in *. tauto.
Qed.
Print Assumptions C60_only.

(** From the log of any history without RPOP the server comes up again: no restart panics
    unless 127 successive draws raise the level of a node of a sorted set, and with enough
    random numbers (for SPOP and ZADD) it ends.  Missing for the full property: RPOP, logs
    that are not readable, and these draws. *)
Definition has_zadd (cf : config) (text : bytes) : Prop := ∃ a l, a :: l ∈ records text ∧ lib_lower (cf_lib cf) a = B "zadd".
Theorem C60_up_partial cf evs y clock rs : lower_ok (cf_lib cf) → Z.of_nat (cf_dbs cf) ≤ 2 ^ 44 →
  reaches cf evs y → Forall (own_event cf) evs →
  let text := y_file y ++ s_aofbuf (y_srv y) in readable text → Forall (λ r, 0 ≤ r) rs →
  (∀ a l, a :: l ∈ records text → lib_lower (cf_lib cf) a ≠ B "rpop") →
  ((has_zadd cf text → level_ok rs) → (restart cf clock text rs).2 ≠ Panic) ∧
  ∃ x, Forall (λ r, 0 ≤ r) x ∧ (restart cf clock text (rs ++ x)).2 ≠ OutOfFuel ∧
    ((has_zadd cf text → level_ok (rs ++ x)) → ∃ w, restart cf clock text (rs ++ x) = (w, Ok tt)).
Proof.
  intros Hlow Hdbs Hr Hev text Hrd Hrs Hno. destruct (C59_log cf evs y Hlow Hr Hev) as (H1 & H2 & _).
  assert (Ho : own_log cf text) by (by apply own_app).
  assert (Hpos : (0 < cf_dbs cf)%nat) by (by destruct Hr as [(_ & ? & _) _]).
  assert (Hsz : Z.of_nat (length text) < 2 ^ 42) by (apply readable_small in Hrd; unfold zlen in Hrd; lia).
  assert (Hrec : Forall (record_ok cf) (records text)).
  { rewrite <-(take_ge text (length text)) by done. by apply own_boot. }
  assert (Hown : Forall (own_record cf) (records text)).
  { destruct (own_records cf text (length text) Hlow Ho Hrd) as (n & cmds & _ & Hc & Hk & _). rewrite take_ge in Hk by done. rewrite Hk. by apply Forall_take. }
  assert (Hnp : ∀ rs, Forall (λ r, 0 ≤ r) rs → (has_zadd cf text → level_ok rs) → (restart cf clock text rs).2 ≠ Panic).
  { intros rs' Hrs' Hlv HP. destruct (restart_panics cf clock text rs' Hpos Hrec Hrs' Hsz HP) as [H|(args & Hin & Hc)].
    { by rewrite (read_only_own cf) in H. }
    rewrite Forall_forall in Hown. destruct (Hown args Hin) as [i Hi|a l ar Hl Har Hacc].
    - destruct Hc as (_ & Hc & _). destruct Hc as (b & n & [= <-] & Hn & Hneg). { apply (Hlow _ 2). apply (bool_decide_unpack _). by vm_compute. }
      rewrite Atoi_itoa in Hn by (unfold in_int64, minInt64, maxInt64; lia). injection Hn as <-. lia.
    - destruct Hc as (Hc & _ & Hz). specialize (Hno a l Hin).
      assert (HF : Forall (λ n, n ∉ can_crash ∨ n = B "rpop" ∨ n = B "zadd") logged_names) by (apply (bool_decide_unpack _); by vm_compute).
      rewrite Forall_forall in HF. destruct (HF _ Hl) as [?|[?|Hn]]; [done..|]. apply (Hz Hn), Hlv. by exists a, l. }
  split; [by apply Hnp|]. destruct (restart_hangs cf clock text rs Hpos Hrec Hrs Hsz) as [_ (x & Hx & HT)].
  assert (Hrx : Forall (λ r, 0 ≤ r) (rs ++ x)) by (by apply Forall_app). specialize (Hnp _ Hrx).
  exists x. split; [done|]. split; [done|]. intros Hlv. specialize (Hnp Hlv).
  destruct (restart cf clock text (rs ++ x)) as [w [[]| |]] eqn:ER; [|done..]. by exists w.
Qed.
Print Assumptions C60_up_partial.

(** The full property fails: a list expires and is removed by a read (which is not logged),
    a new list gets its key, a new deadline and an RPOP.  The log adds the new list to the
    old one and then revives it; RPOP panics on more than 1024 elements, at every restart
    until the new deadline has passed. *)
Definition h_loop : list event :=
  [EvConnect; EvCommand 0 (words "RPUSH l" ++ replicate 1024 (B "v")) 5 0 []; EvCommand 0 (words "EXPIRE l 1") 6 0 []; EvCommand 0 (words "LLEN l") 5000 5 [];
   EvCommand 0 (words "RPUSH l w") 5001 5 []; EvCommand 0 (words "EXPIRE l 100") 5002 5 []; EvCommand 0 (words "RPOP l") 5003 5 []].
Theorem C60_refuted :
  let y := state_of cf0 h_loop in let text := y_file y ++ s_aofbuf (y_srv y) in
  reaches cf0 h_loop y ∧ Forall (own_event cf0) h_loop ∧ readable text ∧
  ∀ t, t ∈ [6000; 10000; 100000]%Z → (restart cf0 (λ _, t) text []).2 = Panic.
Proof.
  intros y text. split; [apply state_of_reaches; by vm_compute|]. split; [repeat (apply Forall_cons; split; [exact I|]); apply Forall_nil_2|].
  split; [left; by vm_compute|].
  assert (HF : forallb (λ t, match (restart cf0 (λ _, t) text []).2 with Panic => true | _ => false end) [6000; 10000; 100000]%Z = true) by (by vm_compute).
  rewrite forallb_forall in HF. intros t Ht. apply elem_of_list_In, HF in Ht. by destruct (restart cf0 (λ _, t) text []).2.
Qed.
Print Assumptions C60_refuted.

(** ** Examples *)
Definition h_up : list event := [EvConnect; cmd 0 5 "SELECT 3"; cmd 0 5 "SADD s a b"; EvCommand 0 (words "SPOP s") 5 0 [0; 0; 0; 0; 0; 0; 0; 0]; EvFlush; cmd 0 5 "SETEX k 100 v";
  cmd 0 6 "ZADD z 1 a 2 b"; cmd 0 7 "ZADD z 3 a"; cmd 0 8 "ZREM z b"; cmd 0 9 "ZREMRANGEBYRANK z 0 1"].
Example C60_example :
  let y := state_of cf0 h_up in let text := y_file y ++ s_aofbuf (y_srv y) in
  reaches cf0 h_up y ∧ Forall (own_event cf0) h_up ∧ readable text ∧
  records text = [words "select 3"; words "SADD s a b"; words "SPOP s"; words "set k v"; words "expireat k 100"; words "ZADD z 1 a 2 b"; words "ZADD z 3 a"; words "ZREM z b"; words "ZREMRANGEBYRANK z 0 1"] ∧
  level_ok (replicate 20 65535).
Proof.
  intros y text. split; [apply state_of_reaches; by vm_compute|]. split; [repeat (apply Forall_cons; split; [exact I|]); apply Forall_nil_2|].
  split; [left; by vm_compute|]. split; [by vm_compute|]. intros r0 r1 r2 Hr _. apply (f_equal length) in Hr. rewrite replicate_length, !app_length in Hr. lia.
Qed.
(** restarts that panic: a log cut inside a record, and a SELECT of a negative index *)
Definition bad_files : list bytes := [take 20 (encode (words "SET k v")); encode (words "SELECT -1")].
Example C60_only_example file : file ∈ bad_files →
  history_check cf0 [EvBoot file (λ _, 5) []] = true ∧ step cf0 (EvBoot file (λ _, 5) []) (init_sys cf0) = Panic.
Proof.
  assert (HF : Forall (λ file, history_check cf0 [EvBoot file (λ _, 5) []] = true ∧ step cf0 (EvBoot file (λ _, 5) []) (init_sys cf0) = Panic) bad_files).
  { repeat (apply Forall_cons; split; [split; by vm_compute|]). by apply Forall_nil_2. }
  rewrite Forall_forall in HF. apply HF.
Qed.
