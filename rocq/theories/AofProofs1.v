(** The reader and the loader on logs whose arguments do not cross the end of the
    reader's buffer. *)
From Verif Require Import Base Strconv RespSpec ServerModel CommandModel SystemModel AofModel.
From Coq Require Import ZifyBool ZifyNat.

(** * Specification: the reader's buffer as a number *)
(** [b]: the number of bytes in the buffer, if the file were endless.  A line of [n]
    bytes is read from the buffer if it is complete there; otherwise the buffer is
    filled up first. *)
Definition over_line (b n : nat) : nat := if decide (n ≤ b)%nat then (b - n)%nat else (MaxInlineSize - n)%nat.
(** [n] bytes of data are read from the buffer; only an empty buffer is filled, and
    data that begin in the buffer must end there. *)
Definition over_data (b n : nat) : option nat :=
  if decide (n = 0)%nat then Some b else
  if decide (b = 0)%nat then Some (MaxInlineSize - n)%nat else
  if decide (n ≤ b)%nat then Some (b - n)%nat else None.
Definition over_arg (b : nat) (a : bytes) : option nat :=
  b ← over_data (over_line b (length (bulk_header a))) (length a); over_data b 2.
Fixpoint over_args (b : nat) (l : list bytes) : option nat :=
  match l with [] => Some b | a :: l => b ← over_arg b a; over_args b l end.
Definition over_cmd (b : nat) (c : list bytes) : option nat := over_args (over_line b (length (array_header c))) c.
Fixpoint over_cmds (b : nat) (cmds : list (list bytes)) : option nat :=
  match cmds with [] => Some b | c :: cmds => b ← over_cmd b c; over_cmds b cmds end.

(** * The reader *)
(** [s] is left to be read, the buffer holds its first [b] bytes *)
Record at_ (b : nat) (r : reader) (s : bytes) : Prop := At {
  at_buf : r_buf r = take b s;
  at_rest : r_rest r = drop b s;
  at_max : (b ≤ MaxInlineSize)%nat
}.
Lemma at_New s : at_ 0 (NewReader s) s.
Proof. split; simpl; [by rewrite take_0|done|lia]. Qed.
Lemma Max_pos : (64 < MaxInlineSize)%nat.
Proof. unfold MaxInlineSize. lia. Qed.
Local Opaque MaxInlineSize.
Lemma over_line_max b n : (b ≤ MaxInlineSize)%nat → (over_line b n ≤ MaxInlineSize)%nat.
Proof. intros Hb. unfold over_line. destruct (decide _); lia. Qed.
Lemma over_data_max b n b' : (b ≤ MaxInlineSize)%nat → over_data b n = Some b' → (b' ≤ MaxInlineSize)%nat.
Proof. intros Hb. unfold over_data. repeat (destruct (decide _)); intros [= <-]; lia. Qed.
Lemma at_nil b r : at_ b r [] → r = Rd [] [].
Proof. intros [H1 H2 _]. rewrite take_nil in H1. rewrite drop_nil in H2. destruct r. simpl in *. by subst. Qed.

Lemma split_lf_app l s : Forall (λ c, c ≠ LF) l → split_lf (l ++ LF :: s) = Some (l ++ [LF], s).
Proof.
  induction l as [|c l IH]; intros H; [done|]. apply Forall_cons in H as [Hc Hl]. cbn [app split_lf].
  rewrite (proj2 (Ascii.eqb_neq c LF)) by done. by rewrite IH.
Qed.
Lemma split_lf_none l : Forall (λ c, c ≠ LF) l → split_lf l = None.
Proof.
  induction l as [|c l IH]; intros H; [done|]. apply Forall_cons in H as [Hc Hl]. cbn [split_lf].
  rewrite (proj2 (Ascii.eqb_neq c LF)) by done. by rewrite IH.
Qed.
Lemma fill_at b r s : at_ b r s → (b ≤ length s)%nat → fill r = Rd (take MaxInlineSize s) (drop MaxInlineSize s).
Proof.
  intros [H1 H2 H3] Hb. unfold fill. rewrite H1, H2, take_length_le by lia. f_equal.
  - rewrite take_take_drop. f_equal. lia.
  - rewrite drop_drop. f_equal. lia.
Qed.

Lemma read_bytes_S fuel acc r : read_bytes (S fuel) acc r =
  match split_lf (r_buf r) with
  | Some (line, buf) => Ok (Rd buf (r_rest r), Some (acc ++ line))
  | None =>
      if decide (MaxInlineSize ≤ length (r_buf r))%nat then read_bytes fuel (acc ++ r_buf r) (Rd [] (r_rest r))
      else match r_rest r with
           | [] => Ok (Rd [] [], None)
           | _ => read_bytes fuel acc (fill r)
           end
  end.
Proof. reflexivity. Qed.
Lemma ReadBytes_line b r l s : at_ b r (l ++ LF :: s) → Forall (λ c, c ≠ LF) l → (length l < MaxInlineSize)%nat →
  ∃ r', ReadBytes r = Ok (r', Some (l ++ [LF])) ∧ at_ (over_line b (S (length l))) r' s.
Proof.
  intros Hr Hl Hlen. pose proof Hr as [H1 H2 H3]. unfold ReadBytes. cbn [Nat.add].
  assert (Hgo : ∀ fuel m rest, (S (length l) ≤ m ≤ MaxInlineSize)%nat → rest = drop m (l ++ LF :: s) →
    ∃ r', read_bytes (S fuel) [] (Rd (take m (l ++ LF :: s)) rest) = Ok (r', Some (l ++ [LF])) ∧ at_ (m - S (length l)) r' s).
  { intros fuel m rest Hm ->. rewrite read_bytes_S. cbn [r_buf r_rest].
    assert (HE : take m (l ++ LF :: s) = l ++ LF :: take (m - S (length l)) s).
    { rewrite take_app_ge by lia. f_equal. destruct (m - length l)%nat as [|p] eqn:Hp; [lia|]. cbn [take]. do 2 f_equal. lia. }
    rewrite HE, split_lf_app by done. eexists. split; [done|]. split; cbn [r_buf r_rest]; [done| |lia].
    rewrite drop_app_ge by lia. destruct (m - length l)%nat as [|p] eqn:Hp; [lia|]. cbn [drop]. f_equal. lia. }
  unfold over_line. destruct (decide (S (length l) ≤ b)%nat) as [Hb|Hb].
  - destruct r as [buf rest]. simpl in H1, H2. subst buf. apply Hgo; [lia|done].
  - rewrite read_bytes_S. rewrite H1, split_lf_none.
    2: { rewrite take_app_le by lia. by apply Forall_take. }
    rewrite take_length_le by (rewrite app_length; simpl; lia). destruct (decide _) as [?|_]; [lia|].
    assert (Hne : r_rest r ≠ []).
    { rewrite H2. intros HE. apply (f_equal length) in HE. rewrite drop_length, app_length in HE. simpl in HE. lia. }
    destruct (r_rest r); [done|]. rewrite (fill_at b r _ Hr) by (rewrite app_length; simpl; lia). apply Hgo; [lia|done].
Qed.
Lemma ReadBytes_end b r l : at_ b r l → Forall (λ c, c ≠ LF) l → (length l < MaxInlineSize)%nat → ReadBytes r = Ok (Rd [] [], None).
Proof.
  intros Hr Hl Hlen. pose proof Hr as [H1 H2 H3]. unfold ReadBytes. cbn [Nat.add]. rewrite read_bytes_S.
  rewrite H1, split_lf_none by (by apply Forall_take). rewrite take_length. destruct (decide _) as [?|_]; [lia|].
  destruct (r_rest r) eqn:HR; [done|]. assert (Hb : (b < length l)%nat).
  { apply (f_equal length) in H2. rewrite drop_length in H2. simpl in H2. lia. }
  rewrite (fill_at b r l Hr) by lia. rewrite take_ge, drop_ge by lia. rewrite read_bytes_S. cbn [r_buf r_rest].
  rewrite split_lf_none by done. by destruct (decide _) as [?|_]; [lia|].
Qed.
Lemma Read_nil n : n ≠ 0%nat → (Read n (Rd [] [])).2 = None.
Proof. by destruct n. Qed.
Lemma Read_some b b' r n s : at_ b r s → over_data b n = Some b' → s ≠ [] ∨ n = 0%nat →
  ∃ r', Read n r = (r', Some (take n s)) ∧ at_ b' r' (drop n s).
Proof.
  intros Hr Hb' Hs. pose proof Hr as [H1 H2 H3]. unfold over_data in Hb'. destruct n as [|n]; [injection Hb' as <-; by exists r|].
  destruct (decide _) as [?|_]; [done|]. destruct Hs as [Hs|?]; [|done]. unfold Read. destruct (decide (b = 0%nat)) as [->|Hb].
  - rewrite take_0 in H1. rewrite drop_0 in H2. injection Hb' as <-. rewrite H1, H2. destruct s as [|c s]; [done|].
    destruct (decide _) as [Hn|Hn].
    + eexists. split; [done|]. replace (MaxInlineSize - S n)%nat with 0%nat by lia. split; simpl; [by rewrite take_0|done|lia].
    + rewrite (fill_at 0 r _ Hr) by lia. eexists. cbn [r_buf r_rest]. rewrite take_take. rewrite Nat.min_l by lia. split; [done|].
      split; cbn [r_buf r_rest]; [by rewrite skipn_firstn_comm|rewrite drop_drop; f_equal; lia|lia].
  - destruct (decide _) as [Hn|?]; [|done]. injection Hb' as <-. rewrite H1.
    destruct s as [|c s]; [done|]. destruct b as [|b]; [done|]. cbn [take]. change (c :: take b s) with (take (S b) (c :: s)).
    eexists. rewrite take_take. rewrite Nat.min_l by lia. split; [done|].
    split; cbn [r_buf r_rest]; [by rewrite skipn_firstn_comm|rewrite H2, drop_drop; f_equal; lia|lia].
Qed.

(** * Lines *)
Lemma trim_left_plain l : Forall (λ c, c ≠ CR ∧ c ≠ LF) l → trim_left l = l.
Proof.
  destruct l as [|c l]; intros H; [done|]. apply Forall_cons in H as [[H1 H2] _]. cbn [trim_left].
  by rewrite (proj2 (Ascii.eqb_neq c CR)), (proj2 (Ascii.eqb_neq c LF)) by done.
Qed.
Lemma TrimRight_line l : Forall (λ c, c ≠ CR ∧ c ≠ LF) l → TrimRight ((l ++ [CR]) ++ [LF]) = l.
Proof.
  intros H. unfold TrimRight. rewrite !rev_app_distr. cbn [rev app trim_left].
  change (LF =? LF)%char with true. change (CR =? CR)%char with true. rewrite orb_true_r. cbn [orb].
  rewrite trim_left_plain; [apply rev_involutive|]. apply Forall_rev in H. by rewrite <-reverse_rev || done.
Qed.
Definition hdr (mark : ascii) (n : Z) : bytes := mark :: itoa n ++ CRLF.
Lemma hdr_split mark n : hdr mark n = (mark :: itoa n ++ [CR]) ++ [LF].
Proof. unfold hdr, CRLF. cbn [app]. by rewrite <-app_assoc. Qed.
Lemma hdr_no_lf mark n : mark ≠ LF → Forall (λ c, c ≠ LF) (mark :: itoa n ++ [CR]).
Proof.
  intros Hm. constructor; [done|]. apply Forall_app. split; [|by apply Forall_singleton].
  eapply Forall_impl; [apply itoa_plain|]. by intros c [_ ?].
Qed.
Lemma udigits_length fuel : ∀ n, (length (udigits fuel n) ≤ fuel)%nat.
Proof.
  induction fuel as [|fuel IH]; intros n; [done|]. cbn [udigits]. destruct (_ <? _); [simpl; lia|].
  rewrite app_length. specialize (IH (n / 10)). simpl. lia.
Qed.
(** sizes that make accepts *)
Lemma hdr_length mark n : 0 ≤ n ≤ 2 ^ 44 → (length (hdr mark n) ≤ 48)%nat.
Proof.
  intros Hn. unfold hdr. cbn [length]. rewrite app_length. unfold itoa. rewrite (proj2 (Z.ltb_ge _ _)) by lia.
  pose proof (udigits_length (S (Z.to_nat (Z.log2 n))) n). assert (Z.log2 n ≤ 44) by (change 44 with (Z.log2 (2 ^ 44)); apply Z.log2_le_mono; lia).
  change (length CRLF) with 2%nat. lia.
Qed.
Lemma readLine_hdr b r mark n s : mark ≠ CR → mark ≠ LF → 0 ≤ n ≤ 2 ^ 44 → at_ b r (hdr mark n ++ s) →
  ∃ r', readLine r = Ok (r', Some (mark :: itoa n)) ∧ at_ (over_line b (length (hdr mark n))) r' s.
Proof.
  intros Hc Hl Hn Hr. pose proof (hdr_length mark n Hn) as Hh. pose proof Max_pos. rewrite hdr_split in Hh, Hr |- *. rewrite <-app_assoc in Hr.
  rewrite app_length in Hh |- *. cbn [length] in Hh |- *. unfold readLine.
  destruct (ReadBytes_line _ _ _ _ Hr) as (r' & -> & Hr'); [by apply hdr_no_lf|cbn [length]; lia|].
  exists r'. cbn [mbind res_bind fst snd]. split; [do 3 f_equal|rewrite Nat.add_1_r; exact Hr'].
  change (mark :: itoa n ++ [CR]) with ((mark :: itoa n) ++ [CR]). apply TrimRight_line.
  constructor; [done|]. apply itoa_plain.
Qed.
Lemma readLine_cut b r mark n k : mark ≠ LF → 0 ≤ n ≤ 2 ^ 44 → (k < length (hdr mark n))%nat → at_ b r (take k (hdr mark n)) →
  readLine r = Ok (Rd [] [], None).
Proof.
  intros Hl Hn Hk Hr. unfold readLine. pose proof (hdr_length mark n Hn). pose proof Max_pos.
  rewrite (ReadBytes_end _ _ _ Hr); [done| |rewrite take_length; lia].
  rewrite hdr_split, app_length in Hk. cbn [length] in Hk. rewrite hdr_split, take_app_le by (cbn [length] in *; lia).
  apply Forall_take. by apply hdr_no_lf.
Qed.
Lemma readLine_nil : readLine (Rd [] []) = Ok (Rd [] [], None).
Proof. reflexivity. Qed.
Lemma number_hdr mark n : in_int64 n → number mark (mark :: itoa n) = Ok n.
Proof.
  intros Hn. unfold number. rewrite (proj2 (Ascii.eqb_eq mark mark)) by done. by rewrite Atoi_itoa.
Qed.

Lemma dollar_cr : "$"%char ≠ CR. Proof. done. Qed.
Lemma dollar_lf : "$"%char ≠ LF. Proof. done. Qed.
Lemma star_cr : "*"%char ≠ CR. Proof. done. Qed.
Lemma star_lf : "*"%char ≠ LF. Proof. done. Qed.

(** * One argument *)
Definition arg_fits (a : bytes) : Prop := zlen a ≤ 2 ^ 44.
Lemma fits_int64 a : 0 ≤ a ≤ 2 ^ 44 → in_int64 a.
Proof. unfold in_int64, minInt64, maxInt64. lia. Qed.
Lemma fits_make a k : 0 ≤ a ≤ 2 ^ 44 → 0 ≤ k ≤ 16 → make_ok a k = true.
Proof. unfold make_ok, maxAlloc. intros. assert (a * k ≤ 2 ^ 44 * 16) by nia. lia. Qed.
Lemma bulk_hdr a : bulk a = hdr "$" (zlen a) ++ a ++ CRLF.
Proof. reflexivity. Qed.
Lemma bulk_length a : length (bulk a) = (length (hdr "$" (zlen a)) + length a + 2)%nat.
Proof. rewrite bulk_hdr, !app_length. simpl. lia. Qed.
Lemma zlen_nn {A} (l : list A) : 0 ≤ zlen l.
Proof. unfold zlen. lia. Qed.

Lemma read_arg_ok b b' r a s : arg_fits a → at_ b r (bulk a ++ s) → over_arg b a = Some b' →
  ∃ r', read_arg r = Ok (r', a) ∧ at_ b' r' s.
Proof.
  intros Ha Hr Hb. pose proof (zlen_nn a). unfold arg_fits in Ha. rewrite bulk_hdr, <-app_assoc in Hr. unfold read_arg.
  destruct (readLine_hdr b r "$" (zlen a) _ dollar_cr dollar_lf ltac:(lia) Hr) as (r0 & -> & Hr0). cbn [mbind res_bind deref fst snd].
  rewrite number_hdr by (apply fits_int64; lia). cbn [mbind res_bind]. rewrite fits_make by (unfold string_size; lia). cbn [negb].
  replace (Z.to_nat (zlen a)) with (length a) by (unfold zlen; lia). unfold over_arg in Hb. change (bulk_header a) with (hdr "$" (zlen a)) in Hb.
  destruct (over_data _ (length a)) as [b1|] eqn:Hb1; [|done]. cbn [mbind option_bind] in Hb.
  destruct (Read_some _ _ _ _ _ Hr0 Hb1) as (r1 & -> & Hr1); [left; by destruct a|].
  cbn [mbind res_bind deref fst snd]. rewrite <-app_assoc, drop_app in Hr1.
  destruct (Read_some _ _ _ _ _ Hr1 Hb) as (r2 & -> & Hr2); [by left|]. cbn [mbind res_bind deref fst snd].
  rewrite <-app_assoc, take_app, Nat.sub_diag, app_nil_r. exists r2. split; [done|exact Hr2].
Qed.
(** a cut argument is accepted only if just its last byte is missing *)
Lemma read_arg_cut b b' r a k : arg_fits a → (k < length (bulk a))%nat → at_ b r (take k (bulk a)) → over_arg b a = Some b' →
  (S k = length (bulk a) ∧ read_arg r = Ok (Rd [] [], a)) ∨
  ((S k < length (bulk a))%nat ∧ read_arg r = Panic).
Proof.
  intros Ha Hk Hr Hb. pose proof (zlen_nn a). unfold arg_fits in Ha. rewrite bulk_length in Hk |- *. rewrite bulk_hdr in Hr.
  unfold read_arg. set (h := hdr "$" (zlen a)) in *.
  destruct (decide (k < length h)%nat) as [Hh|Hh].
  { right. split; [lia|]. rewrite take_app_le in Hr by lia. by rewrite (readLine_cut b r "$" (zlen a) k dollar_lf ltac:(lia) Hh Hr). }
  rewrite take_app_ge in Hr by lia. set (k' := (k - length h)%nat) in *.
  destruct (readLine_hdr b r "$" (zlen a) _ dollar_cr dollar_lf ltac:(lia) Hr) as (r0 & -> & Hr0). cbn [mbind res_bind deref fst snd].
  rewrite number_hdr by (apply fits_int64; lia). cbn [mbind res_bind]. rewrite fits_make by (unfold string_size; lia). cbn [negb].
  replace (Z.to_nat (zlen a)) with (length a) by (unfold zlen; lia). unfold over_arg in Hb. change (bulk_header a) with h in Hb. change (hdr "$" (zlen a)) with h in Hr0.
  destruct (over_data _ (length a)) as [b1|] eqn:Hb1; [|done]. cbn [mbind option_bind] in Hb.
  destruct (decide (k' ≤ length a)%nat) as [Hka|Hka].
  - right. split; [lia|]. rewrite take_app_le in Hr0 by lia.
    destruct (decide (take k' a = [] ∧ length a ≠ 0%nat)) as [[H1 H2]|Hn].
    { rewrite H1 in Hr0. apply at_nil in Hr0 as ->. by rewrite (Read_nil _ H2). }
    destruct (Read_some _ _ _ _ _ Hr0 Hb1) as (r1 & -> & Hr1); [destruct (decide (length a = 0%nat)); [by right|left; tauto]|].
    cbn [mbind res_bind deref fst snd]. rewrite drop_ge in Hr1 by (rewrite take_length; lia). apply at_nil in Hr1 as ->.
    by rewrite Read_nil.
  - left. split; [lia|]. assert (k' = (length a + 1)%nat) as Ek by lia. rewrite Ek in *. rewrite take_app_ge in Hr0 by lia.
    replace (length a + 1 - length a)%nat with 1%nat in Hr0 by lia.
    change (take 1 CRLF) with [CR] in Hr0.
    destruct (Read_some _ _ _ _ _ Hr0 Hb1) as (r1 & -> & Hr1); [left; by destruct a|].
    cbn [mbind res_bind deref fst snd]. rewrite drop_app in Hr1.
    destruct (Read_some _ _ _ _ _ Hr1 Hb) as (r2 & -> & Hr2); [by left|]. cbn [mbind res_bind deref fst snd].
    change (drop 2 [CR]) with (@nil ascii) in Hr2. apply at_nil in Hr2 as ->.
    by rewrite take_app, Nat.sub_diag, app_nil_r.
Qed.

(** * One command *)
Lemma read_args_ok : ∀ l b b' r s, Forall arg_fits l → at_ b r (concat (map bulk l) ++ s) → over_args b l = Some b' →
  ∃ r', read_args (length l) r = Ok (r', l) ∧ at_ b' r' s.
Proof.
  induction l as [|a l IH]; intros b b' r s Hl Hr Hb; [injection Hb as <-; by exists r|]. apply Forall_cons in Hl as [Ha Hl].
  cbn [over_args] in Hb. destruct (over_arg b a) as [b1|] eqn:Hb1; [|done]. cbn [mbind option_bind] in Hb.
  cbn [map concat] in Hr. rewrite <-app_assoc in Hr. destruct (read_arg_ok _ _ _ _ _ Ha Hr Hb1) as (r1 & E1 & Hr1).
  destruct (IH _ _ _ _ Hl Hr1 Hb) as (r2 & E2 & Hr2). exists r2. split; [|done].
  cbn [length read_args]. rewrite E1. cbn [mbind res_bind fst snd]. by rewrite E2.
Qed.
Lemma bulk_long a : (2 ≤ length (bulk a))%nat.
Proof. rewrite bulk_length. lia. Qed.
Lemma at_end b : (b ≤ MaxInlineSize)%nat → at_ b (Rd [] []) [].
Proof. intros Hb. split; simpl; [by rewrite take_nil|by rewrite drop_nil|done]. Qed.
Lemma over_arg_max b a b' : (b ≤ MaxInlineSize)%nat → over_arg b a = Some b' → (b' ≤ MaxInlineSize)%nat.
Proof.
  intros Hb. unfold over_arg. destruct (over_data (over_line b (length (bulk_header a))) (length a)) as [b1|] eqn:H1; [|done].
  cbn [mbind option_bind]. apply over_data_max. eapply over_data_max; [|exact H1]. by apply over_line_max.
Qed.
Lemma read_args_cut : ∀ l b b' r k, Forall arg_fits l → (k < length (concat (map bulk l)))%nat →
  at_ b r (take k (concat (map bulk l))) → over_args b l = Some b' →
  (S k = length (concat (map bulk l)) ∧ read_args (length l) r = Ok (Rd [] [], l)) ∨
  ((S k < length (concat (map bulk l)))%nat ∧ read_args (length l) r = Panic).
Proof.
  induction l as [|a l IH]; intros b b' r k Hl Hk Hr Hb; [simpl in Hk; lia|]. apply Forall_cons in Hl as [Ha Hl].
  cbn [over_args] in Hb. destruct (over_arg b a) as [b1|] eqn:Hb1; [|done]. cbn [mbind option_bind] in Hb.
  cbn [map concat] in *. rewrite app_length in *. cbn [length read_args].
  destruct (decide (k < length (bulk a))%nat) as [Hbk|Hbk].
  - rewrite take_app_le in Hr by lia. destruct (read_arg_cut _ _ _ _ _ Ha Hbk Hr Hb1) as [[Ek E1]|[Hlt E1]].
    + rewrite E1. cbn [mbind res_bind fst snd]. destruct l as [|a' l].
      { left. cbn [map concat length]. split; [rewrite Ek; by rewrite Nat.add_0_r|]. done. }
      right. pose proof (bulk_long a') as Hbb. assert (Hlen : (0 < length (concat (map bulk (a' :: l))))%nat).
      { cbn [map concat]. rewrite app_length. lia. }
      split; [lia|]. destruct (IH b1 b' (Rd [] []) 0%nat Hl Hlen) as [[H0 _]|[_ E2]]; [|done| |by rewrite E2].
      { rewrite take_0. apply at_end. eapply over_arg_max; [apply Hr|exact Hb1]. }
      cbn [map concat] in H0. rewrite app_length in H0. lia.
    + right. split; [lia|]. by rewrite E1.
  - rewrite take_app_ge in Hr by lia. destruct (read_arg_ok _ _ _ _ _ Ha Hr Hb1) as (r1 & E1 & Hr1). rewrite E1.
    cbn [mbind res_bind fst snd]. destruct (IH b1 b' r1 (k - length (bulk a))%nat Hl) as [[H0 E2]|[H0 E2]]; [lia|done|done|..].
    + left. split; [lia|]. by rewrite E2.
    + right. split; [lia|]. by rewrite E2.
Qed.
Definition cmd_fits (args : list bytes) : Prop := zlen args ≤ 2 ^ 44 ∧ Forall arg_fits args.
Lemma encode_hdr args : encode args = hdr "*" (zlen args) ++ concat (map bulk args).
Proof. reflexivity. Qed.
Lemma read_command_ok b b' r args s : cmd_fits args → at_ b r (encode args ++ s) → over_cmd b args = Some b' →
  ∃ r', read_command r = Ok (r', Some args) ∧ at_ b' r' s.
Proof.
  intros [Hn Hargs] Hr Hb. pose proof (zlen_nn args). rewrite encode_hdr, <-app_assoc in Hr. unfold read_command.
  destruct (readLine_hdr b r "*" (zlen args) _ star_cr star_lf ltac:(lia) Hr) as (r0 & -> & Hr0). cbn [mbind res_bind fst snd].
  rewrite number_hdr by (apply fits_int64; lia). cbn [mbind res_bind]. rewrite fits_make by (unfold string_size; lia). cbn [negb].
  replace (Z.to_nat (zlen args)) with (length args) by (unfold zlen; lia). destruct (read_args_ok _ _ _ _ _ Hargs Hr0 Hb) as (r' & -> & Hr').
  cbn [mbind res_bind fst snd]. eauto.
Qed.
Lemma read_command_nil : ∃ r', read_command (Rd [] []) = Ok (r', None).
Proof. unfold read_command. rewrite readLine_nil. eauto. Qed.
Lemma encode_length args : length (encode args) = (length (array_header args) + length (concat (map bulk args)))%nat.
Proof. unfold encode. by rewrite app_length. Qed.
Lemma array_header_long args : (3 ≤ length (array_header args))%nat.
Proof.
  unfold array_header. cbn [length]. rewrite app_length. pose proof (itoa_nonempty (zlen args)) as Hi.
  destruct (itoa (zlen args)); [done|simpl; lia].
Qed.
Lemma read_command_cut b b' r args k : cmd_fits args → (k < length (encode args))%nat → at_ b r (take k (encode args)) →
  over_cmd b args = Some b' →
  (k < length (array_header args))%nat ∧ (∃ r', read_command r = Ok (r', None)) ∨
  S k = length (encode args) ∧ read_command r = Ok (Rd [] [], Some args) ∨
  ((length (array_header args) ≤ k)%nat ∧ (S k < length (encode args))%nat ∧ read_command r = Panic).
Proof.
  intros [Hn Hargs] Hk Hr Hb. pose proof (zlen_nn args). rewrite encode_length in *. rewrite encode_hdr in Hr.
  change (hdr "*" (zlen args)) with (array_header args) in Hr. unfold read_command.
  destruct (decide (k < length (array_header args))%nat) as [Hh|Hh].
  { left. split; [done|]. rewrite take_app_le in Hr by lia. rewrite (readLine_cut b r "*" (zlen args) k star_lf ltac:(lia) Hh Hr). cbn [mbind res_bind fst snd]. eauto. }
  right. rewrite take_app_ge in Hr by lia. change (array_header args) with (hdr "*" (zlen args)) in Hr at 1.
  destruct (readLine_hdr b r "*" (zlen args) _ star_cr star_lf ltac:(lia) Hr) as (r0 & -> & Hr0). cbn [mbind res_bind fst snd].
  rewrite number_hdr by (apply fits_int64; lia). cbn [mbind res_bind]. rewrite fits_make by (unfold string_size; lia). cbn [negb].
  replace (Z.to_nat (zlen args)) with (length args) by (unfold zlen; lia).
  destruct (read_args_cut args _ _ r0 (k - length (array_header args)) Hargs ltac:(lia) Hr0 Hb) as [[H0 E2]|[H0 E2]].
  - left. split; [lia|]. by rewrite E2.
  - right. split; [lia|]. split; [lia|]. by rewrite E2.
Qed.
