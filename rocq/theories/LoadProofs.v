(** Logs with an argument that crosses the end of the reader's buffer are not read as
    they were written; the text of a log determines its commands. *)
From Verif Require Import Base Strconv RespSpec ServerModel CommandModel SystemModel AofModel AofProofs1 AofProofs2.
From Coq Require Import ZifyBool ZifyNat.
Lemma Max_Z : Z.of_nat MaxInlineSize = 65536.
Proof. unfold MaxInlineSize. lia. Qed.
Local Opaque MaxInlineSize.

(** * The commands of a log *)
Lemma itoa_inj n n' : 0 ≤ n → 0 ≤ n' → itoa n = itoa n' → n = n'.
Proof.
  intros H1 H2 HE. unfold itoa in HE. rewrite !(proj2 (Z.ltb_ge _ _)) in HE by lia.
  destruct (udigits_spec (S (Z.to_nat (Z.log2 n))) n) as (P1 & _ & _); [lia|by apply udigits_log|].
  destruct (udigits_spec (S (Z.to_nat (Z.log2 n'))) n') as (P2 & _ & _); [lia|by apply udigits_log|].
  rewrite HE, P2 in P1. by injection P1.
Qed.
Lemma hdr_inj mark n n' s s' : mark ≠ LF → 0 ≤ n → 0 ≤ n' → hdr mark n ++ s = hdr mark n' ++ s' → n = n' ∧ s = s'.
Proof.
  intros Hm Hn Hn' HE. rewrite !hdr_split, <-!app_assoc in HE. apply (f_equal split_lf) in HE.
  change ([LF] ++ s) with (LF :: s) in HE. change ([LF] ++ s') with (LF :: s') in HE.
  rewrite !split_lf_app in HE by (by apply hdr_no_lf). injection HE as HE ->. split; [|done].
  apply app_inj_tail in HE as [HE _]. apply app_inj_tail in HE as [HE _]. by apply itoa_inj.
Qed.
Lemma bulk_inj a b s s' : bulk a ++ s = bulk b ++ s' → a = b ∧ s = s'.
Proof.
  rewrite !bulk_hdr, <-!app_assoc. intros HE. apply hdr_inj in HE as [HL HE]; [|done|apply zlen_nn..].
  apply app_inj_1 in HE as [-> HE]; [|unfold zlen in HL; lia]. by apply app_inv_head in HE.
Qed.
Lemma bulks_inj : ∀ l l' s s', length l = length l' → concat (map bulk l) ++ s = concat (map bulk l') ++ s' → l = l' ∧ s = s'.
Proof.
  induction l as [|a l IH]; intros [|b l'] s s' HL HE; try done. cbn [map concat] in HE. rewrite <-!app_assoc in HE.
  apply bulk_inj in HE as [-> HE]. injection HL as HL. by destruct (IH _ _ _ HL HE) as [-> ->].
Qed.
Lemma encode_inj c c' s s' : encode c ++ s = encode c' ++ s' → c = c' ∧ s = s'.
Proof.
  rewrite !encode_hdr, <-!app_assoc. intros HE. apply hdr_inj in HE as [HL HE]; [|done|apply zlen_nn..].
  apply bulks_inj in HE; [done|]. unfold zlen in HL. lia.
Qed.
Lemma log_file_inj : ∀ cmds cmds', log_file cmds = log_file cmds' → cmds = cmds'.
Proof.
  assert (Hnil : ∀ c cmds, log_file (c :: cmds) ≠ []).
  { intros c cmds HE. apply (f_equal length) in HE. rewrite log_cons, app_length in HE. pose proof (encode_pos c). simpl in HE. lia. }
  induction cmds as [|c cmds IH]; intros [|c' cmds'] HE; [done|by destruct (Hnil c' cmds')|by destruct (Hnil c cmds)|].
  rewrite !log_cons in HE. apply encode_inj in HE as [-> HE]. f_equal. by apply IH.
Qed.

(** * Short reads *)
Lemma Read_short b r n s : at_ b r s → over_data b n = None → (n ≤ length s)%nat →
  ∃ r', Read n r = (r', Some (take b s)) ∧ at_ 0 r' (drop b s) ∧ (0 < b < n)%nat.
Proof.
  intros [H1 H2 H3] Hn Hs. unfold over_data in Hn. destruct n as [|n]; [done|]. destruct (decide _) as [?|_]; [done|].
  destruct (decide (b = 0%nat)) as [?|Hb]; [done|]. destruct (decide _) as [?|Hlt]; [done|]. unfold Read. rewrite H1.
  destruct s as [|c s]; [simpl in Hs; lia|]. destruct b as [|b]; [done|].
  exists (Rd [] (r_rest r)). split; [|split; [|lia]].
  - cbn [take drop]. by rewrite (take_ge (take b s) n), (drop_ge (take b s) n) by (rewrite take_length; lia).
  - split; cbn [r_buf r_rest]; [by rewrite take_0|done|lia].
Qed.
Lemma readLine_lf r s : at_ 0 r (LF :: s) → ∃ r', readLine r = Ok (r', Some []).
Proof.
  intros Hr. destruct (ReadBytes_line 0 r [] s Hr) as (r' & HE & _); [constructor|pose proof Max_pos; simpl; lia|].
  unfold readLine. rewrite HE. eauto.
Qed.
Lemma read_arg_lf r s : at_ 0 r (LF :: s) → read_arg r = Panic.
Proof. intros Hr. unfold read_arg. by destruct (readLine_lf r s Hr) as (r' & ->). Qed.
Lemma read_command_lf r s : at_ 0 r (LF :: s) → read_command r = Panic.
Proof. intros Hr. unfold read_command. by destruct (readLine_lf r s Hr) as (r' & ->). Qed.
Definition text (a : bytes) : Prop := NUL ∉ a.
Lemma read_arg_bad b r a s : arg_fits a → text a → at_ b r (bulk a ++ s) → over_arg b a = None →
  ∃ r' x, read_arg r = Ok (r', x) ∧ (x = a → at_ 0 r' (LF :: s)).
Proof.
  intros Ha Ht Hr Hb. pose proof (zlen_nn a). unfold arg_fits in Ha. rewrite bulk_hdr, <-app_assoc in Hr. unfold read_arg.
  destruct (readLine_hdr b r "$" (zlen a) _ dollar_cr dollar_lf ltac:(lia) Hr) as (r0 & -> & Hr0). cbn [mbind res_bind deref fst snd].
  rewrite number_hdr by (apply fits_int64; lia). cbn [mbind res_bind]. rewrite fits_make by (unfold string_size; lia). cbn [negb].
  replace (Z.to_nat (zlen a)) with (length a) by (unfold zlen; lia). unfold over_arg in Hb. change (bulk_header a) with (hdr "$" (zlen a)) in Hb.
  destruct (over_data _ (length a)) as [b1|] eqn:Hb1; cbn [mbind option_bind] in Hb.
  - destruct (Read_some _ _ _ _ _ Hr0 Hb1) as (r1 & -> & Hr1); [left; by destruct a|].
    cbn [mbind res_bind deref fst snd]. rewrite <-app_assoc, drop_app in Hr1.
    destruct (Read_short _ _ _ _ Hr1 Hb) as (r2 & -> & Hr2 & Hlt); [rewrite app_length; simpl; lia|]. cbn [mbind res_bind deref fst snd].
    eexists r2, _. split; [done|]. intros _. assert (b1 = 1)%nat as -> by lia. exact Hr2.
  - destruct (Read_short _ _ _ _ Hr0 Hb1) as (r1 & -> & Hr1 & Hlt); [rewrite !app_length; lia|].
    cbn [mbind res_bind deref fst snd]. set (b1 := over_line b (length (hdr "$" (zlen a)))) in *.
    rewrite <-app_assoc in Hr1 |- *. rewrite drop_app_le in Hr1 by lia. rewrite take_app_le by lia.
    destruct (Read_some 0 (MaxInlineSize - 2)%nat r1 2 _ Hr1) as (r2 & -> & Hr2); [done|left|].
    { intros HE. apply (f_equal length) in HE. rewrite app_length, drop_length in HE. simpl in HE. lia. }
    cbn [mbind res_bind deref fst snd]. eexists r2, _. split; [done|]. intros HE. exfalso. apply Ht. rewrite <-HE.
    apply elem_of_app. right. rewrite take_length_le by lia. destruct (length a - b1)%nat as [|m] eqn:Hm; [lia|]. by left.
Qed.
Lemma read_args_bad : ∀ l b r s, Forall arg_fits l → Forall text l → at_ b r (concat (map bulk l) ++ s) → over_args b l = None →
  ∀ r', read_args (length l) r = Ok (r', l) → at_ 0 r' (LF :: s).
Proof.
  induction l as [|a l IH]; intros b r s Hl Ht Hr Hb r' HR; [done|]. apply Forall_cons in Hl as [Ha Hl]. apply Forall_cons in Ht as [Hta Ht].
  cbn [map concat] in Hr. rewrite <-app_assoc in Hr. cbn [over_args] in Hb. cbn [length read_args] in HR.
  destruct (over_arg b a) as [b1|] eqn:Hb1; cbn [mbind option_bind] in Hb.
  - destruct (read_arg_ok _ _ _ _ _ Ha Hr Hb1) as (r1 & E1 & Hr1). rewrite E1 in HR. cbn [mbind res_bind fst snd] in HR.
    destruct (read_args (length l) r1) as [[r2 l2]| |] eqn:E2; try done. cbn [mbind res_bind fst snd] in HR. injection HR as -> ->.
    by eapply IH.
  - destruct (read_arg_bad _ _ _ _ Ha Hta Hr Hb1) as (r1 & x & E1 & Hx). rewrite E1 in HR. cbn [mbind res_bind fst snd] in HR.
    destruct (read_args (length l) r1) as [[r2 l2]| |] eqn:E2; try done. cbn [mbind res_bind fst snd] in HR. injection HR as -> -> ->.
    specialize (Hx eq_refl). destruct l as [|a' l]; [by injection E2 as <-|]. cbn [length read_args] in E2.
    cbn [map concat] in Hx. by rewrite (read_arg_lf _ _ Hx) in E2.
Qed.
Lemma read_command_bad b r c s : cmd_fits c → Forall text c → at_ b r (encode c ++ s) → over_cmd b c = None →
  ∀ r', read_command r = Ok (r', Some c) → at_ 0 r' (LF :: s).
Proof.
  intros [Hn Hargs] Ht Hr Hb r' HR. pose proof (zlen_nn c). rewrite encode_hdr, <-app_assoc in Hr. unfold read_command in HR.
  destruct (readLine_hdr b r "*" (zlen c) _ star_cr star_lf ltac:(lia) Hr) as (r0 & E0 & Hr0). rewrite E0 in HR. cbn [mbind res_bind fst snd] in HR.
  rewrite number_hdr in HR by (apply fits_int64; lia). cbn [mbind res_bind] in HR. rewrite fits_make in HR by (unfold string_size; lia). cbn [negb] in HR.
  replace (Z.to_nat (zlen c)) with (length c) in HR by (unfold zlen; lia).
  destruct (read_args (length c) r0) as [[r2 l2]| |] eqn:E2; try done. cbn [mbind res_bind fst snd] in HR. injection HR as -> ->.
  by eapply read_args_bad.
Qed.

(** * The loader *)
Definition collect (j : nat) (args : list bytes) (s : list (list bytes)) : res (list (list bytes)) := Ok (s ++ [args]).
Lemma collect_prefix fuel : ∀ j r s, s `prefix_of` (load_loop collect fuel j r s).1.
Proof.
  induction fuel as [|fuel IH]; intros j r s; [done|]. rewrite load_loop_S. destruct (read_command r) as [[r' [c|]]| |]; [|done..].
  cbn [collect]. specialize (IH (j + 1)%nat r' (s ++ [c])). etrans; [|exact IH]. by exists [c].
Qed.
Lemma load_bad : ∀ cmds fuel j b r s, Forall (λ c, c ≠ [] ∧ cmd_fits c) cmds → Forall (Forall text) cmds →
  at_ b r (log_file cmds) → over_cmds b cmds = None → load_loop collect fuel j r s ≠ (s ++ cmds, Ok tt).
Proof.
  induction cmds as [|c cmds IH]; intros fuel j b r s Hf Ht Hr Hov HE; [done|]. apply Forall_cons in Hf as [[_ Hc] Hf].
  apply Forall_cons in Ht as [Htc Ht]. rewrite log_cons in Hr. cbn [over_cmds] in Hov.
  destruct fuel as [|fuel]; [done|]. rewrite load_loop_S in HE.
  destruct (over_cmd b c) as [b1|] eqn:Hb1; cbn [mbind option_bind] in Hov.
  - destruct (read_command_ok _ _ _ _ _ Hc Hr Hb1) as (r1 & E1 & Hr1). rewrite E1 in HE. cbn [collect] in HE.
    eapply (IH fuel (j + 1)%nat b1 r1 (s ++ [c])); try done. by rewrite <-app_assoc.
  - destruct (read_command r) as [[r1 [c1|]]| |] eqn:E1; try done.
    2: { injection HE as HE. apply (f_equal length) in HE. rewrite app_length in HE. simpl in HE. lia. }
    cbn [collect] in HE. pose proof (collect_prefix fuel (j + 1) r1 (s ++ [c1])) as [t Hp]. rewrite HE in Hp. cbn [fst] in Hp.
    rewrite <-app_assoc in Hp. apply app_inv_head in Hp. injection Hp as -> _.
    pose proof (read_command_bad _ _ _ _ Hc Htc Hr Hb1 _ E1) as Hlf.
    destruct fuel as [|fuel]; [done|]. rewrite load_loop_S in HE. by rewrite (read_command_lf _ _ Hlf) in HE.
Qed.

(** * Readable logs *)
(** a log that is loaded as it was written: it has at most 64 KiB, or no argument
    crosses the end of the buffer (see [over_data]); [C37_exact] *)
Definition readable (file : bytes) : Prop :=
  zlen file ≤ 65536 ∨ (zlen file ≤ 2 ^ 41 ∧ ∃ cmds, file = log_file cmds ∧ is_Some (over_cmds 0 cmds)).
Lemma readable_small file : readable file → zlen file ≤ 2 ^ 41.
Proof. intros [H|[H _]]; lia. Qed.
Lemma readable_ok cmds : Forall (λ c, c ≠ []) cmds → readable (log_file cmds) → log_ok cmds.
Proof.
  intros Hne [H|(H & cmds' & HE & Hov)]; [by apply short_log_ok|]. apply log_file_inj in HE as <-. split; [done|]. split; [lia|done].
Qed.
Lemma log_ok_readable cmds : log_ok cmds → zlen (log_file cmds) ≤ 2 ^ 41 → readable (log_file cmds).
Proof. intros (_ & _ & H) Hs. right. split; [done|]. by exists cmds. Qed.
Lemma readable_take n cmds : Forall (λ c, c ≠ []) cmds → readable (log_file cmds) → readable (log_file (take n cmds)).
Proof.
  intros Hne Hr. apply log_ok_readable; [apply log_ok_take; by apply readable_ok|]. apply readable_small in Hr.
  rewrite <-(take_drop n cmds), log_app in Hr. unfold zlen in *. rewrite app_length in Hr. lia.
Qed.
(** any log becomes unreadable by one more SET *)
Definition big (n : Z) : bytes := replicate (Z.to_nat n) "x"%char.
Lemma big_len n : 0 ≤ n → zlen (big n) = n.
Proof. intros Hn. unfold zlen, big. rewrite replicate_length. lia. Qed.
Local Opaque big.
Lemma over_big b n : 65536 < n → (b ≤ MaxInlineSize)%nat → over_line b (length (hdr "$" n)) ≠ 0%nat → over_arg b (big n) = None.
Proof.
  intros Hn Hb H0. unfold over_arg. change (bulk_header (big n)) with (hdr "$" (zlen (big n))). rewrite big_len by lia.
  set (b1 := over_line b (length (hdr "$" n))) in *. assert (Hb1 : (b1 ≤ MaxInlineSize)%nat) by (by apply over_line_max).
  pose proof Max_Z as HM.
  pose proof (big_len n ltac:(lia)) as HL. unfold zlen in HL.
  assert (over_data b1 (length (big n)) = None) as ->; [|reflexivity].
  unfold over_data. repeat (destruct (decide _); [lia|]). reflexivity.
Qed.
Lemma over_cmds_max cmds : ∀ b b', (b ≤ MaxInlineSize)%nat → over_cmds b cmds = Some b' → (b' ≤ MaxInlineSize)%nat.
Proof.
  assert (Hargs : ∀ l b b', (b ≤ MaxInlineSize)%nat → over_args b l = Some b' → (b' ≤ MaxInlineSize)%nat).
  { induction l as [|a l IH]; intros b b' Hb HE; cbn [over_args] in HE; [by injection HE as <-|].
    destruct (over_arg b a) as [b1|] eqn:H1; [|done]. cbn [mbind option_bind] in HE. eapply IH; [|exact HE]. by eapply over_arg_max. }
  induction cmds as [|c cmds IH]; intros b b' Hb HE; cbn [over_cmds] in HE; [by injection HE as <-|].
  destruct (over_cmd b c) as [b1|] eqn:H1; [|done]. cbn [mbind option_bind] in HE. eapply IH; [|exact HE].
  eapply Hargs; [|exact H1]. by apply over_line_max.
Qed.
Lemma over_one_more cmds key : ∃ n, n ∈ [65537; 100000] ∧ over_cmds 0 (cmds ++ [[B "set"; key; big n]]) = None.
Proof.
  destruct (over_cmds 0 cmds) as [b|] eqn:Hb.
  2: { exists 65537. split; [by left|]. by rewrite over_cmds_app, Hb. }
  assert (Hmax : (b ≤ MaxInlineSize)%nat) by (eapply over_cmds_max; [|exact Hb]; lia).
  pose proof Max_Z as HM.
  assert (Hred : ∀ n, over_cmds 0 (cmds ++ [[B "set"; key; big n]]) =
    (b ← (b ← over_arg (over_line b (length (hdr "*" 3))) (B "set"); over_arg b key); over_arg b (big n))).
  { intros n. rewrite over_cmds_app, Hb. cbn [mbind option_bind over_cmds over_args]. unfold over_cmd.
    change (array_header [B "set"; key; big n]) with (hdr "*" 3). cbn [over_args].
    destruct (over_arg _ (B "set")) as [b1|]; [|done]. cbn [mbind option_bind]. destruct (over_arg b1 key) as [b2|]; [|done]. cbn [mbind option_bind].
    by destruct (over_arg b2 (big n)). }
  destruct (b ← over_arg (over_line b (length (hdr "*" 3))) (B "set"); over_arg b key) as [b2|] eqn:Hb2.
  2: { exists 65537. split; [by left|]. rewrite Hred. reflexivity. }
  assert (H2 : (b2 ≤ MaxInlineSize)%nat).
  { destruct (over_arg _ (B "set")) as [b1|] eqn:Hb1; [|done]. cbn [mbind option_bind] in Hb2. eapply over_arg_max; [|exact Hb2].
    eapply over_arg_max; [|exact Hb1]. by apply over_line_max. }
  destruct (decide (over_line b2 (length (hdr "$" 65537)) = 0%nat)) as [H0|H0].
  - exists 100000. split; [right; by left|]. rewrite Hred. cbn [mbind option_bind]. apply over_big; [lia|done|].
    change (length (hdr "$" 65537)) with 8%nat in H0. change (length (hdr "$" 100000)) with 9%nat.
    unfold over_line in *. destruct (decide (8 ≤ b2)%nat); [|lia]. destruct (decide (9 ≤ b2)%nat); lia.
  - exists 65537. split; [by left|]. rewrite Hred. cbn [mbind option_bind]. by apply over_big.
Qed.
