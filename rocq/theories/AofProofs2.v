(** Loading a log, complete or cut. *)
From Verif Require Import Base Strconv RespSpec ServerModel CommandModel SystemModel AofModel AofProofs1.
From Coq Require Import ZifyBool ZifyNat.

(** ** Specification: executing a list of commands *)
Fixpoint replay {S} (exec : nat → list bytes → S → res S) (j : nat) (cmds : list (list bytes)) (s : S) : S * res unit :=
  match cmds with
  | [] => (s, Ok tt)
  | c :: cmds =>
      match exec j c s with
      | Ok s' => replay exec (j + 1) cmds s'
      | Panic => (s, Panic)
      | OutOfFuel => (s, OutOfFuel)
      end
  end.
(** the text of a log *)
Definition log_file (cmds : list (list bytes)) : bytes := concat (map encode cmds).
Definition then_ {S} (x : S * res unit) (e : res unit) : S * res unit :=
  match x with (s, Ok _) => (s, e) | (s, r) => (s, r) end.

Lemma log_cons c cmds : log_file (c :: cmds) = encode c ++ log_file cmds.
Proof. done. Qed.
Lemma log_app cmds cmds' : log_file (cmds ++ cmds') = log_file cmds ++ log_file cmds'.
Proof. unfold log_file. by rewrite map_app, concat_app. Qed.
Lemma encode_pos c : (3 ≤ length (encode c))%nat.
Proof. rewrite encode_length. pose proof (array_header_long c). lia. Qed.
Lemma log_length_ge cmds : (length cmds ≤ length (log_file cmds))%nat.
Proof.
  induction cmds as [|c cmds IH]; [done|]. rewrite log_cons, app_length. pose proof (encode_pos c). simpl. lia.
Qed.
Lemma zlen_le {A} (l : list A) n : (length l ≤ n)%nat → Z.of_nat n ≤ 2 ^ 44 → zlen l ≤ 2 ^ 44.
Proof. unfold zlen. lia. Qed.
Lemma concat_bulk_ge l : (length l ≤ length (concat (map bulk l)))%nat ∧ Forall (λ a, (length a ≤ length (concat (map bulk l)))%nat) l.
Proof.
  induction l as [|a l [IH1 IH2]]; [by split; [|apply Forall_nil_2]|]. cbn [map concat length]. rewrite app_length, bulk_length.
  split; [lia|]. constructor; [lia|]. eapply Forall_impl; [exact IH2|]. intros b. simpl. lia.
Qed.
Lemma encode_fits c : zlen (encode c) ≤ 2 ^ 44 → cmd_fits c.
Proof.
  intros HM. pose proof (le_n (length (encode c))) as Hc. rewrite encode_length in Hc at 1. destruct (concat_bulk_ge c) as [H1 H2]. unfold zlen in HM.
  split; [eapply zlen_le; [|exact HM]; lia|]. eapply Forall_impl; [exact H2|]. intros a Ha. cbv beta in Ha.
  unfold arg_fits. eapply zlen_le; [|exact HM]. lia.
Qed.

Section load.
  Context {S : Type} (exec : nat → list bytes → S → res S).
  Lemma load_loop_S fuel j r s : load_loop exec (Datatypes.S fuel) j r s =
    match read_command r with
    | Ok (_, None) => (s, Ok tt)
    | Ok (r', Some args) =>
        match exec j args s with
        | Ok s' => load_loop exec fuel (j + 1)%nat r' s'
        | Panic => (s, Panic)
        | OutOfFuel => (s, OutOfFuel)
        end
    | Panic => (s, Panic)
    | OutOfFuel => (s, OutOfFuel)
    end.
  Proof. reflexivity. Qed.
  Lemma load_nil fuel j s : load_loop exec (Datatypes.S fuel) j (Rd [] []) s = (s, Ok tt).
  Proof. rewrite load_loop_S. by destruct read_command_nil as (r' & ->). Qed.
  (** the loader at the beginning of the rest of a cut log *)
  Lemma load_cut : ∀ cmds fuel j k b r s, Forall (λ c, c ≠ [] ∧ cmd_fits c) cmds → (length (take k (log_file cmds)) < fuel)%nat →
    at_ b r (take k (log_file cmds)) → is_Some (over_cmds b cmds) →
    ∃ n e, load_loop exec fuel j r s = then_ (replay exec j (take n cmds) s) e ∧
      (n ≤ length cmds)%nat ∧ (length (log_file (take n cmds)) ≤ k + 1)%nat ∧
      (match cmds !! n with
       | None => e = Ok tt
       | Some c => (k + 1 < length (log_file (take n cmds)) + length (encode c))%nat ∧
           e = if decide (k < length (log_file (take n cmds)) + length (array_header c))%nat then Ok tt else Panic
       end).
  Proof.
    induction cmds as [|c cmds IH]; intros fuel j k b r s Hf Hfuel Hr Hov.
    { destruct fuel as [|fuel]; [simpl in Hfuel; lia|]. exists 0%nat, (Ok tt).
      change (log_file []) with (@nil ascii) in *. rewrite take_nil in Hr. apply at_nil in Hr as ->. rewrite load_nil. cbn [take replay then_]. split; [done|]. split; [done|]. split; [simpl; lia|done]. }
    destruct fuel as [|fuel]; [simpl in Hfuel; lia|]. apply Forall_cons in Hf as [[Hne Hc] Hf].
    rewrite log_cons in Hr, Hfuel. rewrite take_length, app_length in Hfuel. pose proof (encode_pos c) as Hpos. pose proof (array_header_long c) as Hh.
    cbn [over_cmds] in Hov. destruct (over_cmd b c) as [b1|] eqn:Hb1; [|by destruct Hov]. cbn [mbind option_bind] in Hov.
    destruct (decide (k < length (encode c))%nat) as [Hk|Hk].
    - rewrite take_app_le in Hr by lia.
      destruct (read_command_cut b b1 r c k Hc Hk Hr Hb1) as [[H1 (r' & E)]|[[H1 E]|(H1 & H2 & E)]].
      + exists 0%nat, (Ok tt). rewrite load_loop_S, E. cbn [take replay then_]. split; [done|]. split; [simpl; lia|].
        change (log_file []) with (@nil ascii). cbn [length Nat.add lookup list_lookup]. split; [lia|].
        rewrite encode_length in *. split; [|by rewrite decide_True by lia].
        destruct c as [|a c]; [done|]. cbn [map concat]. rewrite app_length. pose proof (bulk_long a). lia.
      + rewrite load_loop_S, E. destruct (exec j c s) as [s'| |] eqn:Ee.
        * exists 1%nat, (Ok tt). destruct fuel as [|fuel]; [lia|]. rewrite load_nil.
          cbn [take replay]. rewrite Ee, take_0. cbn [replay then_]. split; [done|]. split; [simpl; lia|].
          change (log_file [c]) with (encode c ++ []). rewrite app_nil_r. split; [lia|].
          destruct cmds as [|c' cmds]; [done|]. cbn [lookup list_lookup]. split; [pose proof (encode_pos c'); lia|].
          by rewrite decide_True by lia.
        * exists 1%nat, (Ok tt). cbn [take replay]. rewrite Ee, take_0. cbn [then_]. split; [done|]. split; [simpl; lia|].
          change (log_file [c]) with (encode c ++ []). rewrite app_nil_r. split; [lia|].
          destruct cmds as [|c' cmds]; [done|]. cbn [lookup list_lookup]. split; [pose proof (encode_pos c'); lia|].
          by rewrite decide_True by lia.
        * exists 1%nat, (Ok tt). cbn [take replay]. rewrite Ee, take_0. cbn [then_]. split; [done|]. split; [simpl; lia|].
          change (log_file [c]) with (encode c ++ []). rewrite app_nil_r. split; [lia|].
          destruct cmds as [|c' cmds]; [done|]. cbn [lookup list_lookup]. split; [pose proof (encode_pos c'); lia|].
          by rewrite decide_True by lia.
      + exists 0%nat, Panic. rewrite load_loop_S, E. cbn [take replay then_]. split; [done|]. split; [simpl; lia|].
        change (log_file []) with (@nil ascii). cbn [length Nat.add lookup list_lookup]. split; [lia|]. split; [lia|].
        by rewrite decide_False by lia.
    - rewrite take_app_ge in Hr by lia. destruct (read_command_ok b b1 r c _ Hc Hr Hb1) as (r' & E & Hr').
      rewrite load_loop_S, E.
      assert (Hlift : ∀ n, length (log_file (take (Datatypes.S n) (c :: cmds))) = (length (encode c) + length (log_file (take n cmds)))%nat).
      { intros n. cbn [take]. by rewrite log_cons, app_length. }
      destruct (exec j c s) as [s'| |] eqn:Ee.
      + destruct (IH fuel (j + 1)%nat (k - length (encode c))%nat b1 r' s' Hf) as (n & e & HL & Hn & Hl & He); [rewrite take_length; lia|done|done|].
        exists (Datatypes.S n), e. cbn [take replay]. rewrite Ee. split; [done|]. cbn [length]. split; [lia|].
        change (c :: take n cmds) with (take (Datatypes.S n) (c :: cmds)). rewrite Hlift. split; [lia|]. cbn [lookup list_lookup].
        destruct (cmds !! n) as [c'|]; [|done]. destruct He as [H1 ->]. split; [lia|].
        destruct (decide _) as [?|?]; [rewrite decide_True by lia|rewrite decide_False by lia]; done.
      + destruct (IH fuel (j + 1)%nat (k - length (encode c))%nat b1 r' s Hf) as (n & e & HL & Hn & Hl & He); [rewrite take_length; lia|done|done|].
        exists (Datatypes.S n), e. cbn [take replay]. rewrite Ee. split; [done|]. cbn [length]. split; [lia|].
        change (c :: take n cmds) with (take (Datatypes.S n) (c :: cmds)). rewrite Hlift. split; [lia|]. cbn [lookup list_lookup].
        destruct (cmds !! n) as [c'|]; [|done]. destruct He as [H1 ->]. split; [lia|].
        destruct (decide _) as [?|?]; [rewrite decide_True by lia|rewrite decide_False by lia]; done.
      + destruct (IH fuel (j + 1)%nat (k - length (encode c))%nat b1 r' s Hf) as (n & e & HL & Hn & Hl & He); [rewrite take_length; lia|done|done|].
        exists (Datatypes.S n), e. cbn [take replay]. rewrite Ee. split; [done|]. cbn [length]. split; [lia|].
        change (c :: take n cmds) with (take (Datatypes.S n) (c :: cmds)). rewrite Hlift. split; [lia|]. cbn [lookup list_lookup].
        destruct (cmds !! n) as [c'|]; [|done]. destruct He as [H1 ->]. split; [lia|].
        destruct (decide _) as [?|?]; [rewrite decide_True by lia|rewrite decide_False by lia]; done.
  Qed.
End load.

Lemma then_ok {S} (x : S * res unit) : then_ x (Ok tt) = x.
Proof. by destruct x as [s [[]| |]]. Qed.
(** a log that is read as it was written: it does not exceed memory, and no argument
    crosses the end of the buffer *)
Definition log_ok (cmds : list (list bytes)) : Prop :=
  Forall (λ c, c ≠ []) cmds ∧ zlen (log_file cmds) ≤ 2 ^ 44 ∧ is_Some (over_cmds 0 cmds).
Lemma log_ok_fits cmds : Forall (λ c, c ≠ []) cmds → zlen (log_file cmds) ≤ 2 ^ 44 → Forall (λ c, c ≠ [] ∧ cmd_fits c) cmds.
Proof.
  intros Hne Hlen. induction Hne as [|c cmds Hc Hne IH]; [by apply Forall_nil_2|].
  unfold zlen in Hlen. rewrite log_cons, app_length in Hlen. constructor; [|apply IH; unfold zlen; lia]. split; [done|]. apply encode_fits. unfold zlen. lia.
Qed.
Lemma over_cmds_app b cmds cmds' : over_cmds b (cmds ++ cmds') = b ← over_cmds b cmds; over_cmds b cmds'.
Proof.
  revert b. induction cmds as [|c cmds IH]; intros b; [done|]. cbn [app over_cmds]. destruct (over_cmd b c); [|done]. cbn [mbind option_bind]. apply IH.
Qed.
Lemma log_ok_app cmds cmds' : log_ok (cmds ++ cmds') → log_ok cmds.
Proof.
  intros (H1 & H2 & H3). apply Forall_app in H1 as [H1 _]. split; [done|]. rewrite log_app in H2. unfold zlen in *. rewrite app_length in H2. split; [lia|].
  rewrite over_cmds_app in H3. destruct (over_cmds 0 cmds); [by eexists|by destruct H3].
Qed.
Lemma log_ok_take n cmds : log_ok cmds → log_ok (take n cmds).
Proof. intros H. rewrite <-(take_drop n cmds) in H. by eapply log_ok_app. Qed.
(** what is left of a log fits into the buffer *)
Lemma over_data_left b n : (n ≤ b)%nat → (0 < b)%nat → over_data b n = Some (b - n)%nat.
Proof. intros H H0. unfold over_data. repeat destruct (decide _); try lia; f_equal; lia. Qed.
Lemma over_arg_left b a : (length (bulk a) ≤ b)%nat → over_arg b a = Some (b - length (bulk a))%nat.
Proof.
  rewrite bulk_length. intros H. unfold over_arg. change (bulk_header a) with (hdr "$" (zlen a)).
  unfold over_line. rewrite decide_True by lia. rewrite over_data_left by lia. cbn [mbind option_bind]. rewrite over_data_left by lia. f_equal. lia.
Qed.
Lemma over_args_left l : ∀ b, (length (concat (map bulk l)) ≤ b)%nat → over_args b l = Some (b - length (concat (map bulk l)))%nat.
Proof.
  induction l as [|a l IH]; intros b Hb; cbn [over_args map concat length] in *; [f_equal; lia|]. rewrite app_length in *.
  rewrite over_arg_left by lia. cbn [mbind option_bind]. rewrite IH by lia. f_equal. lia.
Qed.
Lemma over_cmds_left cmds : ∀ b, (length (log_file cmds) ≤ b)%nat → over_cmds b cmds = Some (b - length (log_file cmds))%nat.
Proof.
  induction cmds as [|c cmds IH]; intros b Hb; cbn [over_cmds]; [f_equal; simpl; lia|]. rewrite log_cons, app_length, encode_length in *.
  unfold over_cmd, over_line. rewrite decide_True by lia. rewrite over_args_left by lia. cbn [mbind option_bind]. rewrite IH by lia. f_equal. lia.
Qed.
Lemma short_log_ok cmds : Forall (λ c, c ≠ []) cmds → zlen (log_file cmds) ≤ 65536 → log_ok cmds.
Proof.
  intros H1 H2. split; [done|]. split; [lia|]. assert (HM : (length (log_file cmds) ≤ MaxInlineSize)%nat) by (unfold MaxInlineSize, zlen in *; lia).
  destruct cmds as [|c cmds]; [by eexists|]. cbn [over_cmds]. rewrite log_cons, app_length, encode_length in HM. pose proof (array_header_long c).
  unfold over_cmd, over_line. rewrite decide_False by lia. rewrite over_args_left by lia. cbn [mbind option_bind]. rewrite over_cmds_left by lia. by eexists.
Qed.
Lemma load_file_cut {S} (exec : nat → list bytes → S → res S) cmds k s : log_ok cmds →
  ∃ n e, load_file exec (take k (log_file cmds)) s = then_ (replay exec 0 (take n cmds) s) e ∧
    (n ≤ length cmds)%nat ∧ (length (log_file (take n cmds)) ≤ k + 1)%nat ∧
    (match cmds !! n with
     | None => e = Ok tt
     | Some c => (k + 1 < length (log_file (take n cmds)) + length (encode c))%nat ∧
         e = if decide (k < length (log_file (take n cmds)) + length (array_header c))%nat then Ok tt else Panic
     end).
Proof.
  intros (H1 & H2 & H3). pose proof (log_ok_fits _ H1 H2) as Hf. unfold load_file.
  eapply load_cut; [done|lia|apply at_New|done].
Qed.
Lemma load_file_all {S} (exec : nat → list bytes → S → res S) cmds s : log_ok cmds →
  load_file exec (log_file cmds) s = replay exec 0 cmds s.
Proof.
  intros Hok. destruct (load_file_cut exec cmds (length (log_file cmds)) s Hok) as (n & e & HL & Hn & Hl & He).
  rewrite take_ge in HL by done. rewrite HL. destruct (cmds !! n) as [c|] eqn:Hc.
  - exfalso. destruct He as [H1 _]. rewrite <-(take_drop_middle cmds n c Hc) in H1 at 1.
    rewrite log_app, log_cons, !app_length in H1. lia.
  - subst e. rewrite then_ok. apply lookup_ge_None in Hc. by rewrite take_ge.
Qed.

(** ** The loader terminates on every file *)
Definition size_ (r : reader) : nat := (length (r_buf r) + length (r_rest r))%nat.
Lemma split_lf_length s l t : split_lf s = Some (l, t) → s = l ++ t ∧ l ≠ [].
Proof.
  revert l t. induction s as [|c s IH]; intros l t H; [done|]. cbn [split_lf] in H.
  destruct (c =? LF)%char; [by injection H as <- <-|]. destruct (split_lf s) as [[l' t']|]; [|done].
  injection H as <- <-. destruct (IH _ _ eq_refl) as [-> _]. done.
Qed.
Lemma read_bytes_total : ∀ fuel acc r,
  (2 * length (r_rest r) + (if decide (MaxInlineSize ≤ length (r_buf r))%nat then 1 else 0) < fuel)%nat →
  ∃ r' o, read_bytes fuel acc r = Ok (r', o) ∧ (size_ r' ≤ size_ r)%nat ∧ (is_Some o → (acc = [] → size_ r' < size_ r)%nat).
Proof.
  induction fuel as [|fuel IH]; intros acc r Hf; [lia|]. rewrite read_bytes_S.
  destruct (split_lf (r_buf r)) as [[l t]|] eqn:Es.
  { apply split_lf_length in Es as [Eb Hl]. eexists _, _. split; [done|]. unfold size_. cbn [r_buf r_rest]. rewrite Eb, app_length.
    destruct l; [done|]. simpl. split; [lia|]. intros _ _. lia. }
  destruct (decide (MaxInlineSize ≤ length (r_buf r))%nat) as [Hb|Hb].
  - destruct (IH (acc ++ r_buf r) (Rd [] (r_rest r))) as (r' & o & E & H1 & _).
    { cbn [r_rest r_buf length]. destruct (decide _) as [?|_]; [pose proof Max_pos; lia|lia]. }
    exists r', o. split; [done|]. pose proof Max_pos. unfold size_ in *. cbn [r_buf r_rest length] in H1. split; [lia|]. intros _ _. lia.
  - destruct (r_rest r) as [|c t] eqn:Er.
    { eexists _, None. split; [done|]. unfold size_. simpl. split; [lia|]. by intros [? ?]. }
    assert (Hsz : size_ (fill r) = size_ r).
    { unfold size_, fill. cbn [r_buf r_rest]. rewrite app_length, take_length, drop_length. lia. }
    destruct (IH acc (fill r)) as (r' & o & E & H1 & H2); [|exists r', o; by rewrite Hsz in *].
    unfold fill. cbn [r_rest r_buf]. rewrite Er, drop_length. cbn [length] in *. destruct (decide _); lia.
Qed.
Lemma readLine_total r : ∃ r' o, readLine r = Ok (r', o) ∧ (size_ r' ≤ size_ r)%nat ∧ (is_Some o → size_ r' < size_ r)%nat.
Proof.
  unfold readLine, ReadBytes. destruct (read_bytes_total (3 + 2 * length (r_rest r)) [] r) as (r' & o & -> & H1 & H2).
  { destruct (decide _); lia. }
  eexists _, _. split; [done|]. split; [done|]. cbn [fst snd]. intros Ho. apply H2; [|done]. destruct o; [eauto|by destruct Ho].
Qed.
Lemma Read_size n r : (size_ (Read n r).1 ≤ size_ r)%nat.
Proof.
  unfold Read, size_. destruct n as [|n]; [done|]. destruct (r_buf r) as [|c t] eqn:Eb.
  - destruct (r_rest r) as [|d u] eqn:Er; [cbn [fst]; rewrite ?Eb, ?Er; done|]. destruct (decide _).
    + cbn [fst r_buf r_rest length]. rewrite drop_length. cbn [length]. lia.
    + cbn [fst]. unfold fill. cbn [r_buf r_rest]. rewrite !drop_length, Eb, Er, !app_length, take_length. cbn [length]. lia.
  - cbn [fst r_buf r_rest]. rewrite drop_length. cbn [length]. lia.
Qed.
Lemma read_arg_total r : read_arg r = Panic ∨ ∃ r' a, read_arg r = Ok (r', a) ∧ (size_ r' ≤ size_ r)%nat.
Proof.
  unfold read_arg. destruct (readLine_total r) as (r1 & o & -> & H1 & _). cbn [mbind res_bind fst snd].
  destruct o as [buf|]; [|by left]. cbn [deref mbind res_bind].
  assert (Hn : number "$" buf = Panic ∨ ∃ n, number "$" buf = Ok n).
  { unfold number. destruct buf as [|c t]; [by left|]. destruct (c =? "$")%char; [|by left]. destruct (Atoi t); [right; by eexists|by left]. }
  destruct Hn as [->|[n ->]]; [by left|]. cbn [mbind res_bind]. destruct (negb _); [by left|].
  pose proof (Read_size (Z.to_nat n) r1) as H2. destruct (Read (Z.to_nat n) r1) as [r2 [g|]]; [|by left].
  cbn [fst snd deref mbind res_bind] in *. pose proof (Read_size 2 r2) as H3. destruct (Read 2 r2) as [r3 [g'|]]; [|by left].
  cbn [fst snd deref mbind res_bind] in *. right. eexists _, _. split; [done|]. lia.
Qed.
Lemma read_args_total : ∀ n r, read_args n r = Panic ∨ ∃ r' l, read_args n r = Ok (r', l) ∧ (size_ r' ≤ size_ r)%nat.
Proof.
  induction n as [|n IH]; intros r; [right; by exists r, []|]. cbn [read_args].
  destruct (read_arg_total r) as [->|(r1 & a & -> & H1)]; [by left|]. cbn [mbind res_bind fst snd].
  destruct (IH r1) as [->|(r2 & l & -> & H2)]; [by left|]. cbn [mbind res_bind fst snd]. right. eexists _, _. split; [done|]. lia.
Qed.
Lemma read_command_total r : read_command r = Panic ∨
  ∃ r' o, read_command r = Ok (r', o) ∧ (is_Some o → size_ r' < size_ r)%nat.
Proof.
  unfold read_command. destruct (readLine_total r) as (r1 & o & -> & H1 & H2). cbn [mbind res_bind fst snd].
  destruct o as [buf|]; [|right; eexists _, None; split; [done|by intros [? ?]]].
  assert (Hn : number "*" buf = Panic ∨ ∃ n, number "*" buf = Ok n).
  { unfold number. destruct buf as [|c t]; [by left|]. destruct (c =? "*")%char; [|by left]. destruct (Atoi t); [right; by eexists|by left]. }
  destruct Hn as [->|[n ->]]; [by left|]. cbn [mbind res_bind]. destruct (negb _); [by left|].
  destruct (read_args_total (Z.to_nat n) r1) as [->|(r2 & l & -> & H3)]; [by left|]. cbn [mbind res_bind fst snd].
  right. eexists _, _. split; [done|]. intros _. assert (size_ r1 < size_ r)%nat by (apply H2; eauto). lia.
Qed.
Lemma load_total {S} (exec : nat → list bytes → S → res S) : (∀ j c s, exec j c s ≠ OutOfFuel) → ∀ file s,
  (load_file exec file s).2 ≠ OutOfFuel.
Proof.
  intros He file s. unfold load_file.
  assert (H : ∀ fuel j r s, (size_ r < fuel)%nat → (load_loop exec fuel j r s).2 ≠ OutOfFuel).
  { clear file s. induction fuel as [|fuel IH]; intros j r s Hf; [lia|]. rewrite load_loop_S.
    destruct (read_command_total r) as [->|(r' & o & -> & H1)]; [done|]. destruct o as [args|]; [|done].
    assert (size_ r' < size_ r)%nat by (apply H1; eauto).
    destruct (exec j args s) as [s'| |] eqn:Ee; [apply IH; lia|done|by apply He in Ee]. }
  apply H. unfold size_, NewReader. cbn [r_buf r_rest length]. lia.
Qed.
