(** Proofs about the request parser. *)
From Verif Require Import Base Strconv RespSpec RespModel.
From Coq Require Import ZifyBool ZifyNat.

Local Arguments go_slice : simpl never.
Local Arguments go_index : simpl never.
Local Arguments go_store : simpl never.
Local Arguments crlf_from : simpl never.
Local Arguments Atoi : simpl never.
Local Arguments getNum : simpl never.
Local Arguments getCRLFIndex : simpl never.
Local Arguments moveToNextLine : simpl never.
Local Arguments multi_body : simpl never.
Local Arguments multi_payload : simpl never.

Implicit Types D X J P R : bytes.

Definition zeros (k : nat) : bytes := replicate k NUL.
(** a client with unconsumed data [D] and [k] unused bytes after it *)
Definition pc D (k : nat) (t : cmdtype) (args : list bytes) (m b : Z) : pclient :=
  PC (D ++ zeros k) (zlen D) t args m b.
(** the same client after receiving [X], with [k] unused bytes left *)
Definition extend (c : pclient) X (k : nat) : pclient :=
  PC (take (Z.to_nat (q_len c)) (q_buf c) ++ X ++ zeros k) (q_len c + zlen X) (c_type c) (c_args c) (c_multi c) (c_bulk c).
Lemma extend_pc D k t args m b X k' : extend (pc D k t args m b) X k' = pc (D ++ X) k' t args m b.
Proof.
  unfold extend, pc, zlen. simpl. rewrite Nat2Z.id, take_app, app_length.
  f_equal; [by rewrite app_assoc|lia].
Qed.

(** * Slices and CRLF search *)
Lemma go_slice_app (A1 A2 A3 : bytes) lo hi : lo = zlen A1 → hi = zlen A1 + zlen A2 →
  go_slice (A1 ++ A2 ++ A3) lo hi = Ok A2.
Proof.
  intros -> ->. unfold go_slice, zlen. rewrite !app_length.
  replace ((0 <=? Z.of_nat (length A1)) && (Z.of_nat (length A1) <=? Z.of_nat (length A1) + Z.of_nat (length A2)) &&
    (Z.of_nat (length A1) + Z.of_nat (length A2) <=? Z.of_nat (length A1 + (length A2 + length A3)))) with true by lia.
  replace (Z.to_nat (Z.of_nat (length A1) + Z.of_nat (length A2) - Z.of_nat (length A1))) with (length A2) by lia.
  rewrite Nat2Z.id, drop_app, take_app. done.
Qed.
Lemma getCRLF_pc D k t args m b : getCRLFIndex (pc D k t args m b) = Ok (crlf_from 0 D).
Proof.
  unfold getCRLFIndex, pc. simpl. rewrite (go_slice_app [] D (zeros k)) by done. done.
Qed.

Lemma crlf_range D : ∀ i, crlf_from i D = -1 ∨ (i ≤ crlf_from i D ∧ crlf_from i D + 2 ≤ i + zlen D).
Proof.
  induction D as [|a D IH]; intros i; [by left|]. unfold crlf_from; fold crlf_from. destruct D as [|b D]; [by left|].
  destruct ((a =? CR)%char && (b =? LF)%char).
  - right. unfold zlen. simpl. lia.
  - destruct (IH (i + 1)) as [?|?]; [by left|right]. unfold zlen in *. simpl in *. lia.
Qed.
Lemma crlf_app D X : ∀ i, 0 ≤ i → crlf_from i D ≠ -1 → crlf_from i (D ++ X) = crlf_from i D.
Proof.
  induction D as [|a D IH]; intros i Hi Hne; [done|]. destruct D as [|b D].
  { done. }
  simpl. unfold crlf_from in *; fold crlf_from in *. destruct ((a =? CR)%char && (b =? LF)%char); [done|].
  apply (IH (i + 1)); [lia|done].
Qed.
(** the text before the first CRLF *)
Definition plain D : Prop := Forall (λ c, c ≠ CR) D.
Lemma crlf_plain D R : plain D → ∀ i, crlf_from i (D ++ CRLF ++ R) = i + zlen D.
Proof.
  induction 1 as [|a D Ha HD IH]; intros i.
  - simpl. unfold crlf_from. simpl. unfold zlen. simpl. lia.
  - assert (Hd : ∃ b D2, D ++ CRLF ++ R = b :: D2) by (destruct D; simpl; eauto). destruct Hd as (b & D2 & Hd).
    change ((a :: D) ++ CRLF ++ R) with (a :: (D ++ CRLF ++ R)). unfold crlf_from; fold crlf_from. rewrite Hd.
    destruct (Ascii.eqb_spec a CR); [done|]. cbn [andb]. rewrite <-Hd, IH. unfold zlen. simpl. lia.
Qed.
Lemma crlf_none D : plain D → ∀ i, crlf_from i D = -1.
Proof.
  induction 1 as [|a D Ha HD IH]; intros i; [done|]. unfold crlf_from; fold crlf_from. destruct D as [|b D]; [done|].
  destruct (Ascii.eqb_spec a CR); [done|]. cbn [andb]. apply IH.
Qed.
Lemma crlf_none_cr D : plain D → ∀ i, crlf_from i (D ++ [CR]) = -1.
Proof.
  induction 1 as [|a D Ha HD IH]; intros i; [done|]. simpl.
  assert (Hd : ∃ b D2, D ++ [CR] = b :: D2) by (destruct D; simpl; eauto). destruct Hd as (b & D2 & Hd).
  unfold crlf_from; fold crlf_from. rewrite Hd. destruct (Ascii.eqb_spec a CR); [done|]. cbn [andb]. rewrite <-Hd. apply IH.
Qed.
(** a strict prefix of a CRLF-terminated line has no CRLF *)
Lemma crlf_strict L D E i : plain L → D ++ E = L ++ CRLF → E ≠ [] → crlf_from i D = -1.
Proof.
  intros HL HD HE. destruct (decide (length D ≤ length L)%nat) as [Hle|Hgt].
  - apply crlf_none. assert (D = take (length D) L) as ->.
    { rewrite <-(take_app D E) at 1. rewrite HD. by rewrite take_app_le. }
    by apply Forall_take.
  - assert (D = L ++ [CR]) as ->; [|by apply crlf_none_cr].
    assert (length D = S (length L)) as Hlen.
    { apply (f_equal length) in HD. rewrite !app_length in HD. simpl in HD. destruct E; [done|]. simpl in HD. lia. }
    rewrite <-(take_app D E). rewrite HD, Hlen. replace (S (length L)) with (length L + 1)%nat by lia. by rewrite take_add_app.
Qed.

Lemma go_slice_tail (A1 A2 : bytes) lo : lo = zlen A1 → go_slice (A1 ++ A2) lo (zlen (A1 ++ A2)) = Ok A2.
Proof.
  intros ->. pose proof (go_slice_app A1 A2 [] (zlen A1) (zlen (A1 ++ A2))) as H. rewrite app_nil_r in H. apply H; [done|].
  unfold zlen. rewrite !app_length. lia.
Qed.
Lemma move_pc D1 R k t args m b i : zlen D1 = i + 2 →
  moveToNextLine (pc (D1 ++ R) k t args m b) i = Ok (pc R k t args m b).
Proof.
  intros Hi. unfold moveToNextLine, pc. cbn [q_buf q_len c_type c_args c_multi c_bulk]. rewrite <-app_assoc.
  rewrite go_slice_tail by done. cbn [mbind res_bind]. f_equal. f_equal. unfold zlen in *. rewrite app_length. lia.
Qed.
Lemma getNum_pc D1 D2 k t args m b i : zlen D1 = i → 1 ≤ i →
  getNum (pc (D1 ++ D2) k t args m b) i = Ok (Atoi (drop 1 D1)).
Proof.
  intros Hi H1. unfold getNum, pc. cbn [q_buf]. destruct D1 as [|a D1]; [unfold zlen in *; simpl in *; lia|].
  assert (go_slice (((a :: D1) ++ D2) ++ zeros k) 1 i = Ok D1) as ->.
  { rewrite <-app_assoc. change (go_slice ([a] ++ D1 ++ (D2 ++ zeros k)) 1 i = Ok D1). apply go_slice_app; [done|].
    unfold zlen in *. simpl in *. lia. }
  done.
Qed.

Lemma split2 (l : bytes) n x y : l !! n = Some x → l !! S n = Some y → l = take n l ++ [x; y] ++ drop (n + 2) l.
Proof.
  intros Hx Hy. rewrite <-(take_drop n l) at 1. f_equal. rewrite (drop_S _ _ _ Hx), (drop_S _ _ _ Hy).
  simpl. by replace (n + 2)%nat with (S (S n)) by lia.
Qed.
Lemma index_data D k n x : x ≠ NUL → go_index (D ++ zeros k) n = Ok x → 0 ≤ n ∧ D !! Z.to_nat n = Some x.
Proof.
  intros Hx. unfold go_index. destruct (n <? 0) eqn:En; [done|]. intros H. split; [lia|].
  destruct ((D ++ zeros k) !! Z.to_nat n) as [y|] eqn:Ey; [|done]. injection H as ->.
  apply lookup_app_Some in Ey as [Ey|[_ Ey]]; [done|]. by apply lookup_replicate in Ey as [? _].
Qed.
Lemma crlf_split D : crlf_from 0 D ≠ -1 →
  ∃ D1 D2, D = D1 ++ CRLF ++ D2 ∧ zlen D1 = crlf_from 0 D.
Proof.
  assert (H : ∀ i, crlf_from i D ≠ -1 → ∃ D1 D2, D = D1 ++ CRLF ++ D2 ∧ i + zlen D1 = crlf_from i D).
  { induction D as [|a D IH]; intros i Hi; [done|]. destruct D as [|b D]; [done|].
    unfold crlf_from in *; fold crlf_from in *. destruct ((a =? CR)%char && (b =? LF)%char) eqn:E.
    - apply andb_prop in E as [E1 E2]. apply Ascii.eqb_eq in E1, E2. subst. exists [], D. split; [done|]. unfold zlen. simpl. lia.
    - destruct (IH (i + 1)) as (D1 & D2 & HD & Hz); [done|]. exists (a :: D1), D2. split; [by rewrite HD|].
      rewrite <-Hz. unfold zlen. simpl. lia. }
  intros Hne. destruct (H 0 Hne) as (D1 & D2 & HD & Hz). exists D1, D2. split; [done|]. lia.
Qed.
Lemma index_pc0 a D k : go_index ((a :: D) ++ zeros k) 0 = Ok a.
Proof. done. Qed.

(** * Resuming after more data has arrived *)
Lemma multi_payload_resume D k t args m b c' out : multi_payload (pc D k t args m b) = Ok (c', out) →
  (out = None → ∃ D' args', c' = pc D' k t args' (m - 1) 0 ∧ (∃ pre, D = pre ++ D') ∧ length args' = length args ∧
     ∀ X k', multi_payload (pc (D ++ X) k' t args m b) = Ok (pc (D' ++ X) k' t args' (m - 1) 0, None)) ∧
  (out = Some (inr false) → c' = pc D k t args m b ∧ zlen D < b).
Proof.
  unfold multi_payload at 1. cbn [pc q_len c_bulk q_buf c_args c_multi]. destruct (zlen D <? b) eqn:El.
  { intros [= <- <-]. split; [done|]. intros _. split; [done|lia]. }
  destruct (go_index (D ++ zeros k) b) as [b1| |] eqn:E1; cbn [mbind res_bind]; [|done|done].
  destruct (negb (b1 =? CR)%char) eqn:N1.
  { intros [= <- <-]. done. }
  apply negb_false_iff, Ascii.eqb_eq in N1. subst b1. apply index_data in E1 as [Hb H1]; [|done].
  destruct (go_index (D ++ zeros k) (b + 1)) as [b2| |] eqn:E2; cbn [mbind res_bind]; [|done|done].
  destruct (negb (b2 =? LF)%char) eqn:N2.
  { intros [= <- <-]. done. }
  apply negb_false_iff, Ascii.eqb_eq in N2. subst b2. apply index_data in E2 as [_ H2]; [|done].
  replace (Z.to_nat (b + 1)) with (S (Z.to_nat b)) in H2 by lia.
  pose proof (split2 D (Z.to_nat b) CR LF H1 H2) as HD.
  set (a := take (Z.to_nat b) D) in *. set (D' := drop (Z.to_nat b + 2) D) in *.
  assert (Ha : zlen a = b).
  { subst a. unfold zlen. rewrite take_length_le; [lia|]. apply lookup_lt_Some in H1. lia. }
  clearbody a D'. subst D. clear H1 H2 El.
  assert (Hs : ∀ X k', go_slice (((a ++ [CR; LF] ++ D') ++ X) ++ zeros k') 0 b = Ok a).
  { intros X k'. rewrite <-!app_assoc. apply (go_slice_app [] a); [done|]. unfold zlen in *. simpl. lia. }
  pose proof (Hs [] k) as Hs0. rewrite app_nil_r in Hs0. rewrite Hs0. cbn [mbind res_bind].
  destruct (go_store args (zlen args - m) a) as [args'| |] eqn:Est; cbn [mbind res_bind]; [|done|done].
  assert (Hm : ∀ X k', moveToNextLine (with_multi (with_bulk (with_args (pc ((a ++ [CR; LF] ++ D') ++ X) k' t args m b) args') 0) (m - 1)) b
                  = Ok (pc (D' ++ X) k' t args' (m - 1) 0)).
  { intros X k'. change (with_multi (with_bulk (with_args (pc ((a ++ [CR; LF] ++ D') ++ X) k' t args m b) args') 0) (m - 1))
      with (pc ((a ++ [CR; LF] ++ D') ++ X) k' t args' (m - 1) 0).
    replace ((a ++ [CR; LF] ++ D') ++ X) with ((a ++ [CR; LF]) ++ D' ++ X) by (by rewrite <-!app_assoc).
    apply move_pc. unfold zlen in *. rewrite app_length. simpl. lia. }
  pose proof (Hm [] k) as Hm0. rewrite !app_nil_r in Hm0. rewrite Hm0. cbn [mbind res_bind].
  intros [= <- <-]. split; [|done]. intros _. exists D', args'. split; [done|].
  split; [exists (a ++ [CR; LF]); by rewrite <-app_assoc|].
  split; [unfold go_store in Est; do 2 (case_match; [done|]); injection Est as <-; apply insert_length|]. intros X k'.
  unfold multi_payload. cbn [pc q_len c_bulk q_buf c_args c_multi].
  replace (zlen ((a ++ [CR; LF] ++ D') ++ X) <? b) with false by (unfold zlen in *; rewrite !app_length; lia).
  assert (go_index (((a ++ [CR; LF] ++ D') ++ X) ++ zeros k') b = Ok CR) as ->.
  { unfold go_index. replace (b <? 0) with false by lia. rewrite <-!app_assoc. rewrite lookup_app_r by (unfold zlen in *; lia).
    replace (Z.to_nat b - length a)%nat with 0%nat by (unfold zlen in *; lia). done. }
  assert (go_index (((a ++ [CR; LF] ++ D') ++ X) ++ zeros k') (b + 1) = Ok LF) as ->.
  { unfold go_index. replace (b + 1 <? 0) with false by lia. rewrite <-!app_assoc. rewrite lookup_app_r by (unfold zlen in *; lia).
    replace (Z.to_nat (b + 1) - length a)%nat with 1%nat by (unfold zlen in *; lia). done. }
  cbn [mbind res_bind]. change (negb (CR =? CR)%char) with false. change (negb (LF =? LF)%char) with false. cbv iota.
  rewrite Hs. cbn [mbind res_bind]. rewrite Est. cbn [mbind res_bind].
  rewrite Hm. done.
Qed.

Lemma need_more_wait c c' : need_more c = Ok (c', inr false) → c' = c.
Proof. unfold need_more. destruct (q_len c >? MaxInlineSize); by intros [= ->]. Qed.
(** one iteration at the header of a bulk string whose line is complete *)
Lemma multi_body_header D1 D2 k t args m : crlf_from 0 (D1 ++ CRLF ++ D2) = zlen D1 →
  multi_body (pc (D1 ++ CRLF ++ D2) k t args m 0) =
    match D1 with
    | [] => Ok (pc (D1 ++ CRLF ++ D2) k t args m 0, Some (inl EDollar))
    | a :: s => if (a =? "$")%char then
                  match Atoi s with
                  | Some num => multi_payload (pc D2 k t args m num)
                  | None => Ok (pc (D1 ++ CRLF ++ D2) k t args m 0, Some (inl ENum))
                  end
                else Ok (pc (D1 ++ CRLF ++ D2) k t args m 0, Some (inl EDollar))
    end.
Proof.
  intros Hi. unfold multi_body. rewrite getCRLF_pc. cbn [mbind res_bind]. rewrite Hi.
  cbn [pc c_bulk]. change (0 =? 0) with true. cbv iota.
  replace (zlen D1 =? -1) with false by (unfold zlen; lia).
  destruct D1 as [|a s].
  { done. }
  change (go_index (q_buf (pc ((a :: s) ++ CRLF ++ D2) k t args m 0)) 0) with (Ok a). cbn [mbind res_bind].
  destruct (a =? "$")%char; cbn [negb]; [|done].
  rewrite getNum_pc; [|done|unfold zlen; simpl; lia]. cbn [mbind res_bind].
  change (drop 1 (a :: s)) with s. destruct (Atoi s) as [num|]; [|done].
  change (with_bulk (pc ((a :: s) ++ CRLF ++ D2) k t args m 0) num) with (pc ((a :: s) ++ CRLF ++ D2) k t args m num).
  rewrite app_assoc. rewrite move_pc; [done|]. unfold zlen. rewrite app_length. simpl. lia.
Qed.

Lemma multi_body_resume D k t args m b c' out : multi_body (pc D k t args m b) = Ok (c', out) →
  (out = None → ∃ D' args', c' = pc D' k t args' (m - 1) 0 ∧ (∃ pre, D = pre ++ D') ∧ length args' = length args ∧
     ∀ X k', multi_body (pc (D ++ X) k' t args m b) = Ok (pc (D' ++ X) k' t args' (m - 1) 0, None)) ∧
  (out = Some (inr false) → ∃ D' b', c' = pc D' k t args m b' ∧
     ∀ X k', multi_body (pc (D' ++ X) k' t args m b') = multi_body (pc (D ++ X) k' t args m b)).
Proof.
  destruct (decide (b = 0)) as [->|Hb].
  - destruct (decide (crlf_from 0 D = -1)) as [Hi|Hi].
    + unfold multi_body at 1. rewrite getCRLF_pc. cbn [mbind res_bind]. rewrite Hi. cbn [pc c_bulk].
      change (0 =? 0) with true. change (-1 =? -1) with true. cbv iota. fold (pc D k t args m 0).
      destruct (need_more (pc D k t args m 0)) as [[c1 o1]| |] eqn:En; cbn [mbind res_bind fst snd]; [|done|done].
      intros [= <- <-]. split; [done|]. intros [= ->]. apply need_more_wait in En. subst c1.
      exists D, 0. done.
    + destruct (crlf_split D Hi) as (D1 & D2 & -> & Hz).
      assert (HX : ∀ X, crlf_from 0 (D1 ++ CRLF ++ D2 ++ X) = zlen D1).
      { intros X. rewrite Hz. rewrite <-(crlf_app (D1 ++ CRLF ++ D2) X 0); [by rewrite <-!app_assoc|lia|done]. }
      rewrite multi_body_header by done.
      assert (Hb : ∀ X k', multi_body (pc ((D1 ++ CRLF ++ D2) ++ X) k' t args m 0) =
        match D1 with
        | [] => Ok (pc (D1 ++ CRLF ++ D2 ++ X) k' t args m 0, Some (inl EDollar))
        | a :: s => if (a =? "$")%char then
                  match Atoi s with
                  | Some num => multi_payload (pc (D2 ++ X) k' t args m num)
                  | None => Ok (pc (D1 ++ CRLF ++ D2 ++ X) k' t args m 0, Some (inl ENum))
                  end
                else Ok (pc (D1 ++ CRLF ++ D2 ++ X) k' t args m 0, Some (inl EDollar))
        end).
      { intros X k'. rewrite <-!app_assoc. rewrite multi_body_header by apply HX. done. }
      destruct D1 as [|a s]; [by intros [= <- <-]|]. destruct (a =? "$")%char; [|by intros [= <- <-]].
      destruct (Atoi s) as [num|]; [|by intros [= <- <-]].
      intros E. destruct (multi_payload_resume _ _ _ _ _ _ _ _ E) as [H1 H2]. split.
      * intros Ho. destruct (H1 Ho) as (D' & args' & -> & (pre & ->) & Hl & HX'). exists D', args'. split; [done|].
        split; [exists ((a :: s) ++ CRLF ++ pre); by rewrite <-!app_assoc|]. split; [done|]. intros X k'.
        by rewrite Hb.
      * intros Ho. destruct (H2 Ho) as (-> & Hlt). exists D2, num. split; [done|]. intros X k'. rewrite Hb.
        unfold multi_body. cbn [pc c_bulk]. replace (num =? 0) with false by (unfold zlen in *; lia). done.
  - assert (Hb' : ∀ D k, multi_body (pc D k t args m b) = multi_payload (pc D k t args m b)).
    { intros. unfold multi_body. cbn [pc c_bulk]. by replace (b =? 0) with false by lia. }
    rewrite Hb'. intros E. destruct (multi_payload_resume _ _ _ _ _ _ _ _ E) as [H1 H2]. split.
    + intros Ho. destruct (H1 Ho) as (D' & args' & -> & Hpre & Hl & HX'). exists D', args'. do 3 (split; [done|]). intros X k'. by rewrite Hb'.
    + intros Ho. destruct (H2 Ho) as (-> & Hlt). exists D, b. done.
Qed.

Lemma multi_loop_resume n : ∀ D k t args b c' out, multi_loop n (pc D k t args (Z.of_nat n) b) = Ok (c', inr out) →
  if (out : bool) then ∃ D' args' b', c' = pc D' k t args' 0 b' ∧
    ∀ X k', multi_loop n (pc (D ++ X) k' t args (Z.of_nat n) b) = Ok (pc (D' ++ X) k' t args' 0 b', inr true)
  else ∃ D' args' m' b', c' = pc D' k t args' (Z.of_nat m') b' ∧ (m' ≠ 0)%nat ∧
    ∀ X k', multi_loop m' (pc (D' ++ X) k' t args' (Z.of_nat m') b') = multi_loop n (pc (D ++ X) k' t args (Z.of_nat n) b).
Proof.
  induction n as [|n IH]; intros D k t args b c' out.
  { simpl. intros [= <- <-]. exists D, args, b. done. }
  cbn [multi_loop pc c_multi]. replace (Z.of_nat (S n) >? 0) with true by lia. fold (pc D k t args (Z.of_nat (S n)) b).
  destruct (multi_body (pc D k t args (Z.of_nat (S n)) b)) as [[c1 o1]| |] eqn:E1; cbn [mbind res_bind fst snd]; [|done|done].
  destruct (multi_body_resume _ _ _ _ _ _ _ _ E1) as [H1 H2]. destruct o1 as [o1|].
  - intros [= <- ->]. destruct out.
    + exfalso. clear -E1. unfold multi_body in E1.
      assert (Hp : ∀ c c', multi_payload c = Ok (c', Some (inr true)) → False).
      { intros c c'. unfold multi_payload. destruct (q_len c <? c_bulk c); [done|].
        destruct (go_index (q_buf c) (c_bulk c)); cbn [mbind res_bind]; try done. destruct (negb _); [done|].
        destruct (go_index (q_buf c) (c_bulk c + 1)); cbn [mbind res_bind]; try done. destruct (negb _); [done|].
        destruct (go_slice (q_buf c) 0 (c_bulk c)); cbn [mbind res_bind]; try done.
        destruct (go_store _ _ _); cbn [mbind res_bind]; try done. destruct (moveToNextLine _ _); cbn [mbind res_bind]; done. }
      destruct (c_bulk (pc D k t args (Z.of_nat (S n)) b) =? 0); [|by eapply Hp].
      destruct (getCRLFIndex _); cbn [mbind res_bind] in E1; try done. destruct (_ =? -1).
      { unfold need_more in E1. destruct (_ >? MaxInlineSize); done. }
      destruct (go_index _ 0); cbn [mbind res_bind] in E1; try done. destruct (negb _); [done|].
      destruct (getNum _ _) as [[num|]| |]; cbn [mbind res_bind] in E1; try done.
      destruct (moveToNextLine _ _); cbn [mbind res_bind] in E1; try done. by eapply Hp.
    + destruct (H2 eq_refl) as (D' & b' & -> & HX). exists D', args, (S n), b'. split; [done|]. split; [done|].
      intros X k'. cbn [multi_loop pc c_multi]. replace (Z.of_nat (S n) >? 0) with true by lia.
      fold (pc (D ++ X) k' t args (Z.of_nat (S n)) b). fold (pc (D' ++ X) k' t args (Z.of_nat (S n)) b'). by rewrite HX.
  - destruct (H1 eq_refl) as (D1 & args1 & -> & _ & _ & HX). replace (Z.of_nat (S n) - 1) with (Z.of_nat n) in * by lia.
    intros E2. specialize (IH _ _ _ _ _ _ _ E2).
    assert (Hgo : ∀ X k', multi_loop (S n) (pc (D ++ X) k' t args (Z.of_nat (S n)) b) = multi_loop n (pc (D1 ++ X) k' t args1 (Z.of_nat n) 0)).
    { intros X k'. cbn [multi_loop pc c_multi]. replace (Z.of_nat (S n) >? 0) with true by lia.
      fold (pc (D ++ X) k' t args (Z.of_nat (S n)) b). rewrite HX. done. }
    destruct out.
    + destruct IH as (D' & args' & b' & -> & HX2). exists D', args', b'. split; [done|].
      intros X k'. cbn [multi_loop pc c_multi]. replace (Z.of_nat (S n) >? 0) with true by lia.
      specialize (Hgo X k'). cbn [multi_loop pc c_multi] in Hgo. replace (Z.of_nat (S n) >? 0) with true in Hgo by lia.
      rewrite Hgo. apply HX2.
    + destruct IH as (D' & args' & m' & b' & -> & Hm & HX2). exists D', args', m', b'. split; [done|]. split; [done|].
      intros X k'. rewrite HX2. symmetry. apply Hgo.
Qed.

(** ** The three request forms *)
Lemma getNum_pc0 R k t args m b : getNum (pc (CRLF ++ R) k t args m b) 0 = Panic.
Proof. done. Qed.
Lemma processMulti_header D1 D2 k t args b : crlf_from 0 (D1 ++ CRLF ++ D2) = zlen D1 →
  processMultiBulkBuffer (pc (D1 ++ CRLF ++ D2) k t args 0 b) =
    match D1 with
    | [] => Panic
    | a :: s =>
        match Atoi s with
        | Some num =>
            if num =? 0 then Ok (pc D2 k t args 0 b, inr true)
            else if negb (make_ok num 16) then Panic
            else multi_loop (Z.to_nat num) (pc D2 k t (replicate (Z.to_nat num) []) num b)
        | None => Ok (pc (D1 ++ CRLF ++ D2) k t args 0 b, inl ENum)
        end
    end.
Proof.
  intros Hi. unfold processMultiBulkBuffer. rewrite getCRLF_pc. cbn [mbind res_bind]. rewrite Hi.
  change (c_multi (pc (D1 ++ CRLF ++ D2) k t args 0 b) =? 0) with true. cbv iota.
  replace (zlen D1 =? -1) with false by (unfold zlen; lia).
  destruct D1 as [|a s]; [done|].
  rewrite getNum_pc; [|done|unfold zlen; simpl; lia]. cbn [mbind res_bind].
  change (drop 1 (a :: s)) with s. destruct (Atoi s) as [num|]; [|done].
  rewrite app_assoc. rewrite move_pc; [|unfold zlen; rewrite app_length; simpl; lia]. done.
Qed.
Lemma processBulk_header D1 D2 k t args m : crlf_from 0 (D1 ++ CRLF ++ D2) = zlen D1 →
  processBulkBuffer (pc (D1 ++ CRLF ++ D2) k t args m 0) =
    match D1 with
    | [] => Panic
    | a :: s =>
        match Atoi s with
        | Some num =>
            if num =? 0 then Ok (pc D2 k t args m 0, inr true)
            else bulk_payload (pc D2 k t args m num)
        | None => Ok (pc (D1 ++ CRLF ++ D2) k t args m 0, inl ENum)
        end
    end.
Proof.
  intros Hi. unfold processBulkBuffer. rewrite getCRLF_pc. cbn [mbind res_bind]. rewrite Hi.
  change (c_bulk (pc (D1 ++ CRLF ++ D2) k t args m 0) =? 0) with true. cbv iota.
  replace (zlen D1 =? -1) with false by (unfold zlen; lia).
  destruct D1 as [|a s]; [done|].
  rewrite getNum_pc; [|done|unfold zlen; simpl; lia]. cbn [mbind res_bind].
  change (drop 1 (a :: s)) with s. destruct (Atoi s) as [num|]; [|done].
  rewrite app_assoc. rewrite move_pc; [|unfold zlen; rewrite app_length; simpl; lia]. done.
Qed.
(** no complete line yet *)
Lemma processMulti_noline D k t args b : crlf_from 0 D = -1 →
  processMultiBulkBuffer (pc D k t args 0 b) = need_more (pc D k t args 0 b).
Proof. intros Hi. unfold processMultiBulkBuffer. rewrite getCRLF_pc. cbn [mbind res_bind]. by rewrite Hi. Qed.
Lemma processBulk_noline D k t args m : crlf_from 0 D = -1 →
  processBulkBuffer (pc D k t args m 0) = need_more (pc D k t args m 0).
Proof. intros Hi. unfold processBulkBuffer. rewrite getCRLF_pc. cbn [mbind res_bind]. by rewrite Hi. Qed.

Lemma crlf_ext D1 D2 X : zlen D1 = crlf_from 0 (D1 ++ CRLF ++ D2) → crlf_from 0 (D1 ++ CRLF ++ D2 ++ X) = zlen D1.
Proof.
  intros Hz. rewrite Hz. rewrite <-(crlf_app (D1 ++ CRLF ++ D2) X 0); [by rewrite <-!app_assoc|lia|].
  unfold zlen in Hz. lia.
Qed.

Lemma processMulti_resume D k t args m b c' : 0 ≤ m → processMultiBulkBuffer (pc D k t args m b) = Ok (c', inr false) →
  ∃ D' args' m' b', c' = pc D' k t args' m' b' ∧ 0 ≤ m' ∧
    ∀ X k', processMultiBulkBuffer (pc (D' ++ X) k' t args' m' b') = processMultiBulkBuffer (pc (D ++ X) k' t args m b).
Proof.
  intros Hm. destruct (decide (m = 0)) as [->|Hm0].
  - destruct (decide (crlf_from 0 D = -1)) as [Hi|Hi].
    + rewrite processMulti_noline by done. intros E. apply need_more_wait in E. subst c'. by exists D, args, 0, b.
    + destruct (crlf_split D Hi) as (D1 & D2 & -> & Hz). rewrite processMulti_header by done.
      destruct D1 as [|a s]; [done|]. destruct (Atoi s) as [num|] eqn:Ea; [|done].
      destruct (num =? 0) eqn:E0; [done|]. destruct (make_ok num 16) eqn:Em; cbn [negb]; [|done].
      assert (Hn : num = Z.of_nat (Z.to_nat num)) by (unfold make_ok in Em; lia).
      rewrite Hn at 3. intros E. destruct (multi_loop_resume _ _ _ _ _ _ _ _ E) as (D' & args' & m' & b' & -> & Hm' & HX).
      exists D', args', (Z.of_nat m'), b'. split; [done|]. split; [lia|]. intros X k'.
      replace (((a :: s) ++ CRLF ++ D2) ++ X) with ((a :: s) ++ CRLF ++ D2 ++ X) by (by rewrite <-!app_assoc).
      rewrite processMulti_header by (by apply crlf_ext). rewrite Ea, E0, Em. cbn [negb].
      unfold processMultiBulkBuffer. change (c_multi (pc (D' ++ X) k' t args' (Z.of_nat m') b')) with (Z.of_nat m').
      replace (Z.of_nat m' =? 0) with false by lia. rewrite Nat2Z.id. rewrite HX. by rewrite <-Hn.
  - assert (Hp : ∀ D k args m b, 0 < m → processMultiBulkBuffer (pc D k t args m b) = multi_loop (Z.to_nat m) (pc D k t args m b)).
    { intros D0 k0 a0 m0 b0 H0. unfold processMultiBulkBuffer. cbn [pc c_multi]. by replace (m0 =? 0) with false by lia. }
    rewrite Hp by lia. replace m with (Z.of_nat (Z.to_nat m)) at 2 by lia. intros E.
    destruct (multi_loop_resume _ _ _ _ _ _ _ _ E) as (D' & args' & m' & b' & -> & Hm' & HX).
    exists D', args', (Z.of_nat m'), b'. split; [done|]. split; [lia|]. intros X k'.
    rewrite !Hp by lia. rewrite Nat2Z.id, HX. by rewrite Z2Nat.id by lia.
Qed.
Lemma bulk_payload_wait c c' : bulk_payload c = Ok (c', inr false) → c' = c.
Proof.
  unfold bulk_payload. destruct (_ <? _); [by intros [= ->]|]. destruct (go_slice _ _ _); cbn [mbind res_bind]; try done.
  destruct (moveToNextLine _ _); cbn [mbind res_bind]; done.
Qed.
Lemma processBulk_resume D k t args m b c' : 0 ≤ m → processBulkBuffer (pc D k t args m b) = Ok (c', inr false) →
  ∃ D' args' m' b', c' = pc D' k t args' m' b' ∧ 0 ≤ m' ∧
    ∀ X k', processBulkBuffer (pc (D' ++ X) k' t args' m' b') = processBulkBuffer (pc (D ++ X) k' t args m b).
Proof.
  intros Hm. destruct (decide (b = 0)) as [->|Hb].
  - destruct (decide (crlf_from 0 D = -1)) as [Hi|Hi].
    + rewrite processBulk_noline by done. intros E. apply need_more_wait in E. subst c'. by exists D, args, m, 0.
    + destruct (crlf_split D Hi) as (D1 & D2 & -> & Hz). rewrite processBulk_header by done.
      destruct D1 as [|a s]; [done|]. destruct (Atoi s) as [num|] eqn:Ea; [|done].
      destruct (num =? 0) eqn:E0; [done|]. intros E. apply bulk_payload_wait in E. subst c'.
      exists D2, args, m, num. split; [done|]. split; [done|]. intros X k'.
      replace (((a :: s) ++ CRLF ++ D2) ++ X) with ((a :: s) ++ CRLF ++ D2 ++ X) by (by rewrite <-!app_assoc).
      rewrite processBulk_header by (by apply crlf_ext). rewrite Ea, E0.
      unfold processBulkBuffer. cbn [pc c_bulk]. by rewrite E0.
  - unfold processBulkBuffer at 1. cbn [pc c_bulk]. replace (b =? 0) with false by lia. intros E.
    apply bulk_payload_wait in E. subst c'. by exists D, args, m, b.
Qed.
Lemma processInline_resume c c' : processInlineBuffer c = Ok (c', inr false) → c' = c.
Proof.
  unfold processInlineBuffer. destruct (getCRLFIndex c); cbn [mbind res_bind]; try done.
  destruct (_ =? -1); [apply need_more_wait|]. destruct (go_slice _ _ _); cbn [mbind res_bind]; try done.
  destruct (moveToNextLine _ _); cbn [mbind res_bind]; done.
Qed.
Lemma dispatch_resume D k t args m b c' : 0 ≤ m → dispatch (pc D k t args m b) = Ok (c', inr false) →
  ∃ D' args' m' b', c' = pc D' k t args' m' b' ∧ 0 ≤ m' ∧
    ∀ X k', dispatch (pc (D' ++ X) k' t args' m' b') = dispatch (pc (D ++ X) k' t args m b).
Proof.
  intros Hm. destruct t; unfold dispatch; cbn [pc c_type].
  - intros [= <-]. by exists D, args, m, b.
  - intros E. apply processInline_resume in E. subst c'. by exists D, args, m, b.
  - apply processBulk_resume; done.
  - apply processMulti_resume; done.
Qed.

(** * Requests in wire format *)
Lemma zlen_app {A} (l k : list A) : zlen (l ++ k) = zlen l + zlen k.
Proof. unfold zlen. rewrite app_length. lia. Qed.
Lemma zlen_nonneg {A} (l : list A) : 0 ≤ zlen l.
Proof. unfold zlen. lia. Qed.
Lemma itoa_nocr n : plain (itoa n).
Proof. unfold plain. eapply Forall_impl; [apply itoa_plain|]. simpl. tauto. Qed.
Lemma header_crlf c n R : c ≠ CR → crlf_from 0 ((c :: itoa n) ++ CRLF ++ R) = zlen (c :: itoa n).
Proof. intros Hc. rewrite crlf_plain; [lia|]. constructor; [done|apply itoa_nocr]. Qed.

Lemma multi_body_bulk (a : bytes) R k t (args1 rest : list bytes) m : zlen a ≤ 2^44 → m = zlen ([] :: rest : list bytes) →
  multi_body (pc (bulk a ++ R) k t (args1 ++ [] :: rest) m 0) = Ok (pc R k t (args1 ++ a :: rest) (m - 1) 0, None).
Proof.
  intros Hs Hm. unfold bulk, bulk_header.
  replace ((("$"%char :: itoa (zlen a) ++ CRLF) ++ a ++ CRLF) ++ R) with (("$"%char :: itoa (zlen a)) ++ CRLF ++ (a ++ CRLF ++ R))
    by (simpl; by rewrite <-!app_assoc).
  rewrite multi_body_header by (by apply header_crlf). change ("$" =? "$")%char with true. cbv iota.
  rewrite Atoi_itoa by (unfold in_int64, minInt64, maxInt64; pose proof (zlen_nonneg a); lia).
  unfold multi_payload. cbn [pc q_len c_bulk q_buf c_args c_multi].
  replace (zlen (a ++ CRLF ++ R) <? zlen a) with false by (unfold zlen; rewrite app_length; lia).
  assert (go_index ((a ++ CRLF ++ R) ++ zeros k) (zlen a) = Ok CR) as ->.
  { unfold go_index, zlen. replace (_ <? 0) with false by lia. rewrite <-!app_assoc. rewrite lookup_app_r by lia.
    replace (Z.to_nat _ - length a)%nat with 0%nat by lia. done. }
  assert (go_index ((a ++ CRLF ++ R) ++ zeros k) (zlen a + 1) = Ok LF) as ->.
  { unfold go_index, zlen. replace (_ <? 0) with false by lia. rewrite <-!app_assoc. rewrite lookup_app_r by lia.
    replace (Z.to_nat _ - length a)%nat with 1%nat by lia. done. }
  cbn [mbind res_bind]. change (negb (CR =? CR)%char) with false. change (negb (LF =? LF)%char) with false. cbv iota.
  assert (go_slice ((a ++ CRLF ++ R) ++ zeros k) 0 (zlen a) = Ok a) as ->.
  { rewrite <-!app_assoc. by apply (go_slice_app [] a). }
  cbn [mbind res_bind].
  assert (go_store (args1 ++ [] :: rest) (zlen (args1 ++ [] :: rest) - m) a = Ok (args1 ++ a :: rest)) as ->.
  { unfold go_store. rewrite zlen_app, <-Hm. pose proof (zlen_nonneg args1).
    replace (zlen args1 + m - m <? 0) with false by lia.
    replace (Z.of_nat (length (args1 ++ [] :: rest)) <=? zlen args1 + m - m) with false
      by (unfold zlen; rewrite app_length; simpl; lia).
    f_equal. replace (Z.to_nat (zlen args1 + m - m)) with (length args1 + 0)%nat by (unfold zlen; lia).
    by rewrite insert_app_r. }
  cbn [mbind res_bind].
  change (with_multi (with_bulk (with_args (pc (a ++ CRLF ++ R) k t (args1 ++ [] :: rest) m (zlen a)) (args1 ++ a :: rest)) 0) (m - 1))
    with (pc (a ++ CRLF ++ R) k t (args1 ++ a :: rest) (m - 1) 0).
  rewrite app_assoc. rewrite move_pc; [done|]. unfold zlen. rewrite app_length. simpl. lia.
Qed.

Lemma multi_loop_encs (as_ : list bytes) : ∀ n R k t (done_ : list bytes), Forall (λ a, zlen a ≤ 2^44) as_ →
  multi_loop (length as_ + n) (pc (concat (map bulk as_) ++ R) k t (done_ ++ replicate (length as_ + n) []) (Z.of_nat (length as_ + n)) 0) =
  multi_loop n (pc R k t (done_ ++ as_ ++ replicate n []) (Z.of_nat n) 0).
Proof.
  induction as_ as [|a as_ IH]; intros n R k t done_ Hs; [done|].
  apply Forall_cons in Hs as [Ha Hs]. cbn [length Nat.add multi_loop].
  change (c_multi (pc (concat (map bulk (a :: as_)) ++ R) k t (done_ ++ replicate (S (length as_ + n)) []) (Z.of_nat (S (length as_ + n))) 0))
    with (Z.of_nat (S (length as_ + n))).
  replace (Z.of_nat (S (length as_ + n)) >? 0) with true by lia. cbn [map concat]. rewrite <-app_assoc.
  change (replicate (S (length as_ + n)) ([] : bytes)) with (([] : bytes) :: replicate (length as_ + n) []).
  rewrite multi_body_bulk; [|done|unfold zlen; simpl; rewrite replicate_length; lia]. cbn [mbind res_bind fst snd].
  replace (Z.of_nat (S (length as_ + n)) - 1) with (Z.of_nat (length as_ + n)) by lia.
  replace (done_ ++ a :: replicate (length as_ + n) []) with ((done_ ++ [a]) ++ replicate (length as_ + n) []) by (by rewrite <-app_assoc).
  rewrite IH by done. by rewrite <-app_assoc.
Qed.

Lemma bulk_len (a : bytes) : (length a + 5 ≤ length (bulk a))%nat.
Proof.
  unfold bulk, bulk_header. rewrite !app_length. simpl. rewrite app_length. simpl.
  pose proof (itoa_nonempty (zlen a)). destruct (itoa (zlen a)); [done|]. simpl. lia.
Qed.
Lemma encs_len (as_ : list bytes) : (length as_ + length (concat as_) ≤ length (concat (map bulk as_)))%nat.
Proof. induction as_ as [|a as_ IH]; [simpl; lia|]. cbn [map concat length]. rewrite !app_length. pose proof (bulk_len a). lia. Qed.
Lemma encs_small (as_ : list bytes) n : zlen (concat (map bulk as_)) ≤ n → zlen as_ ≤ n ∧ Forall (λ a, zlen a ≤ n) as_.
Proof.
  intros H. split; [pose proof (encs_len as_); unfold zlen in *; lia|]. apply Forall_forall. intros a Ha.
  apply elem_of_list_split in Ha as (l1 & l2 & ->). pose proof (encs_len (l1 ++ a :: l2)) as He.
  rewrite concat_app in He. simpl in He. rewrite !app_length in He. unfold zlen in *. lia.
Qed.
Lemma request_small (args : list bytes) : request_ok args → 0 < zlen args ≤ 2^44 ∧ Forall (λ a, zlen a ≤ 2^44) args.
Proof.
  intros [Hne H]. unfold encode in H. rewrite zlen_app in H. pose proof (zlen_nonneg (array_header args)).
  destruct (encs_small args (2^44)) as [H1 H2]; [lia|]. split; [|done]. split; [|done].
  destruct args; [done|]. unfold zlen. simpl. lia.
Qed.

(** parsing from the array header on *)
Lemma processMulti_array args R k t b : request_ok args →
  processMultiBulkBuffer (pc (array_header args ++ R) k t [] 0 b) =
  multi_loop (length args) (pc R k t (replicate (length args) []) (Z.of_nat (length args)) b).
Proof.
  intros Hok. destruct (request_small args Hok) as [Hlen _]. unfold array_header.
  replace (("*"%char :: itoa (zlen args) ++ CRLF) ++ R) with (("*"%char :: itoa (zlen args)) ++ CRLF ++ R) by (simpl; by rewrite <-!app_assoc).
  rewrite processMulti_header by (by apply header_crlf).
  rewrite Atoi_itoa by (unfold in_int64, minInt64, maxInt64; lia).
  replace (zlen args =? 0) with false by lia.
  replace (make_ok (zlen args) 16) with true by (unfold make_ok, maxAlloc; lia). cbn [negb].
  unfold zlen. by rewrite Nat2Z.id.
Qed.
Lemma processMulti_encode args J k t : request_ok args →
  processMultiBulkBuffer (pc (encode args ++ J) k t [] 0 0) = Ok (pc J k t args 0 0, inr true).
Proof.
  intros Hok. unfold encode. rewrite <-app_assoc. rewrite processMulti_array by done.
  destruct (request_small args Hok) as [_ Hs].
  pose proof (multi_loop_encs args 0 J k t [] Hs) as H. rewrite !Nat.add_0_r, !app_nil_l, app_nil_r in H.
  rewrite H. done.
Qed.

(** a torn request *)
Lemma multi_torn (as1 : list bytes) (a : bytes) (as2 : list bytes) X k t : Forall (λ a, zlen a ≤ 2^44) (as1 ++ a :: as2) → X = [] ∨ X = [CR] →
  let r := multi_loop (length (as1 ++ a :: as2)) (pc (concat (map bulk as1) ++ bulk_header a ++ a ++ X) k t
             (replicate (length (as1 ++ a :: as2)) []) (Z.of_nat (length (as1 ++ a :: as2))) 0) in
  match k with O => r = Panic | S _ => ∃ c', r = Ok (c', inl ECRLF) end.
Proof.
  intros Hs HX. apply Forall_app in Hs as [Hs1 [Ha Hs2]%Forall_cons].
  pose proof (multi_loop_encs as1 (S (length as2)) (bulk_header a ++ a ++ X) k t [] Hs1) as H.
  rewrite !app_nil_l in H. rewrite app_length. cbn [length]. cbv zeta. rewrite H. clear H.
  cbn [multi_loop]. unfold pc at 1 3. cbn [c_multi]. replace (Z.of_nat (S (length as2)) >? 0) with true by lia.
  change (PC ((bulk_header a ++ a ++ X) ++ zeros k) (zlen (bulk_header a ++ a ++ X)) t (as1 ++ replicate (S (length as2)) []) (Z.of_nat (S (length as2))) 0)
    with (pc (bulk_header a ++ a ++ X) k t (as1 ++ replicate (S (length as2)) []) (Z.of_nat (S (length as2))) 0).
  unfold bulk_header.
  replace (("$"%char :: itoa (zlen a) ++ CRLF) ++ a ++ X) with (("$"%char :: itoa (zlen a)) ++ CRLF ++ (a ++ X))
    by (simpl; by rewrite <-!app_assoc).
  rewrite multi_body_header by (by apply header_crlf). change ("$" =? "$")%char with true. cbv iota.
  rewrite Atoi_itoa by (unfold in_int64, minInt64, maxInt64; pose proof (zlen_nonneg a); lia).
  unfold multi_payload. cbn [pc q_len c_bulk q_buf c_args c_multi].
  replace (zlen (a ++ X) <? zlen a) with false by (unfold zlen; rewrite app_length; lia).
  assert (Hi : ∀ j, go_index ((a ++ X) ++ zeros k) (zlen a + Z.of_nat j) = go_index (X ++ zeros k) (Z.of_nat j)).
  { intros j. unfold go_index, zlen. replace (_ + _ <? 0) with false by lia. replace (_ <? 0) with false by lia.
    rewrite <-app_assoc, lookup_app_r by lia. f_equal. by replace (Z.to_nat _ - length a)%nat with (Z.to_nat (Z.of_nat j)) by lia. }
  pose proof (Hi 0%nat) as Hi0. rewrite Z.add_0_r in Hi0. rewrite Hi0. pose proof (Hi 1%nat) as Hi1.
  change (Z.of_nat 1) with 1 in Hi1. rewrite Hi1.
  destruct HX as [-> | ->]; destruct k as [|k]; cbn; try done; eauto.
Qed.
Lemma bulk_eq (a : bytes) : bulk a = ("$"%char :: itoa (zlen a)) ++ CRLF ++ a ++ CRLF.
Proof. unfold bulk, bulk_header. by rewrite <-app_comm_cons, <-app_assoc. Qed.
Lemma app_prefix_cases (A1 A2 D E : bytes) : D ++ E = A1 ++ A2 →
  (∃ E1, E1 ≠ [] ∧ D ++ E1 = A1 ∧ E = E1 ++ A2) ∨ (∃ D2, D = A1 ++ D2 ∧ D2 ++ E = A2).
Proof.
  intros H. destruct (decide (length D < length A1)%nat) as [Hlt|Hge].
  - left. exists (drop (length D) A1). split; [intros Hn; apply (f_equal length) in Hn; rewrite drop_length in Hn; simpl in Hn; lia|].
    assert (D = take (length D) A1) as HD.
    { rewrite <-(take_app D E) at 1. rewrite H. by rewrite take_app_le by lia. }
    split; [rewrite HD at 1; apply take_drop|]. rewrite <-(drop_app D E), H, drop_app_le by lia. done.
  - right. exists (drop (length A1) D).
    assert (A1 = take (length A1) D) as HA.
    { rewrite <-(take_app A1 A2) at 1. rewrite <-H. by rewrite take_app_le by lia. }
    split; [rewrite HA at 1; by rewrite take_drop|]. rewrite <-(drop_app A1 A2), <-H, drop_app_le by lia. done.
Qed.
Lemma udigits_len fuel : ∀ n, (length (udigits fuel n) ≤ fuel)%nat.
Proof.
  induction fuel as [|fuel IH]; intros n; [done|]. cbn [udigits]. destruct (n <? 10); [simpl; lia|].
  rewrite app_length. simpl. specialize (IH (n / 10)). lia.
Qed.
Lemma itoa_short n : 0 ≤ n ≤ 2^44 → zlen (itoa n) ≤ 100.
Proof.
  intros Hn. unfold itoa. replace (n <? 0) with false by lia. pose proof (udigits_len (S (Z.to_nat (Z.log2 n))) n).
  pose proof (Z.log2_le_mono n (2^44)) as Hl. rewrite Z.log2_pow2 in Hl by lia. unfold zlen. lia.
Qed.

(** a strict prefix, not torn: wait *)
Lemma multi_wait (as_ : list bytes) : ∀ D E k t (done_ : list bytes), Forall (λ a, zlen a ≤ 2^44) as_ → D ++ E = concat (map bulk as_) → E ≠ [] →
  (∀ as1 a as2, as_ = as1 ++ a :: as2 → D ≠ concat (map bulk as1) ++ bulk_header a ++ a ∧
     D ≠ concat (map bulk as1) ++ bulk_header a ++ a ++ [CR]) →
  ∃ c', multi_loop (length as_) (pc D k t (done_ ++ replicate (length as_) []) (Z.of_nat (length as_)) 0) = Ok (c', inr false).
Proof.
  induction as_ as [|a as_ IH]; intros D E k t done_ Hs HD HE Hnt.
  { simpl in HD. by apply app_eq_nil in HD as [_ ->]. }
  apply Forall_cons in Hs as [Ha Hs]. cbn [map concat] in HD. apply app_prefix_cases in HD as [(E1 & HE1 & HD & _)|(D2 & -> & HD)].
  - cbn [length multi_loop]. unfold pc at 1. cbn [c_multi]. replace (Z.of_nat (S (length as_)) >? 0) with true by lia.
    rewrite bulk_eq in HD. rewrite app_assoc in HD. apply app_prefix_cases in HD as [(E2 & HE2 & HD & _)|(D2 & -> & HD)].
    + (* inside the header *)
      exists (pc D k t (done_ ++ replicate (S (length as_)) []) (Z.of_nat (S (length as_))) 0).
      unfold multi_body. cbn [pc c_bulk]. change (0 =? 0) with true. cbv iota. rewrite getCRLF_pc. cbn [mbind res_bind].
      rewrite (crlf_strict ("$"%char :: itoa (zlen a)) D E2); [|constructor; [done|apply itoa_nocr]|done|done].
      change (-1 =? -1) with true. cbv iota. unfold need_more. cbn [pc q_len].
      assert (zlen D ≤ 200).
      { apply (f_equal zlen) in HD. rewrite !zlen_app in HD. pose proof (zlen_nonneg E2).
        pose proof (itoa_short (zlen a)) as Hsh. pose proof (zlen_nonneg a). change (zlen CRLF) with 2 in HD.
        replace (zlen ("$"%char :: itoa (zlen a))) with (1 + zlen (itoa (zlen a))) in HD by (unfold zlen; simpl; lia). lia. }
      replace (zlen D >? MaxInlineSize) with false by (unfold MaxInlineSize; lia). done.
    + rewrite <-app_assoc. rewrite multi_body_header by (by apply header_crlf).
      change ("$" =? "$")%char with true. cbv iota.
      rewrite Atoi_itoa by (unfold in_int64, minInt64, maxInt64; pose proof (zlen_nonneg a); lia).
      unfold multi_payload. cbn [pc q_len c_bulk].
      assert (zlen D2 < zlen a) as Hlt.
      { destruct (Hnt [] a as_ eq_refl) as [N1 N2]. cbn [map concat app] in N1, N2.
        assert (HH : ∀ Y, bulk_header a ++ a ++ Y = (("$"%char :: itoa (zlen a)) ++ CRLF) ++ a ++ Y) by (intros; done).
        destruct (decide (zlen D2 < zlen a)) as [|Hge]; [done|]. exfalso.
        apply app_prefix_cases in HD as [(E3 & HE3 & HD & _)|(D3 & -> & HD)].
        - apply Hge. apply (f_equal zlen) in HD. rewrite zlen_app in HD. destruct E3; [done|]. unfold zlen in *. simpl in *. lia.
        - destruct D3 as [|x [|y D3]].
          + apply N1. rewrite app_nil_r. unfold bulk_header. done.
          + injection HD as -> _. apply N2. unfold bulk_header. done.
          + injection HD as _ _ HD. apply app_eq_nil in HD as [_ ->]. done. }
      replace (zlen D2 <? zlen a) with true by lia. cbn [mbind res_bind fst snd]. eauto.
  - cbn [length]. pose proof (multi_loop_encs [a] (length as_) D2 k t done_) as H. cbn [length map concat Nat.add] in H.
    rewrite app_nil_r in H. rewrite H by (by constructor). rewrite app_assoc. apply (IH D2 E); [done..|].
    intros as1 a' as2 ->. destruct (Hnt (a :: as1) a' as2 eq_refl) as [N1 N2]. cbn [map concat] in N1, N2.
    split; intros ->; [apply N1|apply N2]; by rewrite <-app_assoc.
Qed.

Lemma multi_prefix_wait args P E k t : request_ok args → P ++ E = encode args → E ≠ [] → ¬ torn args P →
  ∃ c', processMultiBulkBuffer (pc P k t [] 0 0) = Ok (c', inr false).
Proof.
  intros Hok HP HE Hnt. destruct (request_small args Hok) as [Hlen Hs]. unfold encode in HP.
  apply app_prefix_cases in HP as [(E1 & HE1 & HP & _)|(D2 & -> & HP)].
  - assert (Hc : crlf_from 0 P = -1).
    { unfold array_header in HP. rewrite app_comm_cons in HP. eapply crlf_strict; [|exact HP|done].
      constructor; [done|apply itoa_nocr]. }
    rewrite processMulti_noline by done. unfold need_more. cbn [pc q_len].
    assert (zlen P ≤ 200).
    { apply (f_equal zlen) in HP. unfold array_header in HP. rewrite app_comm_cons in HP. rewrite !zlen_app in HP. pose proof (zlen_nonneg E1).
      pose proof (itoa_short (zlen args)) as Hsh. change (zlen CRLF) with 2 in HP.
      replace (zlen ("*"%char :: itoa (zlen args))) with (1 + zlen (itoa (zlen args))) in HP by (unfold zlen; simpl; lia). lia. }
    replace (zlen P >? MaxInlineSize) with false by (unfold MaxInlineSize; lia). eauto.
  - rewrite processMulti_array by done. apply (multi_wait args D2 E k t []); [done..|].
    intros as1 a as2 Has. split; intros ->; apply Hnt; exists as1, a, as2; (split; [done|]); [left|right]; done.
Qed.
Lemma multi_prefix_torn args P k t : request_ok args → torn args P →
  match k with
  | O => processMultiBulkBuffer (pc P k t [] 0 0) = Panic
  | S _ => ∃ c', processMultiBulkBuffer (pc P k t [] 0 0) = Ok (c', inl ECRLF)
  end.
Proof.
  intros Hok (as1 & a & as2 & Has & HP). destruct (request_small args Hok) as [Hlen Hs].
  assert (∃ X, (X = [] ∨ X = [CR]) ∧ P = array_header args ++ concat (map bulk as1) ++ bulk_header a ++ a ++ X) as (X & HX & ->).
  { destruct HP as [-> | ->]; [exists []|exists [CR]]; (split; [tauto|]); [by rewrite app_nil_r|done]. }
  rewrite processMulti_array by done. rewrite Has in Hs |- *. apply (multi_torn as1 a as2 X k t Hs HX).
Qed.

(** * Reading *)
Definition room (k : nat) : nat := if (k <? 4096)%nat then k + 4096 else k.
(** [ch] can be read when [k] bytes are unused, leaving [unused k ch] *)
Definition unused (k : nat) (ch : bytes) : nat := room k - length ch.
Fixpoint fits (k : nat) (chs : list bytes) : Prop :=
  match chs with
  | [] => True
  | ch :: chs => ch ≠ [] ∧ (length ch ≤ room k)%nat ∧ fits (unused k ch) chs
  end.
Definition unused_list (k : nat) (chs : list bytes) : nat := fold_left unused chs k.

Section reads.
  Context {St : Type} (exec : St → list bytes → res (St * bool)).
  Local Notation read := (readQueryFromClient exec).
  Local Notation process := (processInputBuffer exec).

  Definition finish (x : res (pclient * St * option perr)) : res (conn * St) :=
    x ← x; let '(c2, s', e) := (x : pclient * St * option perr) in
    match e with Some _ => Ok (Closed, s') | None => Ok (Open c2, s') end.

  Lemma read_pc D k t args m b ch s : ch ≠ [] → (length ch ≤ room k)%nat →
    read (pc D k t args m b) (RData ch) s = finish (process (pc (D ++ ch) (unused k ch) t args m b) s).
  Proof.
    intros Hne Hle. unfold readQueryFromClient.
    assert (Hg : grow (pc D k t args m b) = pc D (room k) t args m b).
    { unfold grow. cbn [pc q_buf q_len c_type c_args c_multi c_bulk]. unfold room, maxBulk, zeros, zlen.
      rewrite app_length, replicate_length.
      destruct (Nat.ltb_spec k 4096) as [Hk|Hk].
      - replace (_ <? 4096) with true by lia. unfold pc, zeros, zlen. rewrite <-app_assoc, <-replicate_add. done.
      - replace (_ <? 4096) with false by lia. done. }
    rewrite Hg. destruct ch as [|x ch]; [done|].
    assert (Hf : fill (pc D (room k) t args m b) (x :: ch) = Some (pc (D ++ x :: ch) (unused k (x :: ch)) t args m b)).
    { unfold fill. cbn [pc q_buf q_len c_type c_args c_multi c_bulk]. unfold zeros, zlen. rewrite !app_length, replicate_length.
      replace (_ <=? _) with true by lia. f_equal. unfold pc. f_equal; [|unfold zlen; rewrite app_length; lia].
      rewrite Nat2Z.id, take_app, <-app_assoc. f_equal. f_equal. rewrite drop_add_app by done.
      unfold unused. rewrite drop_replicate. done. }
    rewrite Hf. unfold finish. destruct (process (pc (D ++ x :: ch) (unused k (x :: ch)) t args m b) s) as [[[c2 s'] e]| |]; done.
  Qed.

  (** the request form is decided by the first byte *)
  Definition form (P : bytes) : cmdtype :=
    match P with
    | [] => TUnknown
    | a :: _ => if (a =? "*")%char then TMultiBulk else if (a =? "$")%char then TBulk else TInline
    end.
  Definition parse P k : parsed := dispatch (pc P k (form P) [] 0 0).
  (** outcome of the input loop from the outcome of one parse *)
  Definition act (r : parsed) (s : St) : res (conn * St) :=
    r ← r; let '(c2, out) := (r : pclient * (perr + bool)) in
    match out with
    | inl e => Ok (Closed, s)
    | inr false => Ok (Open c2, s)
    | inr true =>
        match c_args c2 with
        | [] => Ok (Open (reset c2), s)
        | args => x ← exec s args; let '(s', failed) := (x : St * bool) in
                  Ok (if failed then Closed else Open (reset c2), s')
        end
    end.
  Lemma process_act D k t args m b s : D ≠ [] → t ≠ TUnknown →
    finish (process (pc D k t args m b) s) = act (dispatch (pc D k t args m b)) s.
  Proof.
    intros HD Ht. unfold processInputBuffer. cbn [input_loop pc q_len].
    replace (zlen D >? 0) with true by (destruct D; [done|]; unfold zlen; simpl; lia).
    assert (detect (pc D k t args m b) = Ok (pc D k t args m b)) as -> by (unfold detect; cbn [pc c_type]; by destruct t).
    cbn [mbind res_bind]. unfold act, finish. destruct (dispatch (pc D k t args m b)) as [[c2 [e|[]]]| |]; cbn [mbind res_bind]; try done.
    destruct (c_args c2) as [|a as_]; [done|]. destruct (exec s (a :: as_)) as [[s' []]| |]; cbn [mbind res_bind]; done.
  Qed.
  Lemma process_act0 D k s : D ≠ [] → finish (process (pc D k TUnknown [] 0 0) s) = act (parse D k) s.
  Proof.
    intros HD. destruct D as [|a D]; [done|]. unfold parse.
    rewrite <-process_act; [|done|cbn [form]; by repeat case_match].
    unfold processInputBuffer. cbn [input_loop pc q_len]. replace (zlen (a :: D) >? 0) with true by (unfold zlen; simpl; lia).
    f_equal. unfold detect at 1. cbn [c_type].
    assert (detect (pc (a :: D) k (form (a :: D)) [] 0 0) = Ok (pc (a :: D) k (form (a :: D)) [] 0 0)) as ->.
    { unfold detect. cbn [form]. destruct (a =? "*")%char; [done|]. destruct (a =? "$")%char; done. }
    done.
  Qed.

  (** the client has received [P] and waits for the rest *)
  Definition resumes (c : pclient) (k : nat) (P : bytes) : Prop :=
    ∃ D t args m b, c = pc D k t args m b ∧ 0 ≤ m ∧
      ∀ ch k', ch ≠ [] → ∀ s, finish (process (pc (D ++ ch) k' t args m b) s) = act (parse (P ++ ch) k') s ∧
        (∀ c', parse (P ++ ch) k' = Ok (c', inr false) →
           ∃ D' args' m' b', c' = pc D' k' (form (P ++ ch)) args' m' b' ∧ 0 ≤ m' ∧
             ∀ X k2, dispatch (pc (D' ++ X) k2 (form (P ++ ch)) args' m' b') = dispatch (pc ((P ++ ch) ++ X) k2 (form (P ++ ch)) [] 0 0)).
  Lemma parse_resume P k c' : parse P k = Ok (c', inr false) →
    ∃ D' args' m' b', c' = pc D' k (form P) args' m' b' ∧ 0 ≤ m' ∧
             ∀ X k2, dispatch (pc (D' ++ X) k2 (form P) args' m' b') = dispatch (pc (P ++ X) k2 (form P) [] 0 0).
  Proof. apply dispatch_resume. done. Qed.
  Lemma form_app P X : P ≠ [] → form (P ++ X) = form P.
  Proof. by destruct P. Qed.
  Lemma form_known P : P ≠ [] → form P ≠ TUnknown.
  Proof. destruct P; [done|]. cbn [form]. by repeat case_match. Qed.

  Lemma idle_resumes k : resumes (pc [] k TUnknown [] 0 0) k [].
  Proof.
    exists [], TUnknown, [], 0, 0. split; [done|]. split; [done|]. intros ch k' Hch s. rewrite !app_nil_l. split.
    - by apply process_act0.
    - intros c' Hp. apply parse_resume. done.
  Qed.
  Lemma wait_resumes P k c' : P ≠ [] → parse P k = Ok (c', inr false) → resumes c' k P.
  Proof.
    intros HP Hp. destruct (parse_resume P k c' Hp) as (D' & args' & m' & b' & -> & Hm & HX).
    exists D', (form P), args', m', b'. split; [done|]. split; [done|]. intros ch k' Hch s. split.
    - rewrite process_act; [|destruct D'; [done|done]|by apply form_known]. unfold parse. by rewrite HX, form_app.
    - intros c' Hp'. apply parse_resume. done.
  Qed.
  Lemma resumes_step c k P ch s : resumes c k P → ch ≠ [] → (length ch ≤ room k)%nat →
    read c (RData ch) s = act (parse (P ++ ch) (unused k ch)) s.
  Proof.
    intros (D & t & args & m & b & -> & Hm & H) Hne Hle. rewrite read_pc by done. by apply H.
  Qed.

  (** what has been received after the chunks [chs]: every boundary but the last
      leaves the parser waiting *)
  Lemma reads_batch chs : ∀ c k P s last, resumes c k P → fits k (chs ++ [last]) →
    (∀ j, (0 < j ≤ length chs)%nat → ∃ c', parse (P ++ concat (take j chs)) (unused_list k (take j chs)) = Ok (c', inr false)) →
    reads exec (Open c) (map RData (chs ++ [last])) s =
    act (parse (P ++ concat (chs ++ [last])) (unused_list k (chs ++ [last]))) s.
  Proof.
    induction chs as [|ch chs IH]; intros c k P s last Hc Hf Hw.
    - cbn [app map reads] in *. destruct Hf as (Hne & Hle & _). rewrite (resumes_step _ _ _ _ _ Hc Hne Hle).
      cbn [concat]. rewrite app_nil_r. unfold unused_list. cbn [fold_left].
      destruct (act (parse (P ++ last) (unused k last)) s) as [[[c'|] s']| |]; done.
    - cbn [app] in Hf. destruct Hf as (Hne & Hle & Hf). cbn [app map reads]. rewrite (resumes_step _ _ _ _ _ Hc Hne Hle).
      destruct (Hw 1%nat) as [c' Hw1]; [simpl; lia|]. cbn [take] in Hw1. rewrite take_0 in Hw1. cbn [concat] in Hw1.
      rewrite app_nil_r in Hw1. unfold unused_list in Hw1. cbn [fold_left] in Hw1. rewrite Hw1. cbn [act mbind res_bind fst snd].
      cbn [concat]. rewrite app_assoc. unfold unused_list. cbn [fold_left]. apply IH.
      + apply wait_resumes; [|done]. intros Hn. by apply app_eq_nil in Hn as [_ ->].
      + done.
      + intros j Hj. destruct (Hw (S j)) as [c2 Hw2]; [simpl; lia|]. exists c2. cbn [take concat] in Hw2.
        rewrite app_assoc in Hw2. done.
  Qed.
  (** an error or a panic at the first boundary where the parser does not wait *)
  Lemma reads_app chs : ∀ c k P s rest, resumes c k P → fits k chs → chs ≠ [] →
    (∀ j, (0 < j < length chs)%nat → ∃ c', parse (P ++ concat (take j chs)) (unused_list k (take j chs)) = Ok (c', inr false)) →
    reads exec (Open c) (map RData chs ++ rest) s =
    (x ← act (parse (P ++ concat chs) (unused_list k chs)) s; reads exec x.1 rest x.2).
  Proof.
    induction chs as [|ch chs IH]; intros c k P s rest Hc Hf Hne Hw; [done|]. destruct Hf as (Hch & Hle & Hf).
    cbn [app map reads]. rewrite (resumes_step _ _ _ _ _ Hc Hch Hle). destruct chs as [|ch2 chs].
    - cbn [concat map app]. rewrite app_nil_r. unfold unused_list. cbn [fold_left]. done.
    - destruct (Hw 1%nat) as [c' Hw1]; [simpl; lia|]. cbn [take] in Hw1. cbn [concat] in Hw1.
      rewrite app_nil_r in Hw1. unfold unused_list in Hw1. cbn [fold_left] in Hw1. rewrite Hw1. cbn [act mbind res_bind fst snd].
      rewrite (IH c' (unused k ch) (P ++ ch)).
      + cbn [concat]. rewrite !app_assoc. unfold unused_list. cbn [fold_left]. done.
      + apply wait_resumes; [|done]. intros Hn. by apply app_eq_nil in Hn as [_ ->].
      + done.
      + done.
      + intros j Hj. destruct (Hw (S j)) as [c2 Hw2]; [simpl in *; lia|]. exists c2. cbn [take concat] in Hw2.
        rewrite app_assoc in Hw2. done.
  Qed.
End reads.

(** * Panics *)
(** a line "*<number>" or "$<number>" with an absurd number *)
Definition bad_number (P : bytes) : Prop :=
  ∃ pre c s rest num, P = pre ++ (c :: s) ++ CRLF ++ rest ∧ (c = "*"%char ∨ c = "$"%char) ∧
    Atoi s = Some num ∧ (num < 0 ∨ 2^44 < num).
Lemma bad_number_app pre D : bad_number D → bad_number (pre ++ D).
Proof. intros (p & c & s & r & n & -> & H). exists (pre ++ p), c, s, r, n. by rewrite <-app_assoc. Qed.

Lemma multi_payload_panic D k t args m b : 0 < m ≤ zlen args →
  multi_payload (pc D k t args m b) = Panic → b < 0 ∨ (k < 2)%nat.
Proof.
  intros Hm. destruct (decide (b < 0)) as [|Hb]; [by left|]. destruct (decide (k < 2)%nat) as [|Hk]; [by right|].
  unfold multi_payload. cbn [pc q_len c_bulk q_buf c_args c_multi]. destruct (zlen D <? b) eqn:El; [done|].
  assert (Hi : ∀ j, 0 ≤ j → j < zlen D + 2 → ∃ x, go_index (D ++ zeros k) j = Ok x).
  { intros j H0 Hj. unfold go_index. replace (j <? 0) with false by lia.
    destruct ((D ++ zeros k) !! Z.to_nat j) as [x|] eqn:Ex; [eauto|]. apply lookup_ge_None in Ex.
    rewrite app_length in Ex. unfold zeros in Ex. rewrite replicate_length in Ex. unfold zlen in *. lia. }
  destruct (Hi b) as [x1 ->]; [lia|lia|]. cbn [mbind res_bind]. destruct (negb _); [done|].
  destruct (Hi (b + 1)) as [x2 ->]; [lia|lia|]. cbn [mbind res_bind]. destruct (negb _); [done|].
  assert (Hsl : ∀ lo hi, 0 ≤ lo ≤ hi → hi ≤ zlen (D ++ zeros k) → ∃ x, go_slice (D ++ zeros k) lo hi = Ok x).
  { intros lo hi H1 H2. unfold go_slice. replace (_ && _) with true by lia. eauto. }
  assert (Hz : zlen (D ++ zeros k) = zlen D + Z.of_nat k).
  { rewrite zlen_app. f_equal. unfold zlen, zeros. by rewrite replicate_length. }
  destruct (Hsl 0 b) as [a ->]; [lia|lia|]. cbn [mbind res_bind].
  unfold go_store. replace (zlen args - m <? 0) with false by lia. replace (Z.of_nat (length args) <=? zlen args - m) with false by (unfold zlen in *; lia).
  cbn [mbind res_bind]. unfold moveToNextLine. cbn [with_multi with_bulk with_args pc q_buf q_len c_type c_args c_multi c_bulk].
  destruct (Hsl (b + 2) (zlen (D ++ zeros k))) as [y ->]; [lia|lia|]. done.
Qed.
Lemma multi_loop_panic n : ∀ D k t args, (n ≤ length args)%nat →
  multi_loop n (pc D k t args (Z.of_nat n) 0) = Panic → bad_number D ∨ (k < 2)%nat.
Proof.
  induction n as [|n IH]; intros D k t args Hn; [done|].
  cbn [multi_loop pc c_multi]. replace (Z.of_nat (S n) >? 0) with true by lia. fold (pc D k t args (Z.of_nat (S n)) 0).
  destruct (multi_body (pc D k t args (Z.of_nat (S n)) 0)) as [[c1 o1]| |] eqn:E1; cbn [mbind res_bind fst snd]; [| |done].
  - destruct o1 as [|]; [done|]. destruct (multi_body_resume _ _ _ _ _ _ _ _ E1) as [H1 _].
    destruct (H1 eq_refl) as (D' & args' & -> & (pre & ->) & Hl & _). replace (Z.of_nat (S n) - 1) with (Z.of_nat n) by lia.
    intros Hp. destruct (IH D' k t args') as [Hb|]; [lia|done| |by right]. left. by apply bad_number_app.
  - intros _. destruct (decide (crlf_from 0 D = -1)) as [Hi|Hi].
    + exfalso. unfold multi_body in E1. rewrite getCRLF_pc in E1. cbn [mbind res_bind] in E1. rewrite Hi in E1.
      change (c_bulk (pc D k t args (Z.of_nat (S n)) 0) =? 0) with true in E1. change (-1 =? -1) with true in E1. cbv iota in E1.
      unfold need_more in E1. destruct (_ >? _); done.
    + destruct (crlf_split D Hi) as (D1 & D2 & -> & Hz). rewrite multi_body_header in E1 by done.
      destruct D1 as [|a s]; [done|]. destruct (Ascii.eqb_spec a "$"); [subst a|done].
      destruct (Atoi s) as [num|] eqn:Ea; [|done]. apply multi_payload_panic in E1; [|unfold zlen; lia].
      destruct E1 as [Hneg|]; [left|by right]. exists [], "$"%char, s, D2, num. split; [done|]. split; [by right|]. split; [done|by left].
Qed.
Lemma parse_panic P k : parse P k = Panic → (∃ R, P = CRLF ++ R) ∨ bad_number P ∨ (k < 2)%nat.
Proof.
  unfold parse, dispatch. cbn [pc c_type]. destruct P as [|a P]; [done|]. destruct (form (a :: P)) eqn:Ef; [done| | |].
  - unfold processInlineBuffer. rewrite getCRLF_pc. cbn [mbind res_bind].
    destruct (decide (crlf_from 0 (a :: P) = -1)) as [Hi|Hi].
    { rewrite Hi. change (-1 =? -1) with true. cbv iota. unfold need_more. destruct (_ >? _); done. }
    destruct (crlf_split _ Hi) as (D1 & D2 & HD & Hz). replace (crlf_from 0 (a :: P) =? -1) with false by lia. rewrite <-Hz, HD.
    destruct D1 as [|x s]; [intros _; left; by exists D2|]. cbn [pc q_buf].
    assert (go_slice (((x :: s) ++ CRLF ++ D2) ++ zeros k) 1 (zlen (x :: s)) = Ok s) as ->.
    { rewrite <-!app_assoc. apply (go_slice_app [x] s); [done|]. unfold zlen. simpl. lia. }
    cbn [mbind res_bind].
    change (with_args (pc ((x :: s) ++ CRLF ++ D2) k TInline [] 0 0) (split_spaces [] s)) with (pc ((x :: s) ++ CRLF ++ D2) k TInline (split_spaces [] s) 0 0).
    rewrite app_assoc, move_pc by (unfold zlen; rewrite app_length; simpl; lia). done.
  - destruct (decide (crlf_from 0 (a :: P) = -1)) as [Hi|Hi].
    { rewrite processBulk_noline by done. unfold need_more. destruct (_ >? _); done. }
    destruct (crlf_split _ Hi) as (D1 & D2 & HD & Hz). rewrite HD in Hz |- *. rewrite processBulk_header by done.
    destruct D1 as [|x s]; [intros _; left; by exists D2|].
    assert (x = "$"%char) as ->. { injection HD as -> _. cbn [form] in Ef. destruct (Ascii.eqb_spec x "*"); [done|]. by destruct (Ascii.eqb_spec x "$"). }
    destruct (Atoi s) as [num|] eqn:Ea; [|done]. destruct (num =? 0) eqn:E0; [done|].
    destruct (decide (num < 0 ∨ 2^44 < num)) as [Hbad|Hgood].
    { intros _. right. left. exists [], "$"%char, s, D2, num. split; [done|]. split; [by right|]. done. }
    unfold bulk_payload. cbn [pc q_len c_bulk q_buf c_args].
    assert (Hw : wrap64 (num + 2) = num + 2) by (unfold wrap64; rewrite Z.mod_small; lia). rewrite Hw.
    destruct (zlen D2 <? num + 2) eqn:El; [done|].
    pose proof (take_drop (Z.to_nat num) D2) as Hsp. assert (Hlt : zlen (take (Z.to_nat num) D2) = num).
    { unfold zlen in *. rewrite take_length_le; lia. }
    set (D3 := take (Z.to_nat num) D2) in *. clearbody D3. set (D4 := drop (Z.to_nat num) D2) in *. clearbody D4. subst D2.
    assert (go_slice ((D3 ++ D4) ++ zeros k) 0 num = Ok D3) as ->. { rewrite <-app_assoc. apply (go_slice_app [] D3); [done|]. unfold zlen in *. simpl. lia. }
    cbn [mbind res_bind].
    change (with_args (pc (D3 ++ D4) k TBulk [] 0 num) ([] ++ [D3])) with (pc (D3 ++ D4) k TBulk [D3] 0 num).
    destruct D4 as [|y1 [|y2 D4]].
    { exfalso. rewrite zlen_app in El. change (zlen []) with 0 in El. lia. }
    { exfalso. rewrite zlen_app in El. change (zlen [y1]) with 1 in El. lia. }
    replace (D3 ++ y1 :: y2 :: D4) with ((D3 ++ [y1; y2]) ++ D4) by (by rewrite <-app_assoc).
    rewrite move_pc by (rewrite zlen_app; change (zlen [y1; y2]) with 2; lia). done.
  - destruct (decide (crlf_from 0 (a :: P) = -1)) as [Hi|Hi].
    { rewrite processMulti_noline by done. unfold need_more. destruct (_ >? _); done. }
    destruct (crlf_split _ Hi) as (D1 & D2 & HD & Hz). rewrite HD in Hz |- *. rewrite processMulti_header by done.
    destruct D1 as [|x s]; [intros _; left; by exists D2|].
    assert (x = "*"%char) as ->. { injection HD as -> _. cbn [form] in Ef. destruct (Ascii.eqb_spec x "*"); [done|]. by destruct (Ascii.eqb_spec x "$"). }
    destruct (Atoi s) as [num|] eqn:Ea; [|done]. destruct (num =? 0) eqn:E0; [done|].
    destruct (decide (num < 0 ∨ 2^44 < num)) as [Hbad|Hgood].
    { intros _. right. left. exists [], "*"%char, s, D2, num. split; [done|]. split; [by left|]. done. }
    replace (make_ok num 16) with true by (unfold make_ok, maxAlloc; lia). cbn [negb].
    replace num with (Z.of_nat (Z.to_nat num)) at 3 by lia. intros Hp. apply multi_loop_panic in Hp; [|by rewrite replicate_length].
    right. destruct Hp as [Hp|]; [left|by right]. rewrite app_assoc. by apply bad_number_app.
Qed.
