(** The start of the server (C56). *)
From Verif Require Import Base Strconv SystemModel SystemProofs LoopModel LoopProofs StartModel ExampleLib PropsLoop.
From Coq Require Import ZifyBool ZifyNat.

(** ** IPv4 addresses as text *)
Definition dotted (a b c d : Z) : bytes := itoa a ++ B "." ++ itoa b ++ B "." ++ itoa c ++ B "." ++ itoa d.
Definition octet (a : Z) : Prop := 0 ≤ a ≤ 255.

Lemma parse_digits_ge s : ∀ acc n, 0 ≤ acc → parse_digits acc s = Some n → acc ≤ n.
Proof.
  induction s as [|c s IH]; intros acc n Ha H; simpl in H; [by injection H as ->|].
  destruct (digit_val c) as [d|] eqn:Hd; [|done]. apply IH in H.
  - assert (0 ≤ d) by (unfold digit_val in Hd; destruct (_ && _) eqn:HE in Hd; [injection Hd as <-; lia|done]). lia.
  - assert (0 ≤ d) by (unfold digit_val in Hd; destruct (_ && _) eqn:HE in Hd; [injection Hd as <-; lia|done]). lia.
Qed.
Lemma digit_val_range c d : digit_val c = Some d → 0 ≤ d < 10.
Proof. unfold digit_val. destruct (_ && _) eqn:HE; [|done]. intros [= <-]. lia. Qed.
(** the text does not go on with a digit *)
Definition ends (rest : bytes) : Prop := match rest with [] => True | c :: _ => digit_val c = None end.
Lemma dtoi_loop_digits s rest : ∀ acc i n, 0 ≤ acc → parse_digits acc s = Some n → n < 16777215 → ends rest →
  dtoi_loop acc i (s ++ rest) = Some (n, (i + length s)%nat).
Proof.
  induction s as [|c s IH]; intros acc i n Ha H Hn Hr.
  - injection H as ->. destruct rest as [|c rest]; simpl in *; [f_equal; f_equal; lia|]. rewrite Hr. f_equal. f_equal. lia.
  - simpl in *. destruct (digit_val c) as [d|] eqn:Hd; [|done]. apply digit_val_range in Hd as Hr'.
    apply parse_digits_ge in H as Hg; [|lia]. rewrite (proj2 (Z.leb_gt _ _)) by lia.
    rewrite (IH _ _ n) by (try done; lia). f_equal. f_equal. lia.
Qed.
Lemma dtoi_loop_inv s : ∀ acc i n c, dtoi_loop acc i s = Some (n, c) →
  ∃ k, c = (i + k)%nat ∧ (k ≤ length s)%nat ∧ parse_digits acc (take k s) = Some n ∧
    Forall (λ c, ∃ d, 0 ≤ d < 10 ∧ c = digit d) (take k s).
Proof.
  induction s as [|x s IH]; intros acc i n c H; simpl in H.
  - injection H as <- <-. exists 0%nat. split; [lia|]. split; [done|]. split; [done|constructor].
  - destruct (digit_val x) as [d|] eqn:Hd.
    + destruct (_ <=? _); [done|]. apply IH in H as (k & -> & Hk & Hp & Hf). exists (S k).
      split; [lia|]. split; [simpl; lia|]. cbn [take firstn]. split; [cbn [parse_digits]; by rewrite Hd|].
      constructor; [|done]. exists d. split; [by eapply digit_val_range|]. unfold digit_val in Hd. destruct (_ && _) eqn:HE; [|done].
      injection Hd as <-. unfold digit. rewrite <-(ascii_N_embedding x) at 1. f_equal. lia.
    + injection H as <- <-. exists 0%nat. split; [lia|]. split; [simpl; lia|]. split; [done|constructor].
Qed.
Lemma itoa_octet n : octet n →
  parse_digits 0 (itoa n) = Some n ∧ (0 < length (itoa n))%nat ∧
  (1 <? length (itoa n))%nat && match itoa n with x :: _ => (x =? "0")%char | [] => false end = false.
Proof.
  intros Hn. unfold octet in Hn.
  assert (Hall : forallb (λ n, bool_decide (parse_digits 0 (itoa n) = Some n) && (0 <? length (itoa n))%nat &&
    negb ((1 <? length (itoa n))%nat && match itoa n with x :: _ => (x =? "0")%char | [] => false end)) (seqZ 0 256) = true)
    by (vm_compute; reflexivity).
  rewrite forallb_forall in Hall. specialize (Hall n). rewrite !andb_true_iff, bool_decide_eq_true, Nat.ltb_lt, negb_true_iff in Hall.
  destruct Hall as [[H1 H2] H3]; [apply elem_of_list_In, elem_of_seqZ; lia|done].
Qed.
Lemma dtoi_itoa n rest : octet n → ends rest → dtoi (itoa n ++ rest) = Some (n, length (itoa n)).
Proof.
  intros Hn Hr. destruct (itoa_octet n Hn) as (H1 & H2 & _). unfold dtoi.
  rewrite (dtoi_loop_digits _ _ 0 0 n) by (try done; unfold octet in Hn; lia). cbn [plus].
  by destruct (length (itoa n)); [lia|].
Qed.
Lemma leading_app s t : (0 < length s)%nat → match s ++ t with x :: _ => (x =? "0")%char | [] => false end =
  match s with x :: _ => (x =? "0")%char | [] => false end.
Proof. destruct s; simpl; [lia|done]. Qed.
Lemma parse4_itoa_end n : octet n → parse4 false 1 ("."%char :: itoa n) = Some [n].
Proof.
  intros Hn. destruct (itoa_octet n Hn) as (H1 & H2 & H3). cbn [parse4]. change ("." =? ".")%char with true. cbv iota.
  rewrite <-(app_nil_r (itoa n)) at 1. rewrite dtoi_itoa by done. rewrite (proj2 (Z.ltb_ge _ _)) by (unfold octet in Hn; lia). rewrite H3.
  by rewrite drop_all.
Qed.
Lemma parse4_itoa (first : bool) n todo rest p : octet n → ends rest → parse4 false todo rest = Some p →
  parse4 first (S todo) (if first then itoa n ++ rest else "."%char :: itoa n ++ rest) = Some (n :: p).
Proof.
  intros Hn Hr Hp. destruct (itoa_octet n Hn) as (H1 & H2 & H3).
  assert (HD : match dtoi (itoa n ++ rest) with
    | None => None
    | Some (v, c) => if 255 <? v then None else
      if (1 <? c)%nat && match itoa n ++ rest with x :: _ => (x =? "0")%char | [] => false end then None else
      match parse4 false todo (drop c (itoa n ++ rest)) with Some p => Some (v :: p) | None => None end
    end = Some (n :: p)).
  { rewrite dtoi_itoa by done. rewrite (proj2 (Z.ltb_ge _ _)) by (unfold octet in Hn; lia).
    rewrite leading_app by done. rewrite H3. by rewrite drop_app, Hp. }
  destruct first; [|exact HD]. destruct (itoa n ++ rest) eqn:HE; [by apply app_eq_nil in HE as [HE _]; rewrite HE in H2; simpl in H2; lia|exact HD].
Qed.
(** net.ParseIP reads every IPv4 address *)
Lemma parse_dotted ip6 a b c d : octet a → octet b → octet c → octet d →
  ParseIP ip6 (dotted a b c d) = Some (v4InV6Prefix ++ [a; b; c; d]).
Proof.
  intros Ha Hb Hc Hd. unfold ParseIP.
  assert (Hk : ip_kind (dotted a b c d) = Some true).
  { unfold dotted. destruct (itoa_octet a Ha) as (HP & _ & _). remember (B "." ++ itoa b ++ B "." ++ itoa c ++ B "." ++ itoa d) as t eqn:Ht.
    assert (Hin : ip_kind t = Some true) by (by subst t). clear Ht.
    revert HP. generalize 0 at 1. generalize (itoa a). intros s. induction s as [|x s IH]; intros acc HP; [done|]. simpl in *.
    destruct (digit_val x) as [v|] eqn:Hv; [|done]. destruct (Ascii.eqb_spec x "."%char) as [->|]; [done|].
    destruct (Ascii.eqb_spec x ":"%char) as [->|]; [done|]. by eapply IH. }
  rewrite Hk. unfold parseIPv4, dotted.
  by rewrite (parse4_itoa true a 3 _ [b; c; d]); [|done..|apply (parse4_itoa false b 2 _ [c; d]); [done..|
    apply (parse4_itoa false c 1 _ [d]); [done..|by apply parse4_itoa_end]]].
Qed.
(** and no other text without a colon *)
Lemma udigits_canon ds : Forall (λ d, 0 ≤ d < 10) ds → ds ≠ [] → ((1 < length ds)%nat → ds !! 0%nat ≠ Some 0) →
  ∀ fuel v, parse_digits 0 (digit <$> ds) = Some v → v < 2 ^ Z.of_nat fuel → (fuel ≠ 0)%nat → udigits fuel v = digit <$> ds.
Proof.
  intros Hds. induction ds as [|d ds IH] using rev_ind; [done|]. intros _ Hz fuel v Hv Hf Hf0.
  apply Forall_app in Hds as [Hds Hd]. rewrite Forall_singleton in Hd. rewrite fmap_app, parse_digits_app in Hv.
  destruct (parse_digits 0 (digit <$> ds)) as [v'|] eqn:Hv'; [|done]. cbn -[digit_val digit] in Hv. rewrite digit_val_digit in Hv by done. injection Hv as <-.
  destruct fuel as [|fuel]; [done|]. cbn [udigits]. rewrite fmap_app. cbn [fmap list_fmap].
  destruct ds as [|x ds].
  - simpl in Hv'. injection Hv' as <-. rewrite (proj2 (Z.ltb_lt _ _)) by lia. done.
  - assert (Hx : x ≠ 0) by (intros ->; apply Hz; [rewrite app_length; simpl; lia|done]).
    assert (Hpos : 1 ≤ v').
    { apply Forall_cons in Hds as [Hx' _]. cbn [fmap list_fmap parse_digits] in Hv'. rewrite digit_val_digit in Hv' by done.
      apply parse_digits_ge in Hv'; lia. }
    rewrite (proj2 (Z.ltb_ge _ _)) by lia.
    replace ((v' * 10 + d) / 10) with v' by (rewrite Z.div_add_l by lia; rewrite Z.div_small by lia; lia).
    replace ((v' * 10 + d) mod 10) with d by (rewrite Z.add_comm, Z.mod_add by lia; rewrite Z.mod_small by lia; done).
    f_equal. apply IH; try done.
    + by intros _ [= ->].
    + rewrite Nat2Z.inj_succ, Z.pow_succ_r in Hf by lia. lia.
    + intros ->. simpl in Hf. lia.
Qed.
Lemma dtoi_canon s n c : dtoi s = Some (n, c) → n ≤ 255 →
  (1 <? c)%nat && match s with x :: _ => (x =? "0")%char | [] => false end = false →
  octet n ∧ s = itoa n ++ drop c s.
Proof.
  intros H Hn Hz. unfold dtoi in H. destruct (dtoi_loop 0 0 s) as [[n' [|c']]|] eqn:HL; try done. injection H as -> <-.
  apply dtoi_loop_inv in HL as (k & Hk & Hlen & Hp & Hf). simpl in Hk. subst k.
  apply parse_digits_ge in Hp as Hge; [|done]. split; [unfold octet; lia|].
  rewrite <-(take_drop (S c') s) at 1. f_equal.
  assert (∃ ds, take (S c') s = digit <$> ds ∧ Forall (λ d, 0 ≤ d < 10) ds) as (ds & Hds & Hr).
  { clear -Hf. induction Hf as [|x l (d & Hd & ->) _ (ds & -> & H)]; [by exists []|]. exists (d :: ds). split; [done|]. by constructor. }
  unfold itoa. rewrite (proj2 (Z.ltb_ge _ _)) by lia. rewrite Hds. symmetry. apply udigits_canon; try done.
  - intros ->. destruct s; [simpl in Hlen; lia|done].
  - intros H1 H0. assert (Hl : length ds = S c') by (rewrite <-(fmap_length digit), <-Hds, take_length; lia).
    destruct ds as [|d ds]; [done|]. injection H0 as ->. destruct s as [|x s]; [done|]. injection Hds as -> _.
    rewrite (proj2 (Nat.ltb_lt _ _)) in Hz by lia. done.
  - by rewrite <-Hds.
  - by apply udigits_log.
Qed.
Lemma parse4_inv first todo s p : parse4 first (S todo) s = Some p → ∃ n s' p', octet n ∧ p = n :: p' ∧
  s = (if first then itoa n else B "." ++ itoa n) ++ s' ∧ parse4 false todo s' = Some p'.
Proof.
  intros H. cbn [parse4] in H.
  destruct (match s with [] => None | c :: s' => if first then Some s else if (c =? ".")%char then Some s' else None end) as [t|] eqn:HT; [|done].
  destruct (dtoi t) as [[n c]|] eqn:HD; [|done]. destruct (255 <? n) eqn:Hn; [done|]. destruct (_ && _) eqn:Hz; [done|].
  destruct (parse4 false todo (drop c t)) as [p'|] eqn:HP; [|done]. injection H as <-.
  destruct (dtoi_canon _ _ _ HD ltac:(lia) Hz) as [Ho HE]. exists n, (drop c t), p'. split; [done|]. split; [done|]. split; [|done].
  destruct s as [|x s]; [done|]. destruct first.
  - injection HT as <-. done.
  - destruct (Ascii.eqb_spec x "."%char) as [->|]; [|done]. injection HT as <-. rewrite HE at 1. done.
Qed.
Lemma parseIPv4_inv s ip : parseIPv4 s = Some ip → ∃ a b c d, octet a ∧ octet b ∧ octet c ∧ octet d ∧ s = dotted a b c d ∧ ip = v4InV6Prefix ++ [a; b; c; d].
Proof.
  unfold parseIPv4. intros H. destruct (parse4 true 4 s) as [p|] eqn:HP; [|done]. injection H as <-.
  apply parse4_inv in HP as (a & s1 & p1 & Ha & -> & -> & HP). apply parse4_inv in HP as (b & s2 & p2 & Hb & -> & -> & HP).
  apply parse4_inv in HP as (c & s3 & p3 & Hc & -> & -> & HP). apply parse4_inv in HP as (d & s4 & p4 & Hd & -> & -> & HP).
  simpl in HP. destruct s4; [|done]. injection HP as <-. exists a, b, c, d. split_and!; try done.
  unfold dotted. rewrite !app_nil_r. cbv iota. by rewrite <-!app_assoc.
Qed.

(** ** C56: the listening socket *)
(** a connection to [ip]:[port] on this machine reaches the socket *)
Definition accepts (s : sock) (ip : list Z) (port : Z) : Prop :=
  is_Some (so_backlog s) ∧ (so_addr s = Some (ip, port) ∨ so_addr s = Some ([0; 0; 0; 0], port)).

Section start.
  Context (ip6 : bytes → option (list Z)).
  (** the text of an IPv6 address stands for sixteen bytes *)
  Hypothesis ip6_len : ∀ s ip, ip6 s = Some ip → length ip = 16%nat.

  Lemma create_spec an ip port k : CreateTCPServer ip6 an ip port k =
    match an_socket an, ParseIP ip6 ip with
    | Some fd, Some addr =>
      if bool_decide (k !! fd = None) && an_opt an && an_bind an && an_listen an
      then (<[fd := Sock true (Some (copy4 addr, port)) (Some 128)]> k, Some fd) else (k, None)
    | _, _ => (k, None)
    end.
  Proof.
    unfold CreateTCPServer, Socket, SetSockOpt, Bind, Listen, Close. destruct (an_socket an) as [fd|]; [|done].
    destruct (k !! fd) as [s|] eqn:Hk; cbn [bool_decide decide_rel].
    { rewrite bool_decide_eq_false_2 by done. by destruct (ParseIP ip6 ip). }
    rewrite bool_decide_eq_true_2 by done. destruct (an_opt an); cbn [negb andb].
    2: { rewrite delete_insert by done. by destruct (ParseIP ip6 ip). }
    rewrite alter_insert. destruct (ParseIP ip6 ip) as [addr|]; cbn [negb].
    2: { by rewrite delete_insert by done. }
    destruct (an_bind an); cbn [negb]; [|by rewrite delete_insert by done]. rewrite alter_insert.
    destruct (an_listen an); cbn [negb]; [|by rewrite delete_insert by done]. by rewrite alter_insert.
  Qed.

  (** Whatever fails, no descriptor stays open; on success there is exactly one new
      socket, it listens on the configured port, and its address is the first four of
      the sixteen bytes of the configured address. *)
  Theorem C56_all_or_nothing an host port k k' r : CreateTCPServer ip6 an host port k = (k', r) →
    (r = None ∧ k' = k) ∨
    (∃ fd b0 b1 b2 b3 rest, k !! fd = None ∧ r = Some fd ∧ ParseIP ip6 host = Some (b0 :: b1 :: b2 :: b3 :: rest) ∧
      k' = <[fd := Sock true (Some ([b0; b1; b2; b3], port)) (Some 128)]> k).
  Proof using ip6_len.
    rewrite create_spec. intros H. destruct (an_socket an) as [fd|]; [|injection H as <- <-; by left].
    destruct (ParseIP ip6 host) as [addr|] eqn:HP; [|injection H as <- <-; by left].
    destruct (_ && _) eqn:HE; [|injection H as <- <-; by left]. injection H as <- <-. right.
    rewrite !andb_true_iff, bool_decide_eq_true in HE. destruct HE as [[[Hfd _] _] _].
    assert (Hlen : length addr = 16%nat).
    { unfold ParseIP in HP. destruct (ip_kind host) as [[]|]; [|by eapply ip6_len|done].
      by apply parseIPv4_inv in HP as (? & ? & ? & ? & _ & _ & _ & _ & _ & ->). }
    destruct addr as [|b0 [|b1 [|b2 [|b3 rest]]]]; try done. exists fd, b0, b1, b2, b3, rest. split_and!; try done.
  Qed.
  (** A host that is neither an IPv4 nor an IPv6 address is refused. *)
  Theorem C56_bad_host an host port k : ":"%char ∉ host → (∀ a b c d, octet a → octet b → octet c → octet d → host ≠ dotted a b c d) →
    CreateTCPServer ip6 an host port k = (k, None).
  Proof using.
    intros Hc Hn. rewrite create_spec. destruct (an_socket an); [|done]. destruct (ParseIP ip6 host) as [addr|] eqn:HP; [|done]. exfalso.
    unfold ParseIP in HP. destruct (ip_kind host) as [[]|] eqn:HK; [| |done].
    - apply parseIPv4_inv in HP as (a & b & c & d & Ha & Hb & Hc' & Hd & HE & _). exact (Hn a b c d Ha Hb Hc' Hd HE).
    - apply Hc. clear -HK. induction host as [|x s IH]; [done|]. simpl in HK. destruct (x =? ".")%char; [done|].
      destruct (Ascii.eqb_spec x ":"%char) as [->|]; [by left|]. right. by apply IH.
  Qed.
  (** Every IPv4 host is accepted when the system calls succeed … *)
  Theorem C56_listens_partial fd a b c d port k : octet a → octet b → octet c → octet d → k !! fd = None →
    ∃ s, CreateTCPServer ip6 (Ans (Some fd) true true true) (dotted a b c d) port k = (<[fd := s]> k, Some fd) ∧
      accepts s [a; b; c; d] port.
  Proof using.
    intros Ha Hb Hc Hd Hk. rewrite create_spec, parse_dotted by done. simpl. rewrite bool_decide_eq_true_2 by done. eexists. split; [done|].
    split; [by eexists|]. by right.
  Qed.
  (** … but connections to every other address of the machine reach the server too:
      the setting [bind] restricts nothing. *)
  Theorem C56_everywhere an a b c d port k k' fd : octet a → octet b → octet c → octet d →
    CreateTCPServer ip6 an (dotted a b c d) port k = (k', Some fd) →
    ∃ s, k' !! fd = Some s ∧ so_addr s = Some ([0; 0; 0; 0], port) ∧ ∀ ip, accepts s ip port.
  Proof using.
    intros Ha Hb Hc Hd. rewrite create_spec, parse_dotted by done. destruct (an_socket an) as [fd'|]; [|done].
    destruct (_ && _); [|done]. intros [= <- <-]. eexists. split; [by rewrite lookup_insert|]. split; [done|].
    intros ip. split; [by eexists|]. by right.
  Qed.
  (** The server listens on the configured address only if that is 0.0.0.0. *)
  Theorem C56_only_any an a b c d port k k' fd s : octet a → octet b → octet c → octet d →
    CreateTCPServer ip6 an (dotted a b c d) port k = (k', Some fd) → k' !! fd = Some s →
    so_addr s = Some ([a; b; c; d], port) ↔ a = 0 ∧ b = 0 ∧ c = 0 ∧ d = 0.
  Proof using.
    intros Ha Hb Hc Hd HC Hs. destruct (C56_everywhere _ _ _ _ _ _ _ _ _ Ha Hb Hc Hd HC) as (s' & Hs' & HA & _).
    rewrite Hs in Hs'. injection Hs' as <-. rewrite HA. split; [by intros [= <- <- <- <-]|by intros (-> & -> & -> & ->)].
  Qed.
End start.

(** The claim one expects, that a server told to listen on one address cannot be
    reached by another, is false. *)
Definition only_there ip6 : Prop := ∀ an a b c d port k k' fd s ip, octet a → octet b → octet c → octet d → [a; b; c; d] ≠ [0; 0; 0; 0] →
  CreateTCPServer ip6 an (dotted a b c d) port k = (k', Some fd) → k' !! fd = Some s → accepts s ip port → ip = [a; b; c; d].
Theorem C56_bind_refuted ip6 : ¬ only_there ip6.
Proof.
  intros H. assert (HC : CreateTCPServer ip6 (Ans (Some 3) true true true) (dotted 127 0 0 1) 6379 ∅ =
    (<[3 := Sock true (Some ([0; 0; 0; 0], 6379)) (Some 128)]> ∅, Some 3)).
  { rewrite create_spec, parse_dotted by (unfold octet; lia). simpl. by rewrite bool_decide_eq_true_2 by done. }
  assert (HI : [192; 168; 1; 7] = [127; 0; 0; 1]); [|done].
  eapply (H _ 127 0 0 1); [unfold octet; lia..|done|exact HC|by rewrite lookup_insert|]. split; [by eexists|]. by right.
Qed.

(** ** The server that runs *)
(** A start either fails and leaves no socket open, or the server is in a state that
    the theorems about the event loop speak of, with the configured number of databases
    (16 if none is configured), in this and every later state. *)
Theorem C56_runs ip6 an st now k k' cf fd l acts l' : Start ip6 an st now k = (k', Some (cf, fd, l)) →
  boots cf → Forall act_ok acts → lrun cf acts l = Ok l' → Z.of_nat (total (l_hist l')) < 2 ^ 42 →
  lreach cf fd now acts l' ∧ k !! fd = None ∧ is_Some (k' !! fd) ∧
  Z.of_nat (length (ServerModel.s_dbs (y_srv (l_sys l')))) = (if decide (0 < st_databases st) then st_databases st else 16).
Proof.
  unfold Start. intros HS Hb Ha HR Hsz. destruct (CreateTCPServer ip6 an (st_host st) (st_port st) k) as [k1 [fd1|]] eqn:HC; [|done].
  injection HS as <- <- <- <-.
  assert (HL : lreach (with_dbs (db_num st) (st_loop st)) fd1 now acts l').
  { split; [done|]. split; [|done]. simpl. unfold db_num. destruct (Z.ltb_spec 0 (st_databases st)); [lia|unfold defaultDBNum; lia]. }
  split; [done|]. rewrite create_spec in HC. destruct (an_socket an) as [fd|]; [|done]. destruct (ParseIP ip6 (st_host st)); [|done].
  destruct (_ && _) eqn:HE; [|done]. injection HC as <- <-. rewrite !andb_true_iff, bool_decide_eq_true in HE. destruct HE as [[[Hk _] _] _].
  split; [done|]. split; [rewrite lookup_insert; by eexists|].
  pose proof (lreach_ok _ _ _ _ _ HL) as HI.
  assert (Hlen : length (ServerModel.s_dbs (y_srv (l_sys l'))) = db_num st) by (refine (yo_len (lc_sys (with_dbs (db_num st) (st_loop st))) _ _ (reaches_ok _ _ _ _)); eapply base_reaches; [apply HL|apply HI|exact Hsz]).
  rewrite Hlen. unfold db_num, defaultDBNum. destruct (Z.ltb_spec 0 (st_databases st)), (decide (0 < st_databases st)); lia.
Qed.

(** ** Examples *)
Example C56_example : ∀ ip6,
  ParseIP ip6 (B "127.0.0.1") = Some [0; 0; 0; 0; 0; 0; 0; 0; 0; 0; 255; 255; 127; 0; 0; 1] ∧
  B "127.0.0.1" = dotted 127 0 0 1 ∧
  (λ r, (r.1 !! 3, r.2)) (CreateTCPServer ip6 (Ans (Some 3) true true true) (B "127.0.0.1") 6379 ∅) =
    (Some (Sock true (Some ([0; 0; 0; 0], 6379)) (Some 128)), Some 3) ∧
  (λ r, (r.1 !! 3, r.2)) (CreateTCPServer ip6 (Ans (Some 3) true true false) (B "127.0.0.1") 6379 ∅) = (None, None) ∧
  ParseIP ip6 (B "127.0.0.01") = None ∧ ParseIP ip6 (B "127.0.0.256") = None ∧ ParseIP ip6 (B "localhost") = None ∧ ParseIP ip6 [] = None.
Proof. intros ip6. repeat split; vm_compute; reflexivity. Qed.
(** an IPv6 host: the server listens on an IPv4 address made of its first bytes *)
Example C56_ipv6_example :
  let ip6 s := if bool_decide (s = B "7f00:1::") then Some ([127; 0; 0; 1] ++ replicate 12 0) else None in
  (λ r, (r.1 !! 3, r.2)) (CreateTCPServer ip6 (Ans (Some 3) true true true) (B "7f00:1::") 6379 ∅) =
    (Some (Sock true (Some ([127; 0; 0; 1], 6379)) (Some 128)), Some 3).
Proof. vm_compute. reflexivity. Qed.
Definition st0 : settings := Settings (B "127.0.0.1") 6379 0 (LCfg cf0 true 100 1000 None).
Example C56_start_example : ∃ k',
  Start (λ _, None) (Ans (Some 3) true true true) st0 1000 ∅ =
    (k', Some (with_dbs 16 (st_loop st0), 3, linit (with_dbs 16 (st_loop st0)) 3 1000)) ∧
  boots (with_dbs 16 (st_loop st0)) ∧
  length (ServerModel.s_dbs (y_srv (l_sys (linit (with_dbs 16 (st_loop st0)) 3 1000)))) = 16%nat.
Proof.
  exists (<[3 := Sock true (Some ([0; 0; 0; 0], 6379)) (Some 128)]> ∅). split; [|split].
  - unfold Start. rewrite create_spec. change (st_host st0) with (dotted 127 0 0 1). rewrite parse_dotted by (unfold octet; lia).
    reflexivity.
  - split; [constructor|]. exists (init_sys (lc_sys (with_dbs 16 (st_loop st0)))). reflexivity.
  - reflexivity.
Qed.

Print Assumptions C56_all_or_nothing.
Print Assumptions C56_bad_host.
Print Assumptions C56_listens_partial.
Print Assumptions C56_everywhere.
Print Assumptions C56_only_any.
Print Assumptions C56_bind_refuted.
Print Assumptions C56_runs.
