(** C40, the other half: what a rewrite of the log makes of every dataset. *)
From Verif Require Import Base Float DictModel DictProofs DictProofs2 DictProofs3 DatabaseModel QuicklistModel QuicklistProofs SkiplistModel ZsetModel Strconv RespSpec ServerModel CommandModel CommandSem CommandInv CommandTop
  SystemModel SystemProofs CommandFacts ZcmdProofs PropsZcmd PropsData AofModel AofProofs1 AofProofs2 LoadProofs RndFrame AofProofs3 AofProofs4 AofProofs5 RewriteProofs
  PropsCommand PropsAof ExampleLib.
From Coq Require Import ZifyBool ZifyNat.

(** the datasets: no member of a sorted set reads as a number (otherwise members and
    scores change places, [C40_swapped_refuted]); the deadline of a key that exists is
    later than [H], in whole seconds *)
Definition covered (lib : lib) (H : Z) (D : adb) : Prop :=
  (∀ k m s, a_keys D !! k = Some (AZset m s) → no_number lib m) ∧
  (∀ k T, is_Some (a_keys D !! k) → a_ttl D !! k = Some T → H ≤ T / 1000 * 1000 ∧ T < 2 ^ 63).
(** The rewrite succeeds, and a restart from its text gives exactly this: strings and
    hashes and sets that are not empty as they were, lists reversed, sorted sets without
    their members, empty containers not at all, deadlines of existing keys (rounded down,
    [sim]). *)
Theorem C40_dump cf H E evs y0 y1 snap mid y2 rd :
  lower_ok (cf_lib cf) → 0 ≤ H → Z.of_nat (cf_dbs cf) ≤ 2 ^ 44 →
  reaches cf evs y0 → careful_history cf evs → s_task (y_srv y0) = false → step cf EvRewrite y0 = Ok y1 → s_snap (y_srv y1) = Some snap →
  Forall (covered (cf_lib cf) H) (abs_dbs (y_srv y0)) →
  (* the keys are read one by one; no container has changed when it is read *)
  reaches cf (evs ++ EvRewrite :: mid) y2 → read_during cf evs mid rd → unchanged (s_heap (y_srv y0)) rd snap →
  ∃ dump n Ds, rewriteAppendOnlyFile E rd snap = Ok dump ∧ Forall2 dumped_db (abs_dbs (y_srv y0)) Ds ∧
    ∀ clock rs, readable dump → (∀ j, clock j ≤ H) → Forall (λ r, 0 ≤ r) rs → enough n rs →
      ∃ w, restart cf clock dump rs = (w, Ok tt) ∧ Forall2 sim Ds (abs_dbs (w_srv w)).
Proof.
  intros Hlow HH Hdbs Hr0 Hcare Ht0 HS1 Hsnap Hcov Hr2 Hrd Hun.
  pose proof (reaches_ok cf evs y0 Hr0) as [[S1 S2 S3 S4] Sl _].
  destruct (rewrite_snapshot cf evs y0 y1 Hr0 Ht0 HS1) as (snap' & Hs' & _ & _ & _ & _ & _ & _ & HF).
  rewrite Hsnap in Hs'. injection Hs' as <-.
  assert (Hpos : (0 < cf_dbs cf)%nat) by (by destruct Hr0 as [(_ & ? & _) _]).
  assert (HN : Z.of_nat (total (evs ++ EvRewrite :: mid)) ≤ 2 ^ 44) by (destruct Hr2 as [(_ & _ & ?) _]; lia).
  assert (Hpre : ∀ m, m `prefix_of` mid → history_ok cf (evs ++ EvRewrite :: m) ∧ (total (evs ++ EvRewrite :: m) ≤ total (evs ++ EvRewrite :: mid))%nat).
  { intros m [t ->]. destruct Hr2 as [(Hev & _ & Htot) _].
    assert (evs ++ EvRewrite :: m ++ t = (evs ++ EvRewrite :: m) ++ t) as Heq by (by rewrite <-app_assoc). rewrite Heq in *.
    apply Forall_app in Hev as [Hev _]. rewrite (total_app (evs ++ EvRewrite :: m) t) in *. split; [|lia]. split; [done|]. split; [done|]. lia. }
  assert (Hrdok : ∀ id k, Forall (obj_ok (total (evs ++ EvRewrite :: mid))) (rd id k)).
  { intros id k. destruct (Hrd id k) as (m & ym & Hm & Hym & ->). destruct (Hpre m Hm) as [Hh Hle].
    destruct (reaches_ok cf _ ym (conj Hh Hym)) as [[_ M2 _ _] _ _]. eapply Forall_impl; [exact M2|]. intros x Hx. by eapply obj_ok_mono. }
  assert (Hsn : length snap = cf_dbs cf) by (rewrite <-(Forall2_length _ _ _ HF); done).
  assert (Hsame : abs_db (s_heap (y_srv y0)) <$> snap = abs_dbs (y_srv y0)).
  { clear -HF. unfold abs_dbs. generalize (s_heap (y_srv y0)). intros heap. induction HF as [|d c l l' (E1 & E2 & _) _ IH]; [done|].
    rewrite !fmap_cons. f_equal; [|done]. unfold abs_db. by rewrite E1, E2. }
  pose proof (careful_tame cf evs y0 Hr0 Hcare) as Htame.
  destruct (dbs_dumped cf H Hlow HH E (s_heap (y_srv y0)) rd (total (evs ++ EvRewrite :: mid)) (total evs) snap Hrdok HN) with (id := 0%nat) as (cmds & Ds & E1 & Hc & HD & HL).
  { clear -HF. induction HF as [|? ? ? ? (_ & _ & ?) HF IH]; [by apply Forall_nil_2|by constructor]. }
  { intros i c Hci. cbn [Nat.add]. destruct (Forall2_lookup_r _ _ _ _ _ HF Hci) as (db & Hdb & Hm1 & Hm2 & _).
    assert (HDi : abs_dbs (y_srv y0) !! i = Some (abs_db (s_heap (y_srv y0)) c)) by (rewrite <-Hsame, list_lookup_fmap, Hci; done).
    assert (HT : tame_db (abs_db (s_heap (y_srv y0)) c)) by (by eapply Forall_lookup_1).
    assert (HC : covered (cf_lib cf) H (abs_db (s_heap (y_srv y0)) c)) by (by eapply (Forall_lookup_1 (covered (cf_lib cf) H))).
    destruct HC as [HC1 HC2]. split.
    - intros k v Hv. pose proof (Hun i c k v Hci Hv) as Hval. split; [done|].
      assert (Hkv : a_keys (abs_db (s_heap (y_srv y0)) c) !! k = Some (abs_val (s_heap (y_srv y0)) v)) by (simpl; by rewrite lookup_fmap, Hv).
      split.
      + destruct (abs_val (s_heap (y_srv y0)) v) as [| | | |m s] eqn:Ev; try done. split; [by eapply HT|by eapply HC1].
      + intros o ->. assert (Ho : (o < length (s_heap (y_srv y0)))%nat).
        { apply S4 with i k. exists db. split; [done|]. by rewrite <-Hm1. }
        apply lookup_lt_is_Some in Ho as [x Hx]. cbn [abs_val] in Hval. rewrite Hx in Hval.
        destruct (rd i k !! o); [by eexists|]. by destruct x.
    - intros k T Hk HkT. apply (HC2 k T); [|exact HkT]. simpl. rewrite lookup_fmap. by apply fmap_is_Some. }
  exists (log_file cmds), (draws (cf_lib cf) cmds), Ds. split; [done|]. split; [by rewrite <-Hsame|].
  intros clock rs Hlen Hclock Hrs Hen. destruct (HL [] 0%nat eq_refl ltac:(lia)) as [db HLd]. cbn [app] in HLd. rewrite Hsn in HLd.
  assert (Hnew : abs_dbs (NewServer (cf_dbs cf)) = replicate (cf_dbs cf) empty_db).
  { unfold abs_dbs. cbn [NewServer s_dbs]. rewrite fmap_replicate. f_equal. unfold abs_db. simpl. rewrite !NewDict_map. by rewrite fmap_empty. }
  rewrite <-Hnew in HLd.
  destruct (restart_leads cf H clock rs Ds db cmds) as (w & N & Hw & Hrp); try done. exists w. split; [done|]. apply Hrp.
Qed.
Print Assumptions C40_dump.
(** a list, a sorted set, an empty set, a hash with a deadline *)
Definition h_all : list event := [EvConnect; cmd 0 1500 "rpush l a b c"; cmd 0 1500 "zadd z 1 m 2 n"; cmd 0 1500 "sadd s x"; cmd 0 1500 "srem s x";
  cmd 0 1600 "select 3"; cmd 0 1700 "hset h f v"; cmd 0 1700 "expire h 10"; EvFlush].
Definition covered_check (lib : lib) (H : Z) (D : adb) : bool :=
  forallb (λ p, match p.2 with AZset m _ => forallb (λ q, match lib_parse_float lib q.1 with None => true | Some _ => false end) (map_to_list m) | _ => true end) (map_to_list (a_keys D)) &&
  forallb (λ p, (H <=? p.2 / 1000 * 1000) && (p.2 <? 2 ^ 63)) (map_to_list (a_ttl D)).
Lemma covered_check_ok lib H D : covered_check lib H D = true → covered lib H D.
Proof.
  intros [H1 H2]%andb_true_iff. rewrite forallb_forall in H1, H2. split.
  - intros k m s Hk x [sc Hx]. apply elem_of_map_to_list, elem_of_list_In, H1 in Hk. cbn [snd] in Hk. rewrite forallb_forall in Hk.
    apply elem_of_map_to_list, elem_of_list_In, Hk in Hx. cbn [fst] in Hx. by destruct (lib_parse_float lib x).
  - intros k T _ HT. apply elem_of_map_to_list, elem_of_list_In, H2 in HT. cbn [snd] in HT. apply andb_true_iff in HT as [HT1 HT2]. lia.
Qed.
Lemma covered_checks lib H l : forallb (covered_check lib H) l = true → Forall (covered lib H) l.
Proof. induction l as [|D l IH]; [intros _; apply Forall_nil_2|]. cbn [forallb]. intros [H1 H2]%andb_true_iff. constructor; [by apply covered_check_ok|by apply IH]. Qed.
Example C40_dump_example : let y0 := after cf0 h_all in
  reaches cf0 h_all y0 ∧ careful_history cf0 h_all ∧ s_task (y_srv y0) = false ∧ Forall (covered (cf_lib cf0) 5000) (abs_dbs (y_srv y0)) ∧
  let y := rewritten h_all [] in let w := (reborn y).1 in reborn y = (w, Ok tt) ∧
  as_list (val (y_srv y) 0 (B "l")) = [B "a"; B "b"; B "c"] ∧ as_list (val (w_srv w) 0 (B "l")) = [B "c"; B "b"; B "a"] ∧
  as_zset (val (y_srv y) 0 (B "z")) = Some 2%nat ∧ as_zset (val (w_srv w) 0 (B "z")) = Some 0%nat ∧
  is_Some (val (y_srv y) 0 (B "s")) ∧ val (w_srv w) 0 (B "s") = None ∧
  as_hash (val (w_srv w) 3 (B "h")) (B "f") = Some (B "v") ∧ ttl (w_srv w) 3 (B "h") = Some 11000.
Proof.
  cbv zeta. split; [apply after_reaches; by vm_compute|]. split; [apply careful_history_check; by vm_compute|]. split; [by vm_compute|]. split.
  { apply covered_checks. by vm_compute. }
  split; [apply loads_ok_eq; by vm_compute|]. split; [by vm_compute|]. split; [by vm_compute|]. split; [by vm_compute|]. split; [by vm_compute|].
  split; [eexists; by vm_compute|by vm_compute].
Qed.
(** numbers as members: the member 5 with score 1 becomes the member 1 with score 5 *)
Definition h_swap : list event := [EvConnect; cmd 0 1000 "zadd z 1 5"; EvFlush].
Definition reborn1 (y : sys) : loaded world := restart cf0 (λ _, 3000) (y_file y) (replicate 5 65535).
Theorem C40_swapped_refuted : reaches cf0 (h_swap ++ EvRewrite :: []) (after cf0 (h_swap ++ EvRewrite :: [])) ∧
  let y := rewritten h_swap [] in let w := (reborn1 y).1 in reborn1 y = (w, Ok tt) ∧
  has_member (val (y_srv y) 0 (B "z")) (B "5") = true ∧ has_member (val (y_srv y) 0 (B "z")) (B "1") = false ∧
  has_member (val (w_srv w) 0 (B "z")) (B "5") = false ∧ has_member (val (w_srv w) 0 (B "z")) (B "1") = true.
Proof. split; [apply after_reaches; by vm_compute|]. cbv zeta. split; [apply loads_ok_eq; by vm_compute|by vm_compute]. Qed.
Print Assumptions C40_swapped_refuted.

(** * C57: the snapshot of the databases *)
Lemma snap_stays cf e y y' : step cf e y = Ok y' → (∀ d, e ≠ EvDone d) → ¬ is_boot e → s_task (y_srv y) = true →
  s_task (y_srv y') = true ∧ s_snap (y_srv y') = s_snap (y_srv y).
Proof.
  intros HS He Hb Ht. destruct e as [|i args now unix rs|i n|now rs| | |dump|file clock rs]; cbn [step] in HS.
  - by injection HS as <-.
  - destruct (y_cls y !! i) as [c|]; [|by injection HS as <-].
    destruct (processCommand _ _ _) as [[w' u]| |] eqn:EP; try done. injection HS as <-.
    destruct u. by apply (CommandExt.process_grows _ _ _ _ EP).
  - destruct (y_cls y !! i); by injection HS as <-.
  - destruct (databasesCron _ _ _) as [[dbs' rs']| |]; try done. by injection HS as <-.
  - by injection HS as <-.
  - unfold rewriteAppendOnlyFileBackground in HS. rewrite Ht in HS. by injection HS as <-.
  - by destruct (He dump).
  - done.
Qed.
(** What a rewrite is given has exactly the keys of the server at that moment, with the
    same strings and containers, and the same deadlines; the databases themselves do not
    change; nothing that is executed before the rewrite ends changes what it was given. *)
Theorem C57_snapshot cf evs y y' : reaches cf evs y → s_task (y_srv y) = false → step cf EvRewrite y = Ok y' →
  ∃ snap, s_snap (y_srv y') = Some snap ∧ s_dbs (y_srv y') = s_dbs (y_srv y) ∧ s_heap (y_srv y') = s_heap (y_srv y) ∧
    length snap = length (s_dbs (y_srv y)) ∧
    (∀ i db c k, s_dbs (y_srv y) !! i = Some db → snap !! i = Some c →
      d_map (db_dict c) !! k = d_map (db_dict db) !! k ∧ d_map (db_expire c) !! k = d_map (db_expire db) !! k) ∧
    ∀ mid y2, run cf mid y' = Ok y2 → Forall (λ e, (∀ d, e ≠ EvDone d) ∧ ¬ is_boot e) mid → s_snap (y_srv y2) = Some snap.
Proof.
  intros Hr Ht HS. pose proof (reaches_ok cf evs y Hr) as [[S1 S2 S3 S4] _ _].
  destruct (CommandTop.copy_dbs_spec _ (s_dbs (y_srv y)) S1) as (snap & EC & HF).
  { destruct Hr as [(_ & _ & ?) _]. unfold small, max_entries in *. simpl in *. lia. }
  cbn [step] in HS. unfold rewriteAppendOnlyFileBackground in HS. rewrite Ht, EC in HS. cbn in HS. injection HS as <-.
  exists snap. split; [done|]. split; [done|]. split; [done|]. split; [symmetry; by eapply Forall2_length|]. split.
  { intros i db c k Hi Hc. destruct (Forall2_lookup_lr _ _ _ _ _ _ HF Hi Hc) as (-> & -> & _). done. }
  intros mid. match goal with |- ∀ y2, run cf mid ?y1 = _ → _ => generalize (conj eq_refl eq_refl : s_task (y_srv y1) = true ∧ s_snap (y_srv y1) = Some snap); generalize y1 end.
  clear. induction mid as [|e mid IH]; intros y1 [H1 H2] y2 HR HM.
  { by injection HR as <-. }
  cbn [run] in HR. destruct (step cf e y1) as [y1'| |] eqn:E1; try done. apply Forall_cons in HM as [[He Hb] HM].
  destruct (snap_stays cf e y1 y1' E1 He Hb H1) as [H3 H4]. apply (IH y1'); [|done|done]. by rewrite H4.
Qed.
Print Assumptions C57_snapshot.
(** the rewrite keeps its snapshot though the set and the string change meanwhile *)
Example C57_snapshot_example :
  let y0 := after cf0 h_rewrite in let y1 := after cf0 (h_rewrite ++ [EvRewrite]) in let y2 := after cf0 (h_rewrite ++ EvRewrite :: h_mid) in
  reaches cf0 h_rewrite y0 ∧ s_task (y_srv y0) = false ∧ step cf0 EvRewrite y0 = Ok y1 ∧ run cf0 h_mid y1 = Ok y2 ∧
  Forall (λ e, (∀ d, e ≠ EvDone d) ∧ ¬ is_boot e) h_mid ∧
  (d_map ∘ db_dict <$> s_dbs (y_srv y2)) ≠ (d_map ∘ db_dict <$> h_snap).
Proof.
  cbv zeta. split; [apply after_reaches; vm_compute; reflexivity|]. split; [vm_compute; reflexivity|]. split; [vm_compute; reflexivity|].
  split; [vm_compute; reflexivity|]. split.
  { unfold h_mid, h_early. cbn [app]. repeat (apply Forall_cons_2; [split; [done|exact (λ H, H)]|]). apply Forall_nil_2. }
  intros H. apply (f_equal (fmap size)) in H. revert H. vm_compute. congruence.
Qed.
