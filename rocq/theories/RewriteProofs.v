(** What the text of a log rewrite leads to, for every dataset: lists are reversed,
    empty containers are missing, the members of sorted sets are lost. *)
From Verif Require Import Base Float DictModel DictProofs DictProofs2 DictProofs3 DictProofs4 DictRun DatabaseModel
  SetModel SetProofs QuicklistModel QuicklistProofs SkiplistModel ZsetModel ZsetProofs
  Strconv RespSpec ServerModel CommandModel CommandSem CommandInv CommandInv2 CommandProofs1 CommandProofs2
  CommandTop CommandFrame SystemModel SystemProofs CommandFacts PropsZset ZcmdProofs PropsData AofModel AofProofs1 AofProofs2 RndFrame AofProofs3 AofProofs4 AofProofs5.
From Coq Require Import ZifyBool ZifyNat.

(** no member reads as a number *)
Definition no_number (lib : lib) (m : gmap bytes float) : Prop := ∀ x, is_Some (m !! x) → lib_parse_float lib x = None.
(** [dumped v o]: a rewrite makes [o] of the value [v] *)
Inductive dumped : aval → option aval → Prop :=
| dumped_str s : dumped (AStr s) (Some (AStr s))
| dumped_hash h : h ≠ ∅ → dumped (AHash h) (Some (AHash h))
| dumped_set s : s ≠ ∅ → dumped (ASet s) (Some (ASet s))
| dumped_list q q' : qels q ≠ [] → wf q' → qels q' = reverse (qels q) → dumped (AList q) (Some (AList q'))
| dumped_zset m s : m ≠ ∅ → dumped (AZset m s) (Some (AZset ∅ NewSkiplist))
| dumped_no_hash : dumped (AHash ∅) None
| dumped_no_set : dumped (ASet ∅) None
| dumped_no_list q : qels q = [] → dumped (AList q) None
| dumped_no_zset s : dumped (AZset ∅ s) None.
(** of a database: deadlines of keys that do not exist are dropped *)
Definition dumped_db (D D' : adb) : Prop := ∀ k,
  match a_keys D !! k with
  | Some v => dumped v (a_keys D' !! k) ∧ a_ttl D' !! k = a_ttl D !! k
  | None => a_keys D' !! k = None ∧ a_ttl D' !! k = None
  end.

Section rewrite.
  Variables (cf : config) (H : Z).
  Hypotheses (Hlow : lower_ok (cf_lib cf)) (HH : 0 ≤ H).
  Notation leads := (leads cf H).

  (** ** Lists *)
  Lemma lpush_leads key c x : wf x → c ≠ [] → ∃ q', wf q' ∧ qels q' = reverse c ++ qels x ∧
    ∀ dbs db D, dbs !! db = Some D → (a_keys D !! key = None ∧ x = NewQuicklist ∨ a_keys D !! key = Some (AList x)) →
      leads dbs (<[db := put_val key (AList q') D]> dbs) db db [B "lpush" :: key :: c].
  Proof.
    intros Hx Hc. destruct (lpush_all_spec c x Hx) as (q' & Eq & Hwf & Hq). exists q'. split; [done|]. split; [done|].
    intros dbs db D HD Hk.
    assert (Hst : lib_lower (cf_lib cf) (B "lpush") = B "lpush").
    { apply (Hlow _ (-3)). apply (bool_decide_unpack _). by vm_compute. }
    eapply (leads_data cf H Hlow _ _ _ _ _ _ (-3)); rewrite ?Hst; [exact HD| | | | |].
    - apply (bool_decide_unpack _). by vm_compute.
    - unfold accepts. rewrite decide_False by lia. unfold zlen. destruct c; [done|]. cbn [length]. lia.
    - unfold special. intros [?|[?|?]]; done.
    - apply (bool_decide_unpack _). by vm_compute.
    - intros E2 D2 o Hl2 HE2 Hsim HF2 _ Ho.
      apply (sem_inv E2 _ (sem_push lpush_all)) in Ho; [|by repeat constructor]. unfold sem_push, fn in Ho. injection Ho as <-.
      pose proof Hsim as [Hkeys _]. specialize (Hkeys key). unfold on_new. destruct Hk as [[Hn ->]|Hs].
      + rewrite Hn in Hkeys. inversion Hkeys. cbn [ak_new AKList]. rewrite Eq. cbn [mbind res_bind]. eexists _, _, _. split; [done|].
        split; [by apply sim_put|by apply fresh_put].
      + rewrite Hs in Hkeys. inversion Hkeys as [? v' Hv|]; subst. apply alike_eq in Hv as ->; [|done]. cbn [ak_out AKList]. rewrite Eq. cbn [mbind res_bind].
        eexists _, _, _. split; [done|]. split; [by apply sim_put|by apply fresh_put].
  Qed.
  Lemma lpushes_leads key chunks : Forall (λ c, c ≠ []) chunks → ∀ x, wf x → ∃ q', wf q' ∧ qels q' = reverse (concat chunks) ++ qels x ∧
    ∀ dbs db D, dbs !! db = Some D → a_keys D !! key = Some (AList x) →
      leads dbs (<[db := put_val key (AList q') D]> dbs) db db (map (λ c, B "lpush" :: key :: c) chunks).
  Proof.
    induction 1 as [|c chunks Hc Hch IH]; intros x Hx.
    - exists x. split; [done|]. split; [done|]. intros dbs db D HD Hk. eapply leads_ext; [|apply leads_nil].
      rewrite list_insert_id; [done|]. rewrite HD. f_equal. apply adb_eq; [|done]. simpl. by rewrite insert_id.
    - destruct (lpush_leads key c x Hx Hc) as (q1 & Hw1 & Hq1 & HL1). destruct (IH q1 Hw1) as (q2 & Hw2 & Hq2 & HL2).
      exists q2. split; [done|]. split; [by rewrite Hq2, Hq1; cbn [concat]; rewrite reverse_app, app_assoc|].
      intros dbs db D HD Hk. cbn [map]. change (?a :: ?b) with ([a] ++ b).
      assert (Hdb : (db < length dbs)%nat) by (by eapply lookup_lt_Some).
      eapply leads_app; [apply HL1; [done|by right]|].
      eapply leads_ext; [|eapply HL2; [by apply list_lookup_insert|simpl; by rewrite lookup_insert]].
      rewrite list_insert_insert. f_equal. apply adb_eq; [|done]. simpl. by rewrite insert_insert.
  Qed.
  Lemma list_leads key chunks : Forall (λ c, c ≠ []) chunks → chunks ≠ [] → ∃ q', wf q' ∧ qels q' = reverse (concat chunks) ∧
    ∀ dbs db D, dbs !! db = Some D → a_keys D !! key = None →
      leads dbs (<[db := put_val key (AList q') D]> dbs) db db (map (λ c, B "lpush" :: key :: c) chunks).
  Proof.
    intros Hch Hne. destruct Hch as [|c chunks Hc Hch]; [done|].
    destruct (lpush_leads key c NewQuicklist) as (q1 & Hw1 & Hq1 & HL1); [apply wf_New|done|].
    destruct (lpushes_leads key chunks Hch q1 Hw1) as (q2 & Hw2 & Hq2 & HL2).
    exists q2. split; [done|]. split.
    { rewrite Hq2, Hq1. cbn [concat]. rewrite reverse_app. change (qels (NewQuicklist : quicklist bytes)) with (@nil bytes). by rewrite app_nil_r. }
    intros dbs db D HD Hk. cbn [map]. change (?a :: ?b) with ([a] ++ b).
    assert (Hdb : (db < length dbs)%nat) by (by eapply lookup_lt_Some).
    eapply leads_app; [apply HL1; [done|by left]|].
    eapply leads_ext; [|eapply HL2; [by apply list_lookup_insert|simpl; by rewrite lookup_insert]].
    rewrite list_insert_insert. f_equal. apply adb_eq; [|done]. simpl. by rewrite insert_insert.
  Qed.

  (** ** Sorted sets: a command that begins with a score that is no number *)
  Definition bad_pairs (c : list bytes) : Prop :=
    Nat.Even (length c) ∧ ∃ a l, c = a :: l ∧ lib_parse_float (cf_lib cf) a = None.
  Lemma zadd_leads key c : bad_pairs c → ∀ dbs db D, dbs !! db = Some D →
    a_keys D !! key = None ∨ a_keys D !! key = Some (AZset ∅ NewSkiplist) →
    leads dbs (<[db := put_val key (AZset ∅ NewSkiplist) D]> dbs) db db [B "zadd" :: key :: c].
  Proof.
    intros (Hev & a & l & -> & Ha) dbs db D HD Hk.
    assert (Hst : lib_lower (cf_lib cf) (B "zadd") = B "zadd").
    { apply (Hlow _ (-4)). apply (bool_decide_unpack _). by vm_compute. }
    eapply (leads_data cf H Hlow _ _ _ _ _ _ (-4)); rewrite ?Hst; [exact HD| | | | |].
    - apply (bool_decide_unpack _). by vm_compute.
    - unfold accepts. rewrite decide_False by lia. unfold zlen. destruct Hev as [p Hp]. cbn [length] in *. lia.
    - unfold special. intros [?|[?|?]]; done.
    - apply (bool_decide_unpack _). by vm_compute.
    - intros E2 D2 o Hl2 HE2 Hsim HF2 _ Ho.
      apply (sem_inv E2 _ (sem_zadd E2)) in Ho; [|by repeat constructor]. unfold sem_zadd in Ho.
      match type of Ho with (if negb ?b then _ else _) => assert (b = true) as Hb end.
      { apply Z.eqb_eq, Z.mod_divide; [lia|]. destruct Hev as [p Hp]. exists (1 + Z.of_nat p). unfold zlen. cbn [length] in *. lia. }
      rewrite Hb in Ho. cbn [negb] in Ho. destruct Ho as (rs & _ & ->).
      pose proof Hsim as [Hkeys _]. specialize (Hkeys key). unfold on_new. destruct Hk as [Hn|Hs].
      + rewrite Hn in Hkeys. inversion Hkeys. cbn [ak_new AKZset zadd_all]. rewrite Hl2, Ha. cbn [mbind res_bind]. eexists _, _, _. split; [done|].
        split; [|by apply fresh_put]. apply sim_put; [done|]. cbn [alike ak_in AKZset fst snd]. split; [done|]. split; apply tame_new.
      + rewrite Hs in Hkeys. inversion Hkeys as [? v' Hv|]; subst. destruct v' as [| | | |m' s']; try done. cbn [alike] in Hv. destruct Hv as (<- & Ht & Ht').
        cbn [ak_out AKZset zadd_all]. rewrite Hl2, Ha. cbn [mbind res_bind]. eexists _, _, _. split; [done|].
        split; [|by apply fresh_put]. apply sim_put; [done|]. cbn [alike ak_in AKZset fst snd]. done.
  Qed.
  Lemma zset_leads key chunks : Forall bad_pairs chunks → chunks ≠ [] → ∀ dbs db D, dbs !! db = Some D → a_keys D !! key = None →
    leads dbs (<[db := put_val key (AZset ∅ NewSkiplist) D]> dbs) db db (map (λ c, B "zadd" :: key :: c) chunks).
  Proof.
    assert (Hmore : ∀ chunks, Forall bad_pairs chunks → ∀ dbs db D, dbs !! db = Some D → a_keys D !! key = Some (AZset ∅ NewSkiplist) →
      leads dbs (<[db := put_val key (AZset ∅ NewSkiplist) D]> dbs) db db (map (λ c, B "zadd" :: key :: c) chunks)).
    { clear chunks. induction 1 as [|c chunks Hc Hch IH]; intros dbs db D HD Hk.
      - eapply leads_ext; [|apply leads_nil]. rewrite list_insert_id; [done|]. rewrite HD. f_equal. apply adb_eq; [|done]. simpl. by rewrite insert_id.
      - cbn [map]. change (?a :: ?b) with ([a] ++ b). assert (Hdb : (db < length dbs)%nat) by (by eapply lookup_lt_Some).
        eapply leads_app; [apply zadd_leads; [done|exact HD|by right]|].
        eapply leads_ext; [|eapply IH; [by apply list_lookup_insert|simpl; by rewrite lookup_insert]].
        rewrite list_insert_insert. f_equal. apply adb_eq; [|done]. simpl. by rewrite insert_insert. }
    intros Hch Hne. destruct Hch as [|c chunks Hc Hch]; [done|]. intros dbs db D HD Hk.
    cbn [map]. change (?a :: ?b) with ([a] ++ b). assert (Hdb : (db < length dbs)%nat) by (by eapply lookup_lt_Some).
    eapply leads_app; [apply zadd_leads; [done|exact HD|by left]|].
    eapply leads_ext; [|eapply (Hmore _ Hch); [by apply list_lookup_insert|simpl; by rewrite lookup_insert]].
    rewrite list_insert_insert. f_equal. apply adb_eq; [|done]. simpl. by rewrite insert_insert.
  Qed.
  (** the text of a sorted set *)
  Definition pairs_text (E : env) (es : list (bytes * float)) : list bytes := concat (map (λ e, [e.1; lib_format_float (e_lib E) e.2]) es).
  Lemma zset_items_some E es : zset_items E (Some <$> es) = Ok (pairs_text E es).
  Proof. induction es as [|[m sc] es IH]; [done|]. cbn [fmap list_fmap zset_items]. rewrite IH. done. Qed.
  Lemma Chunk_pairs E n es : (0 < n)%nat → Forall (λ e, lib_parse_float (cf_lib cf) e.1 = None) es →
    Forall bad_pairs (Chunk (n * 2) (pairs_text E es)).
  Proof.
    intros Hn. unfold Chunk. generalize (length (pairs_text E es)). intros fuel. revert es.
    induction fuel as [|fuel IH]; intros es Hes; [by apply Forall_nil_2|].
    destruct es as [|[m sc] es]; [by apply Forall_nil_2|]. unfold pairs_text. cbn [map concat fst snd app]. rewrite chunk_S.
    change (m :: ?x :: concat (map _ es)) with (pairs_text E ((m, sc) :: es)).
    assert (Htd : ∀ k l, take (k * 2) (pairs_text E l) = pairs_text E (take k l) ∧ drop (k * 2) (pairs_text E l) = pairs_text E (drop k l)).
    { clear. induction k as [|k IHk]; intros [|e l]; try done. unfold pairs_text in *. cbn [map concat Nat.mul Nat.add take drop app]. destruct (IHk l) as [-> ->]. done. }
    destruct (Htd n ((m, sc) :: es)) as [-> ->]. constructor.
    - split.
      + exists (length (take n ((m, sc) :: es))). unfold pairs_text. generalize (take n ((m, sc) :: es)). clear. intros l.
        induction l as [|e l IHl]; [done|]. cbn [map concat]. rewrite app_length, IHl. cbn [length]. lia.
      + destruct n as [|n]; [lia|]. cbn [take]. unfold pairs_text. cbn [map concat fst snd app]. eexists _, _. split; [done|]. by apply Forall_cons in Hes as [? _].
    - apply IH. by apply Forall_drop.
  Qed.

  (** what the theorem covers: sorted sets in which the skiplist agrees with the map and
      no member is a number *)
  Definition fine_val (v : aval) : Prop := match v with AZset m s => tame m s ∧ no_number (cf_lib cf) m | _ => True end.
  Definition put_opt (key : bytes) (o : option aval) (D : adb) : adb := match o with Some v => put_val key v D | None => D end.
  Lemma value_dumped E heap key v N : Forall (obj_ok N) heap → Z.of_nat N ≤ 2 ^ 44 →
    (∀ o, v = VObj o → is_Some (heap !! o)) → fine_val (abs_val heap v) →
    ∃ cmds o, rewrite_value E heap key v = Ok (log_file cmds) ∧ Forall (good_record cf) cmds ∧ dumped (abs_val heap v) o ∧
      ∀ dbs db D, dbs !! db = Some D → a_keys D !! key = None → a_ttl D !! key = None →
        leads dbs (<[db := put_opt key o D]> dbs) db db cmds.
  Proof.
    intros Hheap HN Hin Hfine.
    assert (Hnone : ∀ dbs db D, dbs !! db = Some D → leads dbs (<[db := put_opt key None D]> dbs) db db []).
    { intros dbs db D HD. eapply leads_ext; [|apply leads_nil]. cbn [put_opt]. by rewrite list_insert_id. }
    assert (Hkeep : rewritable (abs_val heap v) → dumped (abs_val heap v) (Some (abs_val heap v)) →
      ∃ cmds o, rewrite_value E heap key v = Ok (log_file cmds) ∧ Forall (good_record cf) cmds ∧ dumped (abs_val heap v) o ∧
      ∀ dbs db D, dbs !! db = Some D → a_keys D !! key = None → a_ttl D !! key = None →
        leads dbs (<[db := put_opt key o D]> dbs) db db cmds).
    { intros Hrw Hd. destruct (value_leads cf H Hlow HH E heap key v N Hheap Hin Hrw) as (cmds & EV & [Hc _] & HL).
      exists cmds, (Some (abs_val heap v)). done. }
    destruct v as [s|o]; [apply Hkeep; [done|constructor]|].
    destruct (Hin o eq_refl) as [x Hx]. cbn [abs_val] in *. rewrite Hx in *. assert (Hox : obj_ok N x) by (by eapply Forall_lookup_1).
    destruct x as [d|q|s|z]; cbn [abs_obj] in *.
    - destruct (decide (d_map d = ∅)) as [Hem|Hem]; [|apply Hkeep; [exact Hem|by constructor]].
      exists [], None. cbn [rewrite_value]. rewrite Hx. cbn [deref mbind res_bind]. destruct Hox as [Hd _]. unfold rewriteHashObject.
      rewrite (hash_items d Hd). cbn [mbind res_bind snd]. assert (entries d = []) as ->.
      { destruct (entries d) as [|[k v] es] eqn:Ee; [done|]. pose proof Hd as [(_ & Hnd & _) _].
        assert (Hk : d_map d !! k = Some v).
        { apply d_map_Some; [done|]. rewrite Ee. apply elem_of_list_here. }
        rewrite Hem in Hk. done. }
      split; [done|]. split; [by apply Forall_nil_2|]. rewrite Hem. split; [constructor|]. auto.
    - cbn [rewrite_value]. rewrite Hx. cbn [deref mbind res_bind]. unfold rewriteListObject. rewrite (q_items_spec q) by apply Hox. cbn [mbind res_bind].
      rewrite rewrite_items_log. set (chunks := Chunk AofRewriteItemsPerCommand (qels q)).
      destruct (Chunk_spec AofRewriteItemsPerCommand (qels q)) as (C1 & C2 & _); [unfold AofRewriteItemsPerCommand; lia|]. fold chunks in C1, C2.
      destruct (decide (qels q = [])) as [Hem|Hem].
      + exists [], None. assert (chunks = []) as ->.
        { unfold chunks. by rewrite Hem. }
        split; [done|]. split; [by apply Forall_nil_2|]. split; [by constructor|]. auto.
      + destruct (list_leads key chunks C2) as (q' & Hw & Hq & HL).
        { intros Hnil. apply Hem. change (qels q = []). by rewrite <-C1, Hnil. }
        exists (map (λ c, B "lpush" :: key :: c) chunks), (Some (AList q')). split; [done|]. split; [|split].
        * apply Forall_map. eapply Forall_impl; [exact C2|]. intros c Hc. apply (record_own _ _ _ (-3) Hlow); [by vm_compute|].
          unfold accepts. rewrite decide_False by lia. unfold zlen. cbn [length]. destruct c; [done|]. cbn [length] in *. lia.
        * constructor; [done|done|]. by rewrite Hq, C1.
        * intros dbs db D HD Hn _. by apply HL.
    - destruct (decide (members s = ∅)) as [Hem|Hem]; [|apply Hkeep; [exact Hem|by constructor]].
      exists [], None. cbn [rewrite_value]. rewrite Hx. cbn [deref mbind res_bind]. unfold rewriteSetObject. pose proof Hox as [Hok _].
      destruct (Range_spec Hash s Hok) as (l & -> & _ & Hl & _). cbn [mbind res_bind snd]. assert (l = []) as ->.
      { destruct l as [|a l]; [done|]. exfalso. assert (a ∈ members s) by (apply Hl; by left). set_solver. }
      split; [done|]. split; [by apply Forall_nil_2|]. rewrite Hem. split; [constructor|]. auto.
    - destruct Hfine as [Ht Hnum]. cbn [fZset fst snd] in *.
      assert (Hh : held N (d_map (z_dict z)) (z_sl z) z) by (by split).
      pose proof (held_size _ _ _ _ Hh) as Hsz. destruct (held_zinv _ _ _ _ Hh Ht) as (L & Hz).
      pose proof (zinv_length _ _ _ _ Hz) as [Hlen _].
      destruct (zstep_spec Hash z _ L (OpRange 0 (ZSize z - 1) false) Hz) as (z' & out & M' & L' & E1 & Hs & _).
      { unfold ZSize. rewrite Hlen. split; [lia|]. split; [lia|]. split; [lia|]. done. }
      { lia. }
      inversion Hs; subst. cbn [zstep] in E1. apply present_inv in E1.
      cbn [rewrite_value]. rewrite Hx. cbn [deref mbind res_bind]. unfold rewriteZsetObject. rewrite E1. cbn [mbind res_bind snd].
      rewrite zset_items_some. cbn [mbind res_bind]. rewrite rewrite_items_log.
      match goal with H : order _ ?S |- _ => rename H into Hord; rename S into S0 end.
      assert (Hrk : ranks 0 (ZSize z - 1) (turned false S0) = S0).
      { assert (HlS : Z.of_nat (length S0) = ZSize z).
        { unfold ZSize. rewrite Hlen. destruct Hord as [_ HP]. rewrite HP, fmap_length. done. }
        unfold ranks, turned. cbn [Z.ltb Z.compare]. destruct (ZSize z - 1 =? 2 ^ 63 - 1); [done|]. change (drop (Z.to_nat 0) S0) with S0.
        apply take_ge. lia. }
      rewrite Hrk in *. set (es := swap S0) in *.
      assert (Hes : Forall (λ e, lib_parse_float (cf_lib cf) e.1 = None) es).
      { apply Forall_forall. intros e He. apply elem_of_list_fmap in He as ([sc m] & -> & Hin'). cbn [fst snd].
        apply Hnum. destruct Hord as [_ HP]. rewrite HP in Hin'. apply (elem_of_pairs (d_map (z_dict z))) in Hin'. by eexists. }
      destruct (decide (d_map (z_dict z) = ∅)) as [Hem|Hem].
      + exists [], None. assert (es = []) as ->.
        { unfold es. destruct Hord as [_ HP]. rewrite Hem, map_to_list_empty in HP. apply Permutation_nil_r in HP as ->. done. }
        split; [done|]. split; [by apply Forall_nil_2|]. rewrite Hem. split; [constructor|]. auto.
      + pose proof (Chunk_pairs E AofRewriteItemsPerCommand es ltac:(unfold AofRewriteItemsPerCommand; lia) Hes) as Hch.
        set (chunks := Chunk (AofRewriteItemsPerCommand * 2) (pairs_text E es)) in *.
        assert (Hne : chunks ≠ []).
        { destruct (Chunk_spec (AofRewriteItemsPerCommand * 2) (pairs_text E es)) as (C1 & _); [unfold AofRewriteItemsPerCommand; lia|]. fold chunks in C1.
          intros Hnil. rewrite Hnil in C1. cbn [concat] in C1. apply Hem. destruct Hord as [_ HP]. apply map_to_list_empty_iff.
          destruct S0 as [|[sc m] S0]; [|done]. apply Permutation_nil_l in HP. symmetry in HP; by apply fmap_nil_inv in HP. }
        exists (map (λ c, B "zadd" :: key :: c) chunks), (Some (AZset ∅ NewSkiplist)). split; [done|]. split; [|split].
        * apply Forall_map. eapply Forall_impl; [exact Hch|]. intros c ([p Hp] & a & l & -> & _). apply (record_own _ _ _ (-4) Hlow); [by vm_compute|].
          unfold accepts. rewrite decide_False by lia. unfold zlen. cbn [length] in *. lia.
        * by constructor.
        * intros dbs db D HD Hn _. by apply zset_leads.
  Qed.

  (** ** One database *)
  (** of the keys [X] *)
  Definition dumped_part (X : gset bytes) (D D' : adb) : Prop := ∀ k,
    (k ∈ X → (∃ v, a_keys D !! k = Some v ∧ dumped v (a_keys D' !! k)) ∧ a_ttl D' !! k = a_ttl D !! k) ∧
    (k ∉ X → a_keys D' !! k = None ∧ a_ttl D' !! k = None).
  Definition fine_db (heap : list obj) (rd : bytes → list obj) (db : database) : Prop :=
    (∀ k v, d_map (db_dict db) !! k = Some v → abs_val (rd k) v = abs_val heap v ∧ fine_val (abs_val heap v) ∧ ∀ o, v = VObj o → is_Some (rd k !! o)) ∧
    (∀ k T, is_Some (d_map (db_dict db) !! k) → d_map (db_expire db) !! k = Some T → lasting H T).
  Lemma db_dumped E heap rd N M id db : (∀ k, Forall (obj_ok N) (rd k)) → Z.of_nat N ≤ 2 ^ 44 → db_ok M db → fine_db heap rd db →
    ∃ cmds D', rewrite_db E rd id db = Ok (log_file cmds) ∧ Forall (good_record cf) cmds ∧ dumped_db (abs_db heap db) D' ∧
      ∀ dbs cur, dbs !! id = Some empty_db → Z.of_nat (length dbs) ≤ 2 ^ 44 → ∃ cur', leads dbs (<[id := D']> dbs) cur cur' cmds.
  Proof.
    intros Hheap HN ([Hok Hi] & Hx & _ & _) [Hl1 Hl2]. pose proof Hok as (_ & Hnd & _). unfold rewrite_db.
    rewrite (iSize (db_dict db) (conj Hok Hi)). cbn [mbind res_bind]. destruct (Z.eqb_spec (Z.of_nat (size (d_map (db_dict db)))) 0) as [Hz|Hz].
    - exists [], empty_db. split; [done|]. split; [by apply Forall_nil_2|].
      assert (Hem : d_map (db_dict db) = ∅) by (apply map_size_empty_inv; lia). split.
      + intros k. simpl. by rewrite Hem, fmap_empty, lookup_empty.
      + intros dbs cur HD _. exists cur. eapply leads_ext; [|apply leads_nil]. by rewrite list_insert_id.
    - set (D0 := abs_db heap db).
      destruct (iterate_spec Hash (rewrite_entry E rd) (λ _ st vis,
          dinv st.1 ∧ d_map st.1 = d_map (db_expire db) ∧ ∃ cmds D', st.2 = log_file ([[B "select"; itoa (Z.of_nat id)]] ++ cmds) ∧
            Forall (good_record cf) cmds ∧ dumped_part (list_to_set vis.*1) D0 D' ∧
            ∀ dbs, dbs !! id = Some empty_db → leads dbs (<[id := D']> dbs) id id cmds)
          (db_dict db) (db_expire db, catAppendOnlyGenericCommand [B "select"; itoa (Z.of_nat id)]))
        as (d' & [x' t'] & EI & _ & _ & _ & _ & _ & cmds & D' & Ht' & Hc' & HD' & HL').
      + done.
      + intros d1 [x1 t1] [k v] vis rest Hvis Hok1 Hn1 Hni1 (Hx1 & Hm1 & cmds & D1 & Ht1 & Hc1 & HD1 & HL1). cbn [fst snd] in *.
        assert (Hkv : d_map (db_dict db) !! k = Some v).
        { apply d_map_Some; [done|]. rewrite <-Hvis. apply elem_of_app. right. by left. }
        assert (Hfresh : k ∉ vis.*1).
        { rewrite <-Hvis, fmap_app in Hnd. simpl in Hnd.
          apply NoDup_app in Hnd as (_ & Hnd & _). intros Hin. eapply (Hnd _ Hin). by left. }
        destruct (Hl1 k v Hkv) as (Hsame & Hfine & Hin). rewrite <-Hsame in Hfine.
        destruct (value_dumped E (rd k) k v N (Hheap k) HN Hin Hfine) as (more & o & EV & Hcm & Hdv & HLm).
        destruct (proj2 (HD1 k)) as [Hn1k Ht1k]; [by rewrite elem_of_list_to_set|].
        unfold rewrite_entry. cbn [fst snd]. rewrite EV. cbn [mbind res_bind].
        destruct (iFindEntry x1 k Hx1) as (x2 & EF & Hx2 & Hm2). rewrite EF. cbn [mbind res_bind fst snd].
        eexists _, _. split; [done|]. split; [by apply keeps_rest_refl|]. split; [done|]. split; [cbn [fst]; congruence|].
        set (D2 := put_opt k o D1).
        assert (Hkeys2 : ∀ k', a_keys D2 !! k' = if decide (k' = k) then o else a_keys D1 !! k').
        { intros k'. unfold D2. destruct o as [v'|]; cbn [put_opt put_val a_keys].
          - destruct (decide (k' = k)) as [->|Hne]; [by rewrite lookup_insert|by rewrite lookup_insert_ne].
          - destruct (decide (k' = k)) as [->|Hne]; done. }
        assert (Httl2 : a_ttl D2 = a_ttl D1) by (unfold D2; by destruct o).
        set (D3 := match a_ttl D0 !! k with Some T => ADB (a_keys D2) (<[k := T]> (a_ttl D2)) | None => D2 end).
        exists (cmds ++ more ++ text_of_deadline k (a_ttl D0 !! k)), D3. split; [|split; [|split]].
        * rewrite Ht1. cbn [snd]. rewrite !log_app, <-!app_assoc. do 3 f_equal. rewrite Hm1.
          change (a_ttl D0) with (d_map (db_expire db)). destruct (d_map (db_expire db) !! k) as [T|]; [|done].
          cbn [fmap option_fmap option_map text_of_deadline]. by rewrite cat_encode, log_one.
        * apply Forall_app. split; [done|]. apply Forall_app. split; [done|]. destruct (a_ttl D0 !! k); [apply Forall_singleton; record_own Hlow 3|by apply Forall_nil_2].
        * assert (Hk3 : a_keys D3 = a_keys D2) by (unfold D3; by destruct (a_ttl D0 !! k)).
          assert (Ht3 : ∀ k', a_ttl D3 !! k' = if decide (k' = k) then a_ttl D0 !! k else a_ttl D1 !! k').
          { intros k'. unfold D3. destruct (a_ttl D0 !! k) as [T|] eqn:ET; cbn [a_ttl]; rewrite Httl2.
            - destruct (decide (k' = k)) as [->|Hne]; [by rewrite lookup_insert|by rewrite lookup_insert_ne].
            - destruct (decide (k' = k)) as [->|Hne]; done. }
          intros k'. rewrite Hk3, Ht3, Hkeys2, elem_of_list_to_set, fmap_app, elem_of_app. cbn [fmap list_fmap fst]. rewrite elem_of_list_singleton.
          destruct (HD1 k') as [Hv1 Hv2]. rewrite elem_of_list_to_set in Hv1, Hv2. destruct (decide (k' = k)) as [->|Hne].
          -- split; [|intros Hno; destruct Hno; by right]. intros _. split; [|done]. exists (abs_val heap v). split; [|by rewrite <-Hsame].
             unfold D0, abs_db. simpl. by rewrite lookup_fmap, Hkv.
          -- split; [intros [Hv|?]; [by apply Hv1|done]|]. intros Hno. apply Hv2. tauto.
        * intros dbs HD. eapply leads_app; [by apply HL1|].
          assert (Hlt : (id < length dbs)%nat) by (by eapply lookup_lt_Some).
          eapply leads_app; [apply HLm; [by apply list_lookup_insert|done|done]|]. rewrite list_insert_insert. fold D2.
          unfold D3. destruct (a_ttl D0 !! k) as [T|] eqn:ET.
          -- eapply leads_ext; [|eapply (deadline_leads cf H Hlow HH); [by apply list_lookup_insert|apply (Hl2 k T); [by eexists|exact ET]|by rewrite Httl2]].
             by rewrite list_insert_insert.
          -- apply leads_nil.
      + done.
      + split; [done|]. split; [done|]. exists [], empty_db. split; [by rewrite cat_encode, app_nil_r, log_one|]. split; [by apply Forall_nil_2|]. split.
        * intros k. split; [|done]. intros Hk. set_solver.
        * intros dbs HD. eapply leads_ext; [|apply leads_nil]. by rewrite list_insert_id.
      + rewrite EI. cbn [mbind res_bind fst snd] in *. exists ([[B "select"; itoa (Z.of_nat id)]] ++ cmds), D'.
        split; [by rewrite Ht'|]. split; [constructor; [record_own Hlow 2|done]|]. split.
        * intros k. destruct (HD' k) as [Hin Hout]. rewrite elem_of_list_to_set in Hin, Hout. simpl. rewrite lookup_fmap.
          destruct (d_map (db_dict db) !! k) as [v|] eqn:Ek; cbn [fmap option_fmap option_map].
          -- destruct Hin as [(v' & Hv' & Hd) Htt].
             { apply d_map_Some in Ek; [|done]. apply elem_of_list_fmap. by exists (k, v). }
             unfold D0, abs_db in Hv'. simpl in Hv'. rewrite lookup_fmap, Ek in Hv'. injection Hv' as <-. done.
          -- apply Hout. intros Hk. apply elem_of_list_fmap in Hk as ([k' v] & -> & Hk). cbn [fst] in *. apply d_map_Some in Hk; [|done]. congruence.
        * intros dbs cur HD Hlen. exists id. assert (Hlt : (id < length dbs)%nat) by (by eapply lookup_lt_Some).
          eapply leads_app; [by apply leads_select|]. by apply HL'.
  Qed.
  Lemma dbs_dumped E heap rd N M dbs : (∀ id k, Forall (obj_ok N) (rd id k)) → Z.of_nat N ≤ 2 ^ 44 → Forall (db_ok M) dbs →
    ∀ id, (∀ i db, dbs !! i = Some db → fine_db heap (rd (id + i)%nat) db) →
    ∃ cmds Ds, rewrite_dbs E rd id dbs = Ok (log_file cmds) ∧ Forall (good_record cf) cmds ∧ Forall2 dumped_db (abs_db heap <$> dbs) Ds ∧
      ∀ A cur, length A = id → Z.of_nat (id + length dbs) ≤ 2 ^ 44 → ∃ cur', leads (A ++ replicate (length dbs) empty_db) (A ++ Ds) cur cur' cmds.
  Proof.
    intros Hheap HN Hdbs. induction dbs as [|db dbs IH]; intros id Hl.
    - exists [], []. split; [done|]. split; [by apply Forall_nil_2|]. split; [constructor|]. intros A cur HA _. exists cur. apply leads_nil.
    - apply Forall_cons in Hdbs as [Hdb Hdbs]. pose proof (Hl 0%nat db eq_refl) as Hl1. rewrite Nat.add_0_r in Hl1.
      destruct (db_dumped E heap (rd id) N M id db (Hheap id) HN Hdb Hl1) as (c1 & D1 & E1 & Hc1 & Hd1 & HL1).
      destruct (IH Hdbs (S id)) as (c2 & Ds & E2 & Hc2 & Hd2 & HL2).
      { intros i d Hd. replace (S id + i)%nat with (id + S i)%nat by lia. by apply Hl. }
      exists (c1 ++ c2), (D1 :: Ds). cbn [rewrite_dbs]. rewrite E1, E2. cbn [mbind res_bind]. split; [by rewrite log_app|].
      split; [by apply Forall_app|]. split; [by constructor|]. intros A cur HA Hlen. cbn [length replicate] in *.
      destruct (HL1 (A ++ empty_db :: replicate (length dbs) empty_db) cur) as [cur1 L1].
      { rewrite lookup_app_r by lia. by rewrite HA, Nat.sub_diag. }
      { rewrite app_length. cbn [length]. rewrite replicate_length. lia. }
      destruct (HL2 (A ++ [D1]) cur1) as [cur2 L2]; [rewrite app_length; simpl; lia|lia|].
      exists cur2. eapply leads_app; [exact L1|].
      rewrite insert_app_r_alt by lia. rewrite HA, Nat.sub_diag. cbn [insert list_insert].
      rewrite <-!app_assoc in L2. exact L2.
  Qed.
End rewrite.
