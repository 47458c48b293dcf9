(** The text of a log rewrite, executed on an empty server. *)
From Verif Require Import Base Float DictModel DictProofs DictProofs2 DictProofs3 DictProofs4 DictRun DatabaseModel
  SetModel SetProofs QuicklistModel SkiplistModel ZsetModel
  Strconv RespSpec ServerModel CommandModel CommandSem CommandInv CommandInv2 CommandProofs1 CommandProofs2
  CommandTop CommandFrame SystemModel SystemProofs CommandFacts ZcmdProofs PropsData AofModel AofProofs1 AofProofs2 RndFrame AofProofs3 AofProofs4.
From Coq Require Import ZifyBool ZifyNat.

(** ** Chunks *)
Lemma chunk_S {A} fuel n (x : A) l : chunk_ (S fuel) n (x :: l) = take n (x :: l) :: chunk_ fuel n (drop n (x :: l)).
Proof. reflexivity. Qed.
Lemma Chunk_spec {A} n (l : list A) : (0 < n)%nat → concat (Chunk n l) = l ∧ Forall (λ c, c ≠ []) (Chunk n l) ∧
  (Nat.Even n → Nat.Even (length l) → Forall (λ c, Nat.Even (length c)) (Chunk n l)).
Proof.
  intros Hn. unfold Chunk.
  assert (H : ∀ fuel (l : list A), (length l ≤ fuel)%nat → concat (chunk_ fuel n l) = l ∧ Forall (λ c, c ≠ []) (chunk_ fuel n l) ∧
    (Nat.Even n → Nat.Even (length l) → Forall (λ c, Nat.Even (length c)) (chunk_ fuel n l))).
  { clear l. induction fuel as [|fuel IH]; intros [|x l] Hl; try (split; [done|split; [by apply Forall_nil_2|intros _ _; by apply Forall_nil_2]]); [simpl in Hl; lia|].
    rewrite chunk_S. cbn [length] in Hl. destruct (IH (drop n (x :: l))) as (H1 & H2 & H3).
    { rewrite drop_length. cbn [length]. lia. }
    split; [|split].
    - cbn [concat]. by rewrite H1, take_drop.
    - constructor; [|done]. destruct n; [lia|done].
    - intros He Hel. pose proof (take_drop n (x :: l)) as Htd. apply (f_equal length) in Htd. rewrite app_length in Htd.
      assert (Nat.Even (length (take n (x :: l)))).
      { rewrite take_length. destruct (Nat.min_dec n (length (x :: l))) as [->| ->]; done. }
      constructor; [done|]. apply H3; [done|]. rewrite <-Htd in Hel. destruct H as [p Hp], Hel as [q Hq]. exists (q - p)%nat. lia. }
  by apply H.
Qed.
Lemma rewrite_items_log name key n items :
  rewrite_items name key n items = log_file (map (λ c, name :: key :: c) (Chunk n items)).
Proof. unfold rewrite_items, log_file. rewrite map_map. f_equal. apply map_ext. intros c. apply cat_encode. Qed.

Section rewrite.
  Variables (cf : config) (H : Z).
  Hypotheses (Hlow : lower_ok (cf_lib cf)) (HH : 0 ≤ H).
  Notation leads := (leads cf H).

  Lemma draws_names name key chunks : lib_lower (cf_lib cf) name = name → name ≠ B "zadd" →
    draws (cf_lib cf) (map (λ c, name :: key :: c) chunks) = 0%nat.
  Proof.
    intros Hl Hn. induction chunks as [|c chunks IH]; [done|]. cbn [map]. change (?a :: ?b) with ([a] ++ b).
    rewrite draws_app, IH, draws_one, Hl. unfold levels. by rewrite decide_False.
  Qed.
  (** commands that add items to a container *)
  Lemma leads_adds {X} (k : akind X) (f : list bytes → X → X) (wrong : reply) (ar : Z) name key chunks :
    (∀ x, ak_out k (ak_in k x) = Some x) → flat_kind k →
    (name, ar) ∈ arities → ¬ special name → name ∉ [B "randomget"; B "spop"] →
    Forall (λ c, accepts ar (zlen (name :: key :: c)) ∧
      ∀ E2 D2 o, sem E2 name (name :: key :: c) D2 o → ∃ r n, o = on_new k wrong key (λ x, Ok (f c x, r x, n)) D2) chunks →
    chunks ≠ [] → ∀ dbs db D, dbs !! db = Some D → a_keys D !! key = None →
    leads dbs (<[db := put_val key (ak_in k (foldl (λ x c, f c x) (ak_new k) chunks)) D]> dbs) db db (map (λ c, name :: key :: c) chunks).
  Proof.
    intros Hk Hfl Har Hsp Hnr Hch Hne dbs db D HD Hnone.
    assert (Hln : lib_lower (cf_lib cf) name = name) by (by apply (Hlow name ar)).
    (* one command *)
    assert (Hone : ∀ dbs D c x, dbs !! db = Some D →
      (a_keys D !! key = None ∧ x = ak_new k ∨ a_keys D !! key = Some (ak_in k x)) →
      accepts ar (zlen (name :: key :: c)) →
      (∀ E2 D2 o, sem E2 name (name :: key :: c) D2 o → ∃ r n, o = on_new k wrong key (λ x, Ok (f c x, r x, n)) D2) →
      leads dbs (<[db := put_val key (ak_in k (f c x)) D]> dbs) db db [name :: key :: c]).
    { intros dbs' D' c x HD' Hx Hacc Hsem. eapply leads_data; rewrite ?Hln; try done.
      intros E2 D2 o Hl2 HE2 Hsim HF2 _ Ho. destruct (Hsem _ _ _ Ho) as (r & n & ->). unfold on_new.
      pose proof Hsim as [Hkeys Httl]. specialize (Hkeys key). destruct Hx as [[Hn ->]|Hs].
      - rewrite Hn in Hkeys. inversion Hkeys. cbn [mbind res_bind]. eexists _, _, _. split; [done|].
        split; [apply sim_put; [done|]; apply alike_refl, Hfl|by apply fresh_put].
      - rewrite Hs in Hkeys. inversion Hkeys as [? v' Hv|]; subst. apply alike_eq in Hv as ->; [|apply Hfl]. rewrite Hk. cbn [mbind res_bind].
        eexists _, _, _. split; [done|]. split; [apply sim_put; [done|]; apply alike_refl, Hfl|by apply fresh_put]. }
    (* the following commands *)
    assert (Hmore : ∀ chunks, Forall (λ c, accepts ar (zlen (name :: key :: c)) ∧
      ∀ E2 D2 o, sem E2 name (name :: key :: c) D2 o → ∃ r n, o = on_new k wrong key (λ x, Ok (f c x, r x, n)) D2) chunks →
      ∀ dbs D x, dbs !! db = Some D → a_keys D !! key = Some (ak_in k x) →
      leads dbs (<[db := put_val key (ak_in k (foldl (λ x c, f c x) x chunks)) D]> dbs) db db (map (λ c, name :: key :: c) chunks)).
    { clear -Hone. intros chunks Hch. induction Hch as [|c chunks [Hacc Hsem] Hch IH]; intros dbs D x HD Hx.
      - cbn [map foldl]. eapply leads_ext; [|apply leads_nil]. rewrite list_insert_id; [done|]. rewrite HD. f_equal.
        apply adb_eq; [|done]. simpl. by rewrite insert_id.
      - cbn [map foldl]. change (?a :: ?b) with ([a] ++ b).
        assert (Hdb : (db < length dbs)%nat) by (by eapply lookup_lt_Some).
        eapply leads_app; [eapply (Hone _ _ _ x); try done; by right|].
        eapply leads_ext; [|eapply IH; [by apply list_lookup_insert|simpl; by rewrite lookup_insert]].
        rewrite list_insert_insert. f_equal. apply adb_eq; [|done]. simpl. by rewrite insert_insert. }
    destruct Hch as [|c chunks [Hacc Hsem] Hch]; [done|]. cbn [map foldl]. change (?a :: ?b) with ([a] ++ b).
    assert (Hdb : (db < length dbs)%nat) by (by eapply lookup_lt_Some).
    eapply leads_app; [eapply (Hone _ _ _ (ak_new k)); try done; by left|].
    eapply leads_ext; [|eapply (Hmore _ Hch); [by apply list_lookup_insert|simpl; by rewrite lookup_insert]].
    rewrite list_insert_insert. f_equal. apply adb_eq; [|done]. simpl. by rewrite insert_insert.
  Qed.

  (** values that survive a rewrite *)
  Definition rewritable (v : aval) : Prop :=
    match v with
    | AStr _ => True
    | AHash h => h ≠ ∅
    | ASet s => s ≠ ∅
    | _ => False
    end.
  Definition flat (es : list (bytes * bytes)) : list bytes := concat (map (λ e, [e.1; e.2]) es).
  Lemma hset_all_app c c' h : Nat.Even (length c) → hset_all (c ++ c') h = hset_all c' (hset_all c h).
  Proof.
    intros [n Hn]. revert c h Hn. induction n as [|n IH]; intros c h Hn.
    { destruct c; [done|simpl in Hn; lia]. }
    destruct c as [|a [|b c]]; cbn [length] in Hn; [lia|lia|]. cbn [app hset_all]. apply IH. lia.
  Qed.
  Lemma hset_all_chunks chunks : ∀ h, Forall (λ c, Nat.Even (length c)) chunks →
    foldl (λ x c, hset_all c x) h chunks = hset_all (concat chunks) h.
  Proof.
    induction chunks as [|c chunks IH]; intros h Hc; [done|]. apply Forall_cons in Hc as [Hc Hcs].
    cbn [foldl concat]. rewrite hset_all_app by done. by apply IH.
  Qed.
  Lemma hset_all_flat es : ∀ h, NoDup es.*1 → hset_all (flat es) h = list_to_map es ∪ h.
  Proof.
    induction es as [|[k v] es IH]; intros h Hnd; [cbn; by rewrite (left_id_L ∅ (∪) h)|]. unfold flat in *. cbn [map concat fst snd app hset_all].
    rewrite fmap_cons in Hnd. apply NoDup_cons in Hnd as [Hk Hnd]. rewrite IH by done.
    rewrite list_to_map_cons. apply map_eq. intros i.
    destruct (decide (i = k)) as [->|Hi].
    - transitivity (Some v).
      + rewrite lookup_union_r; [by rewrite lookup_insert|]. apply not_elem_of_list_to_map. done.
      + symmetry. apply lookup_union_Some_l. by rewrite lookup_insert.
    - destruct ((list_to_map es : gmap bytes bytes) !! i) eqn:Ei.
      + transitivity (Some b); [by apply lookup_union_Some_l|]. symmetry. apply lookup_union_Some_l. by rewrite lookup_insert_ne.
      + rewrite lookup_union_r by done. rewrite lookup_insert_ne by done. symmetry. apply lookup_union_r. by rewrite lookup_insert_ne.
  Qed.
  Lemma flat_length es : length (flat es) = (2 * length es)%nat.
  Proof. unfold flat. induction es as [|e es IH]; [done|]. cbn [map concat]. rewrite app_length, IH. simpl. lia. Qed.
  Lemma flat_snoc es e : flat (es ++ [e]) = flat es ++ [e.1; e.2].
  Proof. unfold flat. by rewrite map_app, concat_app. Qed.
  Lemma hash_items (h : dict bytes bytes) : dinv h →
    iterate (λ d acc e, Ok (d, acc ++ [e.1; e.2])) h [] = Ok (h, flat (entries h)).
  Proof.
    intros [Hok Hi].
    destruct (iterate_spec Hash (λ d acc e, Ok (d, acc ++ [e.1; e.2]))
        (λ d' acc vis, acc = flat vis ∧ d_ht0 d' = d_ht0 h ∧ d_ht1 d' = d_ht1 h ∧ d_rehashIndex d' = d_rehashIndex h) h [])
      as (s' & l & -> & Hok' & Hi' & _ & -> & Hs1 & Hs2 & Hs3).
    - done.
    - intros d acc e vis rest _ Hokd Hn Hni [-> Hs]. eexists _, _. split; [done|].
      split; [by apply keeps_rest_refl|]. split; [by rewrite flat_snoc|done].
    - done.
    - done.
    - do 2 f_equal. destruct h, s'; simpl in *; congruence.
  Qed.

  (** the commands for one key *)
  Lemma value_leads E heap key v N : Forall (obj_ok N) heap →
    (∀ o, v = VObj o → is_Some (heap !! o)) → rewritable (abs_val heap v) →
    ∃ cmds, rewrite_value E heap key v = Ok (log_file cmds) ∧ (Forall (good_record cf) cmds ∧ draws (cf_lib cf) cmds = 0%nat) ∧
      ∀ dbs db D, dbs !! db = Some D → a_keys D !! key = None → a_ttl D !! key = None →
        leads dbs (<[db := put_val key (abs_val heap v) D]> dbs) db db cmds.
  Proof.
    intros Hheap Hin Hrw. destruct v as [s|o].
    - assert (Hst : lib_lower (cf_lib cf) (B "set") = B "set").
      { apply (Hlow _ (-3)). apply (bool_decide_unpack _). by vm_compute. }
      exists [[B "set"; key; s]]. split; [|split; [split; [apply Forall_singleton; record_own Hlow (-3)|]|]].
      { cbn [rewrite_value]. unfold rewriteStringObject. by rewrite cat_encode, log_one. }
      { by rewrite draws_one, Hst. }
      intros dbs db D HD Hn Ht.
      eapply (leads_data cf H Hlow _ _ _ _ _ _ (-3)); rewrite ?Hst; [exact HD| | | | |].
      + apply (bool_decide_unpack _). by vm_compute.
      + by vm_compute.
      + unfold special. intros [?|[?|?]]; done.
      + apply (bool_decide_unpack _). by vm_compute.
      + intros E2 D2 o Hl2 HE2 Hsim HF2 _ Ho.
        assert (Ho1 : sem_set [B "set"; key; s] D2 o) by (eapply (sem_inv E2 (B "set")); [by repeat constructor|done]).
        injection Ho1 as <-. eexists _, _, _. split; [done|]. destruct Hsim as [Hk Httl]. split; [|by apply fresh_delete].
        split; simpl; [by apply alike_insert|]. rewrite delete_notin; [done|].
        specialize (Httl key). rewrite Ht in Httl. by inversion Httl.
    - destruct (Hin o eq_refl) as [x Hx]. cbn [abs_val] in Hrw |- *. rewrite Hx in *.
      assert (Hox : obj_ok N x) by (by eapply Forall_lookup_1).
      cbn [rewrite_value]. rewrite Hx. cbn [deref mbind res_bind].
      destruct x as [d|q|s|z]; cbn [abs_obj rewritable] in Hrw |- *; try done.
      + destruct Hox as [Hd _]. unfold rewriteHashObject. rewrite (hash_items d Hd). cbn [mbind res_bind snd].
        rewrite rewrite_items_log. set (chunks := Chunk (AofRewriteItemsPerCommand * 2) (flat (entries d))).
        destruct (Chunk_spec (AofRewriteItemsPerCommand * 2) (flat (entries d))) as (C1 & C2 & C3); [unfold AofRewriteItemsPerCommand; lia|].
        fold chunks in C1, C2, C3.
        assert (C4 : Forall (λ c, Nat.Even (length c)) chunks).
        { apply C3; [by exists AofRewriteItemsPerCommand; lia|]. rewrite flat_length. by exists (length (entries d)). }
        pose proof Hd as [Hok _]. destruct Hok as (_ & Hnd & _).
        assert (Hfold : foldl (λ x c, hset_all c x) ∅ chunks = d_map d).
        { rewrite hset_all_chunks, C1, hset_all_flat by done. by rewrite (right_id_L ∅ (∪)). }
        exists (map (λ c, B "hset" :: key :: c) chunks). split; [done|]. split.
        { split.
          { apply Forall_map. rewrite Forall_forall in C2, C4. apply Forall_forall. intros c Hc. specialize (C2 c Hc). destruct (C4 c Hc) as [p Hp].
            apply (record_own _ _ _ (-4) Hlow); [by vm_compute|]. unfold accepts. rewrite decide_False by lia. unfold zlen. cbn [length].
            destruct c; [done|]. cbn [length] in *. lia. }
          apply draws_names; [|done]. apply (Hlow _ (-4)). apply (bool_decide_unpack _). by vm_compute. }
        intros dbs db D HD Hn Ht. rewrite <-Hfold.
        eapply (leads_adds AKHash (λ c h, hset_all c h) RWrong (-4)); try done.
        * apply (bool_decide_unpack _). by vm_compute.
        * unfold special. intros [?|[?|?]]; done.
        * apply (bool_decide_unpack _). by vm_compute.
        * rewrite Forall_forall in C2, C4. apply Forall_forall. intros c Hc. specialize (C2 c Hc). specialize (C4 c Hc). destruct C4 as [p Hp].
          assert (length c ≠ 0)%nat by (by destruct c). split; [unfold accepts; rewrite decide_False by lia; unfold zlen; cbn [length]; lia|].
          intros E2 D2 o' Ho. apply (sem_inv E2 _ sem_hset) in Ho; [|by repeat constructor]. unfold sem_hset, fn in Ho. injection Ho as <-.
          match goal with |- context [negb ?b] => assert (b = true) as -> end.
          { apply Z.eqb_eq, Z.mod_divide; [lia|]. exists (1 + Z.of_nat p). unfold zlen. cbn [length]. lia. }
          cbn [negb]. eexists _, _. done.
        * intros Hnil. rewrite Hnil in C1. cbn [concat] in C1. apply Hrw. rewrite <-Hfold, Hnil. done.
      + unfold rewriteSetObject. pose proof Hox as [Hok _]. destruct (Range_spec Hash s Hok) as (l & -> & Hnd & Hl & _). cbn [mbind res_bind snd].
        rewrite rewrite_items_log. set (chunks := Chunk AofRewriteItemsPerCommand l).
        destruct (Chunk_spec AofRewriteItemsPerCommand l) as (C1 & C2 & _); [unfold AofRewriteItemsPerCommand; lia|]. fold chunks in C1, C2.
        assert (Hfold : foldl (λ x c, sadd_all c x) ∅ chunks = members s).
        { assert (Hf : ∀ chunks x, foldl (λ x c, sadd_all c x) x chunks = list_to_set (concat chunks) ∪ x).
          { clear. induction chunks as [|c chunks IH]; intros x; [set_solver|]. cbn [foldl concat]. rewrite IH. unfold sadd_all.
            rewrite list_to_set_app_L. set_solver. }
          rewrite Hf, C1. apply set_eq. intros m. rewrite elem_of_union, elem_of_list_to_set, Hl. set_solver. }
        exists (map (λ c, B "sadd" :: key :: c) chunks). split; [done|]. split.
        { split.
          { apply Forall_map. eapply Forall_impl; [exact C2|]. intros c Hc.
            apply (record_own _ _ _ (-3) Hlow); [by vm_compute|]. unfold accepts. rewrite decide_False by lia. unfold zlen. cbn [length].
            destruct c; [done|]. cbn [length] in *. lia. }
          apply draws_names; [|done]. apply (Hlow _ (-3)). apply (bool_decide_unpack _). by vm_compute. }
        intros dbs db D HD Hn Ht. rewrite <-Hfold.
        eapply (leads_adds AKSet (λ c h, sadd_all c h) RWrong (-3)); try done.
        * apply (bool_decide_unpack _). by vm_compute.
        * unfold special. intros [?|[?|?]]; done.
        * apply (bool_decide_unpack _). by vm_compute.
        * rewrite Forall_forall in C2. apply Forall_forall. intros c Hc. specialize (C2 c Hc).
          assert (length c ≠ 0)%nat by (by destruct c). split; [unfold accepts; rewrite decide_False by lia; unfold zlen; cbn [length]; lia|].
          intros E2 D2 o' Ho. apply (sem_inv E2 _ sem_sadd) in Ho; [|by repeat constructor]. unfold sem_sadd, fn in Ho. injection Ho as <-.
          eexists _, _. done.
        * intros Hnil. apply Hrw. rewrite <-Hfold, Hnil. done.
  Qed.

  (** the keys of [X] *)
  Definition part (X : gset bytes) (D : adb) : adb :=
    ADB (filter (λ p, p.1 ∈ X) (a_keys D)) (filter (λ p, p.1 ∈ X) (a_ttl D)).
  Lemma lookup_part {A} (X : gset bytes) (m : gmap bytes A) k :
    filter (λ p, p.1 ∈ X) m !! k = if decide (k ∈ X) then m !! k else None.
  Proof.
    destruct (decide (k ∈ X)) as [Hk|Hk].
    - destruct (m !! k) as [a|] eqn:Em.
      + by apply map_filter_lookup_Some.
      + apply map_filter_lookup_None. by left.
    - apply map_filter_lookup_None. right. intros a _ ?. done.
  Qed.
  Lemma part_add_some {A} (X : gset bytes) (m : gmap bytes A) k a : m !! k = Some a →
    filter (λ p, p.1 ∈ {[k]} ∪ X) m = <[k := a]> (filter (λ p, p.1 ∈ X) m).
  Proof.
    intros Hk. apply map_eq. intros i. rewrite lookup_part. destruct (decide (i = k)) as [->|Hi].
    - rewrite lookup_insert, decide_True by set_solver. done.
    - rewrite lookup_insert_ne, lookup_part by done. destruct (decide (i ∈ X)).
      + by rewrite decide_True by set_solver.
      + by rewrite decide_False by set_solver.
  Qed.
  Lemma part_add_none {A} (X : gset bytes) (m : gmap bytes A) k : m !! k = None →
    filter (λ p, p.1 ∈ {[k]} ∪ X) m = filter (λ p, p.1 ∈ X) m.
  Proof.
    intros Hk. apply map_eq. intros i. rewrite !lookup_part. destruct (decide (i = k)) as [->|Hi].
    - rewrite Hk. repeat case_decide; done.
    - destruct (decide (i ∈ X)).
      + by rewrite decide_True by set_solver.
      + by rewrite decide_False by set_solver.
  Qed.
  (** a deadline that is still to come when the dump is loaded, whole seconds counted *)
  Definition lasting (T : Z) : Prop := H ≤ T / 1000 * 1000 ∧ T < 2 ^ 63.
  Definition text_of_deadline (k : bytes) (t : option Z) : list (list bytes) :=
    match t with Some T => [[B "expireat"; k; itoa (Z.quot T 1000)]] | None => [] end.
  Lemma deadline_leads dbs db D k T : dbs !! db = Some D → lasting T → a_ttl D !! k = None →
    leads dbs (<[db := ADB (a_keys D) (<[k := T]> (a_ttl D))]> dbs) db db (text_of_deadline k (Some T)).
  Proof.
    intros HD [Hlo Hhi] Hn. cbn [text_of_deadline].
    assert (Hat : lib_lower (cf_lib cf) (B "expireat") = B "expireat").
    { apply (Hlow _ 3). apply (bool_decide_unpack _). by vm_compute. }
    assert (HT : 0 ≤ T) by lia. assert (Hq : Z.quot T 1000 = T / 1000) by (apply Z.quot_div_nonneg; lia).
    eapply (leads_data cf H Hlow _ _ _ _ _ _ 3); rewrite ?Hat; [exact HD| | | | |].
    - apply (bool_decide_unpack _). by vm_compute.
    - by vm_compute.
    - unfold special. intros [?|[?|?]]; done.
    - apply (bool_decide_unpack _). by vm_compute.
    - intros E2 D2 o Hl2 HE2 Hsim HF2 _ Ho.
      assert (Ho1 : sem_expire E2 ms [B "expireat"; k; itoa (Z.quot T 1000)] D2 o).
      { eapply (sem_inv E2 (B "expireat")); [by repeat constructor|done]. }
      unfold sem_expire, fn in Ho1. rewrite Hq, Atoi_itoa in Ho1 by (unfold in_int64, minInt64, maxInt64; lia).
      injection Ho1 as <-. eexists _, _, _. split; [done|]. destruct Hsim as [Hk Ht].
      assert (ms (T / 1000) = T / 1000 * 1000) as -> by (apply wrap64_id; unfold in_int64, minInt64, maxInt64; lia).
      split; [split; simpl; [done|]|].
      + apply option_near_insert; [done|]. unfold near. lia.
      + apply fresh_insert; [done|lia].
  Qed.
  Lemma entry_leads E heap N k v D0 : Forall (obj_ok N) heap →
    (∀ o, v = VObj o → is_Some (heap !! o)) → rewritable (abs_val heap v) →
    a_keys D0 !! k = Some (abs_val heap v) → (∀ T, a_ttl D0 !! k = Some T → lasting T) →
    ∃ cmds, rewrite_value E heap k v = Ok (log_file cmds) ∧ (Forall (good_record cf) cmds ∧ draws (cf_lib cf) cmds = 0%nat) ∧
      ∀ dbs db X, dbs !! db = Some (part X D0) → k ∉ X →
        leads dbs (<[db := part ({[k]} ∪ X) D0]> dbs) db db (cmds ++ text_of_deadline k (a_ttl D0 !! k)).
  Proof.
    intros Hheap Hin Hrw Hk HT. destruct (value_leads E heap k v N Hheap Hin Hrw) as (cmds & EV & Hc & HL).
    exists cmds. split; [done|]. split; [done|]. intros dbs db X HD HkX.
    assert (Hdb : (db < length dbs)%nat) by (by eapply lookup_lt_Some).
    eapply leads_app; [eapply HL; [exact HD|simpl; rewrite lookup_part; by rewrite decide_False|simpl; rewrite lookup_part; by rewrite decide_False]|].
    destruct (a_ttl D0 !! k) as [T|] eqn:Et.
    - eapply leads_ext; [|eapply deadline_leads; [by apply list_lookup_insert|by apply HT|]].
      + rewrite list_insert_insert. f_equal. apply adb_eq; simpl; symmetry; by apply part_add_some.
      + simpl. rewrite lookup_part. by rewrite decide_False.
    - eapply leads_ext; [|apply leads_nil]. f_equal. apply adb_eq; simpl; symmetry; [by apply part_add_some|by apply part_add_none].
  Qed.

  (** ** One database *)
  (** [rd k]: the containers when the key [k] is read *)
  Definition db_lasts (rd : bytes → list obj) (db : database) : Prop :=
    (∀ k v, d_map (db_dict db) !! k = Some v → rewritable (abs_val (rd k) v) ∧ ∀ o, v = VObj o → is_Some (rd k !! o)) ∧
    (∀ k T, d_map (db_expire db) !! k = Some T → lasting T ∧ is_Some (d_map (db_dict db) !! k)).
  (** the dataset that is read *)
  Definition read_db (rd : bytes → list obj) (db : database) : adb :=
    ADB (map_imap (λ k v, Some (abs_val (rd k) v)) (d_map (db_dict db))) (d_map (db_expire db)).
  Lemma read_keys rd db k : a_keys (read_db rd db) !! k = abs_val (rd k) <$> d_map (db_dict db) !! k.
  Proof. simpl. rewrite map_lookup_imap. by destruct (_ !! k). Qed.
  Lemma read_none rd db : a_keys (read_db rd db) = ∅ ↔ d_map (db_dict db) = ∅.
  Proof.
    split; intros Hem; apply map_empty; intros k; [pose proof (read_keys rd db k) as Hk|rewrite read_keys].
    - rewrite Hem, lookup_empty in Hk. by destruct (_ !! k).
    - by rewrite Hem.
  Qed.
  Lemma draws_select id : draws (cf_lib cf) [[B "select"; itoa (Z.of_nat id)]] = 0%nat.
  Proof. rewrite draws_one, (Hlow _ 2) by (apply (bool_decide_unpack _); by vm_compute). done. Qed.
  Lemma draws_deadline k t : draws (cf_lib cf) (text_of_deadline k t) = 0%nat.
  Proof. destruct t; [|done]. cbn [text_of_deadline]. rewrite draws_one, (Hlow _ 3) by (apply (bool_decide_unpack _); by vm_compute). done. Qed.
  Lemma db_leads E rd N M id db : (∀ k, Forall (obj_ok N) (rd k)) → db_ok M db → db_lasts rd db →
    ∃ cmds, rewrite_db E rd id db = Ok (log_file cmds) ∧ (Forall (good_record cf) cmds ∧ draws (cf_lib cf) cmds = 0%nat) ∧
      ∀ dbs cur, dbs !! id = Some empty_db → Z.of_nat (length dbs) ≤ 2 ^ 44 →
        leads dbs (<[id := read_db rd db]> dbs) cur (if decide (a_keys (read_db rd db) = ∅) then cur else id) cmds.
  Proof.
    intros Hheap ([Hok Hi] & Hx & _ & _) [Hl1 Hl2]. pose proof Hok as (_ & Hnd & _). unfold rewrite_db.
    rewrite (iSize (db_dict db) (conj Hok Hi)). cbn [mbind res_bind]. destruct (Z.eqb_spec (Z.of_nat (size (d_map (db_dict db)))) 0) as [Hz|Hz].
    - exists []. split; [done|]. split; [split; [by apply Forall_nil_2|done]|]. intros dbs cur HD _.
      assert (Hem : d_map (db_dict db) = ∅) by (apply map_size_empty_inv; lia). rewrite decide_True by (by apply read_none).
      eapply leads_ext; [|apply leads_nil]. symmetry. apply list_insert_id. rewrite HD. f_equal. unfold empty_db.
      symmetry. apply adb_eq; [by apply read_none|]. simpl. apply map_empty. intros k. destruct (d_map (db_expire db) !! k) as [T|] eqn:ET; [|done].
      destruct (Hl2 k T ET) as [_ [v Hv]]. rewrite Hem in Hv. done.
    - set (D0 := read_db rd db).
      destruct (iterate_spec Hash (rewrite_entry E rd) (λ _ st vis,
          dinv st.1 ∧ d_map st.1 = d_map (db_expire db) ∧ ∃ cmds, st.2 = log_file ([[B "select"; itoa (Z.of_nat id)]] ++ cmds) ∧
            (Forall (good_record cf) cmds ∧ draws (cf_lib cf) cmds = 0%nat) ∧
            ∀ dbs, dbs !! id = Some empty_db → leads dbs (<[id := part (list_to_set vis.*1) D0]> dbs) id id cmds)
          (db_dict db) (db_expire db, catAppendOnlyGenericCommand [B "select"; itoa (Z.of_nat id)]))
        as (d' & [x' t'] & EI & _ & _ & _ & _ & _ & cmds & Ht' & Hc' & HL').
      + done.
      + intros d1 [x1 t1] [k v] vis rest Hvis Hok1 Hn1 Hni1 (Hx1 & Hm1 & cmds & Ht1 & Hc1 & HL1). cbn [fst snd] in *.
        assert (Hkv : d_map (db_dict db) !! k = Some v).
        { apply d_map_Some; [done|]. rewrite <-Hvis. apply elem_of_app. right. by left. }
        assert (Hfresh : k ∉ vis.*1).
        { rewrite <-Hvis, fmap_app in Hnd. simpl in Hnd.
          apply NoDup_app in Hnd as (_ & Hnd & _). intros Hin. eapply (Hnd _ Hin). by left. }
        destruct (Hl1 k v Hkv) as (Hrw & Hin).
        destruct (entry_leads E (rd k) N k v D0 (Hheap k) Hin Hrw) as (more & EV & Hcm & HLm).
        { unfold D0. by rewrite read_keys, Hkv. }
        { intros T HT. by apply (Hl2 k T). }
        unfold rewrite_entry. cbn [fst snd]. rewrite EV. cbn [mbind res_bind].
        destruct (iFindEntry x1 k Hx1) as (x2 & EF & Hx2 & Hm2). rewrite EF. cbn [mbind res_bind fst snd].
        eexists _, _. split; [done|]. split; [by apply keeps_rest_refl|]. split; [done|]. split; [cbn [fst]; congruence|].
        exists (cmds ++ more ++ text_of_deadline k (a_ttl D0 !! k)). split; [|split].
        * rewrite Ht1. cbn [snd]. rewrite !log_app, <-!app_assoc. do 3 f_equal. rewrite Hm1.
          change (a_ttl D0) with (d_map (db_expire db)). destruct (d_map (db_expire db) !! k) as [T|]; [|done].
          cbn [fmap option_fmap option_map text_of_deadline]. by rewrite cat_encode, log_one.
        * destruct Hc1 as [Hc1 Hd1], Hcm as [Hcm Hdm]. split; [|by rewrite !draws_app, Hd1, Hdm, draws_deadline].
          apply Forall_app. split; [done|]. apply Forall_app. split; [done|]. destruct (a_ttl D0 !! k); [apply Forall_singleton; record_own Hlow 3|by apply Forall_nil_2].
        * intros dbs HD. eapply leads_app; [by apply HL1|].
          assert (Hlt : (id < length dbs)%nat) by (by eapply lookup_lt_Some).
          eapply leads_ext; [|apply (HLm _ _ (list_to_set vis.*1)); [by apply list_lookup_insert|by rewrite elem_of_list_to_set]].
          rewrite list_insert_insert. f_equal. f_equal. rewrite fmap_app. cbn [fmap list_fmap fst]. rewrite list_to_set_app_L. set_solver.
      + done.
      + split; [done|]. split; [done|]. exists []. split; [by rewrite cat_encode, app_nil_r, log_one|]. split; [split; [by apply Forall_nil_2|done]|].
        intros dbs HD. eapply leads_ext; [|apply leads_nil]. symmetry. apply list_insert_id. rewrite HD. f_equal. unfold empty_db.
        symmetry. apply adb_eq; simpl; apply map_empty; intros k; rewrite lookup_part; by rewrite decide_False by set_solver.
      + rewrite EI. cbn [mbind res_bind fst snd] in *. exists ([[B "select"; itoa (Z.of_nat id)]] ++ cmds).
        split; [by rewrite Ht'|]. destruct Hc' as [Hc' Hd']. split; [split; [constructor; [record_own Hlow 2|done]|by rewrite draws_app, draws_select, Hd']|].
        intros dbs cur HD Hlen. rewrite decide_False. 2:{ intros Hem%read_none. apply Hz. by rewrite Hem, map_size_empty. }
        assert (Hlt : (id < length dbs)%nat) by (by eapply lookup_lt_Some).
        eapply leads_app; [by apply leads_select|]. eapply leads_ext; [|by apply HL']. f_equal.
        assert (Hall : ∀ k, is_Some (d_map (db_dict db) !! k) → k ∈ (list_to_set (entries (db_dict db)).*1 : gset bytes)).
        { intros k [v Hv]. apply d_map_Some in Hv; [|done]. rewrite elem_of_list_to_set. apply elem_of_list_fmap. by exists (k, v). }
        apply adb_eq; simpl; apply map_filter_id.
        * intros k a Ha. simpl. apply Hall. pose proof (read_keys rd db k) as Hk. change (a_keys (read_db rd db)) with (map_imap (λ k v, Some (abs_val (rd k) v)) (d_map (db_dict db))) in Hk. rewrite Ha in Hk. destruct (d_map (db_dict db) !! k); [by eexists|done].
        * intros k T HT. simpl. apply Hall. by apply (Hl2 k T).
  Qed.

  (** the last database with a key *)
  Fixpoint last_used (cur id : nat) (dbs : list adb) : nat :=
    match dbs with
    | [] => cur
    | D :: dbs => last_used (if decide (a_keys D = ∅) then cur else id) (S id) dbs
    end.
  Fixpoint read_dbs (rd : nat → bytes → list obj) (id : nat) (dbs : list database) : list adb :=
    match dbs with
    | [] => []
    | db :: dbs => read_db (rd id) db :: read_dbs rd (S id) dbs
    end.
  Lemma read_dbs_lookup rd dbs : ∀ id i, read_dbs rd id dbs !! i = read_db (rd (id + i)%nat) <$> dbs !! i.
  Proof.
    induction dbs as [|db dbs IH]; intros id i; [done|]. destruct i as [|i]; cbn [read_dbs]; [by rewrite Nat.add_0_r|].
    cbn [lookup list_lookup]. replace (id + S i)%nat with (S id + i)%nat by lia. apply IH.
  Qed.
  Lemma dbs_leads E rd N M dbs : (∀ id k, Forall (obj_ok N) (rd id k)) → Forall (db_ok M) dbs →
    ∀ id, (∀ i db, dbs !! i = Some db → db_lasts (rd (id + i)%nat) db) → ∃ cmds, rewrite_dbs E rd id dbs = Ok (log_file cmds) ∧ (Forall (good_record cf) cmds ∧ draws (cf_lib cf) cmds = 0%nat) ∧
      ∀ A cur, length A = id → Z.of_nat (id + length dbs) ≤ 2 ^ 44 →
        leads (A ++ replicate (length dbs) empty_db) (A ++ (read_dbs rd id dbs)) cur (last_used cur id (read_dbs rd id dbs)) cmds.
  Proof.
    intros Hheap Hdbs. induction dbs as [|db dbs IH]; intros id Hl.
    - exists []. split; [done|]. split; [split; [by apply Forall_nil_2|done]|]. intros A cur HA _. apply leads_nil.
    - apply Forall_cons in Hdbs as [Hdb Hdbs]. pose proof (Hl 0%nat db eq_refl) as Hl1. rewrite Nat.add_0_r in Hl1.
      destruct (db_leads E (rd id) N M id db (Hheap id) Hdb Hl1) as (c1 & E1 & Hc1 & HL1).
      destruct (IH Hdbs (S id)) as (c2 & E2 & Hc2 & HL2).
      { intros i d Hd. replace (S id + i)%nat with (id + S i)%nat by lia. by apply Hl. }
      exists (c1 ++ c2). cbn [rewrite_dbs]. rewrite E1, E2. cbn [mbind res_bind]. split; [by rewrite log_app|].
      destruct Hc1 as [Hc1 Hd1], Hc2 as [Hc2 Hd2]. split; [split; [by apply Forall_app|by rewrite draws_app, Hd1, Hd2]|]. intros A cur HA Hlen. cbn [length replicate read_dbs] in *.
      pose proof (HL1 (A ++ empty_db :: replicate (length dbs) empty_db) cur) as L1.
      pose proof (HL2 (A ++ [read_db (rd id) db]) (if decide (a_keys (read_db (rd id) db) = ∅) then cur else id)) as L2.
      cbn [last_used]. eapply leads_app; [apply L1|].
      { rewrite lookup_app_r by lia. by rewrite HA, Nat.sub_diag. }
      { rewrite app_length. cbn [length]. rewrite replicate_length. lia. }
      rewrite insert_app_r_alt by lia. rewrite HA, Nat.sub_diag. cbn [insert list_insert].
      rewrite <-!app_assoc in L2. apply L2; [rewrite app_length; simpl; lia|lia].
  Qed.
End rewrite.
