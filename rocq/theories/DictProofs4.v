(** Dict proofs, part 4: random selection reaches every entry, iteration, copy, rehash progress. *)
From Verif Require Import Base DictModel DictProofs DictProofs2 DictProofs3.
From Coq Require Import ZifyBool ZifyNat.

Section proofs.
  Context {K V : Type} `{Countable K}.
  Variable hash : K → Z.
  Notation dict := (dict K V).
  Notation hashTable := (hashTable K V).
  Notation dictIter := (dictIter K V).
  Implicit Types (d : dict) (h : hashTable) (k : K) (v : V) (it : dictIter).
  Notation ht_ok := (ht_ok (V:=V) hash).
  Notation dict_ok := (dict_ok (V:=V) hash).
  Notation tables_ok := (tables_ok (V:=V) hash).

  Local Arguments draw_bucket : simpl never.
  (** * every entry can be drawn *)
  Theorem GetRandomKey_complete d k v :
    dict_ok d → d_map d !! k = Some v →
    ∃ r1 r2 d', 0 ≤ r1 ∧ 0 ≤ r2 ∧ ∀ rs, GetRandomKey hash d (r1 :: r2 :: rs) = Ok (d', Some (k, v), rs).
  Proof.
    intros Hok Hkv. unfold GetRandomKey.
    destruct (d_ht0 d) as [h|] eqn:E0; [|by rewrite (d_map_uninit hash d Hok E0) in Hkv].
    rewrite (Size_spec hash d Hok). simpl.
    destruct (Z.eqb_spec (Z.of_nat (size (d_map d))) 0) as [Hz|_].
    { assert (d_map d = ∅) as He by (apply map_size_empty_inv; lia). by rewrite He in Hkv. }
    destruct (maybe_step_spec hash d) as (d1 & -> & Hs); [by destruct Hok|]. simpl.
    pose proof (dict_ok_step hash d d1 Hok Hs) as Hok1.
    pose proof (d_map_step hash d d1 Hok Hs) as Hmap1.
    destruct Hs as (_ & _ & _ & Hn1).
    rewrite <-Hmap1 in Hkv. clear Hmap1.
    assert (Hn0 : d_ht0 d1 ≠ None) by (rewrite Hn1, E0; done). clear Hn1 E0 Hok d h.
    pose proof Hok1 as (Htab & Hnd & _).
    destruct (d_ht0 d1) as [h0|] eqn:E0; [|done]. clear Hn0.
    apply d_map_Some in Hkv; [|done].
    assert (Hok0 : ht_ok h0) by (by eapply (table_ht_ok hash d1 false)).
    assert (Hl0 : zlen (ht_tables h0) = ht_size h0) by (by destruct Hok0 as (_ & ? & _)).
    pose proof (ht_ok_size_ge hash h0 Hok0) as H40.
    pose proof (isRehashing_spec hash d1 Htab) as HR.
    (* it suffices to find a first draw that selects a bucket holding the entry *)
    cut (∃ r1 c, 0 ≤ r1 ∧ (k, v) ∈ c ∧ ∀ rs, draw_bucket d1 (r1 :: rs) = Ok (c, rs)).
    { intros (r1 & c & Hr1 & Hin & Hd). apply elem_of_list_lookup in Hin as (p & Hp).
      exists r1, (Z.of_nat p), d1. split; [done|]. split; [lia|]. intros rs.
      rewrite Hd. simpl. pose proof (lookup_lt_Some _ _ _ Hp).
      rewrite Z.rem_small by (unfold zlen; lia). by rewrite (go_index_lookup _ _ _ Hp). }
    unfold entries in Hkv. rewrite E0 in Hkv.
    unfold DictProofs.tables_ok in Htab. rewrite E0 in Htab.
    apply elem_of_app in Hkv as [Hkv|Hkv].
    - simpl in Hkv. apply elem_of_list_join in Hkv as (c & Hc & Hct).
      apply elem_of_list_lookup in Hct as (i & Hi).
      pose proof (lookup_lt_Some _ _ _ Hi) as Hlt.
      assert (Hne : ∃ e c', c = e :: c') by (destruct c; [by apply elem_of_nil in Hc|eauto]).
      destruct (d_ht1 d1) as [h1|] eqn:E1.
      + destruct Htab as (_ & Hok1' & Hri & Hclr).
        assert (Hl1 : zlen (ht_tables h1) = ht_size h1) by (by destruct Hok1' as (_ & ? & _)).
        pose proof (ht_ok_size_ge hash h1 Hok1') as H41.
        assert (Hge : d_rehashIndex d1 ≤ Z.of_nat i).
        { destruct (decide (Z.of_nat i < d_rehashIndex d1)); [|lia].
          rewrite (Hclr i c) in Hc by done. by apply elem_of_nil in Hc. }
        exists (Z.of_nat i - d_rehashIndex d1), c. split; [lia|]. split; [done|]. intros rs.
        unfold draw_bucket; fold (draw_bucket (K:=K) (V:=V)). rewrite E0. simpl. rewrite HR. simpl. rewrite ?E1. simpl.
        destruct (Z.eqb_spec (zlen (ht_tables h0) + zlen (ht_tables h1) - d_rehashIndex d1) 0); [lia|].
        rewrite Z.rem_small by (unfold zlen in *; lia).
        replace (d_rehashIndex d1 + (Z.of_nat i - d_rehashIndex d1)) with (Z.of_nat i) by lia.
        destruct (Z.leb_spec (zlen (ht_tables h0)) (Z.of_nat i)); [unfold zlen in *; lia|].
        rewrite (go_index_lookup _ _ _ Hi). simpl. by destruct Hne as (e & c' & ->).
      + exists (Z.of_nat i), c. split; [lia|]. split; [done|]. intros rs.
        unfold draw_bucket; fold (draw_bucket (K:=K) (V:=V)). rewrite E0. simpl. rewrite HR. simpl. rewrite ?E1. simpl.
        destruct (Z.eqb_spec (zlen (ht_tables h0)) 0); [lia|].
        rewrite Z.rem_small by (unfold zlen in *; lia).
        rewrite (go_index_lookup _ _ _ Hi). simpl. by destruct Hne as (e & c' & ->).
    - destruct (d_ht1 d1) as [h1|] eqn:E1; [|by apply elem_of_nil in Hkv].
      simpl in Hkv. apply elem_of_list_join in Hkv as (c & Hc & Hct).
      apply elem_of_list_lookup in Hct as (i & Hi).
      pose proof (lookup_lt_Some _ _ _ Hi) as Hlt.
      assert (Hne : ∃ e c', c = e :: c') by (destruct c; [by apply elem_of_nil in Hc|eauto]).
      destruct Htab as (_ & Hok1' & Hri & Hclr).
      assert (Hl1 : zlen (ht_tables h1) = ht_size h1) by (by destruct Hok1' as (_ & ? & _)).
      exists (zlen (ht_tables h0) + Z.of_nat i - d_rehashIndex d1), c.
      split; [lia|]. split; [done|]. intros rs.
      unfold draw_bucket; fold (draw_bucket (K:=K) (V:=V)). rewrite E0. simpl. rewrite HR. simpl. rewrite ?E1. simpl.
      destruct (Z.eqb_spec (zlen (ht_tables h0) + zlen (ht_tables h1) - d_rehashIndex d1) 0);
        [unfold zlen in *; lia|].
      rewrite Z.rem_small by (unfold zlen in *; lia).
      replace (d_rehashIndex d1 + (zlen (ht_tables h0) + Z.of_nat i - d_rehashIndex d1))
        with (zlen (ht_tables h0) + Z.of_nat i) by lia.
      destruct (Z.leb_spec (zlen (ht_tables h0)) (zlen (ht_tables h0) + Z.of_nat i)); [|lia].
      replace (zlen (ht_tables h0) + Z.of_nat i - zlen (ht_tables h0)) with (Z.of_nat i) by lia.
      rewrite (go_index_lookup _ _ _ Hi). simpl. by destruct Hne as (e & c' & ->).
  Qed.

  (** * Iteration *)
  Definition chain_left it : list (K * V) := match it_entry it with [] => [] | _ => it_next it end.
  Definition buckets_left d it : list (list (K * V)) :=
    match d_table d (it_table it =? 1) with
    | Some h => drop (Z.to_nat (it_index it + 1)) (ht_tables h)
    | None => []
    end ++
    (if (it_table it =? 0) then match d_ht1 d with Some h => ht_tables h | None => [] end else []).
  (** what the iterator will still return *)
  Definition remaining d it : list (K * V) := chain_left it ++ mjoin (buckets_left d it).

  Definition it_ok d it : Prop :=
    (it_table it = 0 ∨ (it_table it = 1 ∧ d_ht1 d ≠ None)) ∧ 0 ≤ it_index it.

  Definition Next_result d it it' (o : option (K * V)) : Prop :=
    it_ok d it' ∧
    match o with
    | None => remaining d it = [] ∧ remaining d it' = []
    | Some e => remaining d it = e :: remaining d it'
    end.

  Lemma drop_lookup_cons {A} (l : list A) i x :
    l !! i = Some x → drop i l = x :: drop (S i) l.
  Proof. apply drop_S. Qed.

  Lemma next_loop_spec fuel d it :
    tables_ok d → d_ht0 d ≠ None → it_ok d it →
    (length (buckets_left d it) + (match it_entry it with [] => 0 | _ => 1 end) < fuel)%nat →
    ∃ it' o, next_loop fuel d it = Ok (d, it', o) ∧ Next_result d it it' o.
  Proof.
    intros Htab Hn0. revert it. induction fuel as [|fuel IH]; intros it Hit Hf; [lia|].
    pose proof (isRehashing_spec hash d Htab) as HR.
    destruct it as [t i en nx]. unfold it_ok in Hit. cbn [it_table it_index] in Hit.
    cbn [it_entry] in Hf. simpl. destruct en as [|e0 c0].
    - destruct (Z.eqb_spec i (-1)); [lia|]. simpl.
      assert (∃ h, d_table d (t =? 1) = Some h) as [h Hh].
      { destruct Hit as [[->|(-> & ?)] _]; simpl.
        - destruct (d_ht0 d); [eauto|done].
        - destruct (d_ht1 d); [eauto|done]. }
      rewrite Hh. simpl.
      pose proof (table_ht_ok hash d _ _ Htab Hh) as Hokh.
      assert (Hlen : zlen (ht_tables h) = ht_size h) by (by destruct Hokh as (_ & ? & _)).
      assert (Hbl : buckets_left d (MkIter t i [] nx) =
                    drop (Z.to_nat (i + 1)) (ht_tables h) ++
                    (if t =? 0 then match d_ht1 d with Some h => ht_tables h | None => [] end else [])).
      { unfold buckets_left. simpl. by rewrite Hh. }
      destruct (Z.leb_spec (ht_size h) (i + 1)) as [Hge|Hlt].
      + rewrite (drop_ge (ht_tables h)) in Hbl by (unfold zlen in Hlen; lia). simpl in Hbl.
        rewrite HR. destruct (d_ht1 d) as [h1|] eqn:E1; simpl.
        * destruct Hit as [[->|(-> & _)] Hi]; simpl in *.
          -- pose proof (table_ht_ok hash d true h1 Htab E1) as Hok1.
             assert (Hlen1 : zlen (ht_tables h1) = ht_size h1) by (by destruct Hok1 as (_ & ? & _)).
             pose proof (ht_ok_size_ge hash h1 Hok1) as H41.
             destruct (ht_tables h1) as [|c tl] eqn:Etl; [unfold zlen in Hlen1; simpl in Hlen1; lia|].
             unfold go_index. simpl.
             assert (Hrem : remaining d (MkIter 0 i [] nx) = c ++ mjoin tl).
             { unfold remaining. by rewrite Hbl. }
             assert (Hbl1 : ∀ x y, buckets_left d (MkIter 1 0 x y) = tl).
             { intros x y. unfold buckets_left. simpl. rewrite E1, Etl, app_nil_r. done. }
             destruct c as [|e c'].
             ++ destruct (IH (MkIter 1 0 [] nx)) as (it' & o & HN & Hok' & Ho).
                { split; [right; by rewrite E1|simpl; lia]. }
                { rewrite Hbl1. rewrite Hbl in Hf. simpl in Hf |- *. lia. }
                exists it', o. split; [done|]. split; [done|].
                assert (Hr1 : remaining d (MkIter 1 0 [] nx) = mjoin tl) by (unfold remaining; by rewrite Hbl1).
                rewrite Hr1 in Ho. rewrite Hrem. done.
             ++ eexists _, (Some e). split; [done|]. split.
                { split; [right; by rewrite E1|simpl; lia]. }
                rewrite Hrem. unfold remaining. rewrite Hbl1. done.
          -- exists (MkIter 1 (i+1) [] nx), None. split; [done|]. split.
             { split; [right; by rewrite E1|simpl; lia]. }
             unfold remaining. rewrite Hbl. split; [done|].
             unfold buckets_left. simpl. rewrite Hh.
             rewrite drop_ge by (unfold zlen in Hlen; lia). done.
        * destruct Hit as [[->|(_ & ?)] Hi]; [|done].
          exists (MkIter 0 (i+1) [] nx), None. split; [done|]. split; [split; [by left|simpl; lia]|].
          unfold remaining. rewrite Hbl. split; [done|].
          unfold buckets_left. simpl in *. rewrite Hh, E1.
          rewrite drop_ge by (unfold zlen in Hlen; lia). done.
      + destruct (go_index_ok (ht_tables h) (i + 1)) as (c & Hc & ->); [lia|]. simpl.
        rewrite (drop_lookup_cons _ _ _ Hc) in Hbl.
        assert (Hbl1 : ∀ x y, buckets_left d (MkIter t (i + 1) x y) =
                        drop (S (Z.to_nat (i + 1))) (ht_tables h) ++
                    (if t =? 0 then match d_ht1 d with Some h => ht_tables h | None => [] end else [])).
        { intros x y. unfold buckets_left. simpl. rewrite Hh.
          replace (Z.to_nat (i + 1 + 1)) with (S (Z.to_nat (i + 1))) by lia. done. }
        assert (Hok1 : ∀ x y, it_ok d (MkIter t (i + 1) x y)).
        { intros x y. split; simpl; [tauto|lia]. }
        destruct c as [|e c'].
        * destruct (IH (MkIter t (i + 1) [] nx)) as (it' & o & HN & Hok' & Ho).
          { done. }
          { rewrite Hbl1. rewrite Hbl in Hf. simpl in Hf |- *. lia. }
          exists it', o. split; [done|]. split; [done|].
          assert (Hr1 : remaining d (MkIter t i [] nx) = remaining d (MkIter t (i + 1) [] nx)).
          { unfold remaining. rewrite Hbl, Hbl1. done. }
          rewrite Hr1. done.
        * eexists _, (Some e). split; [done|]. split; [done|].
          unfold remaining. rewrite Hbl, Hbl1. done.
    - destruct nx as [|e c'].
      + destruct (IH (MkIter t i [] [])) as (it' & o & HN & Hok' & Ho); [done| |].
        { unfold buckets_left in *. simpl in *. lia. }
        exists it', o. split; [done|]. split; [done|]. unfold remaining in *. simpl in *.
        unfold buckets_left in *. simpl in *. done.
      + eexists _, (Some e). split; [done|]. split; [done|]. done.
  Qed.

  Lemma buckets_left_length d it :
    (length (buckets_left d it) <
     match d_ht0 d with Some h => length (ht_tables h) | None => 0 end +
     match d_ht1 d with Some h => length (ht_tables h) | None => 0 end + 2)%nat.
  Proof.
    unfold buckets_left. rewrite app_length. destruct (Z.eqb_spec (it_table it) 1).
    - destruct (Z.eqb_spec (it_table it) 0); [lia|]. simpl.
      destruct (d_ht1 d); simpl; rewrite ?drop_length; lia.
    - simpl. destruct (it_table it =? 0), (d_ht0 d), (d_ht1 d); simpl; rewrite ?drop_length; lia.
  Qed.

  Lemma Next_spec d it :
    tables_ok d → d_ht0 d ≠ None → it_ok d it →
    ∃ it' o, Next d it = Ok (d, it', o) ∧ Next_result d it it' o.
  Proof.
    intros Htab Hn0 Hit. unfold Next. destruct (d_ht0 d) eqn:E0; [|done].
    apply next_loop_spec; [done|by rewrite E0|done|].
    pose proof (buckets_left_length d it). unfold next_fuel. destruct (it_entry it); lia.
  Qed.

  Lemma remaining_init d : d_ht0 d ≠ None → remaining d NewDictIterator = entries d.
  Proof.
    intros Hn0. unfold remaining, entries, buckets_left. simpl.
    destruct (d_ht0 d); [|done]. rewrite join_app. by destruct (d_ht1 d).
  Qed.

  Lemma Next_first_spec d :
    tables_ok d → d_ht0 d ≠ None →
    ∃ it' o, Next d NewDictIterator = Ok (set_iterators d (d_iterators d + 1), it', o) ∧
             Next_result d NewDictIterator it' o.
  Proof.
    intros Htab Hn0. unfold Next. destruct (d_ht0 d) as [h|] eqn:E0; [|done].
    destruct (next_fuel d) as [|fuel] eqn:Ef; [unfold next_fuel in Ef; lia|]. simpl. rewrite E0. simpl.
    change (-1 + 1) with 0.
    pose proof (table_ht_ok hash d false h Htab E0) as Hok0.
    assert (Hlen : zlen (ht_tables h) = ht_size h) by (by destruct Hok0 as (_ & ? & _)).
    pose proof (ht_ok_size_ge hash h Hok0).
    destruct (Z.leb_spec (ht_size h) 0); [lia|].
    destruct (ht_tables h) as [|c tl] eqn:Etl; [unfold zlen in Hlen; simpl in Hlen; lia|].
    unfold go_index. simpl.
    set (d1 := set_iterators d (d_iterators d + 1)).
    assert (Hbl1 : ∀ x y, buckets_left d (MkIter 0 0 x y) =
      tl ++ match d_ht1 d with Some h => ht_tables h | None => [] end).
    { intros x y. unfold buckets_left. simpl. by rewrite E0, Etl. }
    assert (Hr0 : remaining d NewDictIterator =
       c ++ mjoin (tl ++ match d_ht1 d with Some h => ht_tables h | None => [] end)).
    { unfold remaining, buckets_left. simpl. rewrite E0, Etl. done. }
    destruct c as [|e c'].
    - destruct (next_loop_spec fuel d1 (MkIter 0 0 [] [])) as (it' & o & HN & Hok' & Ho).
      { done. } { unfold d1. simpl. by rewrite E0. } { split; [by left|simpl; lia]. }
      { change (buckets_left d1) with (buckets_left d). rewrite Hbl1, app_length. simpl.
        unfold next_fuel in Ef. rewrite E0, Etl in Ef. simpl in Ef. destruct (d_ht1 d); simpl; lia. }
      exists it', o. split; [done|]. split; [done|]. rewrite Hr0.
      assert (Hr1 : remaining d1 (MkIter 0 0 [] []) =
        mjoin (tl ++ match d_ht1 d with Some h => ht_tables h | None => [] end)).
      { change (remaining d1) with (remaining d). unfold remaining. by rewrite Hbl1. }
      rewrite Hr1 in Ho. destruct o; exact Ho.
    - eexists _, (Some e). split; [done|]. split.
      { split; [by left|simpl; lia]. }
      rewrite Hr0. unfold remaining. rewrite Hbl1. done.
  Qed.

  (** The loop [for e := iter.Next(); e != nil; e = iter.Next()]: the body sees
      every entry once.  It may change the dict as long as the entries the
      iterator has not reached stay in place. *)
  Definition keeps_rest d d' (e : K * V) : Prop :=
    dict_ok d' ∧ d_iterators d' = d_iterators d ∧ d_ht0 d' ≠ None ∧
    (d_ht1 d' = None ↔ d_ht1 d = None) ∧
    ∀ it, e.1 ∉ (remaining d it).*1 → remaining d' it = remaining d it.

  Lemma keeps_rest_refl d e : dict_ok d → d_ht0 d ≠ None → keeps_rest d d e.
  Proof. intros. unfold keeps_rest. tauto. Qed.

  Lemma for_entries_spec {S} (body : dict → S → K * V → res (dict * S))
      (I : dict → S → list (K * V) → Prop) (es : list (K * V)) fuel d it s vis :
    dict_ok d → d_ht0 d ≠ None → d_iterators d ≠ 0 → it_ok d it →
    NoDup (remaining d it).*1 → vis ++ remaining d it = es →
    (length (remaining d it) < fuel)%nat →
    (∀ d s e vis rest, vis ++ e :: rest = es → dict_ok d → d_ht0 d ≠ None → d_iterators d ≠ 0 → I d s vis →
        ∃ d' s', body d s e = Ok (d', s') ∧ keeps_rest d d' e ∧ I d' s' (vis ++ [e])) →
    I d s vis →
    ∃ d' it' s', for_entries fuel body d it s = Ok (d', it', s') ∧ dict_ok d' ∧ d_ht0 d' ≠ None ∧
       d_iterators d' = d_iterators d ∧ 0 ≤ it_index it' ∧ I d' s' (vis ++ remaining d it).
  Proof.
    intros Hok Hn0 Hni Hit Hnd Hes Hf Hbody. revert d it s vis Hok Hn0 Hni Hit Hnd Hes Hf.
    induction fuel as [|fuel IH]; intros d it s vis Hok Hn0 Hni Hit Hnd Hes Hf HI; [lia|]. simpl.
    destruct (Next_spec d it) as (it' & o & -> & Hit' & Ho); [by destruct Hok|done|done|]. simpl.
    destruct o as [e|].
    - rewrite Ho in Hes.
      destruct (Hbody d s e vis (remaining d it')) as (d' & s' & -> & Hk & HI'); try done. simpl.
      rewrite Ho in Hnd. simpl in Hnd. apply NoDup_cons in Hnd as [Hnin Hnd].
      destruct Hk as (Hok' & Hiters & Hn0' & Hn1' & Hrest).
      specialize (Hrest it' Hnin).
      destruct (IH d' it' s' (vis ++ [e])) as (d2 & it2 & s2 & Hf2 & ? & ? & ? & ? & HI2); try done.
      + by rewrite Hiters.
      + destruct Hit' as [[?|[? ?]] ?]; (split; [|done]); [by left|right]. by rewrite Hn1'.
      + by rewrite Hrest.
      + by rewrite Hrest, <-app_assoc.
      + rewrite Hrest. rewrite Ho in Hf. simpl in Hf. lia.
      + exists d2, it2, s2. split; [done|]. split; [done|]. split; [done|]. split; [congruence|].
        split; [done|]. rewrite Ho. rewrite Hrest, <-app_assoc in HI2. done.
    - destruct Ho as [Ho _]. exists d, it', s. rewrite Ho, app_nil_r.
      destruct Hit'. done.
  Qed.

  Lemma d_total_entries d : d_total d = length (entries d).
  Proof. unfold d_total, entries. rewrite app_length. by destruct (d_ht0 d), (d_ht1 d). Qed.

  Theorem loop_spec {S} (body : dict → S → K * V → res (dict * S))
      (I : dict → S → list (K * V) → Prop) d0 s :
    dict_ok d0 →
    (∀ d s e vis rest, vis ++ e :: rest = entries d0 → dict_ok d → d_ht0 d ≠ None → d_iterators d ≠ 0 → I d s vis →
        ∃ d' s', body d s e = Ok (d', s') ∧ keeps_rest d d' e ∧ I d' s' (vis ++ [e])) →
    (∀ d s vis n, I d s vis → I (set_iterators d n) s vis) →
    I d0 s [] →
    ∃ d' it' s', for_entries (Datatypes.S (d_total d0)) body d0 NewDictIterator s = Ok (d', it', s') ∧
       dict_ok d' ∧ I d' s' (entries d0) ∧
       ((d_ht0 d0 = None ∧ d' = d0 ∧ it' = NewDictIterator) ∨
        (d_ht0 d0 ≠ None ∧ d_ht0 d' ≠ None ∧ d_iterators d' = d_iterators d0 + 1 ∧ 0 ≤ it_index it')).
  Proof.
    rename d0 into d. intros Hok Hbody HIset HI.
    destruct (d_ht0 d) as [h0|] eqn:E0.
    - assert (Hn0 : d_ht0 d ≠ None) by (by rewrite E0).
      pose proof Hok as (Htab & Hnd & Hiters & _).
      destruct (Next_first_spec d Htab Hn0) as (it' & o & HN & Hit' & Ho).
      rewrite (remaining_init d Hn0) in Ho.
      set (d1 := set_iterators d (d_iterators d + 1)) in *.
      assert (Hok1 : dict_ok d1).
      { split; [done|]. split; [done|]. simpl. split; [lia|by rewrite E0]. }
      cbn [for_entries]. rewrite HN. simpl.
      destruct o as [e|].
      + destruct (Hbody d1 s e [] (remaining d it')) as (d2 & s2 & -> & Hk & HI2); try done.
        { simpl. lia. } { by apply HIset. }
        simpl. destruct Hk as (Hok2 & Hit2 & Hn02 & Hn12 & Hrest).
        change (remaining d1) with (remaining d) in Hrest.
        rewrite Ho in Hnd. simpl in Hnd. apply NoDup_cons in Hnd as [Hnin Hnd].
        specialize (Hrest it' Hnin).
        destruct (for_entries_spec body I (entries d) (d_total d) d2 it' s2 [e])
          as (d3 & it3 & s3 & -> & Hok3 & Hn3 & Hit3 & Hidx3 & HI3); try done.
        { rewrite Hit2. simpl. lia. }
        { destruct Hit' as [[?|[? ?]] ?]; (split; [|done]); [by left|right]. by rewrite Hn12. }
        { by rewrite Hrest. }
        { by rewrite Hrest. }
        { rewrite d_total_entries, Ho, Hrest. simpl. lia. }
        eexists _, _, s3. split; [done|]. split; [done|]. split.
        * rewrite Ho. by rewrite Hrest in HI3.
        * right. split; [done|]. split; [done|]. split; [|done]. rewrite Hit3, Hit2. done.
      + destruct Ho as [Ho _]. eexists _, _, s. split; [done|]. split; [done|]. split.
        * rewrite Ho. by apply HIset.
        * right. split; [done|]. split; [simpl; by rewrite E0|]. split; [done|]. by destruct Hit'.
    - simpl. unfold Next. rewrite E0. simpl. eexists _, _, s. split; [done|]. split; [done|].
      assert (He : entries d = []).
      { destruct Hok as (Ht & _). unfold entries. unfold DictProofs.tables_ok in Ht.
        rewrite E0 in *. by destruct (d_ht1 d). }
      rewrite He. split; [done|]. by left.
  Qed.

  Lemma Release_loop d it : 0 ≤ it_index it → Release d it = set_iterators d (d_iterators d - 1).
  Proof. intros. unfold Release. destruct (Z.eqb_spec (it_index it) (-1)); [lia|done]. Qed.
  Lemma Release_new d : d_iterators d = 0 → Release d NewDictIterator = d.
  Proof. intros E. unfold Release. rewrite E. done. Qed.
  Lemma dict_ok_set_iterators d n : dict_ok d → d_ht0 d ≠ None → 0 ≤ n → dict_ok (set_iterators d n).
  Proof. intros (? & ? & ? & ?) ??. split; [done|]. split; [done|]. by split. Qed.

  Theorem iterate_spec {S} (body : dict → S → K * V → res (dict * S))
      (I : dict → S → list (K * V) → Prop) d0 s :
    dict_ok d0 →
    (∀ d s e vis rest, vis ++ e :: rest = entries d0 → dict_ok d → d_ht0 d ≠ None → d_iterators d ≠ 0 → I d s vis →
        ∃ d' s', body d s e = Ok (d', s') ∧ keeps_rest d d' e ∧ I d' s' (vis ++ [e])) →
    (∀ d s vis n, I d s vis → I (set_iterators d n) s vis) →
    I d0 s [] →
    ∃ d' s', iterate body d0 s = Ok (d', s') ∧ dict_ok d' ∧ d_iterators d' = d_iterators d0 ∧
       (d_ht0 d' = None ↔ d_ht0 d0 = None) ∧ I d' s' (entries d0).
  Proof.
    rename d0 into d. intros Hok Hbody HIset HI. unfold iterate.
    destruct (loop_spec body I d s Hok Hbody HIset HI) as (d' & it' & s' & -> & Hok' & HI' & Hcase).
    simpl. eexists _, _. split; [done|]. destruct Hcase as [(E0 & -> & ->)|(E0 & E0' & Hi' & Hidx)].
    - assert (Hi0 : d_iterators d = 0) by (destruct Hok as (_ & _ & _ & Hi); auto).
      rewrite Release_new by done. done.
    - rewrite Release_loop by done. rewrite Hi'.
      replace (d_iterators d + 1 - 1) with (d_iterators d) by lia.
      split; [apply dict_ok_set_iterators; try done; by destruct Hok as (_ & _ & ? & _)|].
      split; [done|]. split; [by split|]. by apply HIset.
  Qed.

  Theorem Entries_spec d : dict_ok d →
    ∃ d', Entries d = Ok (d', entries d) ∧ d' = d.
  Proof.
    intros Hok. unfold Entries.
    destruct (iterate_spec (λ d acc e, Ok (d, acc ++ [e]))
                (λ d' acc vis, acc = vis ∧ d_ht0 d' = d_ht0 d ∧ d_ht1 d' = d_ht1 d ∧
                    d_rehashIndex d' = d_rehashIndex d) d [])
      as (d' & s' & -> & Hok' & Hi & _ & -> & H0 & H1 & H2); try done.
    - intros d1 s e vis rest _ Hok1 Hn Hni (-> & ?). eexists _, _. split; [done|]. split; [|done].
      by apply keeps_rest_refl.
    - exists d'. split; [done|]. destruct d, d'; simpl in *. congruence.
  Qed.

  (** deleting the entry just returned keeps the rest of the iteration *)
  Lemma Delete_keeps_rest d k v d' o :
    dict_ok d → d_ht0 d ≠ None → d_iterators d ≠ 0 →
    Delete hash d k = Ok (d', o) → keeps_rest d d' (k, v).
  Proof.
    intros Hok Hn0 Hni HD. pose proof Hok as (Htab & _).
    destruct (Delete_spec hash d k Hok) as (d2 & HD2 & Hok2 & _ & Hi2 & Hn2).
    rewrite HD in HD2. injection HD2 as <- _.
    unfold Delete in HD. destruct (d_ht0 d) as [h0|] eqn:E0; [|done].
    destruct (maybe_step hash d) as [d1| |] eqn:Hs; simpl in HD; try done.
    apply maybe_step_no_iter in Hs as ->; [|done].
    destruct (find_both_spec hash d k Htab) as (ol & i & Hf & Hol); [by rewrite E0|].
    rewrite Hf in HD. simpl in HD. destruct ol as [l|].
    2:{ injection HD as <- _. apply keeps_rest_refl; [done|by rewrite E0]. }
    destruct Hol as (v' & h & c & Ht & Hb & Hc & Hp).
    unfold delete_at in HD. rewrite Ht in HD. simpl in HD.
    destruct (go_index (ht_tables h) (l_bucket l)) as [c'| |] eqn:Hgi; simpl in HD; try done.
    assert (c' = c) as ->.
    { apply go_index_inv in Hgi as [_ Hgi]. congruence. }
    pose proof (lookup_lt_Some _ _ _ Hc) as Hlt.
    rewrite go_store_ok in HD by (unfold zlen; lia). simpl in HD. injection HD as <- <-.
    split; [done|]. split; [done|]. split; [by rewrite Hn2|]. split.
    { unfold d_set_table. destruct (l_table l) eqn:Et; simpl; [|done].
      unfold d_table in Ht. by rewrite Ht. }
    intros it Hnin. simpl in Hnin. unfold remaining in *. f_equal.
    rewrite fmap_app, elem_of_app in Hnin.
    assert (Hnin' : k ∉ (mjoin (buckets_left d it)).*1) by tauto. clear Hnin.
    assert (Hkc : k ∈ c.*1).
    { apply elem_of_list_fmap. exists (k, v'). split; [done|]. by eapply elem_of_list_lookup_2. }
    assert (Hout : c ∉ buckets_left d it).
    { intros Hin. apply Hnin'. apply elem_of_list_fmap in Hkc as (e & -> & He).
      apply elem_of_list_fmap. exists e. split; [done|]. apply elem_of_list_join. eauto. }
    f_equal. unfold buckets_left in *. rewrite elem_of_app in Hout.
    assert (Hdrop : ∀ x, c ∉ drop x (ht_tables h) →
       drop x (<[Z.to_nat (l_bucket l) := take (l_pos l) c ++ drop (S (l_pos l)) c]> (ht_tables h))
       = drop x (ht_tables h)).
    { intros x Hx. apply drop_insert_gt. destruct (decide (Z.to_nat (l_bucket l) < x)%nat); [done|].
      exfalso. apply Hx. apply elem_of_list_lookup. exists (Z.to_nat (l_bucket l) - x)%nat.
      rewrite lookup_drop. rewrite <-Hc. f_equal. lia. }
    unfold d_set_table, d_table in *.
    destruct (l_table l) eqn:Et.
    - (* in table 1 *)
      cbn [d_ht0 d_ht1]. rewrite Ht in *.
      destruct (Z.eqb_spec (it_table it) 1), (Z.eqb_spec (it_table it) 0); try lia; simpl.
      + rewrite Hdrop by tauto. done.
      + exfalso. apply Hout. right. by eapply elem_of_list_lookup_2.
      + done.
    - cbn [d_ht0 d_ht1]. rewrite Ht in *.
      destruct (Z.eqb_spec (it_table it) 1); simpl; [done|].
      rewrite Hdrop by tauto. done.
  Qed.

  (** * DeepCopy *)
  Lemma small_le n m : (n ≤ m)%nat → small m → small n.
  Proof. unfold small. lia. Qed.

  Lemma set_all_spec es : ∀ d,
    dict_ok d → NoDup es.*1 → (∀ k, k ∈ es.*1 → d_map d !! k = None) →
    small (size (d_map d) + length es) →
    ∃ d', set_all hash d es = Ok d' ∧ dict_ok d' ∧ d_map d' = list_to_map es ∪ d_map d ∧
          d_iterators d' = d_iterators d ∧ (d_ht0 d' = None ↔ es = [] ∧ d_ht0 d = None).
  Proof.
    induction es as [|[k v] es IH]; intros d Hok Hnd Hfresh Hsm; simpl.
    - exists d. rewrite (left_id_L ∅ (∪)). naive_solver.
    - simpl in *. apply NoDup_cons in Hnd as [Hnin Hnd].
      assert (Hsz : size (d_map d) = length (entries d)) by (apply d_map_size; by destruct Hok as (_ & ? & _)).
      destruct (Set_spec hash d k v Hok) as (d1 & -> & Hok1 & Hm1 & Hi1 & Hn1).
      { eapply small_le; [|done]. lia. }
      simpl. assert (Hf : d_map d !! k = None) by (apply Hfresh; left).
      destruct (IH d1) as (d2 & -> & Hok2 & Hm2 & Hi2 & Hn2); try done.
      + intros k' Hk'. rewrite Hm1. rewrite lookup_insert_ne; [apply Hfresh; by right|].
        intros ->. done.
      + rewrite Hm1, map_size_insert_None by done. eapply small_le; [|done]. lia.
      + exists d2. split; [done|]. split; [done|]. split; [|split; [congruence|]].
        * rewrite Hm2, Hm1. rewrite <-insert_union_r; [|by apply not_elem_of_list_to_map_1].
          by rewrite insert_union_l.
        * rewrite Hn2. naive_solver.
  Qed.

  Theorem DeepCopy_spec d : dict_ok d → small (length (entries d)) →
    ∃ c, DeepCopy hash d = Ok (d, c) ∧ dict_ok c ∧ d_map c = d_map d ∧ d_iterators c = 0.
  Proof.
    intros Hok Hsm. unfold DeepCopy. destruct (Entries_spec d Hok) as (? & -> & ->). simpl.
    destruct (set_all_spec (entries d) NewDict) as (c & -> & Hokc & Hmc & Hic & _).
    - apply NewDict_ok.
    - by destruct Hok as (_ & ? & _).
    - done.
    - done.
    - simpl. exists c. split; [done|]. split; [done|]. split; [|done].
      rewrite Hmc, NewDict_map. by rewrite (right_id_L ∅ (∪)).
  Qed.

  (** * Rehash progress *)
  (** one step either finishes (the new table takes over) or empties one more bucket *)
  Definition step_progress d d' (h1 : hashTable) : Prop :=
    (d_ht1 d' = None ∧ d_ht0 d' = Some h1) ∨
    (∃ h0' h1', d_ht0 d' = Some h0' ∧ d_ht1 d' = Some h1' ∧ ht_size h1' = ht_size h1 ∧
       S (nonempty_buckets (d_ht0 d')) = nonempty_buckets (d_ht0 d)).

  Lemma maybe_step_progress d h1 :
    tables_ok d → d_ht1 d = Some h1 → d_iterators d = 0 →
    ∃ d', maybe_step hash d = Ok d' ∧ step_progress d d' h1.
  Proof.
    intros Htab E1 Hi. unfold maybe_step. rewrite (isRehashing_spec hash d Htab), E1.
    unfold rehashStep. rewrite Hi. change (0 =? 0) with true.
    destruct (d_ht0 d) as [h0|] eqn:E0.
    - destruct (rehash_one hash d h0 h1 Htab E0 E1) as (d' & Hr & _ & _ & _ & _ & Hd).
      exists d'. split; [exact Hr|]. destruct Hd as [?|(h0' & h1' & ? & ? & ? & ? & ?)]; [by left|].
      right. exists h0', h1'. done.
    - unfold DictProofs.tables_ok in Htab. by rewrite E0, E1 in Htab.
  Qed.
End proofs.
