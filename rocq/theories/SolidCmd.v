(** Commands that remove members or count them never panic, and ZADD only when a level
    overflows, in every reachable state. *)
From Verif Require Import Base Float DictModel DictProofs DictProofs2 DictProofs3 DictProofs4 DictRun
  DatabaseModel SetModel SetProofs QuicklistModel QuicklistProofs SkiplistModel ZsetModel
  Strconv RespSpec ServerModel CommandModel CommandSem CommandInv CommandInv2 CommandProofs1 CommandProofs2 CommandProofs4
  CommandTop CommandFrame SystemModel SystemProofs AofModel AofProofs1 AofProofs2 BootProofs CommandFacts PropsCommand PropsData
  ZcmdProofs ListcmdProofs SafeProofs RndFrame TermProofs TermCmd SolidProofs.
From Coq Require Import ZifyBool ZifyNat.

Lemma sound_ok {A} bad (P : A → Prop) m v : sound bad P m → m = Ok v → P v.
Proof. by intros H ->. Qed.
Lemma sound_panic {A} (bad : Prop) (P : A → Prop) m : sound bad P m → m = Panic → bad.
Proof. by intros H ->. Qed.

(** * The operations of the sorted set *)
Lemma zdel1_sound z m : solid z.2 → sound False (λ r, solid r.1.2) (zdel1 z m).
Proof.
  intros Hs. unfold zdel1. destruct (z.1 !! m) as [sc|]; [|done]. eapply sound_bind; [by apply SlDelete_sound|]. intros r Hr. done.
Qed.
Lemma zrem_all_sound l : ∀ z n, solid z.2 → sound False (λ r, solid r.1.2) (zrem_all l z n).
Proof.
  induction l as [|m l IH]; intros z n Hs; cbn [zrem_all]; [done|]. eapply sound_bind; [by apply zdel1_sound|]. intros r Hr. by apply IH.
Qed.
Lemma zelems_delete_sound s ids : Forall (has s 0) ids → ∀ m, sound False (λ _, True) (zelems_delete m s ids).
Proof.
  induction 1 as [|x ids Hx Hids IH]; intros m; cbn [zelems_delete]; [done|]. eapply sound_bind; [by eapply node_sound|]. intros n _.
  eapply sound_bind; [apply IH|]. done.
Qed.
Lemma zremrange_sound del z : sound False (λ r, solid r.1 ∧ Forall (has r.1 0) r.2) (del z.2) → sound False (λ r, solid r.1.1.2) (zremrange del z).
Proof.
  intros Hd. unfold zremrange. eapply sound_bind; [exact Hd|]. intros r [H1 H2]. eapply sound_bind; [by apply zelems_delete_sound|]. done.
Qed.
(** the draws raise the level 127 times in a row *)
Definition overflow (rs : list Z) : Prop := ¬ level_ok rs.
Lemma randomLevel_sound rs : sound False (λ r, r.1 ≤ Z.of_nat maxLevel ∧ (level_ok rs → 1 ≤ r.1 ∧ level_ok r.2)) (randomLevel rs).
Proof.
  destruct (randomLevel rs) as [[l rs']| |] eqn:E; [|..|done].
  - split.
    + unfold randomLevel in E. destruct (randomLevel_loop 1 rs) as [[l0 rs0]| |]; try done. cbn [mbind res_bind fst snd] in E. injection E as <- <-. simpl.
      destruct (Z.ltb_spec l0 (Z.of_nat maxLevel)); lia.
    + intros H. destruct (level_ok_random rs H) as [?|(l1 & rs1 & E1 & ? & ?)]; [congruence|]. rewrite E in E1. injection E1 as <- <-. simpl. split; [lia|done].
  - assert (H : ∀ rs n, randomLevel_loop n rs ≠ Panic).
    { clear. induction rs as [|r rs IH]; intros n; [done|]. cbn [randomLevel_loop]. by destruct (_ <=? _). }
    unfold randomLevel in E. specialize (H rs 1). by destruct (randomLevel_loop 1 rs).
Qed.
Lemma sl_add_sound s sc x rs : solid s → sound (overflow rs) (λ r, solid r.1 ∧ (level_ok rs → level_ok r.2)) (sl_add s sc x rs).
Proof.
  intros Hs. unfold sl_add. eapply sound_bind; [eapply sound_mono; [apply randomLevel_sound|done|]|].
  { intros v Hv. exact Hv. }
  intros [lv rs'] [H1 H2]. cbn [fst snd] in *. eapply sound_bind; [apply Insert_sound; [done|done|]|].
  { intros Hlt Hok. destruct (H2 Hok). lia. }
  intros r Hr. split; [done|]. intros Hok. by apply H2.
Qed.
Lemma zadd1_sound z sc m rs : solid z.2 → sound (overflow rs) (λ r, solid r.1.1.2 ∧ (level_ok rs → level_ok r.2)) (zadd1 z sc m rs).
Proof.
  intros Hs. unfold zadd1. destruct (z.1 !! m).
  - destruct (negb _); [|done]. eapply sound_bind; [by apply SlDelete_sound|]. intros r Hr. eapply sound_bind; [by apply sl_add_sound|]. intros r2 Hr2. exact Hr2.
  - eapply sound_bind; [by apply sl_add_sound|]. intros r2 Hr2. exact Hr2.
Qed.
Lemma zadd_all_sound E l : ∀ z c n rs, solid z.2 → Nat.Even (length l) → sound (overflow rs) (λ r, solid r.1.1.2) (zadd_all E l z c n rs).
Proof.
  remember (length l) as k eqn:Hk. revert l Hk. induction (lt_wf k) as [k _ IH]. intros l -> z c n rs Hs Hev.
  destruct l as [|a [|m l]]; cbn [zadd_all]; [done| |]. { destruct Hev as [j Hj]. simpl in Hj. lia. }
  assert (Hev' : Nat.Even (length l)) by (destruct Hev as [[|j] Hj]; simpl in Hj; [lia|exists j; lia]).
  destruct (lib_parse_float _ a) as [sc|]; [|done]. eapply sound_bind; [by apply zadd1_sound|]. intros [[z1 b] rs1] [H1 H2]. cbn [fst snd] in *.
  eapply sound_mono; [eapply (IH (length l)); [simpl; lia|done|done|done]| |done]. unfold overflow. tauto.
Qed.
Lemma even_args {X} (a b : X) l : zlen (a :: b :: l) mod 2 = 0 → Nat.Even (length l).
Proof. unfold zlen. cbn [length]. intros H. apply Z.mod_divide in H as [z Hz]; [|done]. exists (Z.to_nat (z - 1)). lia. Qed.

(** * Databases *)
Definition solid_db (D : adb) : Prop := ∀ key m s, a_keys D !! key = Some (AZset m s) → solid s.
Lemma solid_zsub D D' : zsub D D' → solid_db D → solid_db D'.
Proof. intros H Hf key m s Hk. by eapply Hf, H. Qed.
Lemma put_solid key m s D : solid_db D → solid s → solid_db (put_val key (AZset m s) D).
Proof.
  intros HD Ht k m1 s1 Hk. simpl in Hk. destruct (decide (k = key)) as [->|Hne].
  - rewrite lookup_insert in Hk. by injection Hk as <- <-.
  - rewrite lookup_insert_ne in Hk by done. by eapply HD.
Qed.
Lemma sem_solid E name args D D' r n : sem E name args D (Ok (Out D' r n)) → solid_db D → solid_db D'.
Proof.
  intros Hs Hf. destruct (decide (name ∈ zwriters)) as [Hz|Hz]; [|by eapply solid_zsub; [eapply sem_zquiet|]].
  assert (Hp : ∀ key, solid_db (purge E key D)) by (intros key; eapply solid_zsub; [eapply purged_zsub, purge_purged|done]).
  assert (Hex : ∀ key none f, on_existing AKZset E key none f D = Ok (Out D' r n) →
    (∀ z, solid z.2 → sound False (λ r, solid r.1.1.2) (f z)) → solid_db D').
  { intros key none f Ho Hfin. apply existing_cases in Ho as [(-> & _)|([m s] & x' & H1 & H2 & ->)]; [done| |apply AKZset_law].
    apply put_solid; [done|]. apply (sound_ok _ _ _ _ (Hfin (m, s) (Hp key key m s H1)) H2). }
  unfold zwriters in Hz. rewrite !elem_of_cons, elem_of_nil in Hz. destruct Hz as [->|[->|[->|[->|[]]]]].
  - eapply (sem_inv _ _ (sem_zadd E)) in Hs; [|in_table]. destruct args as [|a [|key l]]; try done. unfold sem_zadd in Hs.
    destruct (Z.eqb_spec (zlen (a :: key :: l) mod 2) 0) as [Hm|]; cbn [negb] in Hs; [|by injection Hs as -> -> ->]. destruct Hs as (rs & _ & Hs). symmetry in Hs.
    apply even_args in Hm.
    apply new_cases in Hs as [(-> & _)|([m s] & x' & H1 & H2 & ->)]; [done| |apply AKZset_law]. apply put_solid; [done|].
    assert (Hs0 : solid s) by (destruct H1 as [H1|[_ [= _ ->]]]; [eapply Hf; exact H1|apply NewSkiplist_solid]).
    apply (sound_ok _ _ _ _ (zadd_all_sound E l (m, s) 0 0 rs Hs0 Hm) H2).
  - eapply (sem_inv _ _ (sem_zrem E)) in Hs; [|in_table]. unfold sem_zrem, fn in Hs. destruct args as [|a [|key l]]; try done. injection Hs as Hs.
    eapply Hex; [exact Hs|]. intros z Hz. cbn beta. eapply sound_bind; [by apply zrem_all_sound|]. done.
  - eapply (sem_inv _ _ (sem_zremrangebyrank E)) in Hs; [|in_table]. unfold sem_zremrangebyrank, fn in Hs.
    destruct args as [|? [|key [|b1 [|b2 l]]]]; try done. injection Hs as Hs. unfold ints in Hs.
    destruct (Atoi b1) as [i|] eqn:E1; [|by injection Hs as <- _ _]. destruct (Atoi b2) as [j|] eqn:E2; [|by injection Hs as <- _ _].
    eapply Hex; [exact Hs|]. intros z Hz. apply zremrange_sound. by apply DeleteRangeByRank_sound.
  - eapply (sem_inv _ _ (sem_zremrangebyscore E)) in Hs; [|in_table]. unfold sem_zremrangebyscore, fn in Hs.
    destruct args as [|? [|key [|b1 [|b2 l]]]]; try done. injection Hs as Hs. unfold floats in Hs.
    destruct (lib_parse_float _ b1) as [i|] eqn:E1; [|by injection Hs as <- _ _]. destruct (lib_parse_float _ b2) as [j|] eqn:E2; [|by injection Hs as <- _ _].
    eapply Hex; [exact Hs|]. intros z Hz. apply zremrange_sound. by apply DeleteRangeByScore_sound.
Qed.
Lemma reaches_solid cf evs y : reaches cf evs y → Forall solid_db (abs_dbs (y_srv y)).
Proof.
  intros Hr. pose proof Hr as [(Hev & Hpos & Htot) _].
  eapply (history_inv cf solid_db (λ _ e, event_ok cf e ∧ Z.of_nat (event_size e) < 2 ^ 42)); [..|exact Hr|].
  - by intros key m s.
  - intros E D D' Hp. apply solid_zsub. by eapply purged_zsub.
  - intros evs0 y0 i c a l now unix rs ar D D' r n E name _ _ _ _ _ _ HD Hs. by eapply sem_solid.
  - intros y0 file clock rs y' [[Hrec Hrs] Hsz] HS. cbn [step] in HS. cbn [event_size] in Hsz.
    destruct (cf_aof cf) eqn:Ea.
    + destruct (restart cf clock file rs) as [w' [[]| |]] eqn:ER; cbn in HS; try done. injection HS as <-. cbn [y_srv].
      eapply (restart_dbs solid_db); [|..|exact ER]; try done. intros E name args D D' r n. apply sem_solid.
    + injection HS as <-. cbn [y_srv]. unfold abs_dbs. simpl. apply Forall_fmap, Forall_replicate. simpl. unfold abs_db. simpl. by rewrite !NewDict_map, fmap_empty.
  - apply along_forall. clear -Hev Htot. rewrite Forall_forall in *. intros e He. split; [by apply Hev|].
    apply elem_of_list_split in He as (l1 & l2 & ->). rewrite total_app in Htot. unfold total in Htot. cbn [fmap list_fmap sum_list sum_list_with] in Htot. simpl in Htot. lia.
Qed.

(** * Panics *)
Section panics.
  Variable E : env.
  (** the commands that never panic on a solid database although their code follows pointers *)
  Lemma sem_zsafe name args D : solid_db D → sem E name args D Panic → name ∉ [B "zrem"; B "zremrangebyrank"; B "zremrangebyscore"; B "zcount"].
  Proof.
    intros HD H Hn. rewrite !elem_of_cons, elem_of_nil in Hn. destruct Hn as [->|[->|[->|[->|[]]]]].
    - apply (sem_inv _ _ (sem_zrem E)) in H; [|in_table]. unfold sem_zrem, fn in H. destruct args as [|? [|key l]]; try done. injection H as H.
      apply existing_panic in H as ([m s] & Hk & H); [|apply AKZset_law]. apply HD in Hk. cbn [fst snd] in Hk.
      revert H. apply (sound_panic False (λ r, solid r.1.1.2)). eapply sound_bind; [by apply zrem_all_sound|]. done.
    - apply (sem_inv _ _ (sem_zremrangebyrank E)) in H; [|in_table]. unfold sem_zremrangebyrank, fn in H. destruct args as [|? [|key [|a [|b l]]]]; try done. injection H as H.
      unfold ints in H. destruct (Atoi a) as [i|]; [|done]. destruct (Atoi b) as [j|]; [|done].
      apply existing_panic in H as ([m s] & Hk & H); [|apply AKZset_law]. apply HD in Hk. cbn [fst snd] in Hk.
      revert H. apply (sound_panic False (λ r, solid r.1.1.2)), zremrange_sound. by apply DeleteRangeByRank_sound.
    - apply (sem_inv _ _ (sem_zremrangebyscore E)) in H; [|in_table]. unfold sem_zremrangebyscore, fn in H. destruct args as [|? [|key [|a [|b l]]]]; try done. injection H as H.
      unfold floats in H. destruct (lib_parse_float _ a) as [i|]; [|done]. destruct (lib_parse_float _ b) as [j|]; [|done].
      apply existing_panic in H as ([m s] & Hk & H); [|apply AKZset_law]. apply HD in Hk. cbn [fst snd] in Hk.
      revert H. apply (sound_panic False (λ r, solid r.1.1.2)), zremrange_sound. by apply DeleteRangeByScore_sound.
    - apply (sem_inv _ _ (sem_zcount E)) in H; [|in_table]. unfold sem_zcount, fn in H. destruct args as [|? [|key [|a [|b l]]]]; try done. injection H as H.
      unfold floats in H. destruct (lib_parse_float _ a) as [i|]; [|done]. destruct (lib_parse_float _ b) as [j|]; [|done].
      apply existing_panic in H as ([m s] & Hk & H); [|apply AKZset_law]. apply HD in Hk. cbn [fst snd] in Hk. unfold reading in H.
      revert H. apply (sound_panic False (λ _, True)). apply (sound_bind _ (λ _, True)); [|done]. apply (sound_bind _ (λ _, True)); [by apply Count_sound|done].
  Qed.
  Lemma zadd_overflow args rs D : solid_db D → (2 ≤ length args)%nat → zadd_out E args rs D = Panic → overflow rs.
  Proof.
    intros HD Hlen. unfold zadd_out. destruct args as [|a [|key l]]; [simpl in Hlen; lia..|].
    destruct (Z.eqb_spec (zlen (a :: key :: l) mod 2) 0) as [Hm|]; cbn [negb]; [|done]. apply even_args in Hm.
    intros H. apply new_panic in H as ([m s] & Hk & H); [|apply AKZset_law].
    assert (Hs0 : solid s) by (destruct Hk as [Hk|[_ [= _ ->]]]; [eapply HD; exact Hk|apply NewSkiplist_solid]).
    exact (sound_panic _ _ _ (zadd_all_sound E l (m, s) 0 0 rs Hs0 Hm) H).
  Qed.
End panics.
