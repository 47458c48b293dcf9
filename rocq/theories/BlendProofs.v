(** A log rewrite whose containers are read while commands change them: the commands
    since the start of the rewrite, executed on hashes and sets that already have some
    of their effects. *)
From Verif Require Import Base Float DictModel DictProofs DictProofs2 DictProofs3 DictProofs4 DictRun DatabaseModel
  SetModel SetProofs QuicklistModel SkiplistModel ZsetModel
  Strconv RespSpec ServerModel CommandModel CommandSem CommandInv CommandInv2 CommandProofs1 CommandProofs2
  CommandTop CommandFrame SystemModel SystemProofs CommandFacts CommandExt PropsCommand ZcmdProofs SafeProofs PropsData AofModel AofProofs1 AofProofs2 RndFrame AofProofs3 AofProofs4.
From Coq Require Import ZifyBool ZifyNat.

(** ** Values *)
(** each field of [h'] is as in [h] or as in [hV] *)
Definition hblend (hV h h' : gmap bytes bytes) : Prop := ∀ f, h' !! f = h !! f ∨ h' !! f = hV !! f.
Definition sblend (sV s s' : gset bytes) : Prop := ∀ x, (x ∈ s' ↔ x ∈ s) ∨ (x ∈ s' ↔ x ∈ sV).
(** [V] is what was read, the first value that of the server, the second that of the
    replay *)
Inductive blend (V : aval) : option aval → option aval → Prop :=
| blend_same o : blend V o o
| blend_hash hV h h' : V = AHash hV → hblend hV h h' → blend V (Some (AHash h)) (Some (AHash h'))
| blend_set sV s s' : V = ASet sV → sblend sV s s' → blend V (Some (ASet s)) (Some (ASet s')).
Lemma blend_done V o o' : blend V o o' → o = Some V → o' = o.
Proof.
  intros Hb HV. destruct Hb as [|hV h h' -> Hh|sV s s' -> Hs]; [done| |].
  - injection HV as ->. f_equal. f_equal. apply map_eq. intros f. by destruct (Hh f).
  - injection HV as ->. f_equal. f_equal. apply set_eq. intros x. by destruct (Hs x).
Qed.
Lemma hset_all_ind (P : list bytes → Prop) : P [] → (∀ a, P [a]) → (∀ a b l, P l → P (a :: b :: l)) → ∀ l, P l.
Proof.
  intros H0 H1 H2 l. assert (H : P l ∧ ∀ a, P (a :: l)); [|apply H]. induction l as [|b l [IH1 IH2]]; [by split|]. split; [apply IH2|]. intros a. by apply H2.
Qed.
Lemma hset_blend l : ∀ hV h h', hblend hV h h' → hblend hV (hset_all l h) (hset_all l h').
Proof.
  induction l as [| |f v l IH] using hset_all_ind; intros hV h h' Hh; [done|done|]. cbn [hset_all]. apply IH. intros g.
  destruct (decide (g = f)) as [->|Hg]; [rewrite !lookup_insert; by left|]. rewrite !lookup_insert_ne by done. apply Hh.
Qed.
Lemma hdel_blend l : ∀ hV h h', hblend hV h h' → hblend hV (hdel_all l h) (hdel_all l h').
Proof.
  unfold hdel_all. induction l as [|f l IH]; intros hV h h' Hh; [done|]. cbn [foldl]. apply IH. intros g.
  destruct (decide (g = f)) as [->|Hg]; [rewrite !lookup_delete; by left|]. rewrite !lookup_delete_ne by done. apply Hh.
Qed.
Lemma sadd_blend l sV s s' : sblend sV s s' → sblend sV (sadd_all l s) (sadd_all l s').
Proof. intros Hs x. unfold sadd_all. rewrite !elem_of_union. destruct (decide (x ∈@{gset bytes} list_to_set l)); destruct (Hs x); tauto. Qed.
Lemma srem_blend l sV s s' : sblend sV s s' → sblend sV (srem_all l s) (srem_all l s').
Proof. intros Hs x. unfold srem_all. rewrite !elem_of_difference. destruct (decide (x ∈@{gset bytes} list_to_set l)); destruct (Hs x); tauto. Qed.

(** ** Databases *)
Definition blended (V : bytes → aval) (D D' : adb) : Prop := a_ttl D' = a_ttl D ∧ ∀ k, blend (V k) (a_keys D !! k) (a_keys D' !! k).
Lemma blended_refl V D : blended V D D.
Proof. split; [done|]. intros k. constructor. Qed.
Lemma blended_put V D D' key v v' : blended V D D' → blend (V key) (Some v) (Some v') → blended V (put_val key v D) (put_val key v' D').
Proof.
  intros [H1 H2] Hv. split; [done|]. intros k. simpl. destruct (decide (k = key)) as [->|Hk]; [by rewrite !lookup_insert|]. by rewrite !lookup_insert_ne by done.
Qed.
Lemma blended_fresh V H D D' : blended V D D' → fresh H D ↔ fresh H D'.
Proof. intros [Ht _]. unfold fresh. by rewrite Ht. Qed.
Lemma blended_zset V D D' k m s : blended V D D' → a_keys D' !! k = Some (AZset m s) → a_keys D !! k = Some (AZset m s).
Proof. intros [_ Hb] Hk. specialize (Hb k). rewrite Hk in Hb. inversion Hb; subst; congruence. Qed.
Lemma blended_tame V D D' : blended V D D' → tame_db D → tame_db D'.
Proof. intros Hb Ht k m s Hk. eapply Ht. by eapply blended_zset. Qed.
Lemma blended_zknown V D D' : blended V D D' → zknown D → zknown D'.
Proof. intros Hb Ht k m s Hk. eapply Ht. by eapply blended_zset. Qed.
Lemma blended_zcare V lib name args D D' : blended V D D' → zcare lib name args D → zcare lib name args D'.
Proof.
  intros [_ Hb] Hc. unfold zcare in *. destruct args as [|a [|key l]]; try done. intros m Hm.
  specialize (Hb key). unfold zset_at in *. destruct Hb; [by apply Hc|done|done].
Qed.

(** ** Commands *)
Section step.
  Variables (H : Z) (E : env) (V : bytes → aval).
  Hypothesis (HE : e_now E ≤ H).
  Lemma new_local {X} (k : akind X) wrong key f D D' D1 r n : blended V D D' → a_keys D' !! key = a_keys D !! key →
    on_new k wrong key f D = Ok (Out D1 r n) → ∃ D1', on_new k wrong key f D' = Ok (Out D1' r n) ∧ blended V D1 D1'.
  Proof.
    intros Hb Hk. unfold on_new. rewrite Hk. destruct (a_keys D !! key) as [v|].
    - destruct (ak_out k v) as [x|]; [|intros [= <- <- <-]; by eexists]. destruct (f x) as [[[x' r'] n']| |]; [|done..].
      cbn [mbind res_bind]. intros [= <- <- <-]. eexists. split; [done|]. apply blended_put; [done|constructor].
    - destruct (f (ak_new k)) as [[[x' r'] n']| |]; [|done..].
      cbn [mbind res_bind]. intros [= <- <- <-]. eexists. split; [done|]. apply blended_put; [done|constructor].
  Qed.
  Lemma existing_local {X} (k : akind X) none key f D D' D1 r n : fresh H D → blended V D D' → a_keys D' !! key = a_keys D !! key →
    on_existing k E key none f D = Ok (Out D1 r n) → ∃ D1', on_existing k E key none f D' = Ok (Out D1' r n) ∧ blended V D1 D1'.
  Proof.
    intros HF Hb Hk. assert (HF' : fresh H D') by (by apply (blended_fresh V H D D' Hb)). unfold on_existing. rewrite !(fresh_purge H) by done. rewrite Hk. destruct (a_keys D !! key) as [v|].
    - destruct (ak_out k v) as [x|]; [|intros [= <- <- <-]; by eexists]. destruct (f x) as [[[x' r'] n']| |]; [|done..].
      cbn [mbind res_bind]. intros [= <- <- <-]. eexists. split; [done|]. apply blended_put; [done|constructor].
    - intros [= <- <- <-]; by eexists.
  Qed.
  (** a container of a kind that is neither [h] nor [s] *)
  Definition other_kind {X} (k : akind X) : Prop := (∀ h, ak_out k (AHash h) = None) ∧ ∀ s, ak_out k (ASet s) = None.
  Lemma new_other {X} (k : akind X) wrong key f D D' D1 r n : other_kind k → blended V D D' →
    on_new k wrong key f D = Ok (Out D1 r n) → n ≠ 0 → ∃ D1', on_new k wrong key f D' = Ok (Out D1' r n) ∧ blended V D1 D1'.
  Proof.
    intros [K1 K2] Hb Hs Hn. destruct (a_keys D !! key) as [v|] eqn:Hv.
    - pose proof Hb as [_ Hk]. specialize (Hk key). rewrite Hv in Hk. unfold on_new in Hs. rewrite Hv in Hs.
      inversion Hk as [o|hV h h' HV Hh|sV s s' HV Hh]; subst; [|rewrite K1 in Hs; by injection Hs as <- <- <-|rewrite K2 in Hs; by injection Hs as <- <- <-].
      eapply new_local; [done|congruence|]. unfold on_new. by rewrite Hv.
    - eapply new_local; [done| |exact Hs]. pose proof Hb as [_ Hk]. specialize (Hk key). rewrite Hv in Hk. inversion Hk; congruence.
  Qed.
  Lemma existing_other {X} (k : akind X) none key f D D' D1 r n : other_kind k → fresh H D → blended V D D' →
    on_existing k E key none f D = Ok (Out D1 r n) → n ≠ 0 → ∃ D1', on_existing k E key none f D' = Ok (Out D1' r n) ∧ blended V D1 D1'.
  Proof.
    intros [K1 K2] HF Hb Hs Hn. destruct (a_keys D !! key) as [v|] eqn:Hv.
    - pose proof Hb as [_ Hk]. specialize (Hk key). rewrite Hv in Hk. pose proof Hs as Hs'. unfold on_existing in Hs. rewrite (fresh_purge H) in Hs by done. rewrite Hv in Hs.
      inversion Hk as [o|hV h h' HV Hh|sV s s' HV Hh]; subst; [|rewrite K1 in Hs; by injection Hs as <- <- <-|rewrite K2 in Hs; by injection Hs as <- <- <-].
      eapply existing_local; [done|done|congruence|done].
    - eapply existing_local; [done|done| |exact Hs]. pose proof Hb as [_ Hk]. specialize (Hk key). rewrite Hv in Hk. inversion Hk; congruence.
  Qed.
  Definition total_op {X} (F : X → X) (f : X → res (X * reply * Z)) : Prop := ∀ x, ∃ r n, f x = Ok (F x, r, n).
  Lemma hash_new wrong key F f D D' D1 r n : total_op F f → (∀ hV h h', hblend hV h h' → hblend hV (F h) (F h')) → blended V D D' →
    on_new AKHash wrong key f D = Ok (Out D1 r n) → n ≠ 0 → ∃ D1' r' n', on_new AKHash wrong key f D' = Ok (Out D1' r' n') ∧ blended V D1 D1'.
  Proof.
    intros Hf HF Hb Hs Hn. destruct (a_keys D !! key) as [v|] eqn:Hv.
    - pose proof Hb as [_ Hk]. specialize (Hk key). rewrite Hv in Hk. pose proof Hs as Hs'. unfold on_new in Hs. rewrite Hv in Hs.
      inversion Hk as [o Eo Eo'|hV h h' HV Hh Eo Eo'|sV s s' HV Hh Eo Eo']; subst.
      + destruct (new_local AKHash wrong key f D D' D1 r n Hb) as (D1' & ? & ?); [congruence|done|]. by eauto.
      + cbn [ak_out AKHash] in Hs. destruct (Hf h) as (r1 & n1 & E1). rewrite E1 in Hs. injection Hs as <- <- <-.
        destruct (Hf h') as (r2 & n2 & E2). unfold on_new. rewrite <-Eo'. cbn [ak_out AKHash]. rewrite E2. cbn [mbind res_bind]. eexists _, _, _. split; [done|].
        apply blended_put; [done|]. by eapply blend_hash; [|apply HF].
      + by injection Hs as <- <- <-.
    - destruct (new_local AKHash wrong key f D D' D1 r n Hb) as (D1' & ? & ?); [|done|by eauto].
      pose proof Hb as [_ Hk]. specialize (Hk key). rewrite Hv in Hk. inversion Hk; congruence.
  Qed.
  Lemma set_new wrong key F f D D' D1 r n : total_op F f → (∀ hV h h', sblend hV h h' → sblend hV (F h) (F h')) → blended V D D' →
    on_new AKSet wrong key f D = Ok (Out D1 r n) → n ≠ 0 → ∃ D1' r' n', on_new AKSet wrong key f D' = Ok (Out D1' r' n') ∧ blended V D1 D1'.
  Proof.
    intros Hf HF Hb Hs Hn. destruct (a_keys D !! key) as [v|] eqn:Hv.
    - pose proof Hb as [_ Hk]. specialize (Hk key). rewrite Hv in Hk. pose proof Hs as Hs'. unfold on_new in Hs. rewrite Hv in Hs.
      inversion Hk as [o Eo Eo'|hV h h' HV Hh Eo Eo'|sV h h' HV Hh Eo Eo']; subst.
      + destruct (new_local AKSet wrong key f D D' D1 r n Hb) as (D1' & ? & ?); [congruence|done|]. by eauto.
      + by injection Hs as <- <- <-.
      + cbn [ak_out AKSet] in Hs. destruct (Hf h) as (r1 & n1 & E1). rewrite E1 in Hs. injection Hs as <- <- <-.
        destruct (Hf h') as (r2 & n2 & E2). unfold on_new. rewrite <-Eo'. cbn [ak_out AKSet]. rewrite E2. cbn [mbind res_bind]. eexists _, _, _. split; [done|].
        apply blended_put; [done|]. by eapply blend_set; [|apply HF].
    - destruct (new_local AKSet wrong key f D D' D1 r n Hb) as (D1' & ? & ?); [|done|by eauto].
      pose proof Hb as [_ Hk]. specialize (Hk key). rewrite Hv in Hk. inversion Hk; congruence.
  Qed.
  Lemma hash_existing none key F f D D' D1 r n : total_op F f → (∀ hV h h', hblend hV h h' → hblend hV (F h) (F h')) → fresh H D → blended V D D' →
    on_existing AKHash E key none f D = Ok (Out D1 r n) → n ≠ 0 → ∃ D1' r' n', on_existing AKHash E key none f D' = Ok (Out D1' r' n') ∧ blended V D1 D1'.
  Proof.
    intros Hf HF Hfr Hb Hs Hn. assert (Hfr' : fresh H D') by (by apply (blended_fresh V H D D' Hb)). destruct (a_keys D !! key) as [v|] eqn:Hv.
    - pose proof Hb as [_ Hk]. specialize (Hk key). rewrite Hv in Hk. pose proof Hs as Hs'. unfold on_existing in Hs. rewrite (fresh_purge H) in Hs by done. rewrite Hv in Hs.
      inversion Hk as [o Eo Eo'|hV h h' HV Hh Eo Eo'|sV s s' HV Hh Eo Eo']; subst.
      + destruct (existing_local AKHash none key f D D' D1 r n Hfr Hb) as (D1' & ? & ?); [congruence|done|]. by eauto.
      + cbn [ak_out AKHash] in Hs. destruct (Hf h) as (r1 & n1 & E1). rewrite E1 in Hs. injection Hs as <- <- <-.
        destruct (Hf h') as (r2 & n2 & E2). unfold on_existing. rewrite (fresh_purge H) by done. rewrite <-Eo'. cbn [ak_out AKHash]. rewrite E2. cbn [mbind res_bind]. eexists _, _, _. split; [done|].
        apply blended_put; [done|]. by eapply blend_hash; [|apply HF].
      + by injection Hs as <- <- <-.
    - destruct (existing_local AKHash none key f D D' D1 r n Hfr Hb) as (D1' & ? & ?); [|done|by eauto].
      pose proof Hb as [_ Hk]. specialize (Hk key). rewrite Hv in Hk. inversion Hk; congruence.
  Qed.
  Lemma set_existing none key F f D D' D1 r n : total_op F f → (∀ hV h h', sblend hV h h' → sblend hV (F h) (F h')) → fresh H D → blended V D D' →
    on_existing AKSet E key none f D = Ok (Out D1 r n) → n ≠ 0 → ∃ D1' r' n', on_existing AKSet E key none f D' = Ok (Out D1' r' n') ∧ blended V D1 D1'.
  Proof.
    intros Hf HF Hfr Hb Hs Hn. assert (Hfr' : fresh H D') by (by apply (blended_fresh V H D D' Hb)). destruct (a_keys D !! key) as [v|] eqn:Hv.
    - pose proof Hb as [_ Hk]. specialize (Hk key). rewrite Hv in Hk. pose proof Hs as Hs'. unfold on_existing in Hs. rewrite (fresh_purge H) in Hs by done. rewrite Hv in Hs.
      inversion Hk as [o Eo Eo'|hV h h' HV Hh Eo Eo'|sV h h' HV Hh Eo Eo']; subst.
      + destruct (existing_local AKSet none key f D D' D1 r n Hfr Hb) as (D1' & ? & ?); [congruence|done|]. by eauto.
      + by injection Hs as <- <- <-.
      + cbn [ak_out AKSet] in Hs. destruct (Hf h) as (r1 & n1 & E1). rewrite E1 in Hs. injection Hs as <- <- <-.
        destruct (Hf h') as (r2 & n2 & E2). unfold on_existing. rewrite (fresh_purge H) by done. rewrite <-Eo'. cbn [ak_out AKSet]. rewrite E2. cbn [mbind res_bind]. eexists _, _, _. split; [done|].
        apply blended_put; [done|]. by eapply blend_set; [|apply HF].
    - destruct (existing_local AKSet none key f D D' D1 r n Hfr Hb) as (D1' & ? & ?); [|done|by eauto].
      pose proof Hb as [_ Hk]. specialize (Hk key). rewrite Hv in Hk. inversion Hk; congruence.
  Qed.
  Lemma blended_expire D D' key T : blended V D D' → blended V (ADB (a_keys D) (<[key := T]> (a_ttl D))) (ADB (a_keys D') (<[key := T]> (a_ttl D'))).
  Proof. intros [Ht Hk]. split; [simpl; by rewrite Ht|done]. Qed.
  Lemma blended_string D D' key v (g : gmap bytes Z → gmap bytes Z) : blended V D D' →
    blended V (ADB (<[key := AStr v]> (a_keys D)) (g (a_ttl D))) (ADB (<[key := AStr v]> (a_keys D')) (g (a_ttl D'))).
  Proof.
    intros [Ht Hk]. split; [simpl; by rewrite Ht|]. intros k. simpl. destruct (decide (k = key)) as [->|Hn]; [rewrite !lookup_insert; constructor|]. by rewrite !lookup_insert_ne by done.
  Qed.
  Ltac inv0 H1 := unfold fn in H1; repeat match type of H1 with match ?args with [] => _ | _ :: _ => _ end = Some _ => destruct args; try done end.
  (** a command that changes the data of the server can be executed in the replay, and
      the databases stay related; it counts changes, or is one of the commands for which
      this does not matter *)
  Lemma blend_step name args D D' D1 r n : name ∈ writers ∨ name = B "zadd" → name ≠ B "spop" → fresh H D → blended V D D' →
    sem E name args D (Ok (Out D1 r n)) → n ≠ 0 →
    ∃ D1' r' n', sem E name args D' (Ok (Out D1' r' n')) ∧ blended V D1 D1' ∧ (n' ≠ 0 ∨ plain name).
  Proof.
    intros Hw Hsp HF Hb Hs Hn.
    assert (Hgo : ∀ R : list bytes → adb → res outcome → Prop, (name, R) ∈ semTable E →
      (R args D (Ok (Out D1 r n)) → ∃ D1' r' n', R args D' (Ok (Out D1' r' n')) ∧ blended V D1 D1' ∧ (n' ≠ 0 ∨ plain name)) →
      ∃ D1' r' n', sem E name args D' (Ok (Out D1' r' n')) ∧ blended V D1 D1' ∧ (n' ≠ 0 ∨ plain name)).
    { intros R HR Hf. destruct Hf as (D1' & r' & n' & HR' & ?); [by eapply sem_inv|]. exists D1', r', n'. split; [by exists R|done]. }
    assert (Oz : other_kind AKZset) by (by split). assert (Ol : other_kind AKList) by (by split).
    assert (Hpl : plain name → ∀ (R : list bytes → adb → res outcome → Prop), (name, R) ∈ semTable E →
      (R args D (Ok (Out D1 r n)) → ∃ D1' r' n', R args D' (Ok (Out D1' r' n')) ∧ blended V D1 D1') →
      ∃ D1' r' n', sem E name args D' (Ok (Out D1' r' n')) ∧ blended V D1 D1' ∧ (n' ≠ 0 ∨ plain name)).
    { intros Hp R HR Hf. apply (Hgo R HR). intros HR'. destruct (Hf HR') as (D1' & r' & n' & ? & ?). exists D1', r', n'. by auto. }
    destruct Hw as [Hw|Hz].
    2:{ subst name. apply (Hgo (sem_zadd E)); [by repeat constructor|]. intros H1. unfold sem_zadd in *. destruct args as [|a [|key l]]; try done.
        destruct (negb _); [by injection H1 as _ _ ->|]. destruct H1 as (rs & Hrs & H1). symmetry in H1.
        destruct (new_other AKZset _ _ _ D D' D1 r n Oz Hb H1 Hn) as (D1' & E1 & Hb'). eexists D1', r, n. split; [|by auto]. by exists rs. }
    destruct (writers_cases name Hw Hsp) as [Hp|[Hq|[Hq|Hq]]]; [|subst name..].
    - specialize (Hpl Hp). pose proof Hp as Hp'. unfold plain in Hp'. repeat apply elem_of_cons in Hp' as [->|Hp']; [..|by apply elem_of_nil in Hp'].
      + apply (Hpl sem_set); [by repeat constructor|]. intros H1. unfold sem_set in *. inv0 H1. injection H1 as <- <- <-.
        eexists _, _, _. split; [unfold fn; done|]. by apply (blended_string D D' _ _ (delete _)).
      + apply (Hpl sem_hset); [by repeat constructor|]. intros H1. unfold sem_hset in *. inv0 H1. injection H1 as H1. unfold fn.
        destruct (negb _); [by injection H1 as _ _ <-|].
        edestruct (hash_new RWrong) as (D1' & r' & n' & E1 & Hb'); [..|exact H1|exact Hn|]; [|apply hset_blend|exact Hb|].
        { intros x. eexists _, _. done. }
        exists D1', r', n'. split; [by f_equal|done].
      + apply (Hpl (sem_hdel E)); [by repeat constructor|]. intros H1. unfold sem_hdel in *. inv0 H1. injection H1 as H1. unfold fn.
        edestruct (hash_existing (RInt 0)) as (D1' & r' & n' & E1 & Hb'); [..|exact H1|exact Hn|]; [|apply hdel_blend|exact HF|exact Hb|].
        { intros x. eexists _, _. done. }
        exists D1', r', n'. split; [by f_equal|done].
      + apply (Hpl (sem_push lpush_all)); [by repeat constructor|]. intros H1. unfold sem_push in *. inv0 H1. injection H1 as H1. unfold fn.
        edestruct (new_other AKList) as (D1' & E1 & Hb'); [exact Ol|exact Hb|exact H1|exact Hn|]. eexists D1', _, _. split; [by f_equal|done].
      + apply (Hpl (sem_push (λ l q, Ok (rpush_all l q)))); [by repeat constructor|]. intros H1. unfold sem_push in *. inv0 H1. injection H1 as H1. unfold fn.
        edestruct (new_other AKList) as (D1' & E1 & Hb'); [exact Ol|exact Hb|exact H1|exact Hn|]. eexists D1', _, _. split; [by f_equal|done].
      + apply (Hpl (sem_pop E PopFront)); [by repeat constructor|]. intros H1. unfold sem_pop in *. inv0 H1. injection H1 as H1. unfold fn.
        edestruct (existing_other AKList) as (D1' & E1 & Hb'); [exact Ol|exact HF|exact Hb|exact H1|exact Hn|]. eexists D1', _, _. split; [by f_equal|done].
      + apply (Hpl (sem_pop E PopBack)); [by repeat constructor|]. intros H1. unfold sem_pop in *. inv0 H1. injection H1 as H1. unfold fn.
        edestruct (existing_other AKList) as (D1' & E1 & Hb'); [exact Ol|exact HF|exact Hb|exact H1|exact Hn|]. eexists D1', _, _. split; [by f_equal|done].
      + apply (Hpl sem_sadd); [by repeat constructor|]. intros H1. unfold sem_sadd in *. inv0 H1. injection H1 as H1. unfold fn.
        edestruct (set_new RWrong) as (D1' & r' & n' & E1 & Hb'); [..|exact H1|exact Hn|]; [|apply sadd_blend|exact Hb|].
        { intros x. eexists _, _. done. }
        exists D1', r', n'. split; [by f_equal|done].
      + apply (Hpl (sem_srem E)); [by repeat constructor|]. intros H1. unfold sem_srem in *. inv0 H1. injection H1 as H1. unfold fn.
        edestruct (set_existing (RInt 0)) as (D1' & r' & n' & E1 & Hb'); [..|exact H1|exact Hn|]; [|apply srem_blend|exact HF|exact Hb|].
        { intros x. eexists _, _. done. }
        exists D1', r', n'. split; [by f_equal|done].
      + apply (Hpl (sem_zrem E)); [by repeat constructor|]. intros H1. unfold sem_zrem in *. inv0 H1. injection H1 as H1. unfold fn.
        edestruct (existing_other AKZset) as (D1' & E1 & Hb'); [exact Oz|exact HF|exact Hb|exact H1|exact Hn|]. eexists D1', _, _. split; [by f_equal|done].
      + apply (Hpl (sem_zremrangebyrank E)); [by repeat constructor|]. intros H1. unfold sem_zremrangebyrank in *. inv0 H1. injection H1 as H1. unfold fn, ints in *.
        destruct (Atoi _); [|by injection H1 as _ _ <-]. destruct (Atoi _); [|by injection H1 as _ _ <-].
        edestruct (existing_other AKZset) as (D1' & E1 & Hb'); [exact Oz|exact HF|exact Hb|exact H1|exact Hn|]. eexists D1', _, _. split; [by f_equal|done].
      + apply (Hpl (sem_zremrangebyscore E)); [by repeat constructor|]. intros H1. unfold sem_zremrangebyscore in *. inv0 H1. injection H1 as H1. unfold fn, floats in *.
        destruct (lib_parse_float _ _); [|by injection H1 as _ _ <-]. destruct (lib_parse_float _ _); [|by injection H1 as _ _ <-].
        edestruct (existing_other AKZset) as (D1' & E1 & Hb'); [exact Oz|exact HF|exact Hb|exact H1|exact Hn|]. eexists D1', _, _. split; [by f_equal|done].
    - apply (Hgo (sem_expire E (λ n, wrap64 (e_now E + ms n)))); [by repeat constructor|]. intros H1. unfold sem_expire in *. inv0 H1. unfold fn.
      destruct (Atoi _); [|by injection H1 as _ _ <-]. injection H1 as <- <- <-. eexists _, _, _. split; [done|]. split; [by apply blended_expire|by left].
    - apply (Hgo (sem_expire E ms)); [by repeat constructor|]. intros H1. unfold sem_expire in *. inv0 H1. unfold fn.
      destruct (Atoi _); [|by injection H1 as _ _ <-]. injection H1 as <- <- <-. eexists _, _, _. split; [done|]. split; [by apply blended_expire|by left].
    - apply (Hgo (sem_setex E)); [by repeat constructor|]. intros H1. unfold sem_setex in *. inv0 H1. unfold fn.
      destruct (Atoi _); [|by injection H1 as _ _ <-]. injection H1 as <- <- <-. eexists _, _, _. split; [done|]. split; [by apply (blended_string D D' _ _ (<[_ := _]>))|by left].
  Qed.
End step.

(** ** Kinds of values *)
Definition tag (v : aval) : nat := match v with AStr _ => 0 | AHash _ => 1 | AList _ => 2 | ASet _ => 3 | AZset _ _ => 4 end.
(** a value keeps its kind or becomes a string *)
Definition turns (v v1 : aval) : Prop := tag v1 = tag v ∨ tag v1 = 0%nat.
Definition turned (D D1 : adb) : Prop := ∀ k v, a_keys D !! k = Some v → ∃ v1, a_keys D1 !! k = Some v1 ∧ turns v v1.
Lemma turned_refl D : turned D D.
Proof. intros k v Hv. exists v. split; [done|by left]. Qed.
Lemma turned_put D key v1 : (∀ v, a_keys D !! key = Some v → turns v v1) → turned D (put_val key v1 D).
Proof.
  intros Hk k v Hv. simpl. destruct (decide (k = key)) as [->|Hn]; [rewrite lookup_insert; eexists; split; [done|by apply Hk]|].
  rewrite lookup_insert_ne by done. exists v. split; [done|by left].
Qed.
Section turn.
  Variables (H : Z) (E : env).
  Hypothesis (HE : e_now E ≤ H).
  Lemma turn_new {X} (k : akind X) t wrong key f D D1 r n : ak_law k → (∀ x, tag (ak_in k x) = t) → on_new k wrong key f D = Ok (Out D1 r n) → turned D D1.
  Proof.
    intros Hl Ht Hs. destruct (new_cases k wrong key f D D1 r n Hl Hs) as [(-> & _)|(x & x' & Hx & _ & ->)]; [apply turned_refl|].
    apply turned_put. intros v Hv. left. destruct Hx as [Hx|[Hx _]]; [|congruence]. rewrite Hx in Hv. injection Hv as <-. by rewrite !Ht.
  Qed.
  Lemma turn_existing {X} (k : akind X) t none key f D D1 r n : fresh H D → ak_law k → (∀ x, tag (ak_in k x) = t) → on_existing k E key none f D = Ok (Out D1 r n) → turned D D1.
  Proof.
    intros HF Hl Ht Hs. apply (existing_cases E k key none f D D1 r n Hl) in Hs. rewrite (fresh_purge H) in Hs by done.
    destruct Hs as [(-> & _)|(x & x' & Hx & _ & ->)]; [apply turned_refl|].
    apply turned_put. intros v Hv. left. rewrite Hx in Hv. injection Hv as <-. by rewrite !Ht.
  Qed.
  Lemma turn_string D key v g : turned D (ADB (<[key := AStr v]> (a_keys D)) g).
  Proof.
    intros k w Hw. simpl. destruct (decide (k = key)) as [->|Hn]; [rewrite lookup_insert; eexists; split; [done|by right]|].
    rewrite lookup_insert_ne by done. exists w. split; [done|by left].
  Qed.
  Lemma turn_step name args D D1 r n : name ∈ writers ∨ name = B "zadd" → name ≠ B "spop" → fresh H D →
    sem E name args D (Ok (Out D1 r n)) → turned D D1.
  Proof.
    intros Hw Hsp HF Hs.
    assert (Hgo : ∀ R : list bytes → adb → res outcome → Prop, (name, R) ∈ semTable E → (R args D (Ok (Out D1 r n)) → turned D D1) → turned D D1).
    { intros R HR Hf. apply Hf. by eapply sem_inv. }
    Ltac inv1 H1 := unfold fn in H1; repeat match type of H1 with match ?args with [] => _ | _ :: _ => _ end = Some _ => destruct args; try done end.
    destruct Hw as [Hw|Hz].
    2:{ subst name. apply (Hgo (sem_zadd E)); [by repeat constructor|]. intros H1. unfold sem_zadd in *. destruct args as [|a [|key l]]; try done.
        destruct (negb _); [injection H1 as -> _ _; apply turned_refl|]. destruct H1 as (rs & Hrs & H1). symmetry in H1.
        by eapply (turn_new AKZset 4); [apply AKZset_law| |exact H1]. }
    destruct (writers_cases name Hw Hsp) as [Hp|[Hq|[Hq|Hq]]]; [|subst name..].
    - unfold plain in Hp. repeat apply elem_of_cons in Hp as [->|Hp]; [..|by apply elem_of_nil in Hp].
      + apply (Hgo sem_set); [by repeat constructor|]. intros H1. unfold sem_set in *. inv1 H1. injection H1 as <- _ _. apply turn_string.
      + apply (Hgo sem_hset); [by repeat constructor|]. intros H1. unfold sem_hset in *. inv1 H1. injection H1 as H1.
        destruct (negb _); [injection H1 as <- _ _; apply turned_refl|]. by eapply (turn_new AKHash 1); [apply AKHash_law| |exact H1].
      + apply (Hgo (sem_hdel E)); [by repeat constructor|]. intros H1. unfold sem_hdel in *. inv1 H1. injection H1 as H1. by eapply (turn_existing AKHash 1); [exact HF|apply AKHash_law| |exact H1].
      + apply (Hgo (sem_push lpush_all)); [by repeat constructor|]. intros H1. unfold sem_push in *. inv1 H1. injection H1 as H1. by eapply (turn_new AKList 2); [apply AKList_law| |exact H1].
      + apply (Hgo (sem_push (λ l q, Ok (rpush_all l q)))); [by repeat constructor|]. intros H1. unfold sem_push in *. inv1 H1. injection H1 as H1. by eapply (turn_new AKList 2); [apply AKList_law| |exact H1].
      + apply (Hgo (sem_pop E PopFront)); [by repeat constructor|]. intros H1. unfold sem_pop in *. inv1 H1. injection H1 as H1. by eapply (turn_existing AKList 2); [exact HF|apply AKList_law| |exact H1].
      + apply (Hgo (sem_pop E PopBack)); [by repeat constructor|]. intros H1. unfold sem_pop in *. inv1 H1. injection H1 as H1. by eapply (turn_existing AKList 2); [exact HF|apply AKList_law| |exact H1].
      + apply (Hgo sem_sadd); [by repeat constructor|]. intros H1. unfold sem_sadd in *. inv1 H1. injection H1 as H1. by eapply (turn_new AKSet 3); [apply AKSet_law| |exact H1].
      + apply (Hgo (sem_srem E)); [by repeat constructor|]. intros H1. unfold sem_srem in *. inv1 H1. injection H1 as H1. by eapply (turn_existing AKSet 3); [exact HF|apply AKSet_law| |exact H1].
      + apply (Hgo (sem_zrem E)); [by repeat constructor|]. intros H1. unfold sem_zrem in *. inv1 H1. injection H1 as H1. by eapply (turn_existing AKZset 4); [exact HF|apply AKZset_law| |exact H1].
      + apply (Hgo (sem_zremrangebyrank E)); [by repeat constructor|]. intros H1. unfold sem_zremrangebyrank in *. inv1 H1. injection H1 as H1. unfold ints in *.
        destruct (Atoi _); [|injection H1 as <- _ _; apply turned_refl]. destruct (Atoi _); [|injection H1 as <- _ _; apply turned_refl].
        by eapply (turn_existing AKZset 4); [exact HF|apply AKZset_law| |exact H1].
      + apply (Hgo (sem_zremrangebyscore E)); [by repeat constructor|]. intros H1. unfold sem_zremrangebyscore in *. inv1 H1. injection H1 as H1. unfold floats in *.
        destruct (lib_parse_float _ _); [|injection H1 as <- _ _; apply turned_refl]. destruct (lib_parse_float _ _); [|injection H1 as <- _ _; apply turned_refl].
        by eapply (turn_existing AKZset 4); [exact HF|apply AKZset_law| |exact H1].
    - apply (Hgo (sem_expire E (λ n, wrap64 (e_now E + ms n)))); [by repeat constructor|]. intros H1. unfold sem_expire in *. inv1 H1.
      destruct (Atoi _); injection H1 as <- _ _; [|apply turned_refl]. intros k v Hv. exists v. split; [done|by left].
    - apply (Hgo (sem_expire E ms)); [by repeat constructor|]. intros H1. unfold sem_expire in *. inv1 H1.
      destruct (Atoi _); injection H1 as <- _ _; [|apply turned_refl]. intros k v Hv. exists v. split; [done|by left].
    - apply (Hgo (sem_setex E)); [by repeat constructor|]. intros H1. unfold sem_setex in *. inv1 H1.
      destruct (Atoi _); injection H1 as <- _ _; [apply turn_string|apply turned_refl].
  Qed.
End turn.

(** ** Events *)
Definition mixed (V : nat → bytes → aval) (dbs dbs' : list adb) : Prop := ∀ i, option_Forall2 (blended (V i)) (dbs !! i) (dbs' !! i).
Lemma mixed_length V dbs dbs' : mixed V dbs dbs' → length dbs' = length dbs.
Proof.
  intros Hm. apply Nat.le_antisymm; apply Nat.nlt_ge; intros Hlt.
  - apply lookup_lt_is_Some in Hlt as [x Hx]. specialize (Hm (length dbs)). rewrite Hx, lookup_ge_None_2 in Hm by done. inversion Hm.
  - apply lookup_lt_is_Some in Hlt as [x Hx]. specialize (Hm (length dbs')). rewrite Hx in Hm. rewrite (lookup_ge_None_2 dbs') in Hm by done. inversion Hm.
Qed.
Lemma mixed_insert V dbs dbs' i D D' : mixed V dbs dbs' → blended (V i) D D' → mixed V (<[i := D]> dbs) (<[i := D']> dbs').
Proof.
  intros Hm Hb j. pose proof (mixed_length _ _ _ Hm) as Hl. destruct (decide (j = i)) as [->|Hj].
  - destruct (decide (i < length dbs)%nat); [rewrite !list_lookup_insert by lia; by constructor|].
    rewrite !lookup_ge_None_2 by (rewrite insert_length; lia). constructor.
  - rewrite !list_lookup_insert_ne by done. apply Hm.
Qed.
Lemma plain_leads cf H (Hlow : lower_ok (cf_lib cf)) (HH : 0 ≤ H) dbs db D D' a l ar r n E : dbs !! db = Some D → fresh H D → tame_db D → zknown D → let name := lib_lower (cf_lib cf) a in
  plain name → (name, ar) ∈ arities → accepts ar (zlen (a :: l)) → zcare (cf_lib cf) name (a :: l) D →
  e_lib E = cf_lib cf → e_now E ≤ H → sem E name (a :: l) D (Ok (Out D' r n)) →
  fresh H D' ∧ Forall (good_record cf) [a :: l] ∧ leads cf H dbs (<[db := D']> dbs) db db [a :: l].
Proof.
  intros HD HF Htm HZ name Hp Har Hacc Hcare Hlib Hnow Hs. assert (Hsp : ¬ special name) by (by eapply sem_not_special). split; [|split].
  - destruct Hs as (R & HR & Hs).
    destruct (plain_same eq H E E eq_refl ltac:(lia) ltac:(lia) name (a :: l) R R D D D' r n _ Hp HR HR (sim_refl D Htm) HF HF HZ HZ ltac:(by rewrite Hlib) Hs Hs) as (D2' & [= ->] & _ & HF'). done.
  - apply Forall_singleton. by eapply record_good.
  - eapply leads_data; try done.
    { fold name. intros Hin. rewrite !elem_of_cons, elem_of_nil in Hin. destruct Hin as [Hin|[Hin|[]]]; rewrite Hin in Hp; revert Hp; unfold plain; apply (bool_decide_unpack _); by vm_compute. }
    intros E2 D2 o Hl2 HE2 Hsim HF2 HZ2 Ho. fold name in Ho.
    destruct Hs as (R & HR & Hs). destruct Ho as (R2 & HR2 & Ho).
    destruct (plain_same near H E E2 ltac:(congruence) ltac:(lia) HE2 name (a :: l) R R2 D D2 D' r n o Hp HR HR2 Hsim HF HF2 HZ HZ2 ltac:(by rewrite Hlib) Hs Ho)
      as (D2' & -> & Hs' & HF'). by eauto 10.
Qed.
Lemma mixed_step cf H evs e y y' db V dbs' : lower_ok (cf_lib cf) → 0 ≤ H → cf_aof cf = true → Z.of_nat (cf_dbs cf) ≤ 2 ^ 44 →
  reaches cf evs y → history_ok cf (evs ++ [e]) → step cf e y = Ok y' → calm cf H e →
  careful_history cf (evs ++ [e]) →
  Forall (fresh H) (abs_dbs (y_srv y)) → s_select (y_srv y) = Z.of_nat db → s_task (y_srv y) = true → mixed V (abs_dbs (y_srv y)) dbs' →
  ∃ db' more dbs1', s_rwbuf (y_srv y') = s_rwbuf (y_srv y) ++ log_file more ∧ Forall (good_record cf) more ∧ Forall (fresh H) (abs_dbs (y_srv y')) ∧
    s_select (y_srv y') = Z.of_nat db' ∧ leads cf H dbs' dbs1' db db' more ∧ mixed V (abs_dbs (y_srv y')) dbs1' ∧ draws_le cf e more ∧
    (more = [] → dbs1' = dbs') ∧ ∀ i D, abs_dbs (y_srv y) !! i = Some D → ∃ D1, abs_dbs (y_srv y') !! i = Some D1 ∧ turned D D1.
Proof.
  intros Hlow HH Haof Hdbs Hr Hh HS He Hcare HF Hsel Htask Hmix.
  assert (Hnone : s_rwbuf (y_srv y') = s_rwbuf (y_srv y) → abs_dbs (y_srv y') = abs_dbs (y_srv y) → s_select (y_srv y') = Z.of_nat db →
    ∃ db' more dbs1', s_rwbuf (y_srv y') = s_rwbuf (y_srv y) ++ log_file more ∧ Forall (good_record cf) more ∧ Forall (fresh H) (abs_dbs (y_srv y')) ∧
    s_select (y_srv y') = Z.of_nat db' ∧ leads cf H dbs' dbs1' db db' more ∧ mixed V (abs_dbs (y_srv y')) dbs1' ∧ draws_le cf e more ∧
    (more = [] → dbs1' = dbs') ∧ ∀ i D, abs_dbs (y_srv y) !! i = Some D → ∃ D1, abs_dbs (y_srv y') !! i = Some D1 ∧ turned D D1).
  { intros H1 H2 H3. exists db, [], dbs'. rewrite H1, H2. change (log_file []) with (@nil ascii). rewrite app_nil_r. split; [done|]. split; [by apply Forall_nil_2|]. split; [done|]. split; [done|].
    split; [apply leads_nil|]. split; [done|]. split; [unfold draws_le, draws; simpl; lia|]. split; [done|]. intros i D HD. exists D. split; [done|]. apply turned_refl. }
  apply along_snoc in Hcare as [Hcare Hce]. pose proof (careful_tame cf evs y Hr Hcare) as Htame.
  specialize (Hce y ltac:(apply Hr)).
  pose proof (reaches_ok cf evs y Hr) as Hok.
  destruct Hh as (Hev & Hpos & Htot). rewrite total_app in Htot.
  apply Forall_app in Hev as [_ Hev]. apply Forall_cons in Hev as [Hev _].
  destruct e as [|i args now unix rs|i n|now rs| | |dump|file clock rs]; cbn [calm] in He.
  - injection HS as <-. by apply Hnone.
  - destruct (y_cls y !! i) as [c|] eqn:Hc; [|cbn [step] in HS; rewrite Hc in HS; injection HS as <-; by apply Hnone].
    destruct Hev as [Hargs Hrs].
    destruct (command_step cf evs y i c args now unix rs y' Hr Hc) as (v' & r & n & Hd); [|done|].
    { split; [done|]. split; [done|]. unfold total in *. simpl in *. lia. }
    destruct He as (Hnow & Hunix & Hex & Hzp & Hasks). pose proof (did_dbs _ _ _ _ _ _ _ _ _ _ Hd) as Hd'.
    destruct Hd as [Ht _ _ Hl Hf]. rewrite Haof in Hl. cbn [andb] in Hl.
    match type of Hnone with _ → _ → _ → ?G => assert (Hquiet : n = 0 → v_dbs v' = abs_dbs (y_srv y) → G) end.
    { intros -> Hv. cbn in Hl. unfold lst in Hl. injection Hl as H1 H2 H3. apply Hnone; congruence. }
    remember (Ok (v', r, n)) as o eqn:Eo. destruct Ht; try (injection Eo as <- <- <-; by apply Hquiet); try done.
    destruct ro as [[D' r' n']| |]; try done. cbn [on_view mbind res_bind] in Eo. injection Eo as <- <- <-.
    match goal with H : allowed _ _ _ _ |- _ => destruct H as ((a & l & ar & -> & -> & Har & Hacc) & _) end.
    cbn [view_at v_dbs v_db v_auth] in *. match goal with H : abs_dbs (y_srv y) !! _ = Some D |- _ => rename H into HD end.
    match goal with H : sem _ _ _ _ _ |- _ => rename H into Hs end.
    assert (HFD : fresh H D) by (by eapply Forall_lookup_1). cbn [env_at e_lib] in *.
    destruct (decide (n' = 0)) as [->|Hn].
    + apply Hquiet; [done|].
      enough (D' = D) as -> by (by rewrite list_insert_id).
      destruct (sem_kinds _ _ _ _ _ Hs) as [Hrd|[Hw|Hz]].
      * eapply (fresh_purged H (env_at cf now unix)); [done|simpl; lia|]. by destruct (sem_reads _ _ _ _ _ _ _ Hrd Hs).
      * eapply (fresh_purged H (env_at cf now unix)); [done|simpl; lia|]. destruct (sem_writes (env_at cf now unix) _ ar _ _ _ _ _ (or_introl Hw) Har Hacc Hs) as (key & _ & _ & _ & Hp & _). by apply Hp.
      * assert (ar = -4) as ->.
        { eapply (arities_fun (lib_lower (cf_lib cf) a)); [exact Har|]. rewrite Hz. apply (bool_decide_unpack _). by vm_compute. }
        apply accepts_bad in Hacc. destruct l as [|key [|b l]]; [by vm_compute in Hacc..|].
        eapply (zadd_quiet (env_at cf now unix)); [by eapply Hzp|].
        eapply (sem_inv (env_at cf now unix) (lib_lower (cf_lib cf) a)); [rewrite Hz; by repeat constructor|done].
    + apply Z.eqb_neq in Hn as Hn'. rewrite Hn' in Hl. cbn in Hl. destruct Hl as (a' & t & [= <-] & Htx & Hl).
      assert (Hw : lib_lower (cf_lib cf) a ∈ writers ∨ lib_lower (cf_lib cf) a = B "zadd").
      { destruct (sem_kinds _ _ _ _ _ Hs) as [Hrd|[Hw|Hz]]; [|by left|by right]. by destruct (sem_reads _ _ _ _ _ _ _ Hrd Hs). }
      assert (Hnsp : lib_lower (cf_lib cf) a ≠ B "spop") by (by apply Hex).
      pose proof (Hmix (c_db c)) as Hmc. rewrite HD in Hmc. destruct (dbs' !! c_db c) as [Dm|] eqn:HDm; [|by inversion Hmc]. assert (Hb : blended (V (c_db c)) D Dm) by (by inversion Hmc).
      destruct (blend_step H (env_at cf now unix) (V (c_db c)) ltac:(simpl; lia) (lib_lower (cf_lib cf) a) (a :: l) D Dm D' r' n' Hw Hnsp HFD Hb Hs Hn) as (Dm' & rm & nm & Hsm & Hbm & Hnm).
      assert (HtD : tame_db D) by (by eapply Forall_lookup_1).
      assert (HzD : zknown D).
      { intros key m s Hk. destruct (reaches_zset cf evs y (c_db c) D key m s Hr HD Hk) as (z & Hz). exists (total evs), z. split; [done|]. lia. }
      assert (HcD : zcare (cf_lib cf) (lib_lower (cf_lib cf) a) (a :: l) D).
      { destruct l as [|key l]; [done|]. cbn [zcare]. intros m Hm. by eapply Hce. }
      assert (HFm : fresh H Dm) by (by apply (blended_fresh _ H D Dm Hb)).
      assert (Hmain : fresh H Dm' ∧ ∃ more, t = log_file more ∧ Forall (good_record cf) more ∧ leads cf H dbs' (<[c_db c := Dm']> dbs') (c_db c) (c_db c) more ∧
        (draws (cf_lib cf) more ≤ draws (cf_lib cf) [a :: l])%nat).
      { destruct (decide (nm = 0)) as [->|Hnm0].
        - destruct Hnm as [Hnm|Hp]; [done|].
          destruct (plain_leads cf H Hlow HH dbs' (c_db c) Dm Dm' a l ar rm 0 (env_at cf now unix)) as (HFm' & Hg & HL); try done.
          { by eapply blended_tame. } { by eapply blended_zknown. } { by eapply blended_zcare. } { simpl; lia. }
          split; [done|]. exists [a :: l]. split; [|done]. unfold log_text in Htx. rewrite !decide_False in Htx.
          + injection Htx as <-. by rewrite log_one.
          + intros Hq. rewrite Hq in Hp. revert Hp. unfold plain. apply (bool_decide_unpack _). by vm_compute.
          + intros Hq. rewrite Hq in Hp. revert Hp. unfold plain. apply (bool_decide_unpack _). by vm_compute.
        - destruct (logged_leads cf H Hlow HH dbs' (c_db c) Dm Dm' a l ar rm nm t (env_at cf now unix))
            as (HFm' & more & -> & Hmne & Hmore & _ & Hdraw); try done.
          { by eapply blended_tame. } { by eapply blended_zknown. } { by eapply blended_zcare. }
          split; [done|]. by exists more. }
      destruct Hmain as (HFm' & more & -> & Hmne & Hmore & Hdraw).
      pose proof (f_equal l_select Hl) as L1. pose proof (f_equal l_buf Hl) as L2. pose proof (f_equal l_rw Hl) as L3.
      unfold log_add, lst in L1, L2, L3. cbn [l_select l_buf l_rw] in L1, L2, L3.
      rewrite Hsel in L2, L3.
      assert (Hdb : (c_db c < length (abs_dbs (y_srv y)))%nat) by (by eapply lookup_lt_Some).
      assert (Hlen : length (abs_dbs (y_srv y)) = cf_dbs cf) by (rewrite abs_dbs_len; apply Hok).
      pose proof (mixed_length _ _ _ Hmix) as Hlm.
      set (sel := if Z.of_nat db =? Z.of_nat (c_db c) then [] else [[B "select"; itoa (Z.of_nat (c_db c))]]).
      assert (Htext : (if Z.of_nat db =? Z.of_nat (c_db c) then [] else encode [B "select"; itoa (Z.of_nat (c_db c))]) ++ log_file more = log_file (sel ++ more)).
      { rewrite log_app. f_equal. unfold sel. case (Z.of_nat db =? Z.of_nat (c_db c)); [done|]. by rewrite log_one. }
      rewrite Htext in L2, L3. exists (c_db c), (sel ++ more), (<[c_db c := Dm']> dbs').
      assert (Hsl : leads cf H dbs' dbs' db (c_db c) sel).
      { unfold sel. destruct (Z.eqb_spec (Z.of_nat db) (Z.of_nat (c_db c))).
        - assert (db = c_db c) as -> by lia. apply leads_nil.
        - apply leads_select; [done|lia|lia]. }
      assert (Hsd : draws (cf_lib cf) sel = 0%nat).
      { unfold sel. case (Z.of_nat db =? Z.of_nat (c_db c)); [done|]. rewrite draws_one, (Hlow _ 2) by (apply (bool_decide_unpack _); by vm_compute). done. }
      rewrite Hd'. split; [rewrite L3; by rewrite Htask|].
      split.
      { apply Forall_app. split; [|done]. unfold sel. case (Z.of_nat db =? Z.of_nat (c_db c)); [by apply Forall_nil_2|apply Forall_singleton; record_own Hlow 2]. }
      split; [apply Forall_insert; [done|]; by apply (blended_fresh _ H D' Dm' Hbm)|].
      split; [done|]. split; [by eapply leads_app|]. split; [by apply mixed_insert|].
      split; [unfold draws_le; rewrite draws_app, Hsd; exact Hdraw|]. split.
      { intros [_ Hm]%app_eq_nil. subst more. by apply log_text_ne in Htx. }
      intros j D0 HD0. destruct (decide (j = c_db c)) as [->|Hj].
      * rewrite list_lookup_insert by done. exists D'. split; [done|]. rewrite HD in HD0. injection HD0 as <-. by eapply (turn_step H (env_at cf now unix) ltac:(simpl; lia)).
      * rewrite list_lookup_insert_ne by done. exists D0. split; [done|]. apply turned_refl.
  - cbn [step] in HS. destruct (y_cls y !! i); injection HS as <-; by apply Hnone.
  - cbn [step] in HS. destruct (databasesCron (env_at cf now 0) (s_dbs (y_srv y)) rs) as [[dbs2 rs']| |] eqn:EC; try done.
    injection HS as <-. destruct Hok as [[S1 S2 S3 S4] _ _].
    pose proof (databasesCron_spec _ _ (s_heap (y_srv y)) _ _ _ _ S1 Hev EC) as (_ & Hp & _).
    apply Hnone; try done. cbn [y_file y_srv].
    unfold abs_dbs in *. cbn [s_heap s_dbs set_dbs]. clear -Hp HF He. revert HF.
    induction Hp as [|D D' l l' H1 H2 IH]; intros HF; [done|]. apply Forall_cons in HF as [HF HF']. f_equal; [|by apply IH].
    by apply (fresh_purged H (env_at cf now 0)).
  - injection HS as <-. by apply Hnone.
  - cbn [step] in HS. unfold rewriteAppendOnlyFileBackground in HS. rewrite Htask in HS. injection HS as <-. by apply Hnone.
  - done.
  - done.
Qed.

(** ** Histories *)
Lemma turned_trans D D1 D2 : turned D D1 → turned D1 D2 → turned D D2.
Proof.
  intros H1 H2 k v Hv. destruct (H1 k v Hv) as (v1 & Hv1 & T1). destruct (H2 k v1 Hv1) as (v2 & Hv2 & T2).
  exists v2. split; [done|]. unfold turns in *. lia.
Qed.
Lemma mixed_refl V dbs : mixed V dbs dbs.
Proof. intros i. destruct (dbs !! i); constructor. apply blended_refl. Qed.
(** a value has been read when it is that of the server: from then on the two agree *)
Definition follows (dbs : list adb) (V V' : nat → bytes → aval) : Prop := ∀ i k,
  V' i k = V i k ∨ V' i k = AStr [] ∧ ∃ D, dbs !! i = Some D ∧ a_keys D !! k = Some (V i k).
Lemma mixed_follows V V' dbs dbs' : mixed V dbs dbs' → follows dbs V V' → mixed V' dbs dbs'.
Proof.
  intros Hm Hf i. specialize (Hm i). destruct (dbs !! i) as [D|] eqn:HD; inversion Hm as [D0 D' Hb E1 E2|E1 E2]; subst; constructor.
  destruct Hb as [Ht Hb]. split; [done|].
  intros k. destruct (Hf i k) as [->|(-> & D1 & HD1 & Hk)]; [apply Hb|]. specialize (Hb k). rewrite HD in HD1. injection HD1 as <-.
  rewrite (blend_done _ _ _ Hb Hk). constructor.
Qed.
Lemma mixed_none dbs dbs' V : (∀ i k, V i k = AStr []) → mixed V dbs dbs' → dbs' = dbs.
Proof.
  intros HV Hm. apply list_eq. intros i. specialize (Hm i). destruct (dbs !! i) as [D|]; inversion Hm as [D0 D' Hb E1 E2|E1 E2]; subst; [|done].
  f_equal. destruct Hb as [Ht Hb]. apply adb_eq; [|done]. apply map_eq. intros k. specialize (Hb k). rewrite HV in Hb. by inversion Hb; subst.
Qed.
Lemma mixed_since cf H evs0 y0 db0 (Vat : nat → nat → bytes → aval) dbs0 evs y : lower_ok (cf_lib cf) → 0 ≤ H → cf_aof cf = true → Z.of_nat (cf_dbs cf) ≤ 2 ^ 44 →
  reaches cf evs0 y0 → Forall (fresh H) (abs_dbs (y_srv y0)) → s_select (y_srv y0) = Z.of_nat db0 → s_task (y_srv y0) = true →
  reaches cf (evs0 ++ evs) y → Forall (calm cf H) evs → careful_history cf (evs0 ++ evs) → mixed (Vat 0%nat) (abs_dbs (y_srv y0)) dbs0 →
  (∀ n yn, (n < length evs)%nat → run cf (evs0 ++ take n evs) (init_sys cf) = Ok yn → follows (abs_dbs (y_srv yn)) (Vat n) (Vat (S n))) →
  ∃ more db dbs, s_rwbuf (y_srv y) = s_rwbuf (y_srv y0) ++ log_file more ∧ Forall (good_record cf) more ∧
    Forall (fresh H) (abs_dbs (y_srv y)) ∧ s_select (y_srv y) = Z.of_nat db ∧ s_task (y_srv y) = true ∧
    leads cf H dbs0 dbs db0 db more ∧ mixed (Vat (length evs)) (abs_dbs (y_srv y)) dbs ∧
    (draws (cf_lib cf) more ≤ draws (cf_lib cf) (commands_of evs))%nat ∧ (more = [] → dbs = dbs0) ∧
    ∀ i D, abs_dbs (y_srv y0) !! i = Some D → ∃ D1, abs_dbs (y_srv y) !! i = Some D1 ∧ turned D D1.
Proof.
  intros Hlow HH Haof Hdbs Hr0 HF0 Hsel0 Htask0. revert y. induction evs as [|e evs IH] using rev_ind; intros y' Hr Hcalm Hcare Hmix Hfol.
  { rewrite app_nil_r in Hr. assert (y' = y0) as ->. { destruct Hr as [_ Hr], Hr0 as [_ Hr0]. congruence. }
    exists [], db0, dbs0. split; [by rewrite app_nil_r|]. split; [by apply Forall_nil_2|]. split; [done|]. split; [done|]. split; [done|]. split; [apply leads_nil|].
    split; [done|]. split; [done|]. split; [done|]. intros i D HD. exists D. split; [done|]. apply turned_refl. }
  apply Forall_app in Hcalm as [Hcalm He]. apply Forall_cons in He as [He _]. rewrite app_assoc in Hr, Hcare.
  pose proof Hcare as Hcare'. apply along_snoc in Hcare' as [Hcare' _].
  apply reaches_snoc in Hr as (Hh & y & Hr & HS).
  destruct (IH y Hr Hcalm Hcare' Hmix) as (cmds & db & dbs & Hrw & Hne & HF & Hsel & Htask & Hlead & Hm & Hdr & Hnone & Hturn).
  { intros n yn Hn Hyn. apply Hfol; [rewrite app_length; simpl; lia|]. by rewrite take_app_le by lia. }
  assert (Hm' : mixed (Vat (S (length evs))) (abs_dbs (y_srv y)) dbs).
  { eapply mixed_follows; [done|]. apply Hfol; [rewrite app_length; simpl; lia|]. rewrite take_app. apply Hr. }
  destruct (mixed_step cf H (evs0 ++ evs) e y y' db _ dbs Hlow HH Haof Hdbs Hr Hh HS He Hcare HF Hsel Htask Hm') as (db' & more & dbs1 & A1 & A2 & A3 & A4 & A5 & A6 & A7 & A8 & A9).
  exists (cmds ++ more), db', dbs1. split; [by rewrite A1, Hrw, log_app, app_assoc|]. split; [by apply Forall_app|].
  split; [done|]. split; [done|]. split; [eapply task_stays; [exact HS|intros d ->; done|intros Hb; by destruct e|done]|].
  split; [by eapply leads_app|]. split; [rewrite app_length; simpl; by rewrite Nat.add_1_r|].
  split. { unfold draws_le in A7. rewrite commands_app, !draws_app. unfold commands_of at 2. cbn [mbind list_bind]. rewrite app_nil_r. lia. }
  split; [intros [-> ->]%app_eq_nil; by rewrite A8, Hnone|].
  intros i D HD. destruct (Hturn i D HD) as (D1 & HD1 & T1). destruct (A9 i D1 HD1) as (D2 & HD2 & T2). exists D2. split; [done|]. by eapply turned_trans.
Qed.
(** finite choice *)
Lemma choose_list {A C} `{EqDecision A} (c0 : C) (P : A → C → Prop) (l : list A) : (∀ a, a ∈ l → ∃ c, P a c) → ∃ f : A → C, ∀ a, a ∈ l → P a (f a).
Proof.
  induction l as [|a l IH]; intros Hl; [exists (λ _, c0); intros a Ha; by apply elem_of_nil in Ha|].
  destruct IH as [f Hf]; [intros b Hb; apply Hl; by right|]. destruct (Hl a) as [c Hc]; [by left|].
  exists (λ b, if decide (b = a) then c else f b). intros b Hb. destruct (decide (b = a)) as [->|Hn]; [done|].
  apply elem_of_cons in Hb as [?|Hb]; [done|]. by apply Hf.
Qed.
