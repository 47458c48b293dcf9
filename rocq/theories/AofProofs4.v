(** Replaying the log of a history. *)
From Verif Require Import Base Float DictModel DictProofs DictProofs2 DictProofs3 DictProofs4 DictRun DatabaseModel SetModel QuicklistModel SkiplistModel ZsetModel
  Strconv RespSpec ServerModel CommandModel CommandSem CommandInv CommandInv2 CommandProofs1 CommandProofs2
  CommandTop CommandFrame SystemModel SystemProofs CommandFacts CommandExt PropsCommand ZcmdProofs SafeProofs PropsData AofModel AofProofs1 AofProofs2 RndFrame AofProofs3.
From Coq Require Import ZifyBool ZifyNat.

(** a record that the loader may execute *)
Definition good_record (cf : config) (c : list bytes) : Prop := c ≠ [] ∧ record_ok cf c.
Lemma good_ne cf l : Forall (good_record cf) l → Forall (λ c, c ≠ []) l.
Proof. intros Hl. eapply Forall_impl; [exact Hl|]. by intros c []. Qed.
Lemma record_good cf a l ar : (lib_lower (cf_lib cf) a, ar) ∈ arities → accepts ar (zlen (a :: l)) → good_record cf (a :: l).
Proof.
  intros Har Hacc. split; [done|]. intros a' cmd [= <-] Hc. unfold lookupCommand in Hc.
  destruct (list_find _ _) as [[i c]|] eqn:EF; [|done]. injection Hc as ->. apply list_find_Some in EF as (Hi & Hn & _).
  assert (Har' : (lib_lower (cf_lib cf) a, cmd_arity cmd) ∈ arities).
  { rewrite <-(arities_ok (env_at cf 0 0)). apply elem_of_list_fmap. exists cmd. rewrite Hn. split; [done|]. by eapply elem_of_list_lookup_2. }
  rewrite (arities_fun _ _ _ Har' Har). by apply accepts_bad.
Qed.
(** the name as the server writes it *)
Lemma record_own cf name l ar : (∀ name ar, (name, ar) ∈ arities → lib_lower (cf_lib cf) name = name) →
  bool_decide ((name, ar) ∈ arities) = true → accepts ar (zlen (name :: l)) → good_record cf (name :: l).
Proof. intros Hlow Har Hacc. apply bool_decide_eq_true in Har. apply (record_good cf _ _ ar); [|done]. by rewrite (Hlow _ _ Har). Qed.
Ltac record_own Hlow ar := apply (record_own _ _ _ ar Hlow); [by vm_compute|first [reflexivity|by vm_compute]].

(** number of arguments of a list of commands *)
Definition nargs (cmds : list (list bytes)) : nat := sum_list (length <$> cmds).
Lemma nargs_app a b : nargs (a ++ b) = (nargs a + nargs b)%nat.
Proof. unfold nargs. by rewrite fmap_app, sum_list_with_app. Qed.
Lemma replay_app {S} (exec : nat → list bytes → S → res S) a b : ∀ j s s', replay exec j a s = (s', Ok tt) →
  replay exec j (a ++ b) s = replay exec (j + length a) b s'.
Proof.
  induction a as [|c a IH]; intros j s s' Hr.
  { injection Hr as <-. cbn [app length]. by rewrite Nat.add_0_r. }
  cbn [replay app] in *. destruct (exec j c s) as [s1| |]; [|done..]. rewrite (IH _ _ _ Hr). f_equal. cbn [length]. lia.
Qed.
Lemma replay_one {S} (exec : nat → list bytes → S → res S) j c s s' : exec j c s = Ok s' → replay exec j [c] s = (s', Ok tt).
Proof. intros Hc. cbn [replay]. by rewrite Hc. Qed.
Lemma exec_at_ok cf clock j args w w' : exec_logged (env_at cf (clock j) 0) args w = Ok (w', tt) → exec_at cf clock j args w = Ok w'.
Proof. intros He. unfold exec_at. by rewrite He. Qed.

Lemma log_one c : log_file [c] = encode c.
Proof. unfold log_file. cbn [map concat]. by rewrite app_nil_r. Qed.

(** ** Histories in which no deadline passes *)
(** the deadline (in seconds) that a command asks for *)
Definition asks (lib : lib) (args : list bytes) (unix : Z) : option Z :=
  match args with
  | [a; _; t] =>
      if decide (lib_lower lib a = B "expire") then n ← Atoi t; Some (unix + n)
      else if decide (lib_lower lib a = B "expireat") then Atoi t else None
  | [a; _; t; _] => if decide (lib_lower lib a = B "setex") then n ← Atoi t; Some (unix + n) else None
  | _ => None
  end.
(** every event happens before [H] (ms), the deadlines asked for are later than [H]
    and can be represented; no SPOP; the first score of a ZADD is a number; no rewrite
    of the log has finished; no restart *)
Definition calm (cf : config) (H : Z) (e : event) : Prop :=
  match e with
  | EvCommand _ args now unix _ =>
      0 ≤ now ≤ H ∧ unix = now / 1000 ∧
      (∀ a, args !! 0%nat = Some a → lib_lower (cf_lib cf) a ≠ B "spop") ∧
      (∀ a key b l, args = a :: key :: b :: l → lib_lower (cf_lib cf) a = B "zadd" → is_Some (lib_parse_float (cf_lib cf) b)) ∧
      (∀ s, asks (cf_lib cf) args unix = Some s → H ≤ s * 1000 ∧ s * 1000 + 1000 ≤ 2 ^ 63)
  | EvCron now _ => now ≤ H
  | EvDone _ => False
  | EvBoot _ _ _ => False
  | _ => True
  end.
(** strings.ToLower leaves the names of the commands alone *)
Definition lower_ok (lib : lib) : Prop := ∀ name ar, (name, ar) ∈ arities → lib_lower lib name = name.

(** number of levels that the commands may draw: one for each pair given to ZADD *)
Definition draws (lib : lib) (cmds : list (list bytes)) : nat :=
  sum_list ((λ c, match c with a :: _ => levels (lib_lower lib a) c | [] => 0%nat end) <$> cmds).
Lemma draws_app lib a b : draws lib (a ++ b) = (draws lib a + draws lib b)%nat.
Proof. unfold draws. by rewrite fmap_app, sum_list_with_app. Qed.
Lemma draws_one lib a l : draws lib [a :: l] = levels (lib_lower lib a) (a :: l).
Proof. unfold draws. simpl. lia. Qed.
(** the command of an event *)
Definition command_of (e : event) : list (list bytes) := match e with EvCommand _ args _ _ _ => [args] | _ => [] end.
Definition commands_of (evs : list event) : list (list bytes) := evs ≫= command_of.
Lemma commands_app a b : commands_of (a ++ b) = commands_of a ++ commands_of b.
Proof. apply bind_app. Qed.

(** the state [w] of a server that has replayed a log, against the databases [dbs] *)
Record replayed (H : Z) (dbs : list adb) (db : nat) (N : nat) (w : world) : Prop := {
  rp_ok : w_ok N w;
  rp_dbs : Forall2 sim dbs (abs_dbs (w_srv w));
  rp_fresh : Forall (fresh H) (abs_dbs (w_srv w));
  rp_db : c_db (w_cl w) = db
}.
Lemma writers_cases name : name ∈ writers → name ≠ B "spop" →
  plain name ∨ name = B "expire" ∨ name = B "expireat" ∨ name = B "setex".
Proof.
  intros Hw Hs. unfold writers in Hw. unfold plain.
  repeat apply elem_of_cons in Hw as [->|Hw]; [..|by apply elem_of_nil in Hw];
    first [by right; auto|by left; repeat constructor|done].
Qed.

Section step.
  Variables (cf : config) (H : Z).
  Hypotheses (Hlow : lower_ok (cf_lib cf)) (HH : 0 ≤ H).
  (** executing [more] makes the databases [dbs'] *)
  Definition leads (dbs dbs' : list adb) (db db' : nat) (more : list (list bytes)) : Prop :=
    ∀ clock j N k w, (∀ j, clock j ≤ H) → Z.of_nat (N + nargs more) < 2 ^ 42 → replayed H dbs db N w →
      enough (draws (cf_lib cf) more + k) (w_rnd w) →
      ∃ w', replay (exec_at cf clock) j more w = (w', Ok tt) ∧ replayed H dbs' db' (N + nargs more) w' ∧ enough k (w_rnd w').
  Lemma leads_nil dbs db : leads dbs dbs db db [].
  Proof. intros clock j N k w _ _ Hw Hk. exists w. split; [done|]. by rewrite Nat.add_0_r. Qed.
  Lemma leads_app dbs dbs1 dbs2 db db1 db2 m1 m2 : leads dbs dbs1 db db1 m1 → leads dbs1 dbs2 db1 db2 m2 →
    leads dbs dbs2 db db2 (m1 ++ m2).
  Proof.
    intros H1 H2 clock j N k w Hc HN Hw Hk. rewrite nargs_app in *. rewrite draws_app, <-Nat.add_assoc in Hk.
    destruct (H1 clock j N (draws (cf_lib cf) m2 + k)%nat w Hc) as (w1 & E1 & Hw1 & Hk1); [lia|done|done|].
    destruct (H2 clock (j + length m1)%nat (N + nargs m1)%nat k w1 Hc) as (w2 & E2 & Hw2 & Hk2); [lia|done|done|].
    exists w2. split; [by rewrite (replay_app _ _ _ _ _ _ E1)|]. by rewrite Nat.add_assoc.
  Qed.
  Lemma exec_enough E a l w w' u k : e_lib E = cf_lib cf → lib_lower (cf_lib cf) a ∉ [B "randomget"; B "spop"] →
    exec_logged E (a :: l) w = Ok (w', u) → enough (draws (cf_lib cf) [a :: l] + k) (w_rnd w) → enough k (w_rnd w').
  Proof.
    intros HE Hn Hx. rewrite draws_one. eapply drawn_enough. rewrite <-HE in *. by eapply exec_takes.
  Qed.
  Lemma leads_select dbs db db' : (db' < length dbs)%nat → Z.of_nat (length dbs) ≤ 2 ^ 44 →
    leads dbs dbs db db' [[B "select"; itoa (Z.of_nat db')]].
  Proof.
    intros Hdb Hl clock j N k w Hc HN [W1 W2 W3 W4] Hk.
    assert (Hlo : lib_lower (cf_lib cf) (B "select") = B "select").
    { apply (Hlow _ 2). apply (bool_decide_unpack _). by vm_compute. }
    assert (Hl' : length (s_dbs (w_srv w)) = length dbs) by (rewrite <-abs_dbs_len; by rewrite (Forall2_length _ _ _ W2)).
    destruct (exec_select (env_at cf (clock j) 0) N w db') as (w' & E1 & Hw' & Hd & Hs); [|done|lia| |].
    { apply (Hlow _ 2). apply (bool_decide_unpack _). by vm_compute. }
    { unfold in_int64, minInt64, maxInt64. lia. }
    exists w'. split; [by apply replay_one, exec_at_ok|]. split.
    - split; [|by rewrite Hd..|done]. eapply w_ok_mono; [|done]. lia.
    - eapply exec_enough; [|..|exact E1|exact Hk]; [done|]. rewrite Hlo. apply (bool_decide_unpack _). by vm_compute.
  Qed.
  (** one data command *)
  Lemma leads_data dbs db D D' a l ar : dbs !! db = Some D → let name := lib_lower (cf_lib cf) a in
    (name, ar) ∈ arities → accepts ar (zlen (a :: l)) → ¬ special name → name ∉ [B "randomget"; B "spop"] →
    (∀ E2 D2 o, e_lib E2 = cf_lib cf → e_now E2 ≤ H → sim D D2 → fresh H D2 → zknown D2 → sem E2 name (a :: l) D2 o →
       ∃ D2' r n, o = Ok (Out D2' r n) ∧ sim D' D2' ∧ fresh H D2') →
    leads dbs (<[db := D']> dbs) db db [a :: l].
  Proof.
    intros HD name Har Hacc Hsp Hnr Heff clock j N k w Hc HN [W1 W2 W3 W4] Hk.
    assert (Hna : nargs [a :: l] = length (a :: l)) by (unfold nargs; simpl; lia). rewrite Hna in *.
    destruct (exec_run (env_at cf (clock j) 0) N w a l ar) as (D2 & ro & HD2 & Hs & Hr); [done..|by apply room_total|].
    rewrite W4 in HD2. destruct (Forall2_lookup_l _ _ _ _ _ W2 HD) as (D3 & HD3 & Hsim). rewrite HD2 in HD3. injection HD3 as <-.
    assert (HF : fresh H D2) by (by eapply Forall_lookup_1).
    destruct (Heff (env_at cf (clock j) 0) D2 ro) as (D2' & r & n & -> & Hsim' & HF'); try done; [apply Hc|eapply world_zknown; [done| |exact HD2]; lia|].
    destruct Hr as (w' & E1 & Hw' & Hd & Hdb). exists w'. split; [by apply replay_one, exec_at_ok|]. rewrite W4 in Hd. split.
    - split; [done|rewrite Hd; by apply Forall2_insert|rewrite Hd; by apply Forall_insert|congruence].
    - by eapply exec_enough; [| |exact E1|exact Hk].
  Qed.
  (** ZADD *)
  Lemma leads_zadd dbs db D D' a key l r n E : dbs !! db = Some D → lib_lower (cf_lib cf) a = B "zadd" →
    accepts (-4) (zlen (a :: key :: l)) → e_lib E = cf_lib cf → zcare (cf_lib cf) (B "zadd") (a :: key :: l) D →
    sem_zadd E (a :: key :: l) D (Ok (Out D' r n)) → leads dbs (<[db := D']> dbs) db db [a :: key :: l].
  Proof.
    intros HD Hn Hacc HE Hcare Hs clock j N k w Hc HN [W1 W2 W3 W4] Hk.
    assert (Hna : nargs [a :: key :: l] = length (a :: key :: l)) by (unfold nargs; simpl; lia). rewrite Hna in *.
    destruct (exec_zadd (env_at cf (clock j) 0) N w a (key :: l)) as (D2 & HD2 & Hx); [done..|by apply room_total|].
    rewrite W4 in HD2. destruct (Forall2_lookup_l _ _ _ _ _ W2 HD) as (D3 & HD3 & Hsim). rewrite HD2 in HD3. injection HD3 as <-.
    assert (HF : fresh H D2) by (by eapply Forall_lookup_1).
    destruct (zadd_same H E (env_at cf (clock j) 0) a key l (w_rnd w) D D2 D' r n) as (D2' & r' & n' & Ez & Hsim' & HF'); try done.
    { eapply enough_le; [|exact Hk]. rewrite draws_one. unfold levels. rewrite decide_True by done. lia. }
    { by rewrite HE. }
    rewrite Ez in Hx. destruct Hx as (w' & E1 & Hw' & Hd & Hdb). exists w'. split; [by apply replay_one, exec_at_ok|]. rewrite W4 in Hd. split.
    - split; [done|rewrite Hd; by apply Forall2_insert|rewrite Hd; by apply Forall_insert|congruence].
    - eapply exec_enough; [| |exact E1|exact Hk]; [done|]. rewrite Hn. apply (bool_decide_unpack _). by vm_compute.
  Qed.
  Lemma zadd_fresh E args D D' r n : fresh H D → sem_zadd E args D (Ok (Out D' r n)) → fresh H D'.
  Proof.
    intros HF Hs. unfold sem_zadd in Hs. destruct args as [|a [|key l]]; try done. destruct (negb _); [by injection Hs as ->|].
    destruct Hs as (rs & _ & Hs). symmetry in Hs. apply new_cases in Hs as [(-> & _)|(x & x' & _ & _ & ->)]; [done|done|apply AKZset_law].
  Qed.
  Lemma leads_ext dbs dbs' dbs2 db db' more : dbs' = dbs2 → leads dbs dbs' db db' more → leads dbs dbs2 db db' more.
  Proof. by intros ->. Qed.

  Lemma expire_fresh a key b n0 E D D' r n : Atoi b = Some n0 → 0 ≤ e_now E ≤ H → e_unix E = e_now E / 1000 →
    H ≤ (e_unix E + n0) * 1000 → (e_unix E + n0) * 1000 + 1000 ≤ 2 ^ 63 → tame_db D → fresh H D →
    sem_expire E (λ n, wrap64 (e_now E + ms n)) [a; key; b] D (Ok (Out D' r n)) → fresh H D'.
  Proof.
    intros Hb Hnow Hunix Hlo Hhi Htm HF Hs.
    unfold sem_expire, fn in Hs. rewrite Hb in Hs. injection Hs as <- _ _.
    assert (ms n0 = n0 * 1000) as -> by (apply wrap64_id; unfold in_int64, minInt64, maxInt64; lia).
    rewrite wrap64_id by (unfold in_int64, minInt64, maxInt64; lia). apply fresh_insert; [done|lia].
  Qed.

  (** what the server logs for a command does what the command did *)
  Lemma logged_leads dbs db D D' a l ar r n t E : dbs !! db = Some D → fresh H D → tame_db D → zknown D → let name := lib_lower (cf_lib cf) a in
    (name, ar) ∈ arities → accepts ar (zlen (a :: l)) → name ≠ B "spop" → zcare (cf_lib cf) name (a :: l) D →
    e_lib E = cf_lib cf → 0 ≤ e_now E ≤ H → e_unix E = e_now E / 1000 →
    (∀ s, asks (cf_lib cf) (a :: l) (e_unix E) = Some s → H ≤ s * 1000 ∧ s * 1000 + 1000 ≤ 2 ^ 63) →
    sem E name (a :: l) D (Ok (Out D' r n)) → n ≠ 0 → log_text E name (a :: l) = Some t →
    fresh H D' ∧ ∃ more, t = log_file more ∧ Forall (good_record cf) more ∧ leads dbs (<[db := D']> dbs) db db more ∧
      (name ≠ B "setex" → length more = 1%nat) ∧ (draws (cf_lib cf) more ≤ draws (cf_lib cf) [a :: l])%nat.
  Proof.
    intros HD HF Htm HZ name Har Hacc Hex Hcare Hlib Hnow Hunix Hasks Hs Hn Ht.
    assert (Hgood : good_record cf (a :: l)) by (by eapply record_good).
    assert (Hsp : ¬ special name) by (by eapply sem_not_special).
    assert (Hw : name ∈ writers ∨ name = B "zadd").
    { destruct (sem_kinds E _ _ _ _ Hs) as [Hr|[Hw|Hz]]; [|by left|by right].
      by destruct (sem_reads E _ _ _ _ _ _ Hr Hs). }
    destruct Hw as [Hw|Hz].
    2:{ (* zadd *)
      assert (ar = -4) as ->.
      { eapply (arities_fun name); [exact Har|]. rewrite Hz. apply (bool_decide_unpack _). by vm_compute. }
      apply accepts_bad in Hacc as Hacc'. destruct l as [|key l]; [by vm_compute in Hacc'|].
      assert (Hs1 : sem_zadd E (a :: key :: l) D (Ok (Out D' r n))).
      { eapply (sem_inv E name); [rewrite Hz; by repeat constructor|done]. }
      split; [by eapply zadd_fresh|].
      exists [a :: key :: l]. split; [|split; [by apply Forall_singleton|split; [|done]]].
      { unfold log_text in Ht. rewrite Hz in Ht. rewrite !decide_False in Ht by done. injection Ht as <-. by rewrite log_one. }
      rewrite Hz in Hcare. by eapply leads_zadd. }
    destruct (writers_cases name Hw Hex) as [Hp|[He|[He|He]]].
    - split.
      { destruct Hs as (R & HR & Hs).
        destruct (plain_same eq H E E eq_refl ltac:(lia) ltac:(lia) name (a :: l) R R D D D' r n _ Hp HR HR (sim_refl D Htm) HF HF HZ HZ ltac:(by rewrite Hlib) Hs Hs) as (D2' & [= ->] & _ & HF'). done. }
      exists [a :: l]. split; [|split; [|split; [|done]]].
      + unfold log_text in Ht. rewrite !decide_False in Ht.
        * injection Ht as <-. by rewrite log_one.
        * intros ->. revert Hp. unfold plain. apply (bool_decide_unpack _). by vm_compute.
        * intros ->. revert Hp. unfold plain. apply (bool_decide_unpack _). by vm_compute.
      + by apply Forall_singleton.
      + eapply leads_data; try done.
        { fold name. intros Hin. rewrite !elem_of_cons, elem_of_nil in Hin. destruct Hin as [Hin|[Hin|[]]]; [|done].
          rewrite Hin in Hp. revert Hp. unfold plain. apply (bool_decide_unpack _). by vm_compute. }
        intros E2 D2 o Hl2 HE2 Hsim HF2 HZ2 Ho. fold name in Ho.
        destruct Hs as (R & HR & Hs). destruct Ho as (R2 & HR2 & Ho).
        destruct (plain_same near H E E2 ltac:(congruence) ltac:(lia) HE2 name (a :: l) R R2 D D2 D' r n o Hp HR HR2 Hsim HF HF2 HZ HZ2 ltac:(by rewrite Hlib) Hs Ho)
          as (D2' & -> & Hs' & HF'). by eauto 10.
    - (* expire *)
      assert (ar = 3) as ->.
      { eapply (arities_fun name); [exact Har|]. rewrite He. apply (bool_decide_unpack _). by vm_compute. }
      apply accepts_bad in Hacc. destruct l as [|key [|b [|]]]; [by vm_compute in Hacc..| |exfalso; by apply (arity_pos 2) in Hacc].
      unfold log_text in Ht. rewrite decide_True in Ht by done. destruct (Atoi b) as [n0|] eqn:Hb; [|done]. injection Ht as <-.
      assert (Hask : asks (cf_lib cf) [a; key; b] (e_unix E) = Some (e_unix E + n0)).
      { unfold asks. fold name. rewrite decide_True by done. by rewrite Hb. }
      apply Hasks in Hask as [Hlo Hhi].
      assert (Hs1 : sem_expire E (λ n, wrap64 (e_now E + ms n)) [a; key; b] D (Ok (Out D' r n))).
      { eapply (sem_inv E name); [rewrite He; by repeat constructor|done]. }
      split; [by eapply (expire_fresh a key b n0)|].
      exists [[B "expireat"; key; itoa (wrap64 (e_unix E + n0))]]. split; [by rewrite log_one|]. split; [apply Forall_singleton; record_own Hlow 3|].
      assert (Hat : lib_lower (cf_lib cf) (B "expireat") = B "expireat").
      { apply (Hlow _ 3). apply (bool_decide_unpack _). by vm_compute. }
      split; [|split; [done|]]; [|rewrite draws_one, Hat; unfold levels; rewrite decide_False by done; lia].
      eapply (leads_data _ _ _ _ _ _ 3 HD); rewrite ?Hat.
      + apply (bool_decide_unpack _). by vm_compute.
      + by vm_compute.
      + unfold special. intros [?|[?|?]]; done.
      + apply (bool_decide_unpack _). by vm_compute.
      + intros E2 D2 o Hl2 HE2 Hsim HF2 _ Ho.
        assert (Ho1 : sem_expire E2 ms [B "expireat"; key; itoa (wrap64 (e_unix E + n0))] D2 o).
        { eapply (sem_inv E2 (B "expireat")); [by repeat constructor|done]. }
        destruct (expire_same H E E2 ltac:(lia) key a (B "expireat") b n0 D D2 D' r n o) as (D2' & r' & -> & ?); try done; try lia. by eauto 10.
    - (* expireat *)
      assert (ar = 3) as ->.
      { eapply (arities_fun name); [exact Har|]. rewrite He. apply (bool_decide_unpack _). by vm_compute. }
      apply accepts_bad in Hacc as Hacc'. destruct l as [|key [|b [|]]]; [by vm_compute in Hacc'..| |exfalso; by apply (arity_pos 2) in Hacc'].
      assert (Hs1 : sem_expire E ms [a; key; b] D (Ok (Out D' r n))).
      { eapply (sem_inv E name); [rewrite He; by repeat constructor|done]. }
      destruct (Atoi b) as [n0|] eqn:Hb.
      2:{ unfold sem_expire, fn in Hs1. rewrite Hb in Hs1. by injection Hs1 as _ _ <-. }
      assert (Hask : asks (cf_lib cf) [a; key; b] (e_unix E) = Some n0).
      { unfold asks. fold name. rewrite decide_False by (rewrite He; done). by rewrite decide_True by done. }
      apply Hasks in Hask as [Hlo Hhi].
      split.
      { unfold sem_expire, fn in Hs1. rewrite Hb in Hs1. injection Hs1 as <- _ _.
        assert (ms n0 = n0 * 1000) as -> by (apply wrap64_id; unfold in_int64, minInt64, maxInt64; lia). apply fresh_insert; [done|lia]. }
      exists [[a; key; b]]. split; [|split; [by apply Forall_singleton|split; [|done]]].
      { unfold log_text in Ht. rewrite He in Ht. rewrite !decide_False in Ht by done. injection Ht as <-. by rewrite log_one. }
      eapply leads_data; try done.
      { fold name. rewrite He. apply (bool_decide_unpack _). by vm_compute. }
      intros E2 D2 o Hl2 HE2 Hsim HF2 _ Ho. fold name in Ho.
      assert (Ho1 : sem_expire E2 ms [a; key; b] D2 o).
      { eapply (sem_inv E2 name); [rewrite He; by repeat constructor|done]. }
      destruct (expireat_same H E E2 key a b n0 Hb ltac:(lia) HH D D2 D' r n o) as (D2' & -> & ?); try done. by eauto 10.
    - (* setex *)
      assert (ar = 4) as ->.
      { eapply (arities_fun name); [exact Har|]. rewrite He. apply (bool_decide_unpack _). by vm_compute. }
      apply accepts_bad in Hacc as Hacc'. destruct l as [|key [|b [|v [|]]]]; [by vm_compute in Hacc'..| |exfalso; by apply (arity_pos 3) in Hacc'].
      unfold log_text in Ht. rewrite He in Ht. rewrite decide_False in Ht by done. rewrite decide_True in Ht by done.
      destruct (Atoi b) as [n0|] eqn:Hb; [|done]. injection Ht as <-.
      assert (Hask : asks (cf_lib cf) [a; key; b; v] (e_unix E) = Some (e_unix E + n0)).
      { unfold asks. fold name. rewrite decide_True by done. by rewrite Hb. }
      apply Hasks in Hask as [Hlo Hhi].
      assert (Hat : lib_lower (cf_lib cf) (B "expireat") = B "expireat").
      { apply (Hlow _ 3). apply (bool_decide_unpack _). by vm_compute. }
      assert (Hst : lib_lower (cf_lib cf) (B "set") = B "set").
      { apply (Hlow _ (-3)). apply (bool_decide_unpack _). by vm_compute. }
      assert (Hs1 : sem_setex E [a; key; b; v] D (Ok (Out D' r n))).
      { eapply (sem_inv E name); [rewrite He; by repeat constructor|done]. }
      (* the database between the two commands *)
      set (D1 := ADB (<[key := AStr v]> (a_keys D)) (delete key (a_ttl D))).
      assert (HF1 : fresh H D1) by (by apply fresh_delete).
      assert (Htm1 : tame_db D1).
      { intros k m s Hk. cbn [D1 a_keys] in Hk. apply lookup_insert_Some in Hk as [[_ ?]|[_ Hk]]; [done|by eapply Htm]. }
      assert (HsX : sem_expire E (λ n, wrap64 (e_now E + ms n)) [a; key; b] D1 (Ok (Out D' ROK 1))).
      { unfold sem_setex, fn in Hs1. rewrite Hb in Hs1. injection Hs1 as <- _ _. unfold sem_expire, fn. rewrite Hb.
        unfold D1. cbn [a_keys a_ttl]. by rewrite insert_delete_insert. }
      split; [by eapply (expire_fresh a key b n0)|].
      exists ([[B "set"; key; v]] ++ [[B "expireat"; key; itoa (wrap64 (e_unix E + n0))]]).
      split; [by rewrite log_app, !log_one|]. split; [apply Forall_app; split; apply Forall_singleton; [record_own Hlow (-3)|record_own Hlow 3]|].
      split; [|split; [done|]]; [|rewrite draws_app, (draws_one _ (B "set")), draws_one, Hat, Hst; unfold levels; rewrite !decide_False by done; lia].
      eapply (leads_ext _ (<[db := D']> (<[db := D1]> dbs))); [by rewrite list_insert_insert|].
      eapply leads_app.
      + eapply (leads_data _ _ _ D1 _ _ (-3) HD); rewrite ?Hst.
        * apply (bool_decide_unpack _). by vm_compute.
        * by vm_compute.
        * unfold special. intros [?|[?|?]]; done.
        * apply (bool_decide_unpack _). by vm_compute.
        * intros E2 D2 o Hl2 HE2 Hsim HF2 _ Ho.
          assert (Ho1 : sem_set [B "set"; key; v] D2 o) by (eapply (sem_inv E2 (B "set")); [by repeat constructor|done]).
          destruct (set_same near H [B "set"; key; v] D D2 D1 ROK 1 o) as (D2' & -> & ?); try done. by eauto 10.
      + eapply (leads_data _ _ D1 _ _ _ 3); rewrite ?Hat.
        * apply list_lookup_insert. by eapply lookup_lt_Some.
        * apply (bool_decide_unpack _). by vm_compute.
        * by vm_compute.
        * unfold special. intros [?|[?|?]]; done.
        * apply (bool_decide_unpack _). by vm_compute.
        * intros E2 D2 o Hl2 HE2 Hsim HF2 _ Ho.
          assert (Ho1 : sem_expire E2 ms [B "expireat"; key; itoa (wrap64 (e_unix E + n0))] D2 o).
          { eapply (sem_inv E2 (B "expireat")); [by repeat constructor|done]. }
          destruct (expire_same H E E2 ltac:(lia) key a (B "expireat") b n0 D1 D2 D' ROK 1 o) as (D2' & r' & -> & ?); try done; try lia. by eauto 10.
  Qed.
End step.

(** ** The log of a history *)
(** one event of a calm history: the commands [more] that it adds to the log do the
    same when they are replayed *)
Definition adds (cf : config) (H : Z) (y y' : sys) (db db' : nat) (more : list (list bytes)) : Prop :=
  y_file y' ++ s_aofbuf (y_srv y') = (y_file y ++ s_aofbuf (y_srv y)) ++ log_file more ∧
  s_rwbuf (y_srv y') = s_rwbuf (y_srv y) ++ (if s_task (y_srv y) then log_file more else []) ∧
  Forall (good_record cf) more ∧ Forall (fresh H) (abs_dbs (y_srv y')) ∧ s_select (y_srv y') = Z.of_nat db' ∧
  leads cf H (abs_dbs (y_srv y)) (abs_dbs (y_srv y')) db db' more ∧
  (more = [] → abs_dbs (y_srv y') = abs_dbs (y_srv y)).
Definition draws_le (cf : config) (e : event) (more : list (list bytes)) : Prop :=
  (draws (cf_lib cf) more ≤ draws (cf_lib cf) (command_of e))%nat.
(** a command other than SETEX is logged as one command, perhaps after a SELECT *)
Definition one_record (cf : config) (e : event) : Prop :=
  match e with EvCommand _ (a :: _) _ _ _ => lib_lower (cf_lib cf) a ≠ B "setex" | _ => True end.
Definition whole (cf : config) (H : Z) (e : event) (y : sys) (db : nat) (more : list (list bytes)) : Prop :=
  one_record cf e → ∀ m, (m < length more)%nat → ∃ db1, leads cf H (abs_dbs (y_srv y)) (abs_dbs (y_srv y)) db db1 (take m more).
Lemma log_text_ne E name args : log_text E name args ≠ Some [].
Proof.
  assert (Hc : ∀ c l, encode c ++ l ≠ []).
  { intros c l He. pose proof (encode_pos c). apply (f_equal length) in He. rewrite app_length in He. simpl in He. lia. }
  assert (Hc' : ∀ c, encode c ≠ []) by (intros c He; apply (Hc c []); by rewrite app_nil_r).
  unfold log_text. intros Ht. case_decide; [|case_decide].
  - destruct args as [|? [|? [|a [|]]]]; try done. destruct (Atoi a); [|done]. cbn [mbind option_bind] in Ht.
    assert (Hi : ∀ x : bytes, Some x = Some [] → x = []) by congruence. by apply Hi, Hc' in Ht.
  - destruct args as [|? [|? [|a [|? [|]]]]]; try done. destruct (Atoi a); [|done]. cbn [mbind option_bind] in Ht.
    assert (Hi : ∀ x : bytes, Some x = Some [] → x = []) by congruence. by apply Hi, Hc in Ht.
  - assert (Hi : ∀ x : bytes, Some x = Some [] → x = []) by congruence. by apply Hi, Hc' in Ht.
Qed.
Lemma adds_nothing cf H y y' db : y_file y' ++ s_aofbuf (y_srv y') = y_file y ++ s_aofbuf (y_srv y) →
  s_rwbuf (y_srv y') = s_rwbuf (y_srv y) → abs_dbs (y_srv y') = abs_dbs (y_srv y) →
  Forall (fresh H) (abs_dbs (y_srv y)) → s_select (y_srv y') = Z.of_nat db → adds cf H y y' db db [].
Proof.
  intros H1 H2 H3 H4 H5. unfold adds. rewrite H1, H2, H3. change (log_file []) with (@nil ascii). rewrite app_nil_r.
  split; [done|]. split; [by destruct (s_task _); rewrite app_nil_r|]. split; [by apply Forall_nil_2|]. split; [done|]. split; [done|]. split; [apply leads_nil|done].
Qed.
Lemma calm_step cf H evs e y y' db : lower_ok (cf_lib cf) → 0 ≤ H → cf_aof cf = true → Z.of_nat (cf_dbs cf) ≤ 2 ^ 44 →
  reaches cf evs y → history_ok cf (evs ++ [e]) → step cf e y = Ok y' → calm cf H e →
  careful_history cf (evs ++ [e]) →
  Forall (fresh H) (abs_dbs (y_srv y)) → s_select (y_srv y) = Z.of_nat db →
  ∃ db' more, adds cf H y y' db db' more ∧ whole cf H e y db more ∧ draws_le cf e more.
Proof.
  intros Hlow HH Haof Hdbs Hr Hh HS He Hcare HF Hsel.
  assert (Hnone : ∀ db', adds cf H y y' db db' [] → ∃ db' more, adds cf H y y' db db' more ∧ whole cf H e y db more ∧ draws_le cf e more).
  { intros db' Ha. exists db', []. split; [done|]. split; [intros _ m Hm; simpl in Hm; lia|]. unfold draws_le, draws. simpl. lia. }
  apply along_snoc in Hcare as [Hcare Hce]. pose proof (careful_tame cf evs y Hr Hcare) as Htame.
  specialize (Hce y ltac:(apply Hr)).
  pose proof (reaches_ok cf evs y Hr) as Hok.
  destruct Hh as (Hev & Hpos & Htot). rewrite total_app in Htot.
  apply Forall_app in Hev as [_ Hev]. apply Forall_cons in Hev as [Hev _].
  destruct e as [|i args now unix rs|i n|now rs| | |dump|file clock rs]; cbn [calm] in He.
  - injection HS as <-. apply (Hnone db). by apply adds_nothing.
  - destruct (y_cls y !! i) as [c|] eqn:Hc; [|cbn [step] in HS; rewrite Hc in HS; injection HS as <-; apply (Hnone db); by apply adds_nothing].
    destruct Hev as [Hargs Hrs].
    destruct (command_step cf evs y i c args now unix rs y' Hr Hc) as (v' & r & n & Hd); [|done|].
    { split; [done|]. split; [done|]. unfold total in *. simpl in *. lia. }
    destruct He as (Hnow & Hunix & Hex & Hzp & Hasks). pose proof (did_dbs _ _ _ _ _ _ _ _ _ _ Hd) as Hd'.
    destruct Hd as [Ht _ _ Hl Hf]. rewrite Haof in Hl. cbn [andb] in Hl.
    assert (Hquiet : n = 0 → v_dbs v' = abs_dbs (y_srv y) → ∃ db' more, adds cf H y y' db db' more ∧ whole cf H (EvCommand i args now unix rs) y db more ∧ draws_le cf (EvCommand i args now unix rs) more).
    { intros -> Hv. cbn in Hl. unfold lst in Hl. injection Hl as H1 H2 H3. apply (Hnone db). apply adds_nothing; congruence. }
    remember (Ok (v', r, n)) as o eqn:Eo. destruct Ht; try (injection Eo as <- <- <-; by apply Hquiet); try done.
    destruct ro as [[D' r' n']| |]; try done. cbn [on_view mbind res_bind] in Eo. injection Eo as <- <- <-.
    match goal with H : allowed _ _ _ _ |- _ => destruct H as ((a & l & ar & -> & -> & Har & Hacc) & _) end.
    cbn [view_at v_dbs v_db v_auth] in *. match goal with H : abs_dbs (y_srv y) !! _ = Some D |- _ => rename H into HD end.
    match goal with H : sem _ _ _ _ _ |- _ => rename H into Hs end.
    assert (HFD : fresh H D) by (by eapply Forall_lookup_1). cbn [env_at e_lib] in *.
    destruct (decide (n' = 0)) as [->|Hn].
    + apply Hquiet; [done|].
      enough (D' = D) as -> by (by rewrite list_insert_id).
      destruct (sem_kinds _ _ _ _ _ Hs) as [Hrd|[Hw|Hz]].
      * eapply (fresh_purged H (env_at cf now unix)); [done|simpl; lia|]. by destruct (sem_reads _ _ _ _ _ _ _ Hrd Hs).
      * eapply (fresh_purged H (env_at cf now unix)); [done|simpl; lia|]. destruct (sem_writes (env_at cf now unix) _ ar _ _ _ _ _ (or_introl Hw) Har Hacc Hs) as (key & _ & _ & _ & Hp & _). by apply Hp.
      * assert (ar = -4) as ->.
        { eapply (arities_fun (lib_lower (cf_lib cf) a)); [exact Har|]. rewrite Hz. apply (bool_decide_unpack _). by vm_compute. }
        apply accepts_bad in Hacc. destruct l as [|key [|b l]]; [by vm_compute in Hacc..|].
        eapply (zadd_quiet (env_at cf now unix)); [by eapply Hzp|].
        eapply (sem_inv (env_at cf now unix) (lib_lower (cf_lib cf) a)); [rewrite Hz; by repeat constructor|done].
    + apply Z.eqb_neq in Hn as Hn'. rewrite Hn' in Hl. cbn in Hl. destruct Hl as (a' & t & [= <-] & Htx & Hl).
      destruct (logged_leads cf H Hlow HH (abs_dbs (y_srv y)) (c_db c) D D' a l ar r' n' t (env_at cf now unix))
        as (HFD' & more & -> & Hmne & Hmore & Hone & Hdraw); try done.
      { by eapply Forall_lookup_1. }
      { intros key m s Hk. destruct (reaches_zset cf evs y (c_db c) D key m s Hr HD Hk) as (z & Hz). exists (total evs), z. split; [done|]. lia. }
      { by apply Hex. }
      { destruct l as [|key l]; [done|]. cbn [zcare]. intros m Hm. by eapply Hce. }
      pose proof (f_equal l_select Hl) as L1. pose proof (f_equal l_buf Hl) as L2. pose proof (f_equal l_rw Hl) as L3.
      unfold log_add, lst in L1, L2, L3. cbn [l_select l_buf l_rw] in L1, L2, L3.
      rewrite Hsel in L2, L3.
      assert (Hdb : (c_db c < length (abs_dbs (y_srv y)))%nat) by (by eapply lookup_lt_Some).
      assert (Hlen : length (abs_dbs (y_srv y)) = cf_dbs cf) by (rewrite abs_dbs_len; apply Hok).
      set (sel := if Z.of_nat db =? Z.of_nat (c_db c) then [] else [[B "select"; itoa (Z.of_nat (c_db c))]]).
      assert (Htext : (if Z.of_nat db =? Z.of_nat (c_db c) then [] else encode [B "select"; itoa (Z.of_nat (c_db c))]) ++ log_file more = log_file (sel ++ more)).
      { rewrite log_app. f_equal. unfold sel. case (Z.of_nat db =? Z.of_nat (c_db c)); [done|]. by rewrite log_one. }
      rewrite Htext in L2, L3. exists (c_db c), (sel ++ more).
      assert (Hsl : leads cf H (abs_dbs (y_srv y)) (abs_dbs (y_srv y)) db (c_db c) sel).
      { unfold sel. destruct (Z.eqb_spec (Z.of_nat db) (Z.of_nat (c_db c))).
        - assert (db = c_db c) as -> by lia. apply leads_nil.
        - apply leads_select; [done|done|lia]. }
      assert (Hsd : draws (cf_lib cf) sel = 0%nat).
      { unfold sel. case (Z.of_nat db =? Z.of_nat (c_db c)); [done|]. rewrite draws_one, (Hlow _ 2) by (apply (bool_decide_unpack _); by vm_compute). done. }
      split; [|split; [|unfold draws_le; rewrite draws_app, Hsd; exact Hdraw]].
      2:{ intros Hno m Hm. cbn [one_record] in Hno. specialize (Hone Hno). rewrite app_length, Hone in Hm.
          destruct (decide (m = length sel)) as [->|Hne]; [rewrite take_app; by eauto|].
          assert (m = 0%nat) as ->. { revert Hm Hne. unfold sel. case (Z.of_nat db =? Z.of_nat (c_db c)); simpl; lia. }
          exists db. apply leads_nil. }
      unfold adds.
      split; [by rewrite Hf, L2, app_assoc|].
      split; [rewrite L3; by destruct (s_task _); rewrite ?app_nil_r|].
      split.
      { apply Forall_app. split; [|done]. unfold sel. case (Z.of_nat db =? Z.of_nat (c_db c)); [by apply Forall_nil_2|apply Forall_singleton; record_own Hlow 2]. }
      rewrite Hd'. split; [by apply Forall_insert|].
      split; [done|]. split.
      2:{ intros [_ Hm]%app_eq_nil. subst more. by apply log_text_ne in Htx. }
      by eapply leads_app.
  - cbn [step] in HS. destruct (y_cls y !! i); injection HS as <-; apply (Hnone db); by apply adds_nothing.
  - cbn [step] in HS. destruct (databasesCron (env_at cf now 0) (s_dbs (y_srv y)) rs) as [[dbs' rs']| |] eqn:EC; try done.
    injection HS as <-. destruct Hok as [[S1 S2 S3 S4] _ _].
    pose proof (databasesCron_spec _ _ (s_heap (y_srv y)) _ _ _ _ S1 Hev EC) as (_ & Hp & _).
    apply (Hnone db). apply adds_nothing; try done. cbn [y_file y_srv].
    unfold abs_dbs in *. cbn [s_heap s_dbs set_dbs]. clear -Hp HF He. revert HF.
    induction Hp as [|D D' l l' H1 H2 IH]; intros HF; [done|]. apply Forall_cons in HF as [HF HF']. f_equal; [|by apply IH].
    by apply (fresh_purged H (env_at cf now 0)).
  - injection HS as <-. apply (Hnone db). apply adds_nothing; try done. cbn [y_file y_srv s_aofbuf s_select set_log]. by rewrite app_nil_r.
  - cbn [step] in HS. unfold rewriteAppendOnlyFileBackground in HS. destruct (s_task (y_srv y)).
    { injection HS as <-. apply (Hnone db). by apply adds_nothing. }
    destruct Hok as [[S1 S2 S3 S4] _ _].
    destruct (copy_dbs_spec _ (s_dbs (y_srv y)) S1) as (snap & EC & _); [unfold small, max_entries; simpl in *; lia|].
    rewrite EC in HS. cbn in HS. injection HS as <-. apply (Hnone db). by apply adds_nothing.
  - done.
  - done.
Qed.
Lemma new_fresh H n : Forall (fresh H) (abs_dbs (NewServer n)).
Proof. unfold abs_dbs. simpl. apply Forall_fmap, Forall_replicate. intros k T. simpl. by rewrite NewDict_map. Qed.
Theorem replay_history cf H evs y : lower_ok (cf_lib cf) → 0 ≤ H → cf_aof cf = true → Z.of_nat (cf_dbs cf) ≤ 2 ^ 44 →
  reaches cf evs y → Forall (calm cf H) evs → careful_history cf evs →
  ∃ cmds db, y_file y ++ s_aofbuf (y_srv y) = log_file cmds ∧ Forall (good_record cf) cmds ∧
    Forall (fresh H) (abs_dbs (y_srv y)) ∧ s_select (y_srv y) = Z.of_nat db ∧
    leads cf H (abs_dbs (NewServer (cf_dbs cf))) (abs_dbs (y_srv y)) 0 db cmds ∧
    (draws (cf_lib cf) cmds ≤ draws (cf_lib cf) (commands_of evs))%nat.
Proof.
  intros Hlow HH Haof Hdbs. revert y. induction evs as [|e evs IH] using rev_ind; intros y' Hr Hcalm Hcare.
  { destruct Hr as [_ [= <-]]. exists [], 0%nat. split; [done|]. split; [by apply Forall_nil_2|]. split; [|split; [done|split; [apply leads_nil|done]]].
    apply new_fresh. }
  apply Forall_app in Hcalm as [Hcalm He]. apply Forall_cons in He as [He _].
  apply reaches_snoc in Hr as (Hh & y & Hr & HS). pose proof Hcare as Hcare'. apply along_snoc in Hcare' as [Hcare' _].
  destruct (IH y Hr Hcalm Hcare') as (cmds & db & Hfile & Hne & HF & Hsel & Hlead & Hdr).
  destruct (calm_step cf H evs e y y' db) as (db' & more & (A1 & A2 & A3 & A4 & A5 & A6 & A7) & _ & Hd); try done.
  exists (cmds ++ more), db'. split; [by rewrite A1, Hfile, log_app|]. split; [by apply Forall_app|]. split; [done|]. split; [done|].
  split; [by eapply leads_app|]. unfold draws_le in Hd. rewrite commands_app, !draws_app. unfold commands_of at 2. cbn [mbind list_bind]. rewrite app_nil_r. lia.
Qed.
Lemma task_stays cf e y y' : step cf e y = Ok y' → (∀ d, e ≠ EvDone d) → ¬ is_boot e → s_task (y_srv y) = true → s_task (y_srv y') = true.
Proof.
  intros HS He Hb Ht. destruct e as [|i args now unix rs|i n|now rs| | |dump|file clock rs]; cbn [step] in HS.
  - by injection HS as <-.
  - destruct (y_cls y !! i) as [c|]; [|by injection HS as <-].
    destruct (processCommand _ _ _) as [[w' u]| |] eqn:EP; try done. injection HS as <-.
    destruct u. by apply (process_grows _ _ _ _ EP).
  - destruct (y_cls y !! i); by injection HS as <-.
  - destruct (databasesCron _ _ _) as [[dbs' rs']| |]; try done. by injection HS as <-.
  - by injection HS as <-.
  - unfold rewriteAppendOnlyFileBackground in HS. rewrite Ht in HS. by injection HS as <-.
  - by destruct (He dump).
  - by destruct Hb.
Qed.
(** the same from any state; the buffer of a running rewrite *)
Theorem replay_since cf H evs0 y0 db0 evs y : lower_ok (cf_lib cf) → 0 ≤ H → cf_aof cf = true → Z.of_nat (cf_dbs cf) ≤ 2 ^ 44 →
  reaches cf evs0 y0 → Forall (fresh H) (abs_dbs (y_srv y0)) → s_select (y_srv y0) = Z.of_nat db0 → s_task (y_srv y0) = true →
  reaches cf (evs0 ++ evs) y → Forall (calm cf H) evs → careful_history cf (evs0 ++ evs) →
  ∃ more db, s_rwbuf (y_srv y) = s_rwbuf (y_srv y0) ++ log_file more ∧ Forall (good_record cf) more ∧
    Forall (fresh H) (abs_dbs (y_srv y)) ∧ s_select (y_srv y) = Z.of_nat db ∧ s_task (y_srv y) = true ∧
    leads cf H (abs_dbs (y_srv y0)) (abs_dbs (y_srv y)) db0 db more ∧
    (draws (cf_lib cf) more ≤ draws (cf_lib cf) (commands_of evs))%nat ∧
    (more = [] → abs_dbs (y_srv y) = abs_dbs (y_srv y0)).
Proof.
  intros Hlow HH Haof Hdbs Hr0 HF0 Hsel0 Htask0. revert y. induction evs as [|e evs IH] using rev_ind; intros y' Hr Hcalm Hcare.
  { rewrite app_nil_r in Hr. assert (y' = y0) as ->. { destruct Hr as [_ Hr], Hr0 as [_ Hr0]. congruence. }
    exists [], db0. split; [by rewrite app_nil_r|]. split; [by apply Forall_nil_2|]. split; [done|]. split; [done|]. split; [done|]. split; [apply leads_nil|split; [done|done]]. }
  apply Forall_app in Hcalm as [Hcalm He]. apply Forall_cons in He as [He _]. rewrite app_assoc in Hr, Hcare.
  pose proof Hcare as Hcare'. apply along_snoc in Hcare' as [Hcare' _].
  apply reaches_snoc in Hr as (Hh & y & Hr & HS). destruct (IH y Hr Hcalm Hcare') as (cmds & db & Hrw & Hne & HF & Hsel & Htask & Hlead & Hdr & Hnone).
  destruct (calm_step cf H (evs0 ++ evs) e y y' db) as (db' & more & (A1 & A2 & A3 & A4 & A5 & A6 & A7) & _ & Hd); try done.
  exists (cmds ++ more), db'. rewrite Htask in A2. split; [by rewrite A2, Hrw, log_app, app_assoc|]. split; [by apply Forall_app|].
  split; [done|]. split; [done|]. split; [eapply task_stays; [exact HS|intros d ->; done|intros Hb; by destruct e|done]|].
  split; [by eapply leads_app|].
  split. { unfold draws_le in Hd. rewrite commands_app, !draws_app. unfold commands_of at 2. cbn [mbind list_bind]. rewrite app_nil_r. lia. }
  intros [-> ->]%app_eq_nil. by rewrite A7, Hnone.
Qed.
