(** Draws: SPOP and RANDOMGET (C53). *)
From Verif Require Import Base Float DictModel DictProofs DictProofs2
  DatabaseModel SetModel QuicklistModel QuicklistProofs SkiplistModel ZsetModel
  Strconv RespSpec ServerModel CommandModel CommandSem CommandInv CommandInv2 CommandProofs1 CommandProofs2
  CommandTop CommandFrame SystemModel SystemProofs CommandFacts ExampleLib PropsCommand PropsData PropsReply PropsExpire RandomProofs ExampleTools.
From Coq Require Import ZifyBool ZifyNat.

(** * What a client can get *)
(** SPOP of a set takes out one of its members and replies with it; an empty set or a
    missing key gives null, another kind of value an error; no other key is touched *)
Theorem C53_spop cf evs y i c args now unix rs D key y' :
  let E := env_at cf now unix in
  ready cf evs y i c (B "spop") args rs D → args !! 1%nat = Some key →
  step cf (EvCommand i args now unix rs) y = Ok y' →
  ∃ D' r, changed_to y y' c D' ∧ replied y y' i c r ∧ same_but key D D' ∧
    match live E D key with
    | Some (ASet s) => (s = ∅ ∧ r = RNull ∧ a_keys D' !! key = Some (ASet ∅) ∧ a_ttl D' !! key = a_ttl D !! key) ∨
        ∃ m, m ∈ s ∧ r = RBulk m ∧ a_keys D' !! key = Some (ASet (s ∖ {[m]})) ∧ a_ttl D' !! key = a_ttl D !! key
    | Some _ => r = RWrong ∧ D' = D
    | None => r = RNull ∧ a_keys D' !! key = None
    end.
Proof.
  intros E H Hkey HS.
  destruct (data_step cf evs y i c (B "spop") args now unix rs D y' H ltac:(not_special) HS) as (D' & r & n & Hsem & Hch & Hrep & _).
  exists D', r. split; [done|]. split; [done|]. fold E in Hsem.
  assert (Hsb : same_but key D D').
  { destruct H as [_ _ _ (a & l & ar & -> & Hn & Har & Hacc & _) _].
    destruct (sem_writes E (B "spop") ar _ _ _ _ _ ltac:(left; apply (bool_decide_unpack _); by vm_compute) Har Hacc Hsem) as (k' & Hk' & Hs & _).
    rewrite Hkey in Hk'. by injection Hk' as <-. }
  split; [done|]. apply (sem_inv _ _ (sem_spop E)) in Hsem; [|in_table]. unfold sem_spop in Hsem.
  destruct args as [|? [|? ?]]; try done. injection Hkey as ->. cbv zeta in Hsem. rewrite live_purge. unfold set_at in Hsem.
  destruct (a_keys (purge E key D) !! key) as [v|] eqn:Hv; [|injection Hsem as -> -> ->; done].
  assert (HP : purge E key D = D). { unfold purge in *. destruct (decide _); [|done]. simpl in Hv. by rewrite lookup_delete in Hv. }
  rewrite ?HP in Hsem. destruct v as [?|?|?|s|? ?]; try (injection Hsem as -> -> ->; done).
  destruct Hsem as [[-> Hsem]|[Hne [?|(m & Hm & Hsem)]]]; [|done|].
  - injection Hsem as -> -> ->. left. rewrite HP in Hv. done.
  - injection Hsem as -> -> ->. right. exists m. simpl. by rewrite lookup_insert.
Qed.
Print Assumptions C53_spop.

(** * What a client may get *)
Lemma picked cf evs y i c name proc ar args now unix rs D r0 :
  let E := env_at cf now unix in
  ready cf evs y i c name args rs D → ¬ special name → lookupCommand E name = Some (Cmd name proc ar) → (name, ar) ∈ arities →
  name ∉ [B "expire"; B "setex"] →
  (∀ w0 N w, At w0 N D [] 0 w → ∃ rs D' n, Forall (λ r, 0 ≤ r) rs ∧ ends w0 N (proc args (with_rs w rs)) (Ok (Out D' r0 n))) →
  ∃ rs' y' D' r n, Forall (λ r, 0 ≤ r) rs' ∧ step cf (EvCommand i args now unix rs') y = Ok y' ∧
    sem E name args D (Ok (Out D' r n)) ∧ changed_to y y' c D' ∧ replied y y' i c r ∧ enc r = enc r0.
Proof.
  intros E H Hsp Hl Har Hne Hd. pose proof H as [Hr Hc (Ha & Hrs & Ht) (a & l & ar' & Hargs & Hn & Har' & Hacc & Hperm) HD].
  pose proof (client_world _ _ _ _ _ [] (reaches_ok _ _ _ Hr) Hc (Forall_nil_2 _)) as Hw.
  destruct (cur_view _ _ Hw) as (D1 & HD1 & HA). simpl in HD1. rewrite HD in HD1. injection HD1 as <-.
  destruct (Hd _ _ _ HA) as (rs' & D' & n & Hrs' & Hend).
  assert (Hend' : ends (W (y_srv y) c rs') (total evs) (proc args (W (y_srv y) c rs')) (Ok (Out D' r0 n))).
  { destruct Hend as (w' & E1 & [? ? ? ? ? ? ?]). exists w'. split; [exact E1|]. by split. }
  destruct (handler_reply E (total evs) (W (y_srv y) c rs') args a l (Cmd name proc ar) D' r0 n name) as (w' & E1 & Hout); [done..| |done|done|exact Hend'|].
  { apply (arities_fun name ar' ar Har') in Har as ->. by apply accepts_bad. }
  assert (HS : step cf (EvCommand i args now unix rs') y = Ok (Sys (w_srv w') (<[i := w_cl w']> (y_cls y)) (y_file y))).
  { cbn [step]. rewrite Hc. fold E. by rewrite E1. }
  assert (H' : ready cf evs y i c name args rs' D). { split; try done. exists a, l, ar'. done. }
  destruct (data_step _ _ _ _ _ _ _ _ _ _ _ _ H' Hsp HS) as (D2 & r & n2 & Hsem & Hch & Hrep & _).
  eexists rs', _, D2, r, n2. split_and!; [done..|].
  destruct Hrep as (c' & Hcl & _ & _ & Hj). simpl in Hcl. assert (Hlt : (i < length (y_cls y))%nat) by (by eapply lookup_lt_Some).
  assert (w_cl w' = c') as Hcc. { apply (f_equal (.!! i)) in Hcl. rewrite !list_lookup_insert in Hcl by done. by injection Hcl. }
  rewrite <-Hcc, Hout in Hj. simpl in Hj. by apply app_inv_head in Hj.
Qed.
Lemma bulk_inj s t : bulk s = bulk t → s = t.
Proof.
  intros H. pose proof (decode_bulk 0 s []) as H1. rewrite H in H1. rewrite decode_bulk in H1. by injection H1.
Qed.
(** Every member can be the one that SPOP takes: some outcome of the generator leads to it. *)
Theorem C53_any_member cf evs y i c args now unix rs D key s m :
  let E := env_at cf now unix in
  ready cf evs y i c (B "spop") args rs D → args !! 1%nat = Some key → live E D key = Some (ASet s) → m ∈ s →
  ∃ rs' y' D', Forall (λ r, 0 ≤ r) rs' ∧ step cf (EvCommand i args now unix rs') y = Ok y' ∧ replied y y' i c (RBulk m) ∧
    changed_to y y' c D' ∧ same_but key D D' ∧ a_keys D' !! key = Some (ASet (s ∖ {[m]})) ∧ a_ttl D' !! key = a_ttl D !! key.
Proof.
  intros E H Hkey Hl Hm.
  assert (Hargs : ∃ a, args = [a; key]).
  { destruct H as [_ _ _ (a & l & ar & -> & _ & Har & Hacc & _) _]. rewrite (arities_fun (B "spop") ar 2 Har) in Hacc by in_table.
    unfold accepts in Hacc. simpl in Hacc. destruct l as [|k [|? ?]]; unfold zlen in Hacc; cbn [length] in Hacc; try lia. injection Hkey as ->. by exists a. }
  destruct Hargs as [a ->].
  destruct (picked cf evs y i c (B "spop") (sPopCommand E) 2 [a; key] now unix rs D (RBulk m) H) as (rs' & y' & D' & r & n & Hrs & HS & Hsem & Hch & Hrep & Hen);
    [not_special|unfold lookupCommand; reflexivity|in_table|by_compute| |].
  { intros w0 N w HA. rewrite live_purge in Hl. destruct (spop_draws E w0 N D w a key s m HA Hl Hm) as (rs' & ? & ?). by eauto. }
  assert (H' : ready cf evs y i c (B "spop") [a; key] rs' D). { destruct H as [? ? (? & ? & ?) ? ?]. by split. }
  destruct (C53_spop cf evs y i c [a; key] now unix rs' D key y' H' eq_refl HS) as (D1 & r1 & Hch1 & Hrep1 & Hsb & Hm1). fold E in Hm1. rewrite Hl in Hm1.
  assert (Her : enc r1 = enc r).
  { destruct Hrep as (c1 & Hc1 & _ & _ & Ho1), Hrep1 as (c2 & Hc2 & _ & _ & Ho2). rewrite Hc1 in Hc2.
    assert (Hlt : (i < length (y_cls y))%nat) by (eapply lookup_lt_Some; apply H).
    apply (f_equal (.!! i)) in Hc2. rewrite !list_lookup_insert in Hc2 by done. injection Hc2 as <-. rewrite Ho1 in Ho2. by apply app_inv_head in Ho2. }
  destruct Hm1 as [(-> & _)|(m1 & Hm1 & -> & HD1 & Ht1)]; [set_solver|].
  rewrite Hen in Her. apply bulk_inj in Her as ->. by exists rs', y', D1.
Qed.
Print Assumptions C53_any_member.
(** RANDOMGET can name every live key ([C33_randomget]: and no other). *)
Theorem C53_any_key cf evs y i c args now unix rs D k :
  let E := env_at cf now unix in
  ready cf evs y i c (B "randomget") args rs D → is_Some (live E D k) →
  ∃ rs' y', Forall (λ r, 0 ≤ r) rs' ∧ step cf (EvCommand i args now unix rs') y = Ok y' ∧ replied y y' i c (RBulk k).
Proof.
  intros E H Hl. apply live_Some in Hl as [Hk Hx].
  destruct (picked cf evs y i c (B "randomget") (randomGetCommand E) 1 args now unix rs D (RBulk k) H) as (rs' & y' & D' & r & n & Hrs & HS & Hsem & Hch & Hrep & Hen);
    [not_special|unfold lookupCommand; reflexivity|in_table|by_compute| |].
  { intros w0 N w HA. destruct (randomget_draws E w0 N D w args k HA Hk Hx) as (rs' & ? & ?). by eauto. }
  exists rs', y'. split_and!; [done..|]. unfold replied in *. by rewrite <-Hen.
Qed.
Print Assumptions C53_any_key.

(** * Several clients draw from one set *)
(** [evs] leads from [y] to [y']; key [k] of database [j] is changed by nothing but SPOP,
    and [outs] are the bytes these SPOPs send to the clients *)
Inductive drawing (cf : config) (j : nat) (k : bytes) : sys → list event → sys → list bytes → Prop :=
| drawing_end y : drawing cf j k y [] y []
| drawing_other y e y1 evs y' outs : ¬ writes_to cf y e j k → step cf e y = Ok y1 → drawing cf j k y1 evs y' outs →
    drawing cf j k y (e :: evs) y' outs
| drawing_spop y i c c' args now unix rs y1 evs y' o outs : y_cls y !! i = Some c → c_db c = j → runs cf c (B "spop") args →
    args !! 1%nat = Some k → step cf (EvCommand i args now unix rs) y = Ok y1 → y_cls y1 !! i = Some c' →
    mjoin (c_out c') = mjoin (c_out c) ++ o → drawing cf j k y1 evs y' outs →
    drawing cf j k y (EvCommand i args now unix rs :: evs) y' (o :: outs).
(** No member is given to two clients, whoever draws and whatever happens in between; the
    set is what has not been drawn; null is the reply if and only if nothing is left. *)
Theorem C53_once cf j k y evs2 y' outs : drawing cf j k y evs2 y' outs → ∀ evs D s, reaches cf evs y → history_ok cf (evs ++ evs2) →
  abs_dbs (y_srv y) !! j = Some D → a_keys D !! k = Some (ASet s) → a_ttl D !! k = None →
  ∃ ms n D', outs = ((λ m, enc (RBulk m)) <$> ms) ++ replicate n (enc RNull) ∧ NoDup ms ∧ (∀ m, m ∈ ms → m ∈ s) ∧
    (n ≠ 0%nat → ∀ m, m ∈ s → m ∈ ms) ∧
    abs_dbs (y_srv y') !! j = Some D' ∧ a_keys D' !! k = Some (ASet (s ∖ list_to_set ms)) ∧ a_ttl D' !! k = None.
Proof.
  induction 1 as [y|y e y1 evs2 y' outs Hw HS HDr IH|y i c c' args now unix rs y1 evs2 y' o outs Hc Hj Hruns Hkey HS Hc' Ho HDr IH];
    intros evs D s Hr Hh HD Hs Ht.
  - exists [], 0%nat, D. split_and!; [done|constructor|set_solver|done|done| |done]. simpl. by rewrite difference_empty_L.
  - replace (evs ++ e :: evs2) with ((evs ++ [e]) ++ evs2) in Hh by (by rewrite <-app_assoc). pose proof (history_prefix _ _ _ Hh) as Hh1.
    destruct (step_stays _ _ _ _ _ _ _ k Hr Hh1 HS Hw HD) as (D1 & HD1 & [[S1 S2]|(when & ? & Hx & _)]); [|by rewrite Ht in Hx].
    eapply (IH (evs ++ [e]) D1 s); [apply reaches_snoc; eauto|done|done|by rewrite S1|by rewrite S2].
  - set (e := EvCommand i args now unix rs) in *.
    replace (evs ++ e :: evs2) with ((evs ++ [e]) ++ evs2) in Hh by (by rewrite <-app_assoc). pose proof (history_prefix _ _ _ Hh) as Hh1.
    assert (H : ready cf evs y i c (B "spop") args rs D). { split; try done. - by eapply history_cmd_ok. - by rewrite Hj. }
    destruct (C53_spop cf evs y i c args now unix rs D k y1 H Hkey HS) as (D1 & r & Hch & Hrep & _ & Hm).
    unfold live in Hm. rewrite Ht, Hs in Hm.
    assert (HD1 : abs_dbs (y_srv y1) !! j = Some D1). { rewrite Hch, Hj. apply list_lookup_insert. by eapply lookup_lt_Some. }
    assert (o = enc r) as ->.
    { destruct Hrep as (c2 & Hc2 & _ & _ & Ho2). rewrite Hc2, list_lookup_insert in Hc' by (by eapply lookup_lt_Some). injection Hc' as ->.
      rewrite Ho2 in Ho. by apply app_inv_head in Ho. }
    assert (Hr1 : reaches cf (evs ++ [e]) y1) by (apply reaches_snoc; eauto).
    destruct Hm as [(-> & -> & H1 & H2)|(m & Hm & -> & H1 & H2)].
    + destruct (IH (evs ++ [e]) D1 ∅ Hr1 Hh HD1 H1) as (ms & n & D' & -> & Hnd & Hsub & _ & HD' & HK & HT); [by rewrite H2|].
      assert (ms = []) as ->. { destruct ms as [|m ms]; [done|]. specialize (Hsub m). set_solver. }
      exists [], (S n), D'. split_and!; [done..|set_solver|done|done|done].
    + destruct (IH (evs ++ [e]) D1 (s ∖ {[m]}) Hr1 Hh HD1 H1) as (ms & n & D' & -> & Hnd & Hsub & Hall & HD' & HK & HT); [by rewrite H2|].
      exists (m :: ms), n, D'. split_and!; [done| |set_solver| |done| |done].
      * constructor; [|done]. intros Hin%Hsub. set_solver.
      * intros Hn m' Hm'. destruct (decide (m' = m)) as [->|?]; [left|right]. apply Hall; set_solver.
      * rewrite HK. do 2 f_equal. simpl. set_solver.
Qed.
Print Assumptions C53_once.

(** * Concrete cases *)
(** the outcome of a history that draws from [k] *)
Fixpoint draws_of (cf : config) (j : nat) (k : bytes) (y : sys) (evs : list event) : option (sys * list bytes) :=
  match evs with
  | [] => Some (y, [])
  | e :: evs =>
      match step cf e y with
      | Ok y1 =>
          if writes_check cf y e j k then
            match e with
            | EvCommand i (a :: k' :: []) now unix rs =>
                match y_cls y !! i, y_cls y1 !! i with
                | Some c, Some c' =>
                    if bool_decide (lib_lower (cf_lib cf) a = B "spop") && bool_decide (k' = k) && bool_decide (c_db c = j) && bool_decide (cf_password cf = []) &&
                       bool_decide (mjoin (c_out c') = mjoin (c_out c) ++ drop (length (mjoin (c_out c))) (mjoin (c_out c')))
                    then r ← draws_of cf j k y1 evs; Some (r.1, drop (length (mjoin (c_out c))) (mjoin (c_out c')) :: r.2)
                    else None
                | _, _ => None
                end
            | _ => None
            end
          else draws_of cf j k y1 evs
      | _ => None
      end
  end.
Lemma writes_check_false cf y e j k : writes_check cf y e j k = false → ¬ writes_to cf y e j k.
Proof.
  intros H1 Hw. unfold writes_to in Hw. unfold writes_check in H1. destruct e as [|i [|a [|k' l]] now unix rs|i n|now rs| | |dump|file clock rs]; try done.
  destruct Hw as (c & Hc & <- & -> & Hn). rewrite Hc, !bool_decide_eq_true_2 in H1; [done| |done|done]. destruct Hn as [Hn| ->]; [by right|left].
Qed.
Lemma draws_of_ok cf j k evs : ∀ y y' outs, draws_of cf j k y evs = Some (y', outs) → drawing cf j k y evs y' outs.
Proof.
  induction evs as [|e evs IH]; intros y y' outs; cbn [draws_of].
  - intros [= <- <-]. constructor.
  - destruct (step cf e y) as [y1| |] eqn:HS; [|done..]. destruct (writes_check cf y e j k) eqn:Hw.
    + destruct e as [|i [|a [|k' [|? ?]]] now unix rs|i n|now rs| | |dump|file clock rs]; try done.
      destruct (y_cls y !! i) as [c|] eqn:Hc; [|done]. destruct (y_cls y1 !! i) as [c'|] eqn:Hc'; [|done].
      destruct (_ && _) eqn:Hb; [|done]. rewrite !andb_true_iff, !bool_decide_eq_true in Hb. destruct Hb as [[[[H1 ->] H3] H4] H5].
      destruct (draws_of cf j k y1 evs) as [[y2 os]|] eqn:HD; [|done]. cbn [mbind option_bind fst snd]. intros [= <- <-].
      eapply drawing_spop; [done|done| |done|done|done|exact H5|by apply IH].
      exists a, [k], 2. split_and!; [done|done|in_table| |by left]. unfold accepts, zlen. simpl. lia.
    + intros HD. eapply drawing_other; [by apply writes_check_false|done|by apply IH].
Qed.
Definition draws (cf : config) (j : nat) (k : bytes) (y : sys) (evs : list event) : sys * list bytes := default (y, []) (draws_of cf j k y evs).
Lemma draws_ok cf j k y evs : match draws_of cf j k y evs with Some _ => true | None => false end = true →
  drawing cf j k y evs (draws cf j k y evs).1 (draws cf j k y evs).2.
Proof. intros H. apply draws_of_ok. unfold draws. by destruct (draws_of cf j k y evs) as [[? ?]|]. Qed.
Definition h_draw : list event := [EvConnect; EvConnect; cmd 0 5 "SADD s a b c"; cmd 0 5 "SET x y"].
Definition pop (i : nat) (rs : list Z) : event := EvCommand i (words "SPOP s") 5 5 rs.
Definition rr (n : Z) : list Z := n :: concat (replicate 20 [0; 1; 2; 3]).
Definition h_race : list event :=
  [pop 0 (rr 1); cmd 1 6 "SET t u"; pop 1 (rr 3); EvCron 100 (concat (replicate 200 [0; 1; 2; 3])); cmd 0 6 "SMEMBERS s"; pop 0 (rr 0); pop 1 []].
Definition set_in (y : sys) (i : nat) (k : bytes) : gset bytes := match a_keys (db_of y i) !! k with Some (ASet s) => s | _ => ∅ end.
Definition is_set (y : sys) (i : nat) (k : bytes) : bool :=
  match a_keys (db_of y i) !! k, a_ttl (db_of y i) !! k with Some (ASet s), None => true | _, _ => false end.
Lemma set_in_ok E y i k : is_set y i k = true → live E (db_of y i) k = Some (ASet (set_in y i k)).
Proof. unfold is_set, set_in, live. destruct (a_keys (db_of y i) !! k) as [[]|]; try done. by destruct (a_ttl (db_of y i) !! k). Qed.
Example C53_example :
  let y := state_of cf0 h_draw in
  ready cf0 h_draw y 0 (who y 0) (B "spop") (words "SPOP s") [] (db_of y 0) ∧
  (∃ s, live (env_at cf0 5 5) (db_of y 0) (B "s") = Some (ASet s) ∧ Forall (.∈ s) [B "a"; B "b"; B "c"]) ∧
  live (env_at cf0 5 5) (db_of y 0) (B "x") = Some (AStr (B "y")) ∧
  ready cf0 h_draw y 0 (who y 0) (B "randomget") (words "RANDOMGET") [] (db_of y 0) ∧
  history_ok cf0 (h_draw ++ h_race) ∧ abs_dbs (y_srv y) !! 0%nat = Some (db_of y 0) ∧ a_ttl (db_of y 0) !! B "s" = None ∧
  ∃ y' outs, drawing cf0 0 (B "s") y h_race y' outs ∧ length outs = 4%nat ∧ last outs = Some (enc RNull).
Proof.
  intros y. assert (H : ready cf0 h_draw y 0 (who y 0) (B "spop") (words "SPOP s") [] (db_of y 0)) by (apply ready_at; by vm_compute).
  split; [done|]. split; [eexists; split; [apply set_in_ok; by vm_compute|by_compute]|]. split; [by vm_compute|].
  split; [apply ready_at; by vm_compute|]. split; [apply history_check_ok; by vm_compute|].
  split; [replace 0%nat with (c_db (who y 0)) by (by vm_compute); exact (rd_db _ _ _ _ _ _ _ _ _ H)|]. split; [by vm_compute|].
  eexists _, _. split; [apply draws_ok|split]; by vm_compute.
Qed.
