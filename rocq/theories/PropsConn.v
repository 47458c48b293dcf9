(** The database a connection works on (C28). *)
From Verif Require Import Base Float DictModel DictProofs DictProofs2
  Strconv RespSpec ServerModel CommandModel CommandSem CommandInv CommandInv2
  CommandTop CommandFrame SystemModel SystemProofs CommandFacts ExampleLib PropsCommand ExampleTools.
From Coq Require Import ZifyBool ZifyNat.

(** the database of every connection after a history, read off the history alone: 0 at
    first, then the index of the latest SELECT of that connection that had one argument, a number
    below the number of databases, and came when commands were permitted to it *)
Definition select_event (cf : config) (auth : list bool) (l : list nat) (e : event) : list nat :=
  match e with
  | EvConnect => l ++ [0%nat]
  | EvBoot _ _ _ => []
  | EvCommand i [a; x] _ _ _ =>
      if decide (lib_lower (cf_lib cf) a = B "select" ∧ (cf_password cf = [] ∨ auth !! i = Some true)) then
        match Atoi x with
        | Some k => if (0 <=? k) && (k <? Z.of_nat (cf_dbs cf)) then <[i := Z.to_nat k]> l else l
        | None => l
        end
      else l
  | _ => l
  end.
Fixpoint selected_from (cf : config) (auth : list bool) (l : list nat) (evs : list event) : list nat :=
  match evs with
  | [] => l
  | e :: evs => selected_from cf (auth_event cf auth e) (select_event cf auth l e) evs
  end.
Definition selected_after (cf : config) (evs : list event) : list nat := selected_from cf [] [] evs.
Lemma selected_snoc cf evs e : ∀ auth l, selected_from cf auth l (evs ++ [e]) = select_event cf (foldl (auth_event cf) auth evs) (selected_from cf auth l evs) e.
Proof. induction evs as [|e' evs IH]; intros auth l; [done|]. cbn [app selected_from foldl]. apply IH. Qed.

Lemma db_only_select E a l task v v' r n : top E (a :: l) task v (Ok (v', r, n)) →
  (lib_lower (e_lib E) a ≠ B "select" ∨ length l ≠ 1%nat) → v_db v' = v_db v.
Proof.
  intros Ht Hn.
  assert (Ha : ¬ allowed E (a :: l) v (B "select")).
  { intros ((a' & l' & ar & [= <- <-] & Hname & Har & Hacc) & _). destruct Hn as [Hn|Hn]; [done|].
    assert (ar = 2) as -> by (eapply (arities_fun (B "select")); [exact Har|by_compute]).
    unfold accepts, zlen in Hacc. rewrite decide_True in Hacc by lia. simpl in Hacc. lia. }
  inversion Ht; subst; try done.
  match goal with H : on_view _ ?o = _ |- _ => destruct o as [[D' r' n']| |]; [|done..]; by injection H as <- _ _ end.
Qed.
Lemma db_select E a x task v v' r n : top E [a; x] task v (Ok (v', r, n)) → lib_lower (e_lib E) a = B "select" →
  v_db v' = match Atoi x with
            | Some k => if decide ((e_password E = [] ∨ v_auth v = true) ∧ 0 ≤ k < zlen (v_dbs v)) then Z.to_nat k else v_db v
            | None => v_db v
            end.
Proof.
  intros Ht Hn.
  assert (Hal : ∀ n, allowed E [a; x] v n → n = B "select").
  { intros n' ((a' & l' & ar' & [= <- <-] & -> & _) & _). done. }
  assert (Hperm : allowed E [a; x] v (B "select") → e_password E = [] ∨ v_auth v = true).
  { intros (_ & [?|[?|?]]); [by left|by right|done]. }
  inversion Ht; subst;
    try (match goal with H : _ :: _ = _ :: _ |- _ => injection H as <- <- end);
    try (match goal with H : [_; _] !! 1%nat = Some _ |- _ => injection H as <- end);
    try (match goal with H : allowed _ _ _ ?n |- _ => pose proof (Hal _ H) as Hal0; try discriminate Hal0 end).
  - exfalso. match goal with H : ∀ ar, _ ∉ arities |- _ => apply (H 2) end. rewrite Hn. by_compute.
  - exfalso. assert (ar = 2) as ->.
    { eapply (arities_fun (B "select")); [|by_compute]. by rewrite <-Hn. }
    done.
  - destruct (Atoi x); [|done]. rewrite decide_False; [done|]. intros [[?|?] _]; congruence.
  - exfalso. subst. match goal with H : sem _ _ _ _ _ |- _ => apply sem_not_special in H; apply H end. by left.
  - by match goal with H : Atoi x = _ |- _ => rewrite H end.
  - match goal with H : Atoi x = _ |- _ => rewrite H end. rewrite decide_False; [done|lia].
  - match goal with H : Atoi x = _ |- _ => rewrite H end. rewrite decide_True; [done|]. split; [by apply Hperm|done].
Qed.

(** In every reachable state each connection works on the database that its own history says; no
    other command, of whatever client, and no background job changes
    it, and it always is one of the server's databases. *)
Theorem C28_current cf evs y : reaches cf evs y →
  c_db <$> y_cls y = selected_after cf evs ∧ Forall (λ k, k < cf_dbs cf)%nat (selected_after cf evs).
Proof.
  intros Hr. split.
  2:{ unfold selected_after. destruct Hr as [(_ & Hpos & _) _]. assert (H0 : Forall (λ k, k < cf_dbs cf)%nat []) by apply Forall_nil_2.
      revert H0. generalize (@nil bool) (@nil nat). induction evs as [|e evs IH]; intros auth l Hl; [done|]. cbn [selected_from]. apply IH.
      destruct e as [|i args now unix rs|i n|now rs| | |dump|file clock rs]; cbn [select_event]; try done.
      - apply Forall_app. split; [done|by apply Forall_singleton].
      - destruct args as [|a [|x [|]]]; try done. case_decide; [|done]. destruct (Atoi x) as [k|]; [|done].
        destruct (_ && _) eqn:Ek; [|done]. apply Forall_insert; [done|lia]. }
  revert y Hr. induction evs as [|e evs IH] using rev_ind; intros y' Hr.
  { destruct Hr as [_ Hr]. injection Hr as <-. done. }
  apply reaches_snoc in Hr as (Hh & y & Hr & HS). specialize (IH y Hr).
  unfold selected_after. rewrite selected_snoc. fold (selected_after cf evs). fold (auth_after cf evs).
  rewrite <-IH, <-(C26_auth_state cf evs y Hr). clear IH.
  destruct e as [|i args now unix rs|i n|now rs| | |dump|file clock rs]; cbn [step] in HS.
  - injection HS as <-. simpl. by rewrite fmap_app.
  - destruct (y_cls y !! i) as [c|] eqn:Hc.
    2: { injection HS as <-. unfold select_event. destruct args as [|? [|? []]]; try done. case_decide; [|done].
         destruct (Atoi _); [|done]. destruct (_ && _); [|done]. symmetry. apply list_insert_ge. rewrite fmap_length. by apply lookup_ge_None. }
    assert (HS' : step cf (EvCommand i args now unix rs) y = Ok y') by (cbn [step]; by rewrite Hc). clear HS.
    pose proof (history_cmd_ok _ _ _ _ _ _ _ Hh) as Hok.
    destruct (command_step _ _ _ _ _ _ _ _ _ _ Hr Hc Hok HS') as (v' & r & n & Hd).
    destruct Hd as [Ht (c' & Hcl & Hv & _) _ _ _]. rewrite Hcl, list_fmap_insert.
    assert (c_db c' = v_db v') as -> by (by rewrite <-Hv).
    assert (Hsame : v_db v' = c_db c → <[i := v_db v']> (c_db <$> y_cls y) = c_db <$> y_cls y).
    { intros ->. apply list_insert_id. by rewrite list_lookup_fmap, Hc. }
    assert (Hlen : zlen (abs_dbs (y_srv y)) = Z.of_nat (cf_dbs cf)).
    { unfold zlen. rewrite abs_dbs_len. f_equal. apply (yo_len _ _ _ (reaches_ok _ _ _ Hr)). }
    destruct args as [|a args]; [by destruct Hok|].
    destruct (decide (lib_lower (cf_lib cf) a = B "select")) as [Ha|Ha].
    2: { rewrite Hsame.
         - destruct args as [|? []]; try done. unfold select_event. rewrite decide_False; [done|]. by intros [? _].
         - eapply (db_only_select _ _ _ _ _ _ _ _ Ht). by left. }
    destruct args as [|x [|]].
    + simpl. apply Hsame. eapply (db_only_select _ _ _ _ _ _ _ _ Ht). by right.
    + pose proof (db_select _ _ _ _ _ _ _ _ Ht Ha) as Hdb. cbn [view_at v_db v_dbs v_auth e_password env_at] in Hdb. rewrite Hlen in Hdb.
      unfold select_event. rewrite list_lookup_fmap, Hc. cbn [fmap option_fmap option_map].
      destruct (Atoi x) as [k|]; [|case_decide; by apply Hsame].
      destruct (decide (lib_lower _ a = _ ∧ _)) as [[_ Hp]|Hp].
      * destruct ((0 <=? k) && (k <? Z.of_nat (cf_dbs cf))) eqn:Ek.
        -- rewrite decide_True in Hdb; [by rewrite Hdb|]. split; [|lia]. destruct Hp as [?|[= ?]]; [by left|by right].
        -- apply Hsame. rewrite Hdb. rewrite decide_False; [done|lia].
      * apply Hsame. rewrite Hdb. rewrite decide_False; [done|]. intros [[?|Hx] _]; destruct Hp; (split; [done|]); [by left|right; by rewrite Hx].
    + simpl. apply Hsame. eapply (db_only_select _ _ _ _ _ _ _ _ Ht). by right.
  - destruct (y_cls y !! i) as [c|] eqn:Hc; injection HS as <-; [|done]. simpl. rewrite list_fmap_insert.
    apply list_insert_id. by rewrite list_lookup_fmap, Hc.
  - apply bind_inv in HS as (? & _ & HS). by injection HS as <-.
  - by injection HS as <-.
  - apply bind_inv in HS as (? & _ & HS). by injection HS as <-.
  - destruct (s_task (y_srv y)); by injection HS as <-.
  - destruct (cf_aof cf); [|by injection HS as <-]. apply bind_inv in HS as (? & _ & HS). by injection HS as <-.
Qed.
Print Assumptions C28_current.

(** three connections to a server with a password: SELECT before AUTH, of a number that is too large, of
    something that is no number, and two that count *)
Definition h_conn : list event :=
  [EvConnect; EvConnect; cmd 0 1 "SELECT 2"; cmd 0 2 "AUTH pw"; cmd 0 3 "SELECT 3"; cmd 0 4 "SELECT 99"; EvConnect; cmd 2 5 "AUTH pw";
   cmd 2 5 "SELECT x"; cmd 2 6 "SELECT 1"; cmd 2 7 "SET k v"; EvFlush].
Example C28_current_example : (∃ y, reaches cf_pw h_conn y) ∧ selected_after cf_pw h_conn = [3; 0; 1]%nat.
Proof. split; [|by vm_compute]. eexists. reached. Qed.
