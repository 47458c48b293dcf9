(** Commands end: what the skiplists of a server look like in every reachable state, and
    which commands can then ask for more random numbers. *)
From Verif Require Import Base Float DictModel DictProofs DictProofs2 DictProofs3 DictProofs4 DictRun
  DatabaseModel SetModel SetProofs QuicklistModel QuicklistProofs SkiplistModel ZsetModel
  Strconv RespSpec ServerModel CommandModel CommandSem CommandInv CommandInv2 CommandProofs1 CommandProofs2 CommandProofs4
  CommandTop CommandFrame SystemModel SystemProofs AofModel AofProofs1 AofProofs2 BootProofs CommandFacts PropsCommand PropsData
  ZcmdProofs ListcmdProofs SafeProofs RndFrame TermProofs.
From Coq Require Import ZifyBool ZifyNat.

(** * Invariants of a restart *)
Lemma lookup_arity_any cf now a c : lookupCommand (env_at cf now 0) (lib_lower (cf_lib cf) a) = Some c →
  ∃ c', lookupCommand (env_at cf 0 0) (lib_lower (cf_lib cf) a) = Some c' ∧ cmd_arity c' = cmd_arity c.
Proof.
  unfold lookupCommand. intros Hcmd. destruct (list_find _ (commandTable (env_at cf now 0))) as [[i c0]|] eqn:EF; [|done].
  injection Hcmd as <-. apply list_find_Some in EF as (Hi & Hn & Hmin).
  assert (Ht : (λ c : command, (cmd_name c, cmd_arity c)) <$> commandTable (env_at cf 0 0) = (λ c : command, (cmd_name c, cmd_arity c)) <$> commandTable (env_at cf now 0))
    by (by rewrite !arities_ok).
  assert (Hi' : ((λ c : command, (cmd_name c, cmd_arity c)) <$> commandTable (env_at cf 0 0)) !! i = Some (cmd_name c0, cmd_arity c0)).
  { rewrite Ht, list_lookup_fmap, Hi. done. }
  rewrite list_lookup_fmap in Hi'. destruct (commandTable (env_at cf 0 0) !! i) as [c'|] eqn:Hc'; [|done]. injection Hi' as Hn' Ha'.
  assert (EF : list_find (λ c, cmd_name c = lib_lower (cf_lib cf) a) (commandTable (env_at cf 0 0)) = Some (i, c')).
  { apply list_find_Some. split; [done|]. split; [by rewrite Hn'|].
    intros k z Hk Hlt Hz. assert (Hk' : ((λ c : command, (cmd_name c, cmd_arity c)) <$> commandTable (env_at cf now 0)) !! k = Some (cmd_name z, cmd_arity z)).
    { rewrite <-Ht, list_lookup_fmap, Hk. done. }
    rewrite list_lookup_fmap in Hk'. destruct (commandTable (env_at cf now 0) !! k) as [z'|] eqn:Hz'; [|done]. injection Hk' as Hn2 _.
    by apply (Hmin k z' Hz' Hlt); rewrite Hn2. }
  exists c'. by rewrite EF.
Qed.
Section boot.
  Variable P : adb → Prop.
  Hypothesis P_sem : ∀ E name args D D' r n, sem E name args D (Ok (Out D' r n)) → P D → P D'.
  Lemma exec_logged_dbs E N w args w' : w_ok N w → room N args →
    (∀ a cmd, args !! 0%nat = Some a → lookupCommand E (lib_lower (e_lib E) a) = Some cmd → bad_arity (cmd_arity cmd) args = false) →
    exec_logged E args w = Ok (w', tt) → Forall P (abs_dbs (w_srv w)) → Forall P (abs_dbs (w_srv w')).
  Proof using P_sem.
    intros Hw Hroom Hargs HE HP. destruct args as [|a l]; [done|]. specialize (Hargs a).
    assert (HwS : w_ok (N + length (a :: l)) w) by (eapply w_ok_mono; [|exact Hw]; lia).
    unfold exec_logged in HE. rewrite (bind_ok _ _ _ _ _ (arg_run (a :: l) 0 a w eq_refl)) in HE.
    unfold lookupCommand in *. destruct (list_find _ (commandTable E)) as [[i cmd]|] eqn:EF.
    2:{ injection HE as <-. done. }
    apply list_find_Some in EF as (Hi & Hn & _). cbn [fmap option_fmap option_map snd] in *.
    assert (Hin : cmd ∈ commandTable E) by (by eapply elem_of_list_lookup_2). specialize (Hargs cmd eq_refl eq_refl).
    pose proof (data_table E) as HT. rewrite Forall_forall in HT. destruct (cur_view N w Hw) as (D & HD & Ha).
    assert (Hkeep : ∀ c m r, (c_db c < length (s_dbs (w_srv w)))%nat → c_out c = c_out (w_cl w) → replies m r →
      (_ ← put_cl c; m) w = Ok (w', tt) → Forall P (abs_dbs (w_srv w'))).
    { intros c m r Hc Ho Hm Er. destruct (tends_client E (N + length (a :: l)) (a :: l) w c m r HwS Hc Ho Hm) as (w2 & Er2 & Hw2 & Hv & _).
      rewrite Er in Er2. injection Er2 as <-. apply (f_equal v_dbs) in Hv. simpl in Hv. by rewrite Hv. }
    assert (Hkeep' : ∀ m r, replies m r → m w = Ok (w', tt) → Forall P (abs_dbs (w_srv w'))).
    { intros m r Hm Er. destruct (tends_reply E (N + length (a :: l)) (a :: l) w m r HwS Hm) as (w2 & Er2 & Hw2 & Hv & _).
      rewrite Er in Er2. injection Er2 as <-. apply (f_equal v_dbs) in Hv. simpl in Hv. by rewrite Hv. }
    destruct (HT cmd Hin) as [(R & HR & Href & _)|[->|[->| ->]]].
    - destruct (Href _ _ _ _ _ Hargs Ha Hroom) as (ro & Hro & Hend). destruct ro as [[D' r n]| |]; [|by rewrite HE in Hend..].
      destruct Hend as (w2 & E1 & Ha'). rewrite HE in E1. injection E1 as <-.
      pose proof (At_view _ _ _ _ _ _ Ha') as Hv. apply (f_equal v_dbs) in Hv. simpl in Hv. rewrite Hv.
      apply Forall_insert; [done|]. eapply P_sem; [exists R; split; [exact HR|exact Hro]|]. by eapply Forall_lookup_1.
    - destruct l as [|a1 [|]]; [by vm_compute in Hargs| |exfalso; by apply (arity_pos 1) in Hargs].
      simpl cmd_proc in HE. unfold selectCommand in HE. rewrite (bind_ok _ _ _ _ _ (arg_run [a; a1] 1 a1 w eq_refl)) in HE.
      destruct (Atoi a1) as [idx|]; [|eapply Hkeep'; [apply rError|exact HE]].
      rewrite (bind_ok get_srv _ w w (w_srv w) eq_refl) in HE.
      destruct (Z.leb_spec (zlen (s_dbs (w_srv w))) idx) as [Hhi|Hlo]; [eapply Hkeep'; [apply rError|exact HE]|].
      destruct (Z.ltb_spec idx 0) as [Hneg|Hpos]; [done|].
      rewrite (bind_ok get_cl _ w w (w_cl w) eq_refl) in HE. eapply Hkeep; [..|exact HE]; [|done|apply rOK]. simpl. unfold zlen in *. lia.
    - destruct l as [|a1 [|]]; [by vm_compute in Hargs| |exfalso; by apply (arity_pos 1) in Hargs].
      simpl cmd_proc in HE. unfold authCommand in HE. rewrite (bind_ok _ _ _ _ _ (arg_run [a; a1] 1 a1 w eq_refl)) in HE.
      rewrite (bind_ok get_cl _ w w (w_cl w) eq_refl) in HE.
      case_decide; (eapply Hkeep; [..|exact HE]; [apply Hw|done|first [apply rOK|apply rError]]).
    - simpl cmd_proc in HE. unfold bgRewriteAofCommand in HE. rewrite (bind_ok get_srv _ w w (w_srv w) eq_refl) in HE.
      destruct (s_task (w_srv w)) eqn:Et; [eapply Hkeep'; [apply rSimple|exact HE]|].
      destruct (copy_dbs_spec N (s_dbs (w_srv w)) (so_dbs _ _ (wo_srv _ _ Hw))) as (snap & EC & _); [by eapply room_small|].
      set (s' := set_task (set_dbs (w_srv w) (s_dbs (w_srv w))) true (Some snap)) in *.
      assert (EL : lift (rewriteAppendOnlyFileBackground (w_srv w)) w = Ok (w, s')).
      { unfold lift, rewriteAppendOnlyFileBackground. rewrite Et, EC. done. }
      rewrite (bind_ok _ _ _ _ _ EL) in HE. set (w2 := W s' (w_cl w) (w_rnd w)) in *.
      assert (EP : put_srv s' w = Ok (w2, tt)) by done. rewrite (bind_ok _ _ _ _ _ EP) in HE.
      assert (Hw2 : w_ok (N + length (a :: l)) w2).
      { destruct HwS as [[H1 H2 H3 H4] H5 H6 H7]. split; done. }
      destruct (tends_reply E _ (a :: l) w2 _ _ Hw2 (rSimple (B "Background append only file rewriting started")))
        as (w3 & Er & Hw3 & Hv & _). rewrite HE in Er. injection Er as <-.
      apply (f_equal v_dbs) in Hv. simpl in Hv. rewrite Hv. exact HP.
  Qed.
  Lemma restart_dbs cf clock file rs w' : P empty_db → (0 < cf_dbs cf)%nat → Forall (record_ok cf) (records file) → Forall (λ r, 0 ≤ r) rs →
    Z.of_nat (length file) < 2 ^ 42 → restart cf clock file rs = (w', Ok tt) → Forall P (abs_dbs (w_srv w')).
  Proof using P_sem.
    intros HP0 Hdbs Hrec Hrs Hsz HR. unfold restart, loadAppendOnlyFile in HR. apply load_records in HR as [HR Hlen].
    assert (Hw0 : w_ok 0 (W (NewServer (cf_dbs cf)) NewClient rs)).
    { split; simpl; try done; [apply new_server_ok|by rewrite replicate_length]. }
    assert (H : ∀ cmds j N w, w_ok N w → Forall (record_ok cf) cmds → (N + sum_list (length <$> cmds) ≤ length file)%nat →
      Forall P (abs_dbs (w_srv w)) → replay (exec_at cf clock) j cmds w = (w', Ok tt) → Forall P (abs_dbs (w_srv w'))).
    { clear HR Hw0 Hrec Hlen. induction cmds as [|args cmds IH]; intros j N w Hw Hc Hl H1 HR. { by injection HR as <-. }
      apply Forall_cons in Hc as [Hc Hcs]. cbn [replay] in HR. unfold exec_at in HR at 1. cbn [fmap list_fmap sum_list sum_list_with] in Hl. simpl in Hl.
      destruct (exec_logged (env_at cf (clock j) 0) args w) as [[w1 []]| |] eqn:E1; [|done..]. cbn [mbind res_bind fst] in HR.
      assert (Hroom : room N args) by (unfold room, small, max_entries; lia).
      assert (Hargs : ∀ a cmd, args !! 0%nat = Some a → lookupCommand (env_at cf (clock j) 0) (lib_lower (e_lib (env_at cf (clock j) 0)) a) = Some cmd →
        bad_arity (cmd_arity cmd) args = false).
      { intros a cmd Ha Hcmd. pose proof (lookup_arity_any cf (clock j) a cmd Hcmd) as (c' & EF' & Har). rewrite <-Har. by eapply Hc. }
      pose proof (exec_logged_ok _ N _ _ _ Hw Hroom Hargs E1) as (G1 & _). pose proof (exec_logged_dbs _ N _ _ _ Hw Hroom Hargs E1 H1) as G2.
      eapply (IH _ (N + length args)%nat); try done. lia. }
    eapply (H _ 0%nat 0%nat); try done. simpl. unfold abs_dbs. simpl. apply Forall_fmap, Forall_replicate. simpl. unfold abs_db. simpl. by rewrite !NewDict_map, fmap_empty.
  Qed.
End boot.

(** * Lists *)
Section lists.
  Implicit Type q : quicklist bytes.
  Lemma go_index_ok {B} (l : list B) i v : go_index l i = Ok v → 0 ≤ i < zlen l.
  Proof.
    unfold go_index. destruct (Z.ltb_spec i 0); [done|]. destruct (l !! Z.to_nat i) eqn:El; [|done]. intros _. apply lookup_lt_Some in El. unfold zlen. lia.
  Qed.
  Lemma term_go_index {B} (l : list B) i : term (go_index l i).
  Proof. unfold go_index. destruct (i <? 0); [done|]. by destruct (l !! Z.to_nat i). Qed.
  Lemma term_it_page q it : term (it_page q it).
  Proof. unfold it_page. apply term_bind; [apply term_deref|]. intros ? _. apply term_deref. Qed.
  Lemma term_it_value q it : term (it_value q it).
  Proof. unfold it_value. apply term_bind; [apply term_it_page|]. intros ? _. apply term_go_index. Qed.
  Lemma value_on q it v : it_value q it = Ok v → ∃ n, on (q_pages q) it n.
  Proof.
    unfold it_value, it_page. destruct (qi_node it) as [j|] eqn:Ej; [|done]. cbn [deref mbind res_bind].
    destruct (q_pages q !! j) as [p|] eqn:Ep; [|done]. cbn [deref mbind res_bind]. intros Hv. apply go_index_ok in Hv.
    assert (0 ≤ start (q_pages q) j) by (unfold start, zlen; lia).
    exists (Z.to_nat (start (q_pages q) j + qi_offset it)). exists j, p. split_and!; try done; lia.
  Qed.
  Lemma term_range_loop q fuel : wf q → ∀ it n i stop acc, on (q_pages q) it n → (length (qels q) < fuel + n)%nat → term (range_loop fuel q it i stop acc).
  Proof.
    intros Hw. induction fuel as [|fuel IH]; intros it n i stop acc Ho Hf; [apply on_lt in Ho; lia|]. cbn [range_loop].
    destruct (stop <? i); [done|]. apply term_bind; [apply term_it_value|]. intros v _.
    destruct (Next_on q it n Hw Ho) as [(it' & v' & -> & Ho' & _)|(it' & -> & _)]; cbn [mbind res_bind fst snd]; [|done].
    eapply IH; [done|lia].
  Qed.
  Lemma term_QRange q i j : wf q → term (QRange q i j).
  Proof.
    intros Hw. unfold QRange. cbn zeta. destruct (_ || _ || _ || _); [done|]. destruct (get q _) as [it|]; [|done].
    destruct (negb _); [done|]. apply term_bind; [|done].
    destruct (it_value q it) as [v| |] eqn:Ev.
    - destruct (value_on _ _ _ Ev) as [n Ho]. eapply term_range_loop; [done|exact Ho|]. rewrite (wf_length q Hw). lia.
    - change (2 + Z.to_nat (q_length q))%nat with (S (S (Z.to_nat (q_length q)))). cbn [range_loop]. destruct (_ <? _); [done|]. by rewrite Ev.
    - exfalso. by apply (term_it_value q it).
  Qed.
  Lemma term_QGet q i : term (QGet q i).
  Proof. unfold QGet. destruct (get q i) as [it|]; [|done]. apply term_bind; [apply term_it_value|done]. Qed.
End lists.

(** * Which commands can run out of random numbers *)
(** every skiplist of the database has only finite chains *)
Definition finite_db (D : adb) : Prop := ∀ key m s, a_keys D !! key = Some (AZset m s) → finite s.
Section fuels.
  Variable E : env.
  Notation args_rel := (list bytes → adb → res outcome → Prop).
  Lemma existing_fuel {X} (k : akind X) key none f D : ak_law k → on_existing k E key none f D = OutOfFuel →
    ∃ x, a_keys D !! key = Some (ak_in k x) ∧ f x = OutOfFuel.
  Proof.
    intros Hk. unfold on_existing. cbn zeta. destruct (a_keys (purge E key D) !! key) as [v|] eqn:Hv; [|done].
    destruct (ak_out k v) as [x|] eqn:Ex; [|done]. apply Hk in Ex as ->. apply purge_lookup in Hv.
    intros H. exists x. split; [done|]. by destruct (f x) as [[[? ?] ?]| |].
  Qed.
  Lemma new_fuel {X} (k : akind X) wrong key f D : ak_law k → on_new k wrong key f D = OutOfFuel →
    ∃ x, (a_keys D !! key = Some (ak_in k x) ∨ a_keys D !! key = None ∧ x = ak_new k) ∧ f x = OutOfFuel.
  Proof.
    intros Hk. unfold on_new. destruct (a_keys D !! key) as [v|] eqn:Hv.
    - destruct (ak_out k v) as [x|] eqn:Ex; [|done]. apply Hk in Ex as ->. intros H. exists x. split; [by left|]. by destruct (f x) as [[[? ?] ?]| |].
    - intros H. exists (ak_new k). split; [by right|]. by destruct (f (ak_new k)) as [[[? ?] ?]| |].
  Qed.
  Definition brief (R : args_rel) : Prop := ∀ args D, ¬ R args D OutOfFuel.
  Lemma algebra_brief fold key keys D : ¬ set_algebra fold E key keys D OutOfFuel.
  Proof.
    unfold set_algebra. cbn zeta. destruct (set_at (purge E key D) key) as [[s|]|]; [|done..].
    destruct ((fold E s keys (purge E key D)).2); [|done]. by intros (r & _ & ?).
  Qed.
  (** the commands with loops of the containers' code, and those that draw *)
  Definition loops : list bytes :=
    [B "lpush"; B "lpop"; B "rpop"; B "lindex"; B "lrange"; B "zrange"; B "zrangebyscore"; B "zrem"; B "zremrangebyrank"; B "zremrangebyscore"; B "zcount"].
  Definition drawing : list bytes := [B "randomget"; B "spop"; B "zadd"].
  Lemma table_brief : Forall (λ p, p.1 ∈ loops ++ drawing ∨ brief p.2) (semTable E).
  Proof.
    assert (Hz : ∀ name (R : args_rel), bool_decide (name ∈ loops ++ drawing) = true → (name, R).1 ∈ loops ++ drawing ∨ brief (name, R).2).
    { intros name R Hb. left. by apply bool_decide_eq_true in Hb. }
    unfold semTable.
    repeat (apply Forall_cons; split; [first [apply Hz; by vm_compute|right; cbn [snd]]|]); [..|by apply Forall_nil].
    all: intros args D H.
    all: try done.
    all: unfold sem_expire, sem_ttl, sem_set, sem_setex, sem_get, sem_hset, sem_hget, sem_hdel, sem_hexists, sem_hlen, sem_push, sem_llen, sem_sadd, sem_srem, sem_scard, sem_sismember, sem_zcard, sem_zscore, fn in H.
    all: try (repeat case_match; simplify_eq; done).
    all: try (repeat case_match; simplify_eq; first [
        match goal with H : on_existing _ _ _ _ _ _ = OutOfFuel |- _ => apply existing_fuel in H as (? & _ & ?); [done|] end
      | match goal with H : on_new _ _ _ _ _ = OutOfFuel |- _ => apply new_fuel in H as (? & _ & ?); [done|] end];
      first [apply AKHash_law|apply AKList_law|apply AKSet_law|apply AKZset_law]).
    - unfold sem_keys in H. repeat case_match; try done. by destruct H as (? & _ & _ & ?).
    - unfold sem_hkeys in H. repeat case_match; try done. by destruct H as (? & _ & ?).
    - unfold sem_smembers in H. destruct args as [|? [|? ?]]; try done. by eapply algebra_brief.
    - unfold sem_algebra in H. destruct args as [|? [|? ?]]; try done. by eapply algebra_brief.
    - unfold sem_algebra in H. destruct args as [|? [|? ?]]; try done. by eapply algebra_brief.
    - unfold sem_algebra in H. destruct args as [|? [|? ?]]; try done. by eapply algebra_brief.
  Qed.
  Lemma sem_brief name args D : sem E name args D OutOfFuel → name ∈ loops ++ drawing.
  Proof. intros (R & HR & H). pose proof table_brief as HT. rewrite Forall_forall in HT. destruct (HT _ HR) as [?|Hq]; [done|]. by apply Hq in H. Qed.

  (** ** The loops *)
  Lemma term_zelems m s ids : term (zelems m s ids).
  Proof. induction ids as [|x ids IH]; [done|]. cbn [zelems]. apply term_bind; [apply term_node|]. intros. by apply term_bind. Qed.
  Lemma term_zelems_delete s ids : ∀ m, term (zelems_delete m s ids).
  Proof. induction ids as [|x ids IH]; intros m; [done|]. cbn [zelems_delete]. apply term_bind; [apply term_node|]. intros. by apply term_bind. Qed.
  Lemma term_zarray b es : term (zarray E b es).
  Proof. induction es as [|[[m sc]|] es IH]; [done| |done]. cbn [zarray]. by apply term_bind. Qed.
  Lemma term_zreply args es : term (zreply E args es).
  Proof. unfold zreply. destruct (args !! 4%nat); [destruct (lib_withscores _ _)|]; try done; (apply term_bind; [apply term_zarray|done]). Qed.
  Lemma term_zremrange del z : term (del z.2) → term (zremrange del z).
  Proof. intros H. unfold zremrange. apply term_bind; [done|]. intros. by apply term_bind; [apply term_zelems_delete|]. Qed.
  Lemma zdel1_finite z m z' b : zdel1 z m = Ok (z', b) → finite z.2 → finite z'.2.
  Proof.
    unfold zdel1. destruct (z.1 !! m) as [sc|]; [|by intros [= <- _]]. intros H Hf. mo H. injection H as <- _. by eapply SlDelete_finite.
  Qed.
  Lemma term_zdel1 z m : finite z.2 → term (zdel1 z m).
  Proof. intros Hf. unfold zdel1. destruct (z.1 !! m); [|done]. apply term_bind; [by apply term_SlDelete|done]. Qed.
  Lemma zrem_all_finite l : ∀ z n z' n', zrem_all l z n = Ok (z', n') → finite z.2 → finite z'.2.
  Proof.
    induction l as [|m l IH]; intros z n z' n' H Hf; cbn [zrem_all] in H; [by injection H as <- _|].
    destruct (zdel1 z m) as [[z1 b]| |] eqn:Ed; try done. cbn [mbind res_bind fst snd] in H. eapply IH; [exact H|]. by eapply zdel1_finite.
  Qed.
  Lemma term_zrem_all l : ∀ z n, finite z.2 → term (zrem_all l z n).
  Proof.
    induction l as [|m l IH]; intros z n Hf; cbn [zrem_all]; [done|].
    apply term_bind; [by apply term_zdel1|]. intros [z1 b] Hz. apply IH. by eapply zdel1_finite.
  Qed.
  Lemma term_Remove (q : quicklist bytes) i : term (Remove q i).
  Proof.
    unfold Remove. destruct (get q i) as [it|]; [|done]. apply term_bind; [apply term_it_page|]. intros p _.
    apply term_bind; [apply term_deref|]. intros ? _. apply term_bind; [apply term_go_index|]. done.
  Qed.
  Lemma term_page_insert {X} (p : list X) o v : term (page_insert p o v).
  Proof. unfold page_insert. by destruct (_ || _ || _). Qed.
  Lemma term_QInsert (q : quicklist bytes) i v : term (QuicklistModel.Insert q i v).
  Proof.
    unfold QuicklistModel.Insert. destruct (_ || _); [done|]. destruct (_ =? _); [done|]. cbn zeta.
    apply term_bind; [apply term_deref|]. intros it _. apply term_bind; [apply term_it_page|]. intros p _. apply term_bind; [apply term_deref|]. intros j _.
    destruct (_ <? _); [apply term_bind; [apply term_page_insert|done]|].
    apply term_bind; [|done]. destruct (_ <? _); (apply term_bind; [apply term_page_insert|done]).
  Qed.
  Lemma term_lpush_all l : ∀ q : quicklist bytes, term (lpush_all l q).
  Proof.
    induction l as [|x l IH]; intros q; [done|]. cbn [lpush_all]. apply term_bind; [|intros; apply IH].
    unfold PushFront. apply term_bind; [apply term_QInsert|done].
  Qed.

  Lemma sem_term name args D : finite_db D → (∀ key q, a_keys D !! key = Some (AList q) → wf q) →
    sem E name args D OutOfFuel → name ∈ drawing.
  Proof.
    intros Hf Hl H. pose proof (sem_brief _ _ _ H) as Hb. apply elem_of_app in Hb as [Hb|Hb]; [exfalso|done].
    unfold loops in Hb. rewrite !elem_of_cons, elem_of_nil in Hb.
    destruct Hb as [->|[->|[->|[->|[->|[->|[->|[->|[->|[->|[->|[]]]]]]]]]]]].
    - apply (sem_inv _ _ (sem_push lpush_all)) in H; [|in_table]. unfold sem_push, fn in H. destruct args as [|? [|key l]]; try done. injection H as H.
      apply new_fuel in H as (q & Hq & H); [|apply AKList_law]. revert H. apply (term_bind (lpush_all l q)); [apply term_lpush_all|done].
    - apply (sem_inv _ _ (sem_pop E PopFront)) in H; [|in_table]. unfold sem_pop, fn in H. destruct args as [|? [|key l]]; try done. injection H as H.
      apply existing_fuel in H as (q & Hq & H); [|apply AKList_law]. destruct (Len q =? 0); [done|].
      revert H. apply (term_bind (PopFront q)); [apply term_Remove|]. intros. apply (term_bind (deref _)); [apply term_deref|done].
    - apply (sem_inv _ _ (sem_pop E PopBack)) in H; [|in_table]. unfold sem_pop, fn in H. destruct args as [|? [|key l]]; try done. injection H as H.
      apply existing_fuel in H as (q & Hq & H); [|apply AKList_law]. destruct (Len q =? 0); [done|].
      revert H. apply (term_bind (PopBack q)); [apply term_Remove|]. intros. apply (term_bind (deref _)); [apply term_deref|done].
    - apply (sem_inv _ _ (sem_lindex E)) in H; [|in_table]. unfold sem_lindex, fn in H. destruct args as [|? [|key [|a l]]]; try done. injection H as H.
      apply existing_fuel in H as (q & Hq & H); [|apply AKList_law]. unfold reading in H. destruct (Atoi a) as [k|]; [|done].
      revert H. apply term_bind; [|done]. apply term_bind; [apply term_QGet|done].
    - apply (sem_inv _ _ (sem_lrange E)) in H; [|in_table]. unfold sem_lrange, fn in H. destruct args as [|? [|key [|a [|b l]]]]; try done. injection H as H.
      apply existing_fuel in H as (q & Hq & H); [|apply AKList_law]. unfold reading in H. destruct (Atoi a) as [i|]; [|done]. destruct (Atoi b) as [j|]; [|done].
      revert H. apply term_bind; [|done]. apply term_bind; [apply term_QRange; by eapply Hl|done].
    - apply (sem_inv _ _ (sem_zrange E)) in H; [|in_table]. unfold sem_zrange, fn in H. destruct args as [|? [|key [|a [|b l]]]]; try done. injection H as H.
      unfold ints in H. destruct (Atoi a) as [i|]; [|done]. destruct (Atoi b) as [j|]; [|done].
      apply existing_fuel in H as ([m s] & Hq & H); [|apply AKZset_law]. apply Hf in Hq. cbn [fst snd] in Hq. unfold reading in H.
      revert H. apply term_bind; [|done]. apply term_bind; [|intros; apply term_zreply]. unfold zrange. apply term_bind; [by apply term_RangeByRank|]. intros; apply term_zelems.
    - apply (sem_inv _ _ (sem_zrangebyscore E)) in H; [|in_table]. unfold sem_zrangebyscore, fn in H. destruct args as [|? [|key [|a [|b l]]]]; try done. injection H as H.
      unfold floats in H. destruct (lib_parse_float _ a) as [i|]; [|done]. destruct (lib_parse_float _ b) as [j|]; [|done].
      apply existing_fuel in H as ([m s] & Hq & H); [|apply AKZset_law]. apply Hf in Hq. cbn [fst snd] in Hq. unfold reading in H.
      revert H. apply term_bind; [|done]. apply term_bind; [|intros; apply term_zreply]. unfold zrangebyscore. apply term_bind; [by apply term_RangeByScore|]. intros; apply term_zelems.
    - apply (sem_inv _ _ (sem_zrem E)) in H; [|in_table]. unfold sem_zrem, fn in H. destruct args as [|? [|key l]]; try done. injection H as H.
      apply existing_fuel in H as ([m s] & Hq & H); [|apply AKZset_law]. apply Hf in Hq. cbn [fst snd] in Hq.
      revert H. apply (term_bind (zrem_all l (m, s) 0)); [by apply term_zrem_all|done].
    - apply (sem_inv _ _ (sem_zremrangebyrank E)) in H; [|in_table]. unfold sem_zremrangebyrank, fn in H. destruct args as [|? [|key [|a [|b l]]]]; try done. injection H as H.
      unfold ints in H. destruct (Atoi a) as [i|]; [|done]. destruct (Atoi b) as [j|]; [|done].
      apply existing_fuel in H as ([m s] & Hq & H); [|apply AKZset_law]. apply Hf in Hq. cbn [fst snd] in Hq.
      revert H. apply term_zremrange. by apply term_DeleteRangeByRank.
    - apply (sem_inv _ _ (sem_zremrangebyscore E)) in H; [|in_table]. unfold sem_zremrangebyscore, fn in H. destruct args as [|? [|key [|a [|b l]]]]; try done. injection H as H.
      unfold floats in H. destruct (lib_parse_float _ a) as [i|]; [|done]. destruct (lib_parse_float _ b) as [j|]; [|done].
      apply existing_fuel in H as ([m s] & Hq & H); [|apply AKZset_law]. apply Hf in Hq. cbn [fst snd] in Hq.
      revert H. apply term_zremrange. by apply term_DeleteRangeByScore.
    - apply (sem_inv _ _ (sem_zcount E)) in H; [|in_table]. unfold sem_zcount, fn in H. destruct args as [|? [|key [|a [|b l]]]]; try done. injection H as H.
      unfold floats in H. destruct (lib_parse_float _ a) as [i|]; [|done]. destruct (lib_parse_float _ b) as [j|]; [|done].
      apply existing_fuel in H as ([m s] & Hq & H); [|apply AKZset_law]. apply Hf in Hq. cbn [fst snd] in Hq. unfold reading in H.
      revert H. apply term_bind; [|done]. apply term_bind; [by apply term_Count|done].
  Qed.
End fuels.

(** ** The skiplists of every reachable state have only finite chains *)
Lemma sl_add_finite s sc x rs s' rs' : sl_add s sc x rs = Ok (s', rs') → finite s → finite s'.
Proof.
  unfold sl_add. intros H Hf. destruct (randomLevel rs) as [[lv r]| |]; try done. cbn [mbind res_bind fst snd] in H.
  destruct (SkiplistModel.Insert s lv sc x) as [[s2 n]| |] eqn:Ei; try done. cbn [mbind res_bind fst snd] in H. injection H as <- <-.
  by apply Insert_finite in Ei.
Qed.
Lemma zadd1_finite z sc m rs z' b rs' : zadd1 z sc m rs = Ok (z', b, rs') → finite z.2 → finite z'.2.
Proof.
  unfold zadd1. intros H Hf. destruct (z.1 !! m) as [sc0|].
  - destruct (negb _); [|by injection H as <- _ _]. destruct (SlDelete z.2 sc m) as [[s1 o]| |] eqn:Ed; try done. cbn [mbind res_bind fst snd] in H.
    apply SlDelete_finite in Ed; [|done]. destruct (sl_add _ _ _ _) as [[s2 rs2]| |] eqn:Ea; try done. cbn [mbind res_bind fst snd] in H. injection H as <- _ _.
    by apply sl_add_finite in Ea.
  - destruct (sl_add _ _ _ _) as [[s2 rs2]| |] eqn:Ea; try done. cbn [mbind res_bind fst snd] in H. injection H as <- _ _. by apply sl_add_finite in Ea.
Qed.
Lemma zadd_all_finite E l : ∀ z c n rs z' r n', zadd_all E l z c n rs = Ok (z', r, n') → finite z.2 → finite z'.2.
Proof.
  remember (length l) as k eqn:Hk. revert l Hk. induction (lt_wf k) as [k _ IH]. intros l -> z c n rs z' r n' H Hf.
  destruct l as [|a l]; cbn [zadd_all] in H; [by injection H as <- _ _|]. destruct (lib_parse_float _ a) as [sc|]; [|by injection H as <- _ _].
  destruct l as [|m l]; [done|]. destruct (zadd1 z sc m rs) as [[[z1 b] rs1]| |] eqn:E1; try done. cbn [mbind res_bind] in H.
  eapply (IH (length l)); [simpl; lia|done|exact H|]. by eapply zadd1_finite.
Qed.
Lemma finite_zsub D D' : zsub D D' → finite_db D → finite_db D'.
Proof. intros H Hf key m s Hk. by eapply Hf, H. Qed.
Lemma put_finite key m s D : finite_db D → finite s → finite_db (put_val key (AZset m s) D).
Proof.
  intros HD Ht k m1 s1 Hk. simpl in Hk. destruct (decide (k = key)) as [->|Hne].
  - rewrite lookup_insert in Hk. by injection Hk as <- <-.
  - rewrite lookup_insert_ne in Hk by done. by eapply HD.
Qed.
Lemma zremrange_finite del z z' r n : (∀ s s' ids, del s = Ok (s', ids) → finite s → finite s') →
  zremrange del z = Ok (z', r, n) → finite z.2 → finite z'.2.
Proof.
  intros Hd H Hf. unfold zremrange in H. destruct (del z.2) as [[s1 ids]| |] eqn:E1; try done. cbn [mbind res_bind fst snd] in H.
  destruct (zelems_delete _ _ _) as [[m1 es]| |]; try done. cbn [mbind res_bind fst snd] in H. injection H as <- _ _. by eapply Hd.
Qed.
Lemma sem_finite E name args D D' r n : sem E name args D (Ok (Out D' r n)) → finite_db D → finite_db D'.
Proof.
  intros Hs Hf. destruct (decide (name ∈ zwriters)) as [Hz|Hz]; [|by eapply finite_zsub; [eapply sem_zquiet|]].
  assert (Hp : ∀ key, finite_db (purge E key D)) by (intros key; eapply finite_zsub; [eapply purged_zsub, purge_purged|done]).
  assert (Hex : ∀ key none f, on_existing AKZset E key none f D = Ok (Out D' r n) →
    (∀ z z', f z = Ok (z', r, n) → finite z.2 → finite z'.2) → finite_db D').
  { intros key none f Ho Hfin. apply existing_cases in Ho as [(-> & _)|([m s] & x' & H1 & H2 & ->)]; [done| |apply AKZset_law].
    apply put_finite; [done|]. eapply Hfin; [exact H2|]. eapply (Hp key). exact H1. }
  unfold zwriters in Hz. rewrite !elem_of_cons, elem_of_nil in Hz. destruct Hz as [->|[->|[->|[->|[]]]]].
  - eapply (sem_inv _ _ (sem_zadd E)) in Hs; [|in_table]. destruct args as [|a [|key l]]; try done. unfold sem_zadd in Hs.
    destruct (negb _); [by injection Hs as -> -> ->|]. destruct Hs as (rs & _ & Hs). symmetry in Hs.
    apply new_cases in Hs as [(-> & _)|([m s] & x' & H1 & H2 & ->)]; [done| |apply AKZset_law]. apply put_finite; [done|].
    eapply zadd_all_finite; [exact H2|]. destruct H1 as [H1|[_ [= _ ->]]]; [eapply Hf; exact H1|apply NewSkiplist_finite].
  - eapply (sem_inv _ _ (sem_zrem E)) in Hs; [|in_table]. unfold sem_zrem, fn in Hs. destruct args as [|a [|key l]]; try done. injection Hs as Hs.
    eapply Hex; [exact Hs|]. intros z z' H1. cbn beta in H1. destruct (zrem_all l z 0) as [[z1 k]| |] eqn:E1; try done. cbn [mbind res_bind fst snd] in H1.
    injection H1 as <- _ _. by eapply zrem_all_finite.
  - eapply (sem_inv _ _ (sem_zremrangebyrank E)) in Hs; [|in_table]. unfold sem_zremrangebyrank, fn in Hs.
    destruct args as [|? [|key [|b1 [|b2 l]]]]; try done. injection Hs as Hs. unfold ints in Hs.
    destruct (Atoi b1) as [i|] eqn:E1; [|by injection Hs as <- _ _]. destruct (Atoi b2) as [j|] eqn:E2; [|by injection Hs as <- _ _].
    eapply Hex; [exact Hs|]. intros z z' H1. eapply zremrange_finite; [|exact H1]. intros s s' ids Hd Hs1. exact (DeleteRangeByRank_finite _ _ _ _ Hd Hs1).
  - eapply (sem_inv _ _ (sem_zremrangebyscore E)) in Hs; [|in_table]. unfold sem_zremrangebyscore, fn in Hs.
    destruct args as [|? [|key [|b1 [|b2 l]]]]; try done. injection Hs as Hs. unfold floats in Hs.
    destruct (lib_parse_float _ b1) as [i|] eqn:E1; [|by injection Hs as <- _ _]. destruct (lib_parse_float _ b2) as [j|] eqn:E2; [|by injection Hs as <- _ _].
    eapply Hex; [exact Hs|]. intros z z' H1. eapply zremrange_finite; [|exact H1]. intros s s' ids Hd Hs1. exact (DeleteRangeByScore_finite _ _ _ _ Hd Hs1).
Qed.
Lemma reaches_finite cf evs y : reaches cf evs y → Forall finite_db (abs_dbs (y_srv y)).
Proof.
  intros Hr. pose proof Hr as [(Hev & Hpos & Htot) _].
  eapply (history_inv cf finite_db (λ _ e, event_ok cf e ∧ Z.of_nat (event_size e) < 2 ^ 42)); [..|exact Hr|].
  - by intros key m s.
  - intros E D D' Hp. apply finite_zsub. by eapply purged_zsub.
  - intros evs0 y0 i c a l now unix rs ar D D' r n E name _ _ _ _ _ _ HD Hs. by eapply sem_finite.
  - intros y0 file clock rs y' [[Hrec Hrs] Hsz] HS. cbn [step] in HS. cbn [event_size] in Hsz.
    destruct (cf_aof cf) eqn:Ea.
    + destruct (restart cf clock file rs) as [w' [[]| |]] eqn:ER; cbn in HS; try done. injection HS as <-. cbn [y_srv].
      eapply (restart_dbs finite_db); [|..|exact ER]; try done. intros E name args D D' r n. apply sem_finite.
    + injection HS as <-. cbn [y_srv]. unfold abs_dbs. simpl. apply Forall_fmap, Forall_replicate. simpl. unfold abs_db. simpl. by rewrite !NewDict_map, fmap_empty.
  - apply along_forall. clear -Hev Htot. rewrite Forall_forall in *. intros e He. split; [by apply Hev|].
    apply elem_of_list_split in He as (l1 & l2 & ->). rewrite total_app in Htot. unfold total in Htot. cbn [fmap list_fmap sum_list sum_list_with] in Htot. simpl in Htot. lia.
Qed.

(** ** ZADD ends as soon as as many draws stop the level as there are members to add *)
Definition stops (r : Z) : bool := 16383 <? Z.land r 65535.
Definition stopping (rs : list Z) : nat := length (base.filter (λ r, stops r = true) rs).
Lemma stopping_level rs : (0 < stopping rs)%nat → ∃ lv rs', randomLevel rs = Ok (lv, rs') ∧ S (stopping rs') = stopping rs.
Proof.
  unfold randomLevel. generalize 1. induction rs as [|r rs IH]; intros n Hs; [by vm_compute in Hs; lia|].
  cbn [randomLevel_loop]. unfold stopping in *. rewrite filter_cons in *.
  unfold stops in *. destruct (Z.leb_spec (Z.land r 65535) 16383) as [Hle|Hgt].
  - rewrite decide_False in * by lia. by apply IH.
  - rewrite decide_True in * by lia. cbn [mbind res_bind fst snd length]. by eexists _, _.
Qed.
Lemma term_sl_add s sc x rs : finite s → (0 < stopping rs)%nat → term (sl_add s sc x rs).
Proof. intros Hf Hs. unfold sl_add. destruct (stopping_level rs Hs) as (lv & rs' & -> & _). cbn [mbind res_bind fst snd]. apply term_bind; [by apply term_Insert|done]. Qed.
Lemma zadd1_stopping z sc m rs z' b rs' : (0 < stopping rs)%nat → zadd1 z sc m rs = Ok (z', b, rs') → (stopping rs ≤ S (stopping rs'))%nat.
Proof.
  intros Hs H. destruct (stopping_level rs Hs) as (lv & rs1 & Hl & Hle). unfold zadd1, sl_add in H. rewrite Hl in H. destruct (z.1 !! m).
  - destruct (negb _); [|injection H as _ _ <-; lia]. destruct (SlDelete _ _ _); try done. cbn [mbind res_bind fst snd] in H.
    destruct (SkiplistModel.Insert _ _ _ _); try done. cbn [mbind res_bind fst snd] in H. injection H as _ _ <-. lia.
  - cbn [mbind res_bind fst snd] in H. destruct (SkiplistModel.Insert _ _ _ _); try done. cbn [mbind res_bind fst snd] in H. injection H as _ _ <-. lia.
Qed.
Lemma term_zadd1 z sc m rs : finite z.2 → (0 < stopping rs)%nat → term (zadd1 z sc m rs).
Proof.
  intros Hf Hs. unfold zadd1. destruct (z.1 !! m).
  - destruct (negb _); [|done]. apply term_bind; [by apply term_SlDelete|]. intros r Hr. apply SlDelete_finite in Hr; [|done].
    apply term_bind; [by apply term_sl_add|done].
  - apply term_bind; [by apply term_sl_add|done].
Qed.
Lemma term_zadd_all E l : ∀ z c n rs, finite z.2 → (length l / 2 ≤ stopping rs)%nat → term (zadd_all E l z c n rs).
Proof.
  remember (length l) as k eqn:Hk. revert l Hk. induction (lt_wf k) as [k _ IH]. intros l -> z c n rs Hf Hs.
  destruct l as [|a l]; cbn [zadd_all]; [done|]. destruct (lib_parse_float _ a) as [sc|]; [|done]. destruct l as [|m l]; [done|].
  assert (Hd : (length (a :: m :: l) / 2 = S (length l / 2))%nat).
  { change (length (a :: m :: l)) with (2 + length l)%nat. apply (Nat.div_add_l 1 2 (length l)). done. }
  rewrite Hd in Hs. assert (H0 : (0 < stopping rs)%nat) by lia. apply term_bind; [by apply term_zadd1|]. intros [[z1 b] rs1] E1.
  pose proof (zadd1_stopping _ _ _ _ _ _ _ H0 E1). eapply (IH (length l)); [simpl; lia|done| |lia]. by eapply zadd1_finite.
Qed.
