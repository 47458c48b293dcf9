(** What the server writes to its log: whole records of commands that it accepts. *)
From Verif Require Import Base Strconv RespSpec DictModel DatabaseModel SetModel QuicklistModel SkiplistModel ZsetModel
  ServerModel CommandModel LoadModel AofModel SystemModel SystemProofs CommandInv CommandInv2 CommandProofs1
  CommandSem CommandTop CommandFrame CommandFacts AofProofs1 AofProofs2 AofProofs4 LoadProofs BootProofs ExampleLib PropsCommand.
From Coq Require Import ZifyBool ZifyNat.

(** the commands that appear in a log: no EXPIRE and no SETEX, whose deadlines would
    count from the restart *)
Definition logged_names : list bytes := [
  B "set"; B "expireat"; B "hset"; B "hdel"; B "lpush"; B "rpush"; B "lpop"; B "rpop";
  B "sadd"; B "srem"; B "spop"; B "zadd"; B "zrem"; B "zremrangebyrank"; B "zremrangebyscore"].
(** a record of a log: SELECT of an existing database, or one of these commands with an
    accepted number of arguments *)
Inductive own_record (cf : config) : list bytes → Prop :=
| own_select i : (i < cf_dbs cf)%nat → own_record cf [B "select"; itoa (Z.of_nat i)]
| own_command a l ar : lib_lower (cf_lib cf) a ∈ logged_names → (lib_lower (cf_lib cf) a, ar) ∈ arities →
    accepts ar (zlen (a :: l)) → own_record cf (a :: l).
Definition own_log (cf : config) (text : bytes) : Prop := ∃ cmds, text = log_file cmds ∧ Forall (own_record cf) cmds.

Lemma own_nil cf : own_log cf [].
Proof. exists []. split; [done|by apply Forall_nil_2]. Qed.
Lemma own_app cf s t : own_log cf s → own_log cf t → own_log cf (s ++ t).
Proof. intros (c & -> & H) (c' & -> & H'). exists (c ++ c'). split; [by rewrite log_app|by apply Forall_app]. Qed.
Lemma own_one cf c : own_record cf c → own_log cf (encode c).
Proof. intros H. exists [c]. split; [by rewrite log_one|by apply Forall_singleton]. Qed.
Lemma own_good cf c : lower_ok (cf_lib cf) → own_record cf c → good_record cf c.
Proof. intros Hlow [i _|a l ar _ Har Hacc]; [record_own Hlow 2|by eapply record_good]. Qed.
Lemma own_named cf name l ar : lower_ok (cf_lib cf) → bool_decide (name ∈ logged_names) = true → bool_decide ((name, ar) ∈ arities) = true →
  accepts ar (zlen (name :: l)) → own_record cf (name :: l).
Proof.
  intros Hlow Hn Ha. apply bool_decide_eq_true in Hn, Ha. intros Hacc. pose proof (Hlow _ _ Ha) as HL. eapply own_command; [by rewrite HL|by rewrite HL|done].
Qed.

Lemma writers_logged name : name ∈ writers ∨ name = B "zadd" → name ≠ B "expire" → name ≠ B "setex" → name ∈ logged_names.
Proof.
  assert (H : Forall (λ n, n = B "expire" ∨ n = B "setex" ∨ n ∈ logged_names) (B "zadd" :: writers)).
  { apply (bool_decide_unpack _). by vm_compute. }
  rewrite Forall_forall in H. intros Hn. destruct (H name) as [?|[?|?]]; [|done..]. destruct Hn as [?| ->]; [by right|by left].
Qed.

(** ** Commands *)
Lemma own_text cf E a l ar t : lower_ok (cf_lib cf) →
  lib_lower (cf_lib cf) a ∈ writers ∨ lib_lower (cf_lib cf) a = B "zadd" → (lib_lower (cf_lib cf) a, ar) ∈ arities → accepts ar (zlen (a :: l)) →
  log_text E (lib_lower (cf_lib cf) a) (a :: l) = Some t → own_log cf t.
Proof.
  intros Hlow Hw Har Hacc Ht. unfold log_text in Ht. case_decide as H1; [|case_decide as H2].
  - destruct l as [|k [|b [|]]]; try done. destruct (Atoi b) as [n|]; [|done]. injection Ht as <-. apply own_one.
    apply (own_named _ _ _ 3); [done|by vm_compute|by vm_compute|done].
  - destruct l as [|k [|b [|v [|]]]]; try done. destruct (Atoi b) as [n|]; [|done]. cbn [mbind option_bind] in Ht. apply (inj Some) in Ht. rewrite <-Ht. apply own_app; apply own_one.
    + apply (own_named _ _ _ (-3)); [done|by vm_compute|by vm_compute|by vm_compute].
    + apply (own_named _ _ _ 3); [done|by vm_compute|by vm_compute|done].
  - injection Ht as <-. apply own_one. eapply own_command; [|done..]. by apply writers_logged.
Qed.

(** ** The text of a rewrite, whatever it reads *)
Section dict.
  Context {K V : Type} `{EqDecision K}.
  Lemma for_entries_inv {X} (P : X → Prop) (body : dict K V → X → K * V → res (dict K V * X)) :
    (∀ d s e d' s', P s → body d s e = Ok (d', s') → P s') →
    ∀ fuel d it s d' it' s', P s → for_entries fuel body d it s = Ok (d', it', s') → P s'.
  Proof.
    intros Hb. induction fuel as [|fuel IH]; intros d it s d' it' s' Hs HE; [done|]. cbn [for_entries] in HE.
    destruct (DictModel.Next d it) as [[[d1 it1] [e|]]| |]; cbn [mbind res_bind] in HE; [|by injection HE as <- <- <-|done..].
    destruct (body d1 s e) as [[d2 s2]| |] eqn:EB; cbn [mbind res_bind fst snd] in HE; [|done..]. eapply IH; [|exact HE]. by eapply Hb.
  Qed.
  Lemma iterate_inv {X} (P : X → Prop) (body : dict K V → X → K * V → res (dict K V * X)) d s r :
    (∀ d s e d' s', P s → body d s e = Ok (d', s') → P s') → P s → iterate body d s = Ok r → P r.2.
  Proof.
    intros Hb Hs HE. unfold iterate in HE. destruct (for_entries _ _ _ _ _) as [[[d1 it1] s1]| |] eqn:EF; cbn [mbind res_bind] in HE; [|done..].
    injection HE as <-. by eapply for_entries_inv.
  Qed.
End dict.

Lemma chunk_each {A} (P : list A → Prop) (Q : list A → Prop) n :
  (∀ l, P l → l ≠ [] → Q (take n l) ∧ P (drop n l)) → ∀ fuel l, P l → Forall Q (chunk_ fuel n l).
Proof.
  intros H. induction fuel as [|fuel IH]; intros [|a l] Hl; try by apply Forall_nil_2. cbn [chunk_].
  destruct (H (a :: l) Hl) as [H1 H2]; [done|]. constructor; [done|]. by apply IH.
Qed.
Lemma own_items cf name key n items ar (P Q : list bytes → Prop) : lower_ok (cf_lib cf) →
  bool_decide (name ∈ logged_names) = true → bool_decide ((name, ar) ∈ arities) = true →
  (∀ l, P l → l ≠ [] → Q (take n l) ∧ P (drop n l)) → (∀ l, Q l → accepts ar (zlen (name :: key :: l))) → P items →
  own_log cf (rewrite_items name key n items).
Proof.
  intros Hlow Hn Ha HP HQ Hi. unfold rewrite_items, Chunk. pose proof (chunk_each P Q n HP (length items) items Hi) as HF.
  exists (map (λ c, name :: key :: c) (chunk_ (length items) n items)). split.
  - unfold log_file. rewrite map_map. f_equal. apply map_ext. intros c. apply cat_encode.
  - induction HF as [|c cs Hc HF IH]; [by apply Forall_nil_2|]. cbn [map]. constructor; [|done].
    apply (own_named _ _ _ ar); [done..|by apply HQ].
Qed.
Lemma own_singles cf name key items : lower_ok (cf_lib cf) → name = B "lpush" ∨ name = B "sadd" →
  own_log cf (rewrite_items name key AofRewriteItemsPerCommand items).
Proof.
  intros Hlow Hn. apply (own_items cf name key _ items (-3) (λ _, True) (λ l, l ≠ [])); [done|destruct Hn as [-> | ->]; by vm_compute..| | |done].
  - intros [|a l] _ Hl; [done|]. split; [|done]. unfold AofRewriteItemsPerCommand. done.
  - intros [|a l] Hl; [done|]. unfold accepts, zlen. rewrite decide_False by lia. simpl. lia.
Qed.
Lemma own_pairs cf name key items : lower_ok (cf_lib cf) → name = B "hset" ∨ name = B "zadd" → Nat.Even (length items) →
  own_log cf (rewrite_items name key (AofRewriteItemsPerCommand * 2) items).
Proof.
  intros Hlow Hn Hi. apply (own_items cf name key _ items (-4) (λ l, Nat.Even (length l)) (λ l, 2 ≤ length l)%nat); [done|destruct Hn as [-> | ->]; by vm_compute..| | |done].
  - intros l [k Hk] Hl. rewrite take_length, drop_length. unfold AofRewriteItemsPerCommand. assert (length l ≠ 0%nat) by (by destruct l). split; [lia|].
    exists (k - 64)%nat. lia.
  - intros l Hl. unfold accepts, zlen. rewrite decide_False by lia. simpl. lia.
Qed.
Lemma zset_items_even E es l : zset_items E es = Ok l → Nat.Even (length l).
Proof.
  revert l. induction es as [|[[m sc]|] es IH]; intros l HE; [injection HE as <-; by exists 0%nat| |done].
  cbn [zset_items] in HE. destruct (zset_items E es) as [l'| |]; cbn [mbind res_bind] in HE; [|done..]. injection HE as <-.
  destruct (IH _ eq_refl) as [k Hk]. exists (S k). simpl. lia.
Qed.

Section rewrite.
  Context (cf : config) (E : env) (Hlow : lower_ok (cf_lib cf)).
  Lemma own_value heap key v t : rewrite_value E heap key v = Ok t → own_log cf t.
  Proof.
    destruct v as [s|o]; cbn [rewrite_value]; intros HE.
    - injection HE as <-. unfold rewriteStringObject. rewrite cat_encode. apply own_one. apply (own_named _ _ _ (-3)); [done|by vm_compute..].
    - destruct (heap !! o) as [x|]; cbn [deref mbind res_bind] in HE; [|done]. destruct x as [d|q|s|z].
      + unfold rewriteHashObject in HE. destruct (iterate _ d []) as [r| |] eqn:EI; cbn [mbind res_bind] in HE; [|done..]. injection HE as <-.
        apply own_pairs; [done|by left|]. eapply (iterate_inv (λ l, Nat.Even (length l))); [| |exact EI]; [|by exists 0%nat].
        intros d0 s0 e d' s' [k Hk] [= <- <-]. exists (S k). rewrite app_length. simpl. lia.
      + unfold rewriteListObject in HE. destruct (q_items q) as [items| |]; cbn [mbind res_bind] in HE; [|done..]. injection HE as <-.
        apply own_singles; [done|by left].
      + unfold rewriteSetObject in HE. destruct (SetModel.Range s) as [r| |]; cbn [mbind res_bind] in HE; [|done..]. injection HE as <-.
        apply own_singles; [done|by right].
      + unfold rewriteZsetObject in HE. destruct (ZRangeByRank _ _ _ _ _) as [r| |]; cbn [mbind res_bind] in HE; [|done..].
        destruct (zset_items E r.2) as [items| |] eqn:EI; cbn [mbind res_bind] in HE; [|done..]. injection HE as <-.
        apply own_pairs; [done|by right|by eapply zset_items_even].
  Qed.
  Lemma own_db rd id db t : (id < cf_dbs cf)%nat → rewrite_db E rd id db = Ok t → own_log cf t.
  Proof.
    intros Hid HE. unfold rewrite_db in HE. destruct (Size (db_dict db)) as [n| |]; cbn [mbind res_bind] in HE; [|done..].
    destruct (n =? 0); [injection HE as <-; apply own_nil|]. destruct (iterate _ _ _) as [r| |] eqn:EI; cbn [mbind res_bind] in HE; [|done..].
    injection HE as <-. apply (iterate_inv (λ st, own_log cf st.2)) in EI; [done| |].
    - intros d s e d' s' Hs HB. unfold rewrite_entry in HB. destruct (rewrite_value E (rd e.1) e.1 e.2) as [v| |] eqn:EV; cbn [mbind res_bind] in HB; [|done..].
      destruct (FindEntry Hash s.1 e.1) as [f| |]; cbn [mbind res_bind] in HB; [|done..]. injection HB as <- <-. cbn [snd].
      apply own_app; [done|]. apply own_app; [by eapply own_value|]. destruct f.2 as [[k when]|]; [|apply own_nil].
      rewrite cat_encode. apply own_one. apply (own_named _ _ _ 3); [done|by vm_compute|by vm_compute|done].
    - cbn [snd]. rewrite cat_encode. apply own_one. by apply own_select.
  Qed.
  Lemma own_rewrite rd : ∀ dbs id t, (id + length dbs ≤ cf_dbs cf)%nat → rewrite_dbs E rd id dbs = Ok t → own_log cf t.
  Proof.
    induction dbs as [|db dbs IH]; intros id t Hid HE; cbn [rewrite_dbs] in HE; [injection HE as <-; apply own_nil|].
    simpl in Hid. destruct (rewrite_db _ _ _ _) as [t1| |] eqn:E1; cbn [mbind res_bind] in HE; [|done..].
    destruct (rewrite_dbs _ _ _ _) as [t2| |] eqn:E2; cbn [mbind res_bind] in HE; [|done..]. injection HE as <-.
    apply own_app; [eapply own_db; [|exact E1]; lia|eapply IH; [|exact E2]; lia].
  Qed.
End rewrite.

(** ** Histories *)
(** the text of a rewrite is the work of [rewriteAppendOnlyFile] on some databases; a
    restart is from a log of such records *)
Definition own_event (cf : config) (e : event) : Prop :=
  match e with
  | EvDone dump => ∃ E rd dbs, (length dbs ≤ cf_dbs cf)%nat ∧ rewriteAppendOnlyFile E rd dbs = Ok dump
  | EvBoot file _ _ => own_log cf file
  | _ => True
  end.
Lemma own_history cf evs y : lower_ok (cf_lib cf) → reaches cf evs y → Forall (own_event cf) evs →
  own_log cf (y_file y) ∧ own_log cf (s_aofbuf (y_srv y)) ∧ own_log cf (s_rwbuf (y_srv y)).
Proof.
  intros Hlow. revert y. induction evs as [|e evs IH] using rev_ind; intros y' Hr Hev.
  { destruct Hr as [_ [= <-]]. split; [|split]; apply own_nil. }
  apply Forall_app in Hev as [Hev He]. apply Forall_cons in He as [He _].
  apply reaches_snoc in Hr as (Hh & y & Hr & HS). destruct (IH y Hr Hev) as (I1 & I2 & I3). clear IH.
  pose proof (reaches_ok cf evs y Hr) as Hok. destruct Hh as (Hev' & Hpos & Htot). rewrite total_app in Htot.
  apply Forall_app in Hev' as [_ Hev']. apply Forall_cons in Hev' as [Hev' _].
  destruct e as [|i args now unix rs|i n|now rs| | |dump|file clock rs]; cbn [own_event] in He.
  - by injection HS as <-.
  - destruct (y_cls y !! i) as [c|] eqn:Hc; [|cbn [step] in HS; rewrite Hc in HS; by injection HS as <-].
    destruct Hev' as [Hargs Hrs].
    destruct (command_step cf evs y i c args now unix rs y' Hr Hc) as (v' & r & n & Hd); [|done|].
    { split; [done|]. split; [done|]. unfold total in *. simpl in *. lia. }
    destruct Hd as [Ht _ _ Hl ->]. split; [done|].
    assert (Hquiet : lst (y_srv y') = lst (y_srv y) → own_log cf (s_aofbuf (y_srv y')) ∧ own_log cf (s_rwbuf (y_srv y'))).
    { intros Hq. unfold lst in Hq. by injection Hq as _ -> ->. }
    destruct (cf_aof cf && negb (n =? 0)) eqn:Hlog; [|by apply Hquiet].
    destruct Hl as (a' & t & Ha' & Htx & Hl). apply andb_true_iff in Hlog as [_ Hn]. assert (Hn0 : n ≠ 0) by lia.
    remember (Ok (v', r, n)) as o eqn:Eo. destruct Ht; try (injection Eo as <- <- <-; done); try done.
    destruct ro as [[D' r' n']| |]; try done. cbn [on_view mbind res_bind] in Eo. injection Eo as <- <- <-.
    match goal with H : allowed _ _ _ _ |- _ => destruct H as ((a & l & ar & -> & -> & Har & Hacc) & _) end.
    injection Ha' as <-. cbn [view_at v_dbs v_db v_auth] in *. cbn [env_at e_lib] in *.
    match goal with H : sem _ _ _ _ _ |- _ => rename H into Hs end.
    assert (Hown : own_log cf t).
    { eapply (own_text cf _ a l ar); [done| |done..|exact Htx].
      destruct (sem_kinds _ _ _ _ _ Hs) as [Hrd|Hw]; [|exact Hw]. by destruct (sem_reads _ _ _ _ _ _ _ Hrd Hs). }
    match goal with H : abs_dbs (y_srv y) !! _ = Some D |- _ => rename H into HD end.
    assert (Hdb : (c_db c < cf_dbs cf)%nat).
    { apply lookup_lt_Some in HD. rewrite abs_dbs_len in HD. destruct Hok as [_ HL _]. lia. }
    unfold log_add, lst in Hl. cbn [l_select l_buf l_rw] in Hl.
    set (sel := if s_select (y_srv y) =? Z.of_nat (c_db c) then [] else encode [B "select"; itoa (Z.of_nat (c_db c))]) in Hl.
    assert (Hsel : own_log cf (sel ++ t)).
    { apply own_app; [|done]. unfold sel. case (_ =? _); [apply own_nil|]. apply own_one. by apply own_select. }
    injection Hl as _ -> ->. split; [by apply own_app|]. destruct (s_task (y_srv y)); [by apply own_app|done].
  - cbn [step] in HS. destruct (y_cls y !! i); by injection HS as <-.
  - cbn [step] in HS. destruct (databasesCron _ _ _) as [[dbs' rs']| |]; try done. by injection HS as <-.
  - injection HS as <-. cbn [y_file y_srv s_aofbuf s_rwbuf set_log]. split; [by apply own_app|]. split; [apply own_nil|done].
  - cbn [step] in HS. unfold rewriteAppendOnlyFileBackground in HS. destruct (s_task (y_srv y)); [by injection HS as <-|].
    destruct (copy_dbs _) as [snap| |]; cbn in HS; try done. by injection HS as <-.
  - cbn [step] in HS. destruct (s_task (y_srv y)); [|by injection HS as <-]. injection HS as <-.
    cbn [y_file y_srv s_aofbuf s_rwbuf set_log set_task]. destruct He as (E & rd & dbs & HL & HE).
    split; [apply own_app; [|done]; eapply (own_rewrite cf E Hlow rd dbs 0); [simpl; lia|exact HE]|]. split; [done|apply own_nil].
  - destruct Hev' as [Hrec Hrs]. cbn [step] in HS. destruct (cf_aof cf).
    + destruct (restart cf clock file rs) as [w o] eqn:ER. cbn [fst snd] in HS. destruct o as [[]| |]; cbn in HS; [|done..].
      injection HS as <-. apply restart_ok in ER as (_ & _ & Hl); try done.
      2:{ unfold total in Htot. simpl in Htot. lia. }
      unfold lst in Hl. injection Hl as _ H2 H3. cbn [y_file y_srv]. rewrite H2, H3. split; [done|]. split; apply own_nil.
    + injection HS as <-. split; [done|]. split; apply own_nil.
Qed.

(** ** Reading them back *)
Lemma replay_records cmds : ∀ j acc, replay (λ _ args s, Ok (s ++ [args])) j cmds acc = (acc ++ cmds, Ok tt).
Proof.
  induction cmds as [|c cmds IH]; intros j acc; cbn [replay]; [by rewrite app_nil_r|]. rewrite IH. by rewrite <-app_assoc.
Qed.
Lemma own_records cf text k : lower_ok (cf_lib cf) → own_log cf text → readable text →
  ∃ n cmds, text = log_file cmds ∧ Forall (own_record cf) cmds ∧ records (take k text) = take n cmds ∧
    (length text ≤ k → take n cmds = cmds)%nat.
Proof.
  intros Hlow (cmds & -> & Hc) Hrd.
  assert (Hne : Forall (λ c, c ≠ []) cmds) by (eapply Forall_impl; [exact Hc|]; intros c Hx; by apply (own_good cf)).
  pose proof (readable_ok _ Hne Hrd) as Hok. unfold records.
  destruct (load_file_cut (λ _ args s, Ok (s ++ [args])) cmds k [] Hok) as (n & e & HL & Hn & Hl & He).
  exists n, cmds. split; [done|]. split; [done|]. rewrite HL, replay_records. split; [done|].
  intros Hk. destruct (cmds !! n) as [c|] eqn:Hcn; [|by apply lookup_ge_None, take_ge in Hcn].
  exfalso. destruct He as [H1 _]. rewrite <-(take_drop_middle cmds n c Hcn) in Hk. rewrite log_app, log_cons, !app_length in Hk. lia.
Qed.
Lemma own_boot cf text k : lower_ok (cf_lib cf) → own_log cf text → readable text → Forall (record_ok cf) (records (take k text)).
Proof.
  intros Hlow Ho Hrd. destruct (own_records cf text k Hlow Ho Hrd) as (n & cmds & _ & Hc & -> & _).
  apply Forall_take. eapply Forall_impl; [exact Hc|]. intros c Hx. by apply (own_good cf).
Qed.
