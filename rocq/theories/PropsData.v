(** Strings, hashes, lists, sets and expiry at the command level (C30-C34). *)
From Verif Require Import Base Float DictModel DictProofs DictProofs2
  DatabaseModel SetModel QuicklistModel QuicklistProofs SkiplistModel ZsetModel
  Strconv RespSpec ServerModel CommandModel CommandSem CommandInv CommandInv2 CommandProofs1 CommandProofs2
  CommandTop CommandFrame SystemModel SystemProofs CommandFacts ExampleLib PropsCommand.
From Coq Require Import ZifyBool ZifyNat.

Ltac not_special := by intros [?|[?|?]].
Ltac in_table := by repeat constructor.
Lemma wrap64_id z : in_int64 z → wrap64 z = z.
Proof. intros Hz. unfold in_int64, minInt64, maxInt64, wrap64 in *. rewrite Z.mod_small; lia. Qed.

(** the value of a key as seen at a given time *)
Definition live (E : env) (D : adb) (key : bytes) : option aval :=
  match a_ttl D !! key with
  | Some when => if when <? e_now E then None else a_keys D !! key
  | None => a_keys D !! key
  end.
Lemma live_purge E D key : live E D key = a_keys (purge E key D) !! key.
Proof.
  unfold live, purge. case_decide as He.
  - destruct He as (when & -> & Hw). replace (when <? e_now E) with true by lia. simpl. by rewrite lookup_delete.
  - destruct (a_ttl D !! key) as [when|] eqn:Hw; [|done]. destruct (when <? e_now E) eqn:Hlt; [|done].
    exfalso. apply He. exists when. split; [done|lia].
Qed.
Lemma live_not_expired E D key : ¬ expired E D key → live E D key = a_keys D !! key.
Proof. intros He. rewrite live_purge. unfold purge. by rewrite decide_False. Qed.

(** * C30 *)
Theorem C30_set cf evs y i c args now unix rs D key v :
  ready cf evs y i c (B "set") args rs D → args !! 1%nat = Some key → args !! 2%nat = Some v →
  ∃ y' D', step cf (EvCommand i args now unix rs) y = Ok y' ∧ changed_to y y' c D' ∧ replied y y' i c ROK ∧
    a_keys D' !! key = Some (AStr v) ∧ a_ttl D' !! key = None ∧ same_but key D D'.
Proof.
  intros H Hkey Hv.
  destruct (data_total cf evs y i c (B "set") sem_set args now unix rs D
    (λ D' r n', a_keys D' !! key = Some (AStr v) ∧ a_ttl D' !! key = None ∧ same_but key D D' ∧ r = ROK) H)
    as (y' & D' & r & n' & HS & Hch & Hrep & _ & H1 & H2 & H3 & ->); [not_special|in_table| |by exists y', D'].
  intros o Ho. unfold sem_set, fn in Ho. destruct args as [|? [|? [|? ?]]]; try done. injection Hkey as ->. injection Hv as ->.
  injection Ho as <-. do 3 eexists. split; [done|]. simpl. rewrite lookup_insert, lookup_delete. do 2 (split; [done|]). split; [|done].
  intros k Hk. simpl. by rewrite lookup_insert_ne, lookup_delete_ne.
Qed.
Print Assumptions C30_set.
(** GET replies with the value of a live string; a missing or expired key gives the null reply *)
Theorem C30_get cf evs y i c args now unix rs D key :
  let E := env_at cf now unix in
  ready cf evs y i c (B "get") args rs D → args !! 1%nat = Some key →
  ∃ y' r, step cf (EvCommand i args now unix rs) y = Ok y' ∧ replied y y' i c r ∧
    match live E D key with
    | None => r = RNull
    | Some (AStr v) => r = RBulk v
    | Some _ => is_error r
    end.
Proof.
  intros E H Hkey.
  destruct (data_total cf evs y i c (B "get") (sem_get E) args now unix rs D
    (λ D' r n', match live E D key with None => r = RNull | Some (AStr v) => r = RBulk v | Some _ => is_error r end) H)
    as (y' & D' & r & n' & HS & Hch & Hrep & _ & H1); [not_special|in_table| |by exists y', r].
  intros o Ho. unfold sem_get, fn in Ho. destruct args as [|? [|? ?]]; try done. injection Hkey as ->.
  injection Ho as <-. do 3 eexists. split; [done|]. rewrite live_purge. by destruct (a_keys (purge E key D) !! key) as [[]|].
Qed.
Print Assumptions C30_get.
(** SETEX: as SET, with the deadline now + 1000 s.  The full property has no bound
    on s (see [C30_setex_refuted]). *)
Theorem C30_setex_partial cf evs y i c args now unix rs D key a n v :
  ready cf evs y i c (B "setex") args rs D → args !! 1%nat = Some key → args !! 2%nat = Some a → Atoi a = Some n → args !! 3%nat = Some v →
  minInt64 ≤ n * 1000 → minInt64 ≤ now + n * 1000 → n * 1000 ≤ maxInt64 → now + n * 1000 ≤ maxInt64 →
  ∃ y' D', step cf (EvCommand i args now unix rs) y = Ok y' ∧ changed_to y y' c D' ∧ replied y y' i c ROK ∧
    a_keys D' !! key = Some (AStr v) ∧ a_ttl D' !! key = Some (now + n * 1000) ∧ same_but key D D'.
Proof.
  intros H Hkey Ha Hn Hv B1 B2 B3 B4.
  destruct (data_total cf evs y i c (B "setex") (sem_setex (env_at cf now unix)) args now unix rs D
    (λ D' r n', a_keys D' !! key = Some (AStr v) ∧ a_ttl D' !! key = Some (now + n * 1000) ∧ same_but key D D' ∧ r = ROK) H)
    as (y' & D' & r & n' & HS & Hch & Hrep & _ & H1 & H2 & H3 & ->); [not_special|in_table| |by exists y', D'].
  intros o Ho. unfold sem_setex, fn in Ho. destruct args as [|? [|? [|? [|? ?]]]]; try done.
  injection Hkey as ->. injection Hv as ->. injection Ha as ->. rewrite Hn in Ho.
  injection Ho as <-. do 3 eexists. split; [done|]. cbn [a_keys a_ttl env_at e_now]. rewrite !lookup_insert. split; [done|].
  split; [unfold ms; rewrite (wrap64_id (n * 1000)), wrap64_id; done|]. split; [|done].
  intros k Hk. simpl. by rewrite !lookup_insert_ne.
Qed.
Print Assumptions C30_setex_partial.
(** what GET sees of a string with a deadline: the value up to and including the
    deadline, nothing afterwards *)
Theorem C30_deadline E D key v when : a_keys D !! key = Some (AStr v) → a_ttl D !! key = Some when →
  (e_now E ≤ when → live E D key = Some (AStr v)) ∧ (when < e_now E → live E D key = None).
Proof.
  intros Hk Ht. unfold live. rewrite Ht, Hk. split; intros Hx; [by replace (when <? e_now E) with false by lia|by replace (when <? e_now E) with true by lia].
Qed.
Print Assumptions C30_deadline.
(** round trip: SET by one client, then GET by any client on the same database *)
Theorem C30_roundtrip cf evs y i c j c2 args args2 now unix rs now2 unix2 rs2 D key v y1 :
  ready cf evs y i c (B "set") args rs D → args !! 1%nat = Some key → args !! 2%nat = Some v →
  step cf (EvCommand i args now unix rs) y = Ok y1 →
  y_cls y1 !! j = Some c2 → c_db c2 = c_db c → runs cf c2 (B "get") args2 → args2 !! 1%nat = Some key →
  cmd_ok cf (evs ++ [EvCommand i args now unix rs]) args2 rs2 →
  ∃ y2, step cf (EvCommand j args2 now2 unix2 rs2) y1 = Ok y2 ∧ replied y1 y2 j c2 (RBulk v).
Proof.
  intros H Hkey Hv HS Hc2 Hdb Hruns Hkey2 Hok2.
  destruct (C30_set cf evs y i c args now unix rs D key v H Hkey Hv) as (y1' & D' & HS' & Hch & _ & H1 & H2 & _).
  assert (y1' = y1) as -> by congruence. pose proof H as [Hr Hc Hok Hr1 HD].
  assert (Hr2 : reaches cf (evs ++ [EvCommand i args now unix rs]) y1).
  { apply reaches_snoc. split; [|by exists y]. destruct Hr as [(Hf & Hn & Ht) _]. destruct Hok as (O1 & O2 & O3).
    split; [|split; [done|]].
    - apply Forall_app. split; [done|]. by apply Forall_singleton.
    - rewrite total_app. unfold total at 2. simpl. lia. }
  destruct (C30_get cf (evs ++ [EvCommand i args now unix rs]) y1 j c2 args2 now2 unix2 rs2 D' key) as (y2 & r & HS2 & Hrep & Hx); [|done|].
  { split; try done. rewrite Hch, Hdb. apply list_lookup_insert. by eapply lookup_lt_Some. }
  exists y2. split; [done|]. unfold live in Hx. rewrite H2, H1 in Hx. by subst r.
Qed.
Print Assumptions C30_roundtrip.
Example C30_example : ∃ y c D, ready cf0 [EvConnect; cmd 0 5 "SETEX k 1 v"] y 0 c (B "setex") (words "SETEX k 100 w") [] D ∧
  Atoi (B "100") = Some 100 ∧ a_ttl D !! B "k" = Some 1005.
Proof. eexists. eexists. eexists. split; [ready_tac|]. by vm_compute. Qed.
Theorem C30_setex_refuted : ∃ y c, reaches cf0 [EvConnect; cmd 0 5 "SETEX k 9223372036854775807 v"; cmd 0 5 "GET k"] y ∧
  y_cls y !! 0%nat = Some c ∧ c_out c = [B "+OK" ++ CRLF; B "$-1" ++ CRLF].
Proof. eexists. eexists. split; [reached|]. split; [reflexivity|]. by vm_compute. Qed.
Print Assumptions C30_setex_refuted.

(** * C31 *)
(** a key without a value counts as an empty container; None: another kind *)
Definition hash_at (D : adb) (key : bytes) : option (gmap bytes bytes) :=
  match a_keys D !! key with None => Some ∅ | Some (AHash h) => Some h | _ => None end.
Definition list_at (D : adb) (key : bytes) : option (list bytes) :=
  match a_keys D !! key with None => Some [] | Some (AList q) => Some (mjoin (q_pages q)) | _ => None end.
Definition gset_at (D : adb) (key : bytes) : option (gset bytes) :=
  match a_keys D !! key with None => Some ∅ | Some (ASet s) => Some s | _ => None end.

(** pairs field value field value ...; the last value of a field counts *)
Fixpoint pairs (l : list bytes) : option (list (bytes * bytes)) :=
  match l with
  | [] => Some []
  | f :: v :: l => match pairs l with Some p => Some ((f, v) :: p) | None => None end
  | [_] => None
  end.
Definition count (X : gset bytes) : reply := RInt (Z.of_nat (size X)).
Inductive hash_spec : bytes → list bytes → gmap bytes bytes → gmap bytes bytes → reply → Prop :=
| hs_set l p h : pairs l = Some p →
    hash_spec (B "hset") l h (list_to_map (reverse p) ∪ h) (count (list_to_set p.*1 ∖ dom h))
| hs_del l h : hash_spec (B "hdel") l h (filter (λ x, x.1 ∉ l) h) (count (list_to_set l ∩ dom h))
| hs_get f l h : hash_spec (B "hget") (f :: l) h h (match h !! f with Some v => RBulk v | None => RNull end)
| hs_exists f l h : hash_spec (B "hexists") (f :: l) h h (RInt (if decide (is_Some (h !! f)) then 1 else 0))
| hs_keys l ks h : NoDup ks → (∀ k, k ∈ ks ↔ is_Some (h !! k)) → hash_spec (B "hkeys") l h h (RArray ks)
| hs_len l h : hash_spec (B "hlen") l h h (RInt (Z.of_nat (size h))).
Inductive list_spec : bytes → list bytes → list bytes → list bytes → reply → Prop :=
| ls_lpush l x : list_spec (B "lpush") l x (reverse l ++ x) (RInt (Z.of_nat (length l + length x)))
| ls_rpush l x : list_spec (B "rpush") l x (x ++ l) (RInt (Z.of_nat (length l + length x)))
| ls_lpop l v x : list_spec (B "lpop") l (v :: x) x (RBulk v)
| ls_lpop_empty l : list_spec (B "lpop") l [] [] RNull
| ls_llen l x : list_spec (B "llen") l x x (RInt (Z.of_nat (length x))).
Inductive set_spec : bytes → list bytes → gset bytes → gset bytes → reply → Prop :=
| ss_add l s : set_spec (B "sadd") l s (s ∪ list_to_set l) (count (list_to_set l ∖ s))
| ss_rem l s : set_spec (B "srem") l s (s ∖ list_to_set l) (count (list_to_set l ∩ s))
| ss_card l s : set_spec (B "scard") l s s (count s)
| ss_mem m l s : set_spec (B "sismember") (m :: l) s s (RInt (if decide (m ∈ s) then 1 else 0))
| ss_members l ms s : NoDup ms → (∀ m, m ∈ ms ↔ m ∈ s) → set_spec (B "smembers") l s s (RArray ms).

(** ** Facts about the helpers of the semantics *)
Lemma pairs_ind (P : list bytes → Prop) : P [] → (∀ f v l, P l → P (f :: v :: l)) → ∀ l, is_Some (pairs l) → P l.
Proof.
  intros H0 H1 l. remember (length l) as n eqn:Hn. revert l Hn. induction (lt_wf n) as [n _ IH]. intros l -> [p Hp].
  destruct l as [|f [|v l]]; [done|done|]. apply H1. apply (IH (length l)); [simpl; lia|done|].
  cbn [pairs] in Hp. by destruct (pairs l).
Qed.
Lemma hset_all_pairs l : is_Some (pairs l) → ∀ p h, pairs l = Some p → hset_all l h = list_to_map (reverse p) ∪ h.
Proof.
  intros Hl. pattern l. apply pairs_ind; [| |done].
  - intros p h [= <-]. simpl. by rewrite (left_id_L ∅ (∪)).
  - clear. intros f v l IH p h Hp. cbn [pairs] in Hp. destruct (pairs l) as [p'|] eqn:Hp'; [|done]. injection Hp as <-.
    cbn [hset_all]. rewrite (IH p' _ eq_refl). rewrite reverse_cons.
    apply map_eq. intros k. rewrite !lookup_union.
    assert (Ha : ∀ (a : list (bytes * bytes)) x, (list_to_map (a ++ [x]) : gmap bytes bytes) = list_to_map a ∪ {[x.1 := x.2]}).
    { intros a x. rewrite list_to_map_app. f_equal. }
    rewrite Ha, lookup_union. simpl. destruct ((list_to_map (reverse p') : gmap bytes bytes) !! k) eqn:E1; rewrite ?E1.
    + by destruct ({[f := v]} !! k), (<[f:=v]> h !! k), (h !! k).
    + destruct (decide (f = k)) as [->|Hk].
      * rewrite lookup_insert, lookup_singleton. by destruct (h !! k).
      * rewrite lookup_insert_ne, lookup_singleton_ne by done. by destruct (h !! k).
Qed.
Lemma pairs_even l : zlen l mod 2 = 0 → is_Some (pairs l).
Proof.
  remember (length l) as n eqn:Hn. revert l Hn. induction (lt_wf n) as [n _ IH]. intros l -> Hl.
  destruct l as [|f [|v l]]; [by eexists|done|]. cbn [pairs].
  destruct (IH (length l) ltac:(simpl; lia) l eq_refl) as [p ->]; [|by eexists].
  unfold zlen in *. cbn [length] in Hl. rewrite !Nat2Z.inj_succ in Hl.
  replace (Z.succ (Z.succ (Z.of_nat (length l)))) with (Z.of_nat (length l) + 1 * 2) in Hl by lia. by rewrite Z.mod_add in Hl.
Qed.
Lemma dom_hset p (h : gmap bytes bytes) : dom (list_to_map (reverse p) ∪ h) = list_to_set p.*1 ∪ dom h.
Proof.
  rewrite dom_union_L. f_equal. apply set_eq. intros k. rewrite dom_list_to_map_L, !elem_of_list_to_set.
  by rewrite fmap_reverse, elem_of_reverse.
Qed.
Lemma grown_hset p (h : gmap bytes bytes) : grown h (list_to_map (reverse p) ∪ h) = Z.of_nat (size (list_to_set p.*1 ∖ dom h)).
Proof.
  unfold grown. rewrite <-!(size_dom (D := gset bytes)). rewrite dom_hset.
  replace (list_to_set p.*1 ∪ dom h) with (dom h ∪ (list_to_set p.*1 ∖ dom h)) by (rewrite union_comm_L, difference_union_L; done).
  rewrite size_union by set_solver. lia.
Qed.
Lemma size_split (X Y Z : gset bytes) : X = Y ∪ Z → Y ## Z → size X = (size Y + size Z)%nat.
Proof. intros -> ?. by apply size_union. Qed.
Lemma hdel_all_filter l : ∀ h, hdel_all l h = filter (λ x, x.1 ∉ l) h.
Proof.
  unfold hdel_all. induction l as [|f l IH]; intros h; simpl.
  - symmetry. apply map_filter_id. intros; simpl. by apply not_elem_of_nil.
  - rewrite IH. apply map_eq. intros k. apply option_eq. intros v. rewrite !map_filter_lookup_Some, lookup_delete_Some. simpl.
    rewrite elem_of_cons. naive_solver.
Qed.
Lemma grown_hdel l (h : gmap bytes bytes) : grown (hdel_all l h) h = Z.of_nat (size (list_to_set l ∩ dom h : gset bytes)).
Proof.
  rewrite hdel_all_filter. unfold grown. rewrite <-!(size_dom (D := gset bytes)).
  assert (dom h = dom (filter (λ x : bytes * bytes, x.1 ∉ l) h) ∪ (list_to_set l ∩ dom h)) as Hd.
  { apply set_eq. intros k. rewrite elem_of_union, elem_of_intersection, elem_of_list_to_set, !elem_of_dom.
    split.
    - intros [v Hv]. destruct (decide (k ∈ l)); [right; eauto|left]. exists v. by rewrite map_filter_lookup_Some.
    - intros [[v Hv]|[_ ?]]; [|done]. rewrite map_filter_lookup_Some in Hv. destruct Hv. eauto. }
  rewrite (size_split _ _ _ Hd); [lia|]. intros k. rewrite elem_of_intersection, elem_of_list_to_set, !elem_of_dom.
  intros [v Hv] [? _]. rewrite map_filter_lookup_Some in Hv. by destruct Hv.
Qed.
Lemma grown_sadd l (s : gset bytes) : grown s (sadd_all l s) = Z.of_nat (size (list_to_set l ∖ s)).
Proof.
  unfold grown, sadd_all. rewrite union_comm_L.
  replace (s ∪ list_to_set l) with (s ∪ (list_to_set l ∖ s)) by (rewrite union_comm_L, difference_union_L, union_comm_L; done).
  rewrite size_union by set_solver. lia.
Qed.
Lemma grown_srem l (s : gset bytes) : grown (srem_all l s) s = Z.of_nat (size (list_to_set l ∩ s)).
Proof.
  unfold grown, srem_all. assert (s = (s ∖ list_to_set l) ∪ (list_to_set l ∩ s)) as Hs.
  { apply set_eq. intros k. rewrite elem_of_union, elem_of_difference, elem_of_intersection. destruct (decide (k ∈ (list_to_set l : gset bytes))); naive_solver. }
  rewrite (size_split _ _ _ Hs) by set_solver. lia.
Qed.
Notation qels := QuicklistProofs.elements.
Lemma lpush_all_spec l : ∀ q, wf q → ∃ q', lpush_all l q = Ok q' ∧ wf q' ∧ qels q' = reverse l ++ qels q.
Proof.
  induction l as [|x l IH]; intros q Hq; simpl; [by exists q|].
  destruct (PushFront_spec q x Hq) as (q1 & -> & Hq1 & He). destruct (IH q1 Hq1) as (q2 & E2 & Hq2 & He2).
  exists q2. split; [exact E2|]. split; [done|]. rewrite He2, He, reverse_cons, <-app_assoc. done.
Qed.
Lemma rpush_all_spec l : ∀ q, wf q → wf (rpush_all l q) ∧ qels (rpush_all l q) = qels q ++ l.
Proof.
  unfold rpush_all. induction l as [|x l IH]; intros q Hq; simpl; [by rewrite app_nil_r|].
  destruct (PushBack_spec q x Hq) as [Hq1 He]. destruct (IH _ Hq1) as [Hq2 He2]. split; [done|]. by rewrite He2, He, <-app_assoc.
Qed.
Lemma purge_id E key D : ¬ expired E D key → purge E key D = D.
Proof. intros He. unfold purge. by rewrite decide_False. Qed.
Lemma members_nodup (s : gset bytes) r : members_reply s r → ∃ l, r = RArray l ∧ NoDup l ∧ ∀ m, m ∈ l ↔ m ∈ s.
Proof.
  intros (l & -> & Hl). exists l. split; [done|]. split; [rewrite Hl; apply NoDup_elements|].
  intros m. rewrite Hl. apply elem_of_elements.
Qed.

(** the command acts on the value at [key] as [S] says, and on nothing else *)
Definition acts {X} (at_ : adb → bytes → option X) (S : X → X → reply → Prop) (key : bytes) (D : adb) (D' : adb) (r : reply) : Prop :=
  ∃ x x', at_ D key = Some x ∧ S x x' r ∧ at_ D' key = Some x' ∧ same_but key D D' ∧ a_ttl D' = a_ttl D.
Lemma acts_same {X} (at_ : adb → bytes → option X) (S : X → X → reply → Prop) key D r x : at_ D key = Some x → S x x r → acts at_ S key D D r.
Proof. intros. by exists x, x. Qed.
Lemma acts_put {X} (at_ : adb → bytes → option X) (S : X → X → reply → Prop) key D r x x' v :
  at_ D key = Some x → S x x' r → at_ (put_val key v D) key = Some x' → acts at_ S key D (put_val key v D) r.
Proof.
  intros H1 H2 H3. exists x, x'. split_and!; try done. intros k Hk. simpl. by rewrite lookup_insert_ne.
Qed.
Lemma hash_put key h D : hash_at (put_val key (AHash h) D) key = Some h.
Proof. unfold hash_at. simpl. by rewrite lookup_insert. Qed.
Lemma gset_put key h D : gset_at (put_val key (ASet h) D) key = Some h.
Proof. unfold gset_at. simpl. by rewrite lookup_insert. Qed.
Lemma list_put key q D : list_at (put_val key (AList q) D) key = Some (qels q).
Proof. unfold list_at. simpl. by rewrite lookup_insert. Qed.

Definition hash_commands : list bytes := [B "hset"; B "hget"; B "hdel"; B "hexists"; B "hkeys"; B "hlen"].
Definition list_commands : list bytes := [B "lpush"; B "rpush"; B "lpop"; B "llen"].
Definition set_commands : list bytes := [B "sadd"; B "srem"; B "scard"; B "sismember"; B "smembers"].

Theorem C31_hash cf evs y i c name a0 key l now unix rs D h :
  let E := env_at cf now unix in let args := a0 :: key :: l in
  name ∈ hash_commands → (name = B "hset" → Nat.Even (length l)) →
  ready cf evs y i c name args rs D → ¬ expired E D key → hash_at D key = Some h →
  ∃ y' D' r, step cf (EvCommand i args now unix rs) y = Ok y' ∧ changed_to y y' c D' ∧ replied y y' i c r ∧
    acts hash_at (hash_spec name l) key D D' r.
Proof.
  intros E args Hname Heven H Hex Hh.
  enough (∃ R : list bytes → adb → res outcome → Prop, (name, R) ∈ semTable E ∧ ∀ o, R args D o → ∃ D' r n, o = Ok (Out D' r n) ∧ acts hash_at (hash_spec name l) key D D' r)
    as (R & HR & Hx).
  { destruct (data_total cf evs y i c name R args now unix rs D (λ D' r n, acts hash_at (hash_spec name l) key D D' r) H)
      as (y' & D' & r & n & H1 & H2 & H3 & _ & H4); [|done|done|by exists y', D', r].
    unfold hash_commands in Hname. rewrite !elem_of_cons, elem_of_nil in Hname. destruct_or! Hname; try subst name; try done; not_special. }
  assert (Hcase : a_keys D !! key = None ∧ h = ∅ ∨ a_keys D !! key = Some (AHash h)).
  { unfold hash_at in Hh. destruct (a_keys D !! key) as [[]|]; try done; [right; congruence|left; split; congruence]. }
  unfold args.
  unfold hash_commands in Hname. rewrite !elem_of_cons, elem_of_nil in Hname. destruct Hname as [->|[->|[->|[->|[->|[->|[]]]]]]].
  - exists (sem_hset). split; [in_table|]. intros o Ho. unfold sem_hset, fn in Ho. injection Ho as <-.
    destruct (pairs_even l) as [p Hp].
    { destruct (Heven eq_refl) as [m Hm]. unfold zlen. rewrite Hm. replace (Z.of_nat (2 * m)) with (Z.of_nat m * 2) by lia. apply Z.mod_mul. lia. }
    replace (zlen (a0 :: key :: l) mod 2 =? 0) with true.
    2:{ destruct (Heven eq_refl) as [m Hm]. unfold zlen. cbn [length]. rewrite Hm. replace (Z.of_nat (S (S (2 * m)))) with (Z.of_nat (S m) * 2) by lia. rewrite Z.mod_mul by lia. done. }
    cbn [negb]. unfold on_new.
    assert (HS : hash_spec (B "hset") l h (hset_all l h) (RInt (grown h (hset_all l h)))).
    { rewrite (hset_all_pairs l (ex_intro _ p Hp) p h Hp), grown_hset. by apply hs_set. }
    destruct Hcase as [[-> ->]| -> ]; (do 3 eexists; split; [reflexivity|]; eapply acts_put; [exact Hh|exact HS|apply hash_put]).
  - exists (sem_hget E). split; [in_table|]. intros o Ho. unfold sem_hget, fn in Ho. destruct l as [|f l]; [done|]. injection Ho as <-.
    unfold on_existing. rewrite (purge_id _ _ _ Hex). destruct Hcase as [[-> ->]|Hk].
    + do 3 eexists. split; [reflexivity|]. eapply acts_same; [exact Hh|]. exact (hs_get f l ∅).
    + rewrite Hk. do 3 eexists. split; [reflexivity|]. eapply acts_put; [exact Hh| |apply hash_put].
      pose proof (hs_get f l h) as Hx. by destruct (h !! f).
  - exists (sem_hdel E). split; [in_table|]. intros o Ho. unfold sem_hdel, fn in Ho. injection Ho as <-.
    unfold on_existing. rewrite (purge_id _ _ _ Hex). pose proof (hs_del l h) as Hx. unfold count in Hx. destruct Hcase as [[-> ->]|Hk].
    + do 3 eexists. split; [reflexivity|]. eapply acts_same; [exact Hh|].
      rewrite dom_empty_L, intersection_empty_r_L, size_empty in Hx. by rewrite map_filter_empty in Hx.
    + rewrite Hk. do 3 eexists. split; [reflexivity|]. eapply acts_put; [exact Hh| |apply hash_put].
      rewrite grown_hdel, hdel_all_filter. exact Hx.
  - exists (sem_hexists E). split; [in_table|]. intros o Ho. unfold sem_hexists, fn in Ho. destruct l as [|f l]; [done|]. injection Ho as <-.
    unfold on_existing. rewrite (purge_id _ _ _ Hex). pose proof (hs_exists f l h) as Hx. destruct Hcase as [[-> ->]|Hk].
    + do 3 eexists. split; [reflexivity|]. eapply acts_same; [exact Hh|]. exact Hx.
    + rewrite Hk. do 3 eexists. split; [reflexivity|]. eapply acts_put; [exact Hh| |apply hash_put].
      destruct (h !! f); [by rewrite decide_True in Hx|by rewrite decide_False in Hx by (by intros [? ?])].
  - exists (sem_hkeys E). split; [in_table|]. intros o Ho. unfold sem_hkeys in Ho. cbv beta in Ho. rewrite (purge_id _ _ _ Hex) in Ho.
    destruct Hcase as [[Hk ->]|Hk]; rewrite Hk in Ho.
    + subst o. do 3 eexists. split; [reflexivity|]. eapply acts_same; [exact Hh|]. apply hs_keys; [constructor|].
      intros k. rewrite lookup_empty. split; [by intros ?%elem_of_nil|by intros [? ?]].
    + destruct Ho as (r & Hr & ->). destruct (members_nodup _ _ Hr) as (ks & -> & Hn & Hks). do 3 eexists. split; [reflexivity|].
      eapply acts_same; [exact Hh|]. apply hs_keys; [done|]. intros k. by rewrite Hks, elem_of_dom.
  - exists (sem_hlen E). split; [in_table|]. intros o Ho. unfold sem_hlen, fn in Ho. injection Ho as <-.
    unfold on_existing. rewrite (purge_id _ _ _ Hex). pose proof (hs_len l h) as Hx. destruct Hcase as [[-> ->]|Hk].
    + do 3 eexists. split; [reflexivity|]. eapply acts_same; [exact Hh|]. exact Hx.
    + rewrite Hk. do 3 eexists. split; [reflexivity|]. eapply acts_put; [exact Hh|exact Hx|apply hash_put].
Qed.
Print Assumptions C31_hash.

Theorem C31_set cf evs y i c name a0 key l now unix rs D s :
  let E := env_at cf now unix in let args := a0 :: key :: l in
  name ∈ set_commands → ready cf evs y i c name args rs D → ¬ expired E D key → gset_at D key = Some s →
  ∃ y' D' r, step cf (EvCommand i args now unix rs) y = Ok y' ∧ changed_to y y' c D' ∧ replied y y' i c r ∧
    acts gset_at (set_spec name l) key D D' r.
Proof.
  intros E args Hname H Hex Hh.
  enough (∃ R : list bytes → adb → res outcome → Prop, (name, R) ∈ semTable E ∧ ∀ o, R args D o → ∃ D' r n, o = Ok (Out D' r n) ∧ acts gset_at (set_spec name l) key D D' r)
    as (R & HR & Hx).
  { destruct (data_total cf evs y i c name R args now unix rs D (λ D' r n, acts gset_at (set_spec name l) key D D' r) H)
      as (y' & D' & r & n & H1 & H2 & H3 & _ & H4); [|done|done|by exists y', D', r].
    unfold set_commands in Hname. rewrite !elem_of_cons, elem_of_nil in Hname. destruct_or! Hname; try subst name; try done; not_special. }
  assert (Hcase : a_keys D !! key = None ∧ s = ∅ ∨ a_keys D !! key = Some (ASet s)).
  { unfold gset_at in Hh. destruct (a_keys D !! key) as [[]|]; try done; [right; congruence|left; split; congruence]. }
  unfold args.
  unfold set_commands in Hname. rewrite !elem_of_cons, elem_of_nil in Hname. destruct Hname as [->|[->|[->|[->|[->|[]]]]]].
  - exists sem_sadd. split; [in_table|]. intros o Ho. unfold sem_sadd, fn in Ho. injection Ho as <-. unfold on_new.
    assert (HS : set_spec (B "sadd") l s (sadd_all l s) (RInt (grown s (sadd_all l s)))).
    { rewrite grown_sadd. unfold sadd_all. rewrite union_comm_L. apply ss_add. }
    destruct Hcase as [[-> ->]| -> ]; (do 3 eexists; split; [reflexivity|]; eapply acts_put; [exact Hh|exact HS|apply gset_put]).
  - exists (sem_srem E). split; [in_table|]. intros o Ho. unfold sem_srem, fn in Ho. injection Ho as <-.
    unfold on_existing. rewrite (purge_id _ _ _ Hex). pose proof (ss_rem l s) as Hx. unfold count in Hx. destruct Hcase as [[-> ->]|Hk].
    + do 3 eexists. split; [reflexivity|]. eapply acts_same; [exact Hh|].
      rewrite intersection_empty_r_L, size_empty in Hx. assert (Hd : (∅ : gset bytes) ∖ list_to_set l = ∅) by set_solver. by rewrite Hd in Hx.
    + rewrite Hk. do 3 eexists. split; [reflexivity|]. eapply acts_put; [exact Hh| |apply gset_put].
      rewrite grown_srem. exact Hx.
  - exists (sem_scard E). split; [in_table|]. intros o Ho. unfold sem_scard, fn in Ho. injection Ho as <-.
    unfold on_existing. rewrite (purge_id _ _ _ Hex). pose proof (ss_card l s) as Hx. unfold count in Hx. destruct Hcase as [[-> ->]|Hk].
    + do 3 eexists. split; [reflexivity|]. eapply acts_same; [exact Hh|]. exact Hx.
    + rewrite Hk. do 3 eexists. split; [reflexivity|]. eapply acts_put; [exact Hh|exact Hx|apply gset_put].
  - exists (sem_sismember E). split; [in_table|]. intros o Ho. unfold sem_sismember, fn in Ho. destruct l as [|f l]; [done|]. injection Ho as <-.
    unfold on_existing. rewrite (purge_id _ _ _ Hex). pose proof (ss_mem f l s) as Hx. destruct Hcase as [[-> ->]|Hk].
    + do 3 eexists. split; [reflexivity|]. eapply acts_same; [exact Hh|]. by rewrite decide_False in Hx by set_solver.
    + rewrite Hk. do 3 eexists. split; [reflexivity|]. eapply acts_put; [exact Hh|exact Hx|apply gset_put].
  - exists (sem_smembers E). split; [in_table|]. intros o Ho. unfold sem_smembers, set_algebra in Ho. cbv beta in Ho. rewrite (purge_id _ _ _ Hex) in Ho.
    unfold set_at in Ho. destruct Hcase as [[Hk ->]|Hk]; rewrite Hk in Ho.
    + subst o. do 3 eexists. split; [reflexivity|]. eapply acts_same; [exact Hh|]. apply ss_members; [constructor|]. set_solver.
    + destruct Ho as (r & Hr & ->). destruct (members_nodup _ _ Hr) as (ks & -> & Hn & Hks). do 3 eexists. split; [reflexivity|].
      eapply acts_same; [exact Hh|]. by apply ss_members.
Qed.
Print Assumptions C31_set.

Lemma reaches_list cf evs y d D key q : reaches cf evs y → abs_dbs (y_srv y) !! d = Some D → a_keys D !! key = Some (AList q) → wf q.
Proof.
  intros Hr HD Hk. apply reaches_ok in Hr as [[_ Hh _ _] _ _]. unfold abs_dbs in HD. rewrite list_lookup_fmap in HD.
  destruct (s_dbs (y_srv y) !! d) as [db|]; [|done]. injection HD as <-. simpl in Hk. rewrite lookup_fmap in Hk.
  destruct (d_map (db_dict db) !! key) as [[|o]|]; try done. simpl in Hk. destruct (s_heap (y_srv y) !! o) as [x|] eqn:Hx; [|done].
  pose proof (Forall_lookup_1 _ _ _ _ Hh Hx) as Ho. destruct x; try done. simpl in Hk. by injection Hk as ->.
Qed.
Theorem C31_list cf evs y i c name a0 key l now unix rs D x :
  let E := env_at cf now unix in let args := a0 :: key :: l in
  name ∈ list_commands → ready cf evs y i c name args rs D → ¬ expired E D key → list_at D key = Some x →
  ∃ y' D' r, step cf (EvCommand i args now unix rs) y = Ok y' ∧ changed_to y y' c D' ∧ replied y y' i c r ∧
    acts list_at (list_spec name l) key D D' r.
Proof.
  intros E args Hname H Hex Hh.
  enough (∃ R : list bytes → adb → res outcome → Prop, (name, R) ∈ semTable E ∧ ∀ o, R args D o → ∃ D' r n, o = Ok (Out D' r n) ∧ acts list_at (list_spec name l) key D D' r)
    as (R & HR & Hx).
  { destruct (data_total cf evs y i c name R args now unix rs D (λ D' r n, acts list_at (list_spec name l) key D D' r) H)
      as (y' & D' & r & n & H1 & H2 & H3 & _ & H4); [|done|done|by exists y', D', r].
    unfold list_commands in Hname. rewrite !elem_of_cons, elem_of_nil in Hname. destruct_or! Hname; try subst name; try done; not_special. }
  assert (Hcase : ∃ q, wf q ∧ x = qels q ∧ (a_keys D !! key = None ∧ q = NewQuicklist ∨ a_keys D !! key = Some (AList q))).
  { unfold list_at in Hh. destruct (a_keys D !! key) as [[]|] eqn:Hk; try done.
    - exists q. injection Hh as <-. split_and!; [|done|by right]. destruct H. by eapply reaches_list.
    - exists NewQuicklist. injection Hh as <-. split_and!; [apply wf_New|done|by left]. }
  unfold args. destruct Hcase as (q & Hq & -> & Hcase).
  assert (Hlen : ∀ q : quicklist bytes, wf q → Len q = Z.of_nat (length (qels q))) by (by intros ? [? _]).
  unfold list_commands in Hname. rewrite !elem_of_cons, elem_of_nil in Hname. destruct Hname as [->|[->|[->|[->|[]]]]].
  - exists (sem_push lpush_all). split; [in_table|]. intros o Ho. unfold sem_push, fn in Ho. injection Ho as <-. unfold on_new.
    destruct (lpush_all_spec l q Hq) as (q' & Eq & Hq' & He).
    assert (HS : list_spec (B "lpush") l (qels q) (qels q') (RInt (Len q'))).
    { rewrite (Hlen _ Hq'), He. rewrite app_length, reverse_length. apply ls_lpush. }
    destruct Hcase as [[-> ->]| -> ]; (cbn [ak_out ak_new AKList]; rewrite Eq; do 3 eexists; split; [reflexivity|]; eapply acts_put; [exact Hh|exact HS|apply list_put]).
  - exists (sem_push (λ l q, Ok (rpush_all l q))). split; [in_table|]. intros o Ho. unfold sem_push, fn in Ho. injection Ho as <-. unfold on_new.
    destruct (rpush_all_spec l q Hq) as (Hq' & He).
    assert (HS : list_spec (B "rpush") l (qels q) (qels (rpush_all l q)) (RInt (Len (rpush_all l q)))).
    { rewrite (Hlen _ Hq'), He. rewrite app_length, Nat.add_comm. apply ls_rpush. }
    destruct Hcase as [[-> ->]| -> ]; (do 3 eexists; split; [reflexivity|]; eapply acts_put; [exact Hh|exact HS|apply list_put]).
  - exists (sem_pop E PopFront). split; [in_table|]. intros o Ho. unfold sem_pop, fn in Ho. injection Ho as <-.
    unfold on_existing. rewrite (purge_id _ _ _ Hex). destruct Hcase as [[-> ->]|Hk].
    + do 3 eexists. split; [reflexivity|]. eapply acts_same; [exact Hh|]. apply ls_lpop_empty.
    + rewrite Hk. cbn [ak_out AKList]. pose proof (PopFront_spec q Hq) as HP. rewrite (Hlen _ Hq).
      destruct (qels q) as [|v x] eqn:Eq.
      * do 3 eexists. split; [reflexivity|]. eapply acts_put; [exact Hh|apply ls_lpop_empty|]. by rewrite list_put, Eq.
      * destruct HP as (q' & -> & Hq' & He). replace (Z.of_nat (length (v :: x)) =? 0) with false by (simpl; lia).
        do 3 eexists. split; [reflexivity|]. eapply acts_put; [exact Hh|apply ls_lpop|]. simpl. by rewrite list_put, He.
  - exists (sem_llen E). split; [in_table|]. intros o Ho. unfold sem_llen, fn in Ho. injection Ho as <-.
    unfold on_existing. rewrite (purge_id _ _ _ Hex). pose proof (ls_llen l (qels q)) as Hx. rewrite <-(Hlen _ Hq) in Hx. destruct Hcase as [[-> ->]|Hk].
    + do 3 eexists. split; [reflexivity|]. eapply acts_same; [exact Hh|]. exact Hx.
    + rewrite Hk. do 3 eexists. split; [reflexivity|]. eapply acts_put; [exact Hh|exact Hx|apply list_put].
Qed.
Print Assumptions C31_list.
(** The hypotheses are met by live keys of the right kind and by missing keys. *)
Example C31_example : ∃ y c D, ready cf0 [EvConnect; cmd 0 5 "HSET h a 1 b 2"; cmd 0 6 "RPUSH l a b"; cmd 0 6 "SADD s a b"] y 0 c (B "hset") (words "HSET h b 3 c 4") [] D ∧
  ¬ expired (env_at cf0 7 0) D (B "h") ∧ hash_at D (B "h") = Some {[B "a" := B "1"; B "b" := B "2"]} ∧ list_at D (B "l") = Some [B "a"; B "b"] ∧
  gset_at D (B "s") = Some {[B "a"; B "b"]} ∧ list_at D (B "nokey") = Some [].
Proof. eexists. eexists. eexists. split; [ready_tac|]. split_and!; [intros (w & Hw & _); by vm_compute in Hw|by_compute..]. Qed.
Example C31_spec_example :
  hash_spec (B "hset") [B "b"; B "3"; B "c"; B "4"; B "c"; B "5"] {[B "a" := B "1"; B "b" := B "2"]}
    {[B "a" := B "1"; B "b" := B "3"; B "c" := B "5"]} (RInt 1).
Proof.
  pose proof (hs_set [B "b"; B "3"; B "c"; B "4"; B "c"; B "5"] [(B "b", B "3"); (B "c", B "4"); (B "c", B "5")]
    {[B "a" := B "1"; B "b" := B "2"]} eq_refl) as H.
  assert (H1 : (list_to_map (reverse [(B "b", B "3"); (B "c", B "4"); (B "c", B "5")]) ∪ {[B "a" := B "1"; B "b" := B "2"]} : gmap bytes bytes)
    = {[B "a" := B "1"; B "b" := B "3"; B "c" := B "5"]}) by by_compute.
  rewrite H1 in H. exact H.
Qed.

(** * C32 *)
(** the set at a key at a given time; None: another kind of value *)
Definition set_of (E : env) (D : adb) (key : bytes) : option (gset bytes) :=
  match live E D key with None => Some ∅ | Some (ASet s) => Some s | Some _ => None end.
Lemma live_purge_other E D k k' : live E (purge E k D) k' = live E D k'.
Proof.
  rewrite !live_purge. unfold purge at 2. case_decide as He; [|done].
  destruct (decide (k' = k)) as [->|Hk].
  - unfold purge. rewrite decide_False; [|intros (w & Hw & _); simpl in Hw; by rewrite lookup_delete in Hw].
    rewrite decide_True by done. simpl. by rewrite !lookup_delete.
  - unfold purge at 1 2.
    assert (Hx : expired E (remove_key k D) k' ↔ expired E D k').
    { unfold expired. simpl. by rewrite lookup_delete_ne. }
    destruct (decide (expired E D k')) as [H1|H1], (decide (expired E (remove_key k D) k')) as [H2|H2]; try tauto; simpl.
    + rewrite !lookup_delete. done.
    + by rewrite lookup_delete_ne.
Qed.
Lemma set_at_of E D key s : set_of E D key = Some s →
  set_at (purge E key D) key = None ∧ s = ∅ ∨ set_at (purge E key D) key = Some (inl s).
Proof.
  unfold set_of, set_at. rewrite live_purge. destruct (a_keys (purge E key D) !! key) as [[]|]; try done.
  - intros [= ->]. by right.
  - intros [= <-]. by left.
Qed.
Lemma set_of_purge E D k k' : set_of E (purge E k D) k' = set_of E D k'.
Proof. unfold set_of. by rewrite live_purge_other. Qed.
Lemma diff_fold_spec E keys : ∀ s D, (∀ k, k ∈ keys → is_Some (set_of E D k)) →
  ∃ D' s', set_fold (∖) E s keys D = (D', inl s') ∧
    ∀ m, m ∈ s' ↔ m ∈ s ∧ ∀ k t, k ∈ keys → set_of E D k = Some t → m ∉ t.
Proof.
  induction keys as [|key keys IH]; intros s D Hk; simpl.
  - exists D, s. split; [done|]. intros m. split; [|tauto]. intros. split; [done|]. by intros ?? ?%elem_of_nil.
  - destruct (Hk key ltac:(left)) as [t Ht].
    assert (Hk' : ∀ k, k ∈ keys → is_Some (set_of E (purge E key D) k)).
    { intros k Hin. rewrite set_of_purge. apply Hk. by right. }
    destruct (set_at_of _ _ _ _ Ht) as [[-> ->]| -> ].
    + destruct (IH s _ Hk') as (D' & s' & -> & Hs). exists D', s'. split; [done|]. intros m. rewrite Hs. setoid_rewrite set_of_purge.
      split; intros [H1 H2]; (split; [done|]); intros k t' Hin Ht'; [|apply (H2 k t'); [by right|done]].
      apply elem_of_cons in Hin as [->|Hin]; [|by eapply H2]. rewrite Ht in Ht'. injection Ht' as <-. set_solver.
    + destruct (IH (s ∖ t) _ Hk') as (D' & s' & -> & Hs). exists D', s'. split; [done|]. intros m. rewrite Hs. setoid_rewrite set_of_purge.
      rewrite elem_of_difference. split.
      * intros [[H1 H3] H2]. split; [done|]. intros k t' Hin Ht'. apply elem_of_cons in Hin as [->|Hin]; [congruence|by eapply H2].
      * intros [H1 H2]. split; [split; [done|]; by apply (H2 key); [left|]|]. intros k t' Hin Ht'. apply (H2 k t'); [by right|done].
Qed.
Lemma union_fold_spec E keys : ∀ s D, (∀ k, k ∈ keys → is_Some (set_of E D k)) →
  ∃ D' s', set_fold (∪) E s keys D = (D', inl s') ∧
    ∀ m, m ∈ s' ↔ m ∈ s ∨ ∃ k t, k ∈ keys ∧ set_of E D k = Some t ∧ m ∈ t.
Proof.
  induction keys as [|key keys IH]; intros s D Hk; simpl.
  - exists D, s. split; [done|]. intros m. split; [tauto|]. intros [?|(?&?&?%elem_of_nil&_)]; done.
  - destruct (Hk key ltac:(left)) as [t Ht].
    assert (Hk' : ∀ k, k ∈ keys → is_Some (set_of E (purge E key D) k)).
    { intros k Hin. rewrite set_of_purge. apply Hk. by right. }
    destruct (set_at_of _ _ _ _ Ht) as [[-> ->]| -> ].
    + destruct (IH s _ Hk') as (D' & s' & -> & Hs). exists D', s'. split; [done|]. intros m. rewrite Hs. setoid_rewrite set_of_purge.
      split; (intros [?|(k & t' & Hin & Ht' & Hm)]; [by left|right]).
      * exists k, t'. split; [by right|done].
      * apply elem_of_cons in Hin as [->|Hin]; [|by exists k, t']. rewrite Ht in Ht'. injection Ht' as <-. set_solver.
    + destruct (IH (s ∪ t) _ Hk') as (D' & s' & -> & Hs). exists D', s'. split; [done|]. intros m. rewrite Hs. setoid_rewrite set_of_purge.
      rewrite elem_of_union. split.
      * intros [[?|?]|(k & t' & Hin & Ht' & Hm)]; [by left| |]; right; [by exists key, t; split; [left|]|exists k, t'; split; [by right|done]].
      * intros [?|(k & t' & Hin & Ht' & Hm)]; [tauto|]. apply elem_of_cons in Hin as [->|Hin]; [left; right; congruence|right; by exists k, t'].
Qed.
Lemma inter_fold_spec E keys : ∀ s D, (∀ k, k ∈ keys → is_Some (set_of E D k)) →
  ∃ D' x s', inter_fold E s keys D = (D', x) ∧ (x = inl s' ∨ x = inr (RArray []) ∧ s' = ∅) ∧
    ∀ m, m ∈ s' ↔ m ∈ s ∧ ∀ k t, k ∈ keys → set_of E D k = Some t → m ∈ t.
Proof.
  induction keys as [|key keys IH]; intros s D Hk; simpl.
  - exists D, (inl s), s. split; [done|]. split; [by left|]. intros m. split; [|tauto]. intros. split; [done|]. by intros ?? ?%elem_of_nil.
  - destruct (Hk key ltac:(left)) as [t Ht].
    assert (Hk' : ∀ k, k ∈ keys → is_Some (set_of E (purge E key D) k)).
    { intros k Hin. rewrite set_of_purge. apply Hk. by right. }
    destruct (set_at_of _ _ _ _ Ht) as [[-> ->]| -> ].
    + do 3 eexists. split; [done|]. split; [by right|]. intros m. split; [set_solver|]. intros [_ H2]. apply (H2 key ∅); [left|done].
    + destruct (IH (s ∩ t) _ Hk') as (D' & x & s' & -> & Hx & Hs). exists D', x, s'. split; [done|]. split; [done|]. intros m. rewrite Hs. setoid_rewrite set_of_purge.
      rewrite elem_of_intersection. split.
      * intros [[H1 H3] H2]. split; [done|]. intros k t' Hin Ht'. apply elem_of_cons in Hin as [->|Hin]; [congruence|by eapply H2].
      * intros [H1 H2]. split; [split; [done|]; by apply (H2 key); [left|]|]. intros k t' Hin Ht'. apply (H2 k t'); [by right|done].
Qed.
(** the reply lists the members with property [P], each once *)
Definition lists (P : bytes → Prop) (r : reply) : Prop := ∃ ms, r = RArray ms ∧ NoDup ms ∧ ∀ m, m ∈ ms ↔ P m.
Definition in_set (E : env) (D : adb) (m key : bytes) : Prop := ∃ s, set_of E D key = Some s ∧ m ∈ s.
Lemma lists_members (s : gset bytes) r (P : bytes → Prop) : members_reply s r → (∀ m, m ∈ s ↔ P m) → lists P r.
Proof. intros (ms & -> & Hn & Hm)%members_nodup HP. exists ms. split_and!; [done..|]. intros m. by rewrite Hm, HP. Qed.
Lemma lists_nil (P : bytes → Prop) : (∀ m, ¬ P m) → lists P (RArray []).
Proof. intros HP. exists []. split_and!; [done|constructor|]. intros m. rewrite elem_of_nil. split; [done|apply HP]. Qed.

Theorem C32_sdiff cf evs y i c a0 key keys now unix rs D :
  let E := env_at cf now unix in let args := a0 :: key :: keys in
  ready cf evs y i c (B "sdiff") args rs D → (∀ k, k ∈ key :: keys → is_Some (set_of E D k)) →
  ∃ y' r, step cf (EvCommand i args now unix rs) y = Ok y' ∧ replied y y' i c r ∧
    lists (λ m, in_set E D m key ∧ ∀ k, k ∈ keys → ¬ in_set E D m k) r.
Proof.
  intros E args H Hsets.
  destruct (data_total cf evs y i c (B "sdiff") (sem_algebra E (set_fold (∖))) args now unix rs D
    (λ D' r n, lists (λ m, in_set E D m key ∧ ∀ k, k ∈ keys → ¬ in_set E D m k) r) H)
    as (y' & D' & r & n & H1 & H2 & H3 & _ & H4); [not_special|in_table| |by exists y', r].
  intros o Ho. unfold sem_algebra, set_algebra in Ho. cbv beta in Ho. destruct (Hsets key ltac:(left)) as [s Hs].
  destruct (set_at_of _ _ _ _ Hs) as [[Hn ->]|Hn]; unfold args in Ho; cbv iota beta in Ho; rewrite Hn in Ho.
  - subst o. do 3 eexists. split; [done|]. apply lists_nil. intros m [(s & Hs' & Hm) _]. rewrite Hs in Hs'. injection Hs' as <-. set_solver.
  - destruct (diff_fold_spec E keys s (purge E key D)) as (D' & s' & Hf & Hs').
    { intros k Hk. rewrite set_of_purge. apply Hsets. by right. }
    rewrite Hf in Ho. cbn [fst snd] in Ho. destruct Ho as (r & Hr & ->). do 3 eexists. split; [done|].
    eapply lists_members; [exact Hr|]. intros m. rewrite Hs'. setoid_rewrite set_of_purge. unfold in_set. rewrite Hs. naive_solver.
Qed.
Print Assumptions C32_sdiff.
Theorem C32_sinter cf evs y i c a0 key keys now unix rs D :
  let E := env_at cf now unix in let args := a0 :: key :: keys in
  ready cf evs y i c (B "sinter") args rs D → (∀ k, k ∈ key :: keys → is_Some (set_of E D k)) →
  ∃ y' r, step cf (EvCommand i args now unix rs) y = Ok y' ∧ replied y y' i c r ∧
    lists (λ m, ∀ k, k ∈ key :: keys → in_set E D m k) r.
Proof.
  intros E args H Hsets.
  destruct (data_total cf evs y i c (B "sinter") (sem_algebra E inter_fold) args now unix rs D
    (λ D' r n, lists (λ m, ∀ k, k ∈ key :: keys → in_set E D m k) r) H)
    as (y' & D' & r & n & H1 & H2 & H3 & _ & H4); [not_special|in_table| |by exists y', r].
  intros o Ho. unfold sem_algebra, set_algebra in Ho. cbv beta in Ho. destruct (Hsets key ltac:(left)) as [s Hs].
  destruct (set_at_of _ _ _ _ Hs) as [[Hn ->]|Hn]; unfold args in Ho; cbv iota beta in Ho; rewrite Hn in Ho.
  - subst o. do 3 eexists. split; [done|]. apply lists_nil. intros m Hx. destruct (Hx key ltac:(left)) as (s & Hs' & Hm). rewrite Hs in Hs'. injection Hs' as <-. set_solver.
  - destruct (inter_fold_spec E keys s (purge E key D)) as (D' & x & s' & Hf & Hx & Hs').
    { intros k Hk. rewrite set_of_purge. apply Hsets. by right. }
    assert (Hm : ∀ m, m ∈ s' ↔ ∀ k, k ∈ key :: keys → in_set E D m k).
    { intros m. rewrite Hs'. setoid_rewrite set_of_purge. split.
      - intros [H1' H2'] k Hk. apply elem_of_cons in Hk as [->|Hk]; [by exists s|]. destruct (Hsets k ltac:(by right)) as [t Ht]. exists t. split; [done|by eapply H2'].
      - intros Hall. split; [destruct (Hall key ltac:(left)) as (t & Ht & ?); congruence|]. intros k t Hk Ht. destruct (Hall k ltac:(by right)) as (t' & Ht' & ?). congruence. }
    rewrite Hf in Ho. cbn [fst snd] in Ho. destruct Hx as [->|[-> ->]].
    + destruct Ho as (r & Hr & ->). do 3 eexists. split; [done|]. by eapply lists_members.
    + subst o. do 3 eexists. split; [done|]. apply lists_nil. intros m. rewrite <-Hm. set_solver.
Qed.
Print Assumptions C32_sinter.
(** SUNION: only when the first key holds a set; the full property also covers a
    missing first key (see [C32_sunion_refuted]). *)
Theorem C32_sunion_partial cf evs y i c a0 key keys now unix rs D :
  let E := env_at cf now unix in let args := a0 :: key :: keys in
  ready cf evs y i c (B "sunion") args rs D → (∀ k, k ∈ key :: keys → is_Some (set_of E D k)) → is_Some (live E D key) →
  ∃ y' r, step cf (EvCommand i args now unix rs) y = Ok y' ∧ replied y y' i c r ∧
    lists (λ m, ∃ k, k ∈ key :: keys ∧ in_set E D m k) r.
Proof.
  intros E args H Hsets Hlive.
  destruct (data_total cf evs y i c (B "sunion") (sem_algebra E (set_fold (∪))) args now unix rs D
    (λ D' r n, lists (λ m, ∃ k, k ∈ key :: keys ∧ in_set E D m k) r) H)
    as (y' & D' & r & n & H1 & H2 & H3 & _ & H4); [not_special|in_table| |by exists y', r].
  intros o Ho. unfold sem_algebra, set_algebra in Ho. cbv beta in Ho. destruct (Hsets key ltac:(left)) as [s Hs].
  assert (Hn : set_at (purge E key D) key = Some (inl s)).
  { rewrite live_purge in Hlive. unfold set_of in Hs. rewrite live_purge in Hs. unfold set_at. destruct Hlive as [v Hv]. rewrite Hv in *. destruct v; try done. by injection Hs as ->. }
  unfold args in Ho; cbv iota beta in Ho; rewrite Hn in Ho.
  destruct (union_fold_spec E keys s (purge E key D)) as (D' & s' & Hf & Hs').
  { intros k Hk. rewrite set_of_purge. apply Hsets. by right. }
  rewrite Hf in Ho. cbn [fst snd] in Ho. destruct Ho as (r & Hr & ->). do 3 eexists. split; [done|].
  eapply lists_members; [exact Hr|]. intros m. rewrite Hs'. setoid_rewrite set_of_purge. split.
  - intros [?|(k & t & Hk & Ht & Hm)]; [exists key; split; [left|by exists s]|exists k; split; [by right|by exists t]].
  - intros (k & Hk & t & Ht & Hm). apply elem_of_cons in Hk as [->|Hk]; [left; congruence|right; by exists k, t].
Qed.
Print Assumptions C32_sunion_partial.
(** the hypotheses hold, with a missing key among the arguments *)
Example C32_example : ∃ y c D, ready cf0 [EvConnect; cmd 0 5 "SADD a x y"; cmd 0 5 "SADD b y z"] y 0 c (B "sdiff") (words "SDIFF a b nokey") [] D ∧
  ∀ k, k ∈ words "a b nokey" → is_Some (set_of (env_at cf0 7 0) D k).
Proof.
  eexists. eexists. eexists. split; [ready_tac|]. apply Forall_forall. repeat (apply Forall_cons; split; [eexists; by vm_compute|]). apply Forall_nil_2.
Qed.
Theorem C32_sunion_refuted : ∃ y c D, ready cf0 [EvConnect; cmd 0 5 "SADD b y z"] y 0 c (B "sunion") (words "SUNION nokey b") [] D ∧
  in_set (env_at cf0 7 0) D (B "y") (B "b") ∧
  ∃ y', step cf0 (EvCommand 0 (words "SUNION nokey b") 7 0 []) y = Ok y' ∧ replied y y' 0 c (RArray []).
Proof.
  eexists. eexists. eexists. split; [ready_tac|]. split; [exists {[B "y"; B "z"]}; split; by_compute|].
  eexists. split; [by vm_compute|]. eexists. split_and!; by vm_compute.
Qed.
Print Assumptions C32_sunion_refuted.

(** * C33 *)
(** Two databases look the same at a given time if they hold the same live keys
    with the same values: expired keys do not count, whether or not they were
    collected already.  [lib] and the clock fix the environment. *)
Definition looks_same (E : env) (D D2 : adb) : Prop := ∀ k, live E D k = live E D2 k.
(** replies that list keys or members may list them in another order *)
Definition alike (r r2 : reply) : Prop := r = r2 ∨ ∃ l l2, r = RArray l ∧ r2 = RArray l2 ∧ l ≡ₚ l2.

Section looks.
  Variable E : env.
  Definition blind (R : list bytes → adb → res outcome → Prop) : Prop :=
    ∀ args D D2 D' D2' r r2 n n2, looks_same E D D2 →
      R args D (Ok (Out D' r n)) → R args D2 (Ok (Out D2' r2 n2)) → alike r r2.
  Lemma blind_existing {X} (k : akind X) key none f D D2 D' D2' r r2 n n2 : looks_same E D D2 →
    on_existing k E key none (reading f) D = Ok (Out D' r n) → on_existing k E key none (reading f) D2 = Ok (Out D2' r2 n2) → alike r r2.
  Proof.
    intros HL H1 H2. left. unfold on_existing in *. specialize (HL key). rewrite !live_purge in HL. rewrite HL in H1.
    destruct (a_keys (purge E key D2) !! key) as [v|]; [|congruence]. destruct (ak_out k v) as [x|]; [|congruence].
    unfold reading in *. destruct (f x) as [r'| |]; try done. simpl in *. congruence.
  Qed.
  Lemma blind_ints a b w1 w2 D D2 (k k2 : Z → Z → res outcome) D' D2' r r2 n n2 :
    (∀ x y, k x y = Ok (Out D' r n) → k2 x y = Ok (Out D2' r2 n2) → alike r r2) →
    ints E a b w1 w2 D k = Ok (Out D' r n) → ints E a b w1 w2 D2 k2 = Ok (Out D2' r2 n2) → alike r r2.
  Proof.
    intros Hk. unfold ints. destruct (Atoi a); [destruct (Atoi b)|]; [apply Hk| |]; intros H1 H2; left; congruence.
  Qed.
  Lemma blind_floats a b w1 w2 D D2 (k k2 : float → float → res outcome) D' D2' r r2 n n2 :
    (∀ x y, k x y = Ok (Out D' r n) → k2 x y = Ok (Out D2' r2 n2) → alike r r2) →
    floats E a b w1 w2 D k = Ok (Out D' r n) → floats E a b w1 w2 D2 k2 = Ok (Out D2' r2 n2) → alike r r2.
  Proof.
    intros Hk. unfold floats. destruct (lib_parse_float (e_lib E) a); [destruct (lib_parse_float (e_lib E) b)|]; [apply Hk| |]; intros H1 H2; left; congruence.
  Qed.
  Lemma alike_members s r r2 : members_reply s r → members_reply s r2 → alike r r2.
  Proof. intros (l & -> & Hl) (l2 & -> & Hl2). right. exists l, l2. split_and!; [done..|]. by rewrite Hl, Hl2. Qed.
  Ltac start args HL H1 H2 := intros args ? ? ? ? ? ? ? ? HL H1 H2; destruct args as [|? [|? args]]; try done.
  Lemma blind_get : blind (sem_get E).
  Proof.
    start args HL H1 H2. unfold sem_get, fn in *. left. injection H1 as _ <- _. injection H2 as _ <- _. by rewrite <-!live_purge, (HL b0).
  Qed.
  Ltac ex HL H1 H2 := injection H1 as H1; injection H2 as H2; eapply blind_existing; [exact HL|exact H1|exact H2].
  Lemma blind_hget : blind (sem_hget E).
  Proof. start args HL H1 H2. unfold sem_hget, fn in *. destruct args; [done|]. ex HL H1 H2. Qed.
  Lemma blind_hexists : blind (sem_hexists E).
  Proof. start args HL H1 H2. unfold sem_hexists, fn in *. destruct args; [done|]. ex HL H1 H2. Qed.
  Lemma blind_hlen : blind (sem_hlen E).
  Proof. start args HL H1 H2. unfold sem_hlen, fn in *. ex HL H1 H2. Qed.
  Lemma blind_hkeys : blind (sem_hkeys E).
  Proof.
    start args HL H1 H2. unfold sem_hkeys in *. cbv beta in *. specialize (HL b0). rewrite !live_purge in HL. rewrite HL in H1. clear HL.
    destruct (a_keys (purge E b0 _) !! b0) as [[]|]; try (left; congruence).
    destruct H1 as (r1 & Hr1 & ?), H2 as (r2' & Hr2 & ?). simplify_eq. by eapply alike_members.
  Qed.
  Lemma blind_llen : blind (sem_llen E).
  Proof. start args HL H1 H2. unfold sem_llen, fn in *. ex HL H1 H2. Qed.
  Lemma blind_lindex : blind (sem_lindex E).
  Proof. start args HL H1 H2. unfold sem_lindex, fn in *. destruct args; [done|]. ex HL H1 H2. Qed.
  Lemma blind_lrange : blind (sem_lrange E).
  Proof. start args HL H1 H2. unfold sem_lrange, fn in *. destruct args as [|? [|? ?]]; [done..|]. ex HL H1 H2. Qed.
  Lemma blind_scard : blind (sem_scard E).
  Proof. start args HL H1 H2. unfold sem_scard, fn in *. ex HL H1 H2. Qed.
  Lemma blind_sismember : blind (sem_sismember E).
  Proof. start args HL H1 H2. unfold sem_sismember, fn in *. destruct args; [done|]. ex HL H1 H2. Qed.
  Lemma set_at_live D key : set_at (purge E key D) key = match live E D key with None => None | Some (ASet s) => Some (inl s) | Some _ => Some (inr tt) end.
  Proof. by rewrite live_purge. Qed.
  Lemma looks_purge D D2 key : looks_same E D D2 → looks_same E (purge E key D) (purge E key D2).
  Proof. intros HL k. by rewrite !live_purge_other. Qed.
  Lemma set_fold_blind op keys : ∀ s D D2, looks_same E D D2 → (set_fold op E s keys D).2 = (set_fold op E s keys D2).2.
  Proof.
    induction keys as [|key keys IH]; intros s D D2 HL; simpl; [done|]. rewrite !set_at_live, (HL key).
    destruct (live E D2 key) as [[]|]; try done; apply IH; by apply looks_purge.
  Qed.
  Lemma inter_fold_blind keys : ∀ s D D2, looks_same E D D2 → (inter_fold E s keys D).2 = (inter_fold E s keys D2).2.
  Proof.
    induction keys as [|key keys IH]; intros s D D2 HL; simpl; [done|]. rewrite !set_at_live, (HL key).
    destruct (live E D2 key) as [[]|]; try done; apply IH; by apply looks_purge.
  Qed.
  Lemma set_algebra_blind fold key keys D D2 D' D2' r r2 n n2 :
    (∀ s, (fold E s keys (purge E key D)).2 = (fold E s keys (purge E key D2)).2) → looks_same E D D2 →
    set_algebra fold E key keys D (Ok (Out D' r n)) → set_algebra fold E key keys D2 (Ok (Out D2' r2 n2)) → alike r r2.
  Proof.
    intros Hf HL H1 H2. unfold set_algebra in *. rewrite set_at_live, (HL key) in H1. rewrite set_at_live in H2.
    destruct (live E D2 key) as [[]|]; try (left; congruence). rewrite Hf in H1. destruct (fold E s keys (purge E key D2)).2.
    - destruct H1 as (r1 & Hr1 & ?), H2 as (r2' & Hr2 & ?). simplify_eq. by eapply alike_members.
    - left. congruence.
  Qed.
  Lemma blind_smembers : blind (sem_smembers E).
  Proof. start args HL H1 H2. eapply (set_algebra_blind (λ _ s _ D, (D, inl s))); [|exact HL|exact H1|exact H2]. done. Qed.
  Lemma blind_sdiff : blind (sem_algebra E (set_fold (∖))).
  Proof. start args HL H1 H2. eapply (set_algebra_blind (set_fold (∖))); [|exact HL|exact H1|exact H2]. intros s. by apply set_fold_blind, looks_purge. Qed.
  Lemma blind_sunion : blind (sem_algebra E (set_fold (∪))).
  Proof. start args HL H1 H2. eapply (set_algebra_blind (set_fold (∪))); [|exact HL|exact H1|exact H2]. intros s. by apply set_fold_blind, looks_purge. Qed.
  Lemma blind_sinter : blind (sem_algebra E inter_fold).
  Proof. start args HL H1 H2. eapply (set_algebra_blind inter_fold); [|exact HL|exact H1|exact H2]. intros s. by apply inter_fold_blind, looks_purge. Qed.
  Lemma blind_zcard : blind (sem_zcard E).
  Proof. start args HL H1 H2. unfold sem_zcard, fn in *. ex HL H1 H2. Qed.
  Lemma blind_zscore : blind (sem_zscore E).
  Proof. start args HL H1 H2. unfold sem_zscore, fn in *. destruct args; [done|]. ex HL H1 H2. Qed.
  Ltac nums HL H1 H2 := injection H1 as H1; injection H2 as H2; first [eapply blind_ints; [|exact H1|exact H2] | eapply blind_floats; [|exact H1|exact H2]];
    let G1 := fresh in let G2 := fresh in intros ? ? G1 G2; eapply blind_existing; [exact HL|exact G1|exact G2].
  Lemma blind_zcount : blind (sem_zcount E).
  Proof. start args HL H1 H2. unfold sem_zcount, fn in *. destruct args as [|? [|? ?]]; [done..|]. nums HL H1 H2. Qed.
  Lemma blind_zrange : blind (sem_zrange E).
  Proof. start args HL H1 H2. unfold sem_zrange, fn in *. destruct args as [|? [|? ?]]; [done..|]. nums HL H1 H2. Qed.
  Lemma blind_zrangebyscore : blind (sem_zrangebyscore E).
  Proof. start args HL H1 H2. unfold sem_zrangebyscore, fn in *. destruct args as [|? [|? ?]]; [done..|]. nums HL H1 H2. Qed.
  Lemma blind_ping : blind (λ args D o, o = Ok (Out D (RSimple (B "PONG")) 0)).
  Proof. intros args ? ? ? ? ? ? ? ? HL H1 H2. left. congruence. Qed.
  Lemma live_Some D k : is_Some (live E D k) ↔ is_Some (a_keys D !! k) ∧ ¬ expired E D k.
  Proof.
    rewrite live_purge. unfold purge. case_decide; simpl; [rewrite lookup_delete|]; split; try tauto; by intros [? ?].
  Qed.
End looks.
(** the readers whose reply is a function of the live keys; the other three are
    RANDOMGET and KEYS (below) and TTL (refuted) *)
Definition blind_readers : list bytes := [
  B "ping"; B "get"; B "hget"; B "hexists"; B "hkeys"; B "hlen"; B "llen"; B "lindex"; B "lrange"; B "scard";
  B "sismember"; B "smembers"; B "sdiff"; B "sinter"; B "sunion"; B "zrange"; B "zrangebyscore"; B "zcard"; B "zcount"; B "zscore"].
Example blind_readers_all : ∀ name, name ∈ readers ↔ name ∈ blind_readers ∨ name ∈ [B "ttl"; B "keys"; B "randomget"].
Proof.
  intros name. rewrite <-elem_of_app. cut (readers ≡ₚ blind_readers ++ [B "ttl"; B "keys"; B "randomget"]); [by intros ->|]. by_compute.
Qed.
Lemma sem_blind E name : name ∈ blind_readers → ∃ R : list bytes → adb → res outcome → Prop, (name, R) ∈ semTable E ∧ blind E R.
Proof.
  intros Hn. unfold blind_readers in Hn. repeat (apply elem_of_cons in Hn as [->|Hn]); [..|by apply elem_of_nil in Hn].
  - exists (λ args D o, o = Ok (Out D (RSimple (B "PONG")) 0)). split; [in_table|apply blind_ping].
  - exists (sem_get E). split; [in_table|apply blind_get].
  - exists (sem_hget E). split; [in_table|apply blind_hget].
  - exists (sem_hexists E). split; [in_table|apply blind_hexists].
  - exists (sem_hkeys E). split; [in_table|apply blind_hkeys].
  - exists (sem_hlen E). split; [in_table|apply blind_hlen].
  - exists (sem_llen E). split; [in_table|apply blind_llen].
  - exists (sem_lindex E). split; [in_table|apply blind_lindex].
  - exists (sem_lrange E). split; [in_table|apply blind_lrange].
  - exists (sem_scard E). split; [in_table|apply blind_scard].
  - exists (sem_sismember E). split; [in_table|apply blind_sismember].
  - exists (sem_smembers E). split; [in_table|apply blind_smembers].
  - exists (sem_algebra E (set_fold (∖))). split; [in_table|apply blind_sdiff].
  - exists (sem_algebra E inter_fold). split; [in_table|apply blind_sinter].
  - exists (sem_algebra E (set_fold (∪))). split; [in_table|apply blind_sunion].
  - exists (sem_zrange E). split; [in_table|apply blind_zrange].
  - exists (sem_zrangebyscore E). split; [in_table|apply blind_zrangebyscore].
  - exists (sem_zcard E). split; [in_table|apply blind_zcard].
  - exists (sem_zcount E). split; [in_table|apply blind_zcount].
  - exists (sem_zscore E). split; [in_table|apply blind_zscore].
Qed.
(** whatever else the two servers have been through, and whether or not expired keys
    are still stored, the replies agree *)
Theorem C33_reads cf evs evs2 y y2 i i2 c c2 name args now unix rs rs2 D D2 y' y2' :
  let E := env_at cf now unix in
  name ∈ blind_readers →
  ready cf evs y i c name args rs D → ready cf evs2 y2 i2 c2 name args rs2 D2 → looks_same E D D2 →
  step cf (EvCommand i args now unix rs) y = Ok y' → step cf (EvCommand i2 args now unix rs2) y2 = Ok y2' →
  ∃ r r2, replied y y' i c r ∧ replied y2 y2' i2 c2 r2 ∧ alike r r2.
Proof.
  intros E Hname H H2 HL HS HS2. destruct (sem_blind E name Hname) as (R & HR & HB).
  pose proof (semTable_special _ _ _ HR) as Hns.
  destruct (data_step cf evs y i c name args now unix rs D y' H Hns HS) as (D' & r & n & Hsem & _ & Hrep & _).
  destruct (data_step cf evs2 y2 i2 c2 name args now unix rs2 D2 y2' H2 Hns HS2) as (D2' & r2 & n2 & Hsem2 & _ & Hrep2 & _).
  exists r, r2. split; [done|]. split; [done|]. eapply HB; [exact HL| |]; by eapply sem_inv.
Qed.
Print Assumptions C33_reads.
(** KEYS with a pattern that compiles lists exactly the live keys that match *)
Theorem C33_keys cf evs y i c args now unix rs D p f :
  let E := env_at cf now unix in
  ready cf evs y i c (B "keys") args rs D → args !! 1%nat = Some p →
  (if decide (p = B "*") then Some (λ _, true) else lib_regexp (cf_lib cf) p) = Some f →
  ∃ y' r, step cf (EvCommand i args now unix rs) y = Ok y' ∧ replied y y' i c r ∧
    lists (λ k, is_Some (live E D k) ∧ f k = true) r.
Proof.
  intros E H Hp Hf.
  destruct (data_total cf evs y i c (B "keys") (sem_keys E) args now unix rs D
    (λ D' r n, lists (λ k, is_Some (live E D k) ∧ f k = true) r) H)
    as (y' & D' & r & n & H1 & H2 & H3 & _ & H4); [not_special|in_table| |by exists y', r].
  intros o Ho. unfold sem_keys in Ho. destruct args as [|? [|? args]]; try done. injection Hp as ->.
  assert (Hpat : pattern_of E p = Some f) by exact Hf. rewrite Hpat in Ho. destruct Ho as (l & Hn & Hl & ->).
  do 3 eexists. split; [done|]. exists l. split_and!; [done..|]. intros k. rewrite Hl, live_Some. tauto.
Qed.
Print Assumptions C33_keys.
(** RANDOMGET names a live key, or there is none *)
Theorem C33_randomget cf evs y i c args now unix rs D y' :
  let E := env_at cf now unix in
  ready cf evs y i c (B "randomget") args rs D → step cf (EvCommand i args now unix rs) y = Ok y' →
  ∃ r, replied y y' i c r ∧ (r = RNull ∧ (∀ k, live E D k = None) ∨ ∃ k, r = RBulk k ∧ is_Some (live E D k)).
Proof.
  intros E H HS.
  destruct (data_step cf evs y i c (B "randomget") args now unix rs D y' H ltac:(not_special) HS) as (D' & r & n & Hsem & _ & Hrep & _).
  exists r. split; [done|]. apply (sem_inv _ _ (sem_randomget E)) in Hsem; [|in_table].
  destruct Hsem as [?|(X & HX & Hx)]; [done|]. cbv beta in Hx.
  assert (HD : ∀ k, k ∉ X → a_keys (drop_keys X D) !! k = a_keys D !! k ∧ a_ttl (drop_keys X D) !! k = a_ttl D !! k).
  { intros k Hk. simpl. rewrite !map_filter_lookup. destruct (a_keys D !! k), (a_ttl D !! k); simpl; rewrite ?option_guard_True by done; done. }
  destruct Hx as [[He Ho]|(k & Hk & Hne & Ho)].
  - left. injection Ho as _ -> _. split; [done|]. intros k. apply eq_None_not_Some. rewrite live_Some. intros [Hk Hex].
    destruct (decide (k ∈ X)) as [HkX|HkX]; [by apply Hex, HX|]. destruct (HD k HkX) as [Hd _]. rewrite He, lookup_empty in Hd. rewrite <-Hd in Hk. by destruct Hk.
  - right. injection Ho as _ -> _. exists k. split; [done|]. rewrite live_Some.
    assert (HkX : k ∉ X). { destruct Hk as [v Hv]. simpl in Hv. rewrite map_filter_lookup_Some in Hv. by destruct Hv. }
    destruct (HD k HkX) as [H1 H2]. rewrite H1 in Hk. split; [done|]. unfold expired in *. by rewrite H2 in Hne.
Qed.
Print Assumptions C33_randomget.
(** in particular, an expired key that has not been collected looks like a missing one *)
Lemma looks_expired E D key : expired E D key → looks_same E D (remove_key key D).
Proof. intros He k. rewrite <-(live_purge_other E D key k). unfold purge. by rewrite decide_True. Qed.
Lemma gmap_by_list {A} (m1 m2 : gmap bytes A) : map_to_list m1 = map_to_list m2 → m1 = m2.
Proof. intros H. apply map_to_list_inj. by rewrite H. Qed.
Example C33_example : ∃ y c D y2 c2 D2,
  ready cf0 [EvConnect; cmd 0 5 "SETEX k 1 v"; cmd 0 5 "SET s a"] y 0 c (B "get") (words "GET k") [] D ∧
  ready cf0 [EvConnect; cmd 0 5 "SET s a"] y2 0 c2 (B "get") (words "GET k") [] D2 ∧
  is_Some (a_keys D !! B "k") ∧ looks_same (env_at cf0 1006 0) D D2.
Proof.
  do 6 eexists. split; [ready_tac|]. split; [ready_tac|]. split; [eexists; by vm_compute|].
  match goal with |- looks_same _ ?D ?D2 => assert (D2 = remove_key (B "k") D) as -> end.
  { unfold remove_key. match goal with |- ?D2 = _ => change D2 with (ADB (a_keys D2) (a_ttl D2)) end. f_equal; apply gmap_by_list; by vm_compute. }
  apply looks_expired. eexists. by vm_compute.
Qed.
(** TTL reads the deadline of a key that has expired (an absent key gives -2), and
    KEYS with a malformed pattern tells whether anything is stored *)
Theorem C33_ttl_refuted : ∃ y c D y', ready cf0 [EvConnect; cmd 0 5 "SETEX k 1 v"] y 0 c (B "ttl") (words "TTL k") [] D ∧
  expired (env_at cf0 6005 0) D (B "k") ∧ step cf0 (EvCommand 0 (words "TTL k") 6005 0 []) y = Ok y' ∧ replied y y' 0 c (RInt (-5)).
Proof.
  do 4 eexists. split; [ready_tac|]. split; [eexists; by vm_compute|]. split; [by vm_compute|]. eexists. split_and!; by vm_compute.
Qed.
Print Assumptions C33_ttl_refuted.

(** * C34 *)
(** Commands that remove something from a value find nothing under an expired key:
    they reply as for a missing key and the key is gone afterwards.  SET and SETEX
    replace it (C30).  The commands that add to a value are missing here: they work
    on the expired value (see [C34_adders_lost] and [C34_refuted]). *)
Definition nothing : list (bytes * reply) := [
  (B "hdel", RInt 0); (B "lpop", RNull); (B "rpop", RNull); (B "srem", RInt 0); (B "spop", RNull); (B "zrem", RInt 0)].
Theorem C34_removers_partial cf evs y i c name r args now unix rs D key :
  let E := env_at cf now unix in
  (name, r) ∈ nothing → ready cf evs y i c name args rs D → args !! 1%nat = Some key → expired E D key →
  ∃ y' D', step cf (EvCommand i args now unix rs) y = Ok y' ∧ changed_to y y' c D' ∧ replied y y' i c r ∧ not_logged y y' ∧
    a_keys D' !! key = None ∧ a_ttl D' !! key = None ∧ same_but key D D'.
Proof.
  intros E Hname H Hkey Hex.
  enough (∃ R : list bytes → adb → res outcome → Prop, (name, R) ∈ semTable E ∧ ∀ o, R args D o → o = Ok (Out (remove_key key D) r 0))
    as (R & HR & Hx).
  { destruct (data_total cf evs y i c name R args now unix rs D (λ D' r' n, D' = remove_key key D ∧ r' = r ∧ n = 0) H)
      as (y' & D' & r' & n & H1 & H2 & H3 & H4 & -> & -> & ->); [by eapply semTable_special|done| |].
    - intros o Ho. do 3 eexists. split; [by apply Hx|done].
    - exists y', (remove_key key D). split_and!; try done; [by apply H4|by apply lookup_delete..|]. intros k Hk. simpl. by rewrite !lookup_delete_ne. }
  assert (HP : purge E key D = remove_key key D) by (unfold purge; by rewrite decide_True).
  assert (Hn : a_keys (remove_key key D) !! key = None) by apply lookup_delete.
  destruct args as [|? [|k args]]; [done..|]. injection Hkey as ->.
  unfold nothing in Hname. repeat (apply elem_of_cons in Hname as [[= -> ->]|Hname]); [..|by apply elem_of_nil in Hname].
  - exists (sem_hdel E). split; [in_table|]. intros o Ho. unfold sem_hdel, fn, on_existing in Ho. rewrite HP, Hn in Ho. congruence.
  - exists (sem_pop E PopFront). split; [in_table|]. intros o Ho. unfold sem_pop, fn, on_existing in Ho. rewrite HP, Hn in Ho. congruence.
  - exists (sem_pop E PopBack). split; [in_table|]. intros o Ho. unfold sem_pop, fn, on_existing in Ho. rewrite HP, Hn in Ho. congruence.
  - exists (sem_srem E). split; [in_table|]. intros o Ho. unfold sem_srem, fn, on_existing in Ho. rewrite HP, Hn in Ho. congruence.
  - exists (sem_spop E). split; [in_table|]. intros o Ho. unfold sem_spop, set_at in Ho. cbv beta in Ho. rewrite HP, Hn in Ho. done.
  - exists (sem_zrem E). split; [in_table|]. intros o Ho. unfold sem_zrem, fn, on_existing in Ho. rewrite HP, Hn in Ho. congruence.
Qed.
Print Assumptions C34_removers_partial.
Example C34_example : ∃ y c D, ready cf0 [EvConnect; cmd 0 5 "HSET h a 1"; cmd 0 5 "EXPIRE h 1"] y 0 c (B "hdel") (words "HDEL h a") [] D ∧
  expired (env_at cf0 1006 0) D (B "h") ∧ is_Some (a_keys D !! B "h").
Proof. do 3 eexists. split; [ready_tac|]. split; [eexists; by vm_compute|eexists; by vm_compute]. Qed.

(** The commands that add to a value never touch the deadline: whatever they write
    under an expired key is invisible at once and for ever. *)
Definition adders : list bytes := [B "hset"; B "lpush"; B "rpush"; B "sadd"; B "zadd"].
Lemma new_ttl {X} (k : akind X) wrong key f D D' r n : on_new k wrong key f D = Ok (Out D' r n) → a_ttl D' = a_ttl D.
Proof.
  unfold on_new. destruct (a_keys D !! key) as [v|]; [destruct (ak_out k v) as [x|]|].
  - destruct (f x) as [[[? ?] ?]| |]; try done. by intros [= <- _ _].
  - by intros [= <- _ _].
  - destruct (f (ak_new k)) as [[[? ?] ?]| |]; try done. by intros [= <- _ _].
Qed.
Theorem C34_adders_lost cf evs y i c name args now unix rs D key y' :
  let E := env_at cf now unix in
  name ∈ adders → ready cf evs y i c name args rs D → args !! 1%nat = Some key → expired E D key →
  step cf (EvCommand i args now unix rs) y = Ok y' →
  ∃ D', changed_to y y' c D' ∧ ∀ now2 unix2, now ≤ now2 → live (env_at cf now2 unix2) D' key = None.
Proof.
  intros E Hname H Hkey Hex HS.
  assert (Hns : ¬ special name). { unfold adders in Hname. repeat (apply elem_of_cons in Hname as [->|Hname]); [not_special..|by apply elem_of_nil in Hname]. }
  destruct (data_step cf evs y i c name args now unix rs D y' H Hns HS) as (D' & r & n & Hsem & Hch & _).
  exists D'. split; [done|]. intros now2 unix2 Hle.
  enough (Ht : a_ttl D' = a_ttl D).
  { destruct Hex as (w & Hw & Hlt). simpl in Hlt. unfold live. rewrite Ht, Hw. simpl. by replace (w <? now2) with true by lia. }
  destruct args as [|? [|k args]]; [done..|]. injection Hkey as ->.
  unfold adders in Hname. repeat (apply elem_of_cons in Hname as [->|Hname]); [..|by apply elem_of_nil in Hname].
  - apply (sem_inv _ _ (sem_hset)) in Hsem; [|in_table]. unfold sem_hset, fn in Hsem. injection Hsem as Hsem.
    case_match; [by injection Hsem as <- _ _|]. by eapply new_ttl.
  - apply (sem_inv _ _ (sem_push lpush_all)) in Hsem; [|in_table]. unfold sem_push, fn in Hsem. injection Hsem as Hsem. by eapply new_ttl.
  - apply (sem_inv _ _ (sem_push (λ l q, Ok (rpush_all l q)))) in Hsem; [|in_table]. unfold sem_push, fn in Hsem. injection Hsem as Hsem. by eapply new_ttl.
  - apply (sem_inv _ _ (sem_sadd)) in Hsem; [|in_table]. unfold sem_sadd, fn in Hsem. injection Hsem as Hsem. by eapply new_ttl.
  - apply (sem_inv _ _ (sem_zadd E)) in Hsem; [|in_table]. unfold sem_zadd in Hsem. case_match; [by injection Hsem as <- _ _|].
    destruct Hsem as (rs' & _ & Hsem). symmetry in Hsem. by eapply new_ttl.
Qed.
Print Assumptions C34_adders_lost.
(** HSET on an expired key sees the old fields (an empty hash would give :1), its
    own field is lost at once, and EXPIRE brings an expired value back *)
Theorem C34_refuted :
  (∃ y c, reaches cf0 [EvConnect; cmd 0 5 "HSET h a 1"; cmd 0 5 "EXPIRE h 1"; cmd 0 9005 "HSET h a 2"; cmd 0 9005 "HLEN h"] y ∧
     y_cls y !! 0%nat = Some c ∧ c_out c = [B ":1" ++ CRLF; B "+OK" ++ CRLF; B ":0" ++ CRLF; B ":0" ++ CRLF]) ∧
  (∃ y c, reaches cf0 [EvConnect; cmd 0 5 "SETEX k 1 v"; cmd 0 9005 "EXPIRE k 5"; cmd 0 9005 "GET k"] y ∧
     y_cls y !! 0%nat = Some c ∧ c_out c = [B "+OK" ++ CRLF; B "+OK" ++ CRLF; B "$1" ++ CRLF ++ B "v" ++ CRLF]).
Proof. split; (eexists; eexists; split; [reached|]; split; [reflexivity|]; by vm_compute). Qed.
Print Assumptions C34_refuted.
