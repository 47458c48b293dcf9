(** Proofs about the quicklist model. *)
From Verif Require Import Base DictProofs QuicklistModel.
From Coq Require Import ZifyBool ZifyNat.

Local Arguments Z.div : simpl never.
Local Arguments Z.mul : simpl never.

Section proofs.
  Context {A : Type} `{EqDecision A}.
  Notation quicklist := (quicklist A).
  Implicit Types (q : quicklist) (ps : list (list A)) (p : list A).

  Definition elements q : list A := mjoin (q_pages q).
  Definition pages_ok ps : Prop := Forall (λ p, p ≠ [] ∧ zlen p ≤ pageSize) ps.
  Definition wf q : Prop := q_length q = zlen (elements q) ∧ pages_ok (q_pages q).
  (** number of elements before page [j] *)
  Definition start ps (j : nat) : Z := zlen (mjoin (take j ps)).

  Lemma zlen_app {B} (l k : list B) : zlen (l ++ k) = zlen l + zlen k.
  Proof. unfold zlen. rewrite app_length. lia. Qed.
  Lemma zlen_cons {B} (x : B) l : zlen (x :: l) = 1 + zlen l.
  Proof. unfold zlen. simpl. lia. Qed.
  Lemma zlen_nonneg {B} (l : list B) : 0 ≤ zlen l.
  Proof. unfold zlen. lia. Qed.

  Lemma join_split ps j p : ps !! j = Some p →
    mjoin ps = mjoin (take j ps) ++ p ++ mjoin (drop (S j) ps).
  Proof.
    intros Hp. rewrite <-(take_drop_middle ps j p Hp) at 1.
    rewrite join_app. done.
  Qed.
  Lemma start_0 ps : start ps 0 = 0.
  Proof. done. Qed.
  Lemma start_cons p ps j : start (p :: ps) (S j) = zlen p + start ps j.
  Proof. unfold start. simpl. by rewrite zlen_app. Qed.
  Lemma start_S ps j p : ps !! j = Some p → start ps (S j) = start ps j + zlen p.
  Proof.
    intros Hp. unfold start. rewrite (take_S_r ps j p) by done.
    rewrite join_app, zlen_app. simpl. rewrite app_nil_r. done.
  Qed.
  Lemma start_le ps j p : ps !! j = Some p → start ps j + zlen p ≤ zlen (mjoin ps).
  Proof.
    intros Hp. unfold start. rewrite (join_split ps j p Hp), !zlen_app.
    pose proof (zlen_nonneg (mjoin (drop (S j) ps))). lia.
  Qed.
  Lemma start_nonneg ps j : 0 ≤ start ps j.
  Proof. apply zlen_nonneg. Qed.
  Lemma pages_ok_lookup ps j p : pages_ok ps → ps !! j = Some p → 0 < zlen p ≤ pageSize.
  Proof.
    intros Hok Hp. eapply Forall_lookup_1 in Hok as [Hne Hle]; [|done].
    split; [|done]. destruct p; [done|]. unfold zlen. simpl. lia.
  Qed.
  Lemma start_pos ps j p : pages_ok ps → (0 < j)%nat → ps !! j = Some p → 0 < start ps j.
  Proof.
    intros Hok Hj Hp. destruct ps as [|p0 ps]; [done|]. destruct j as [|j]; [lia|].
    unfold start. simpl. rewrite zlen_app.
    pose proof (pages_ok_lookup (p0 :: ps) 0 p0 Hok eq_refl).
    pose proof (zlen_nonneg (mjoin (take j ps))). lia.
  Qed.

  Lemma lookup_join ps j p (o : nat) : ps !! j = Some p → (o < length p)%nat →
    mjoin ps !! (length (mjoin (take j ps)) + o)%nat = p !! o.
  Proof.
    intros Hp Ho. rewrite (join_split ps j p Hp).
    rewrite lookup_app_r by lia. rewrite lookup_app_l by lia. f_equal. lia.
  Qed.

  (** * get *)
  Lemma front_scan_spec idx : ∀ ps i acc, acc ≤ idx < acc + zlen (mjoin ps) →
    ∃ j p, front_scan ps i acc idx = (Some (i + j)%nat, acc + start ps j) ∧ ps !! j = Some p ∧
           acc + start ps j ≤ idx < acc + start ps j + zlen p.
  Proof.
    induction ps as [|p ps IH]; intros i acc Hi; simpl in *.
    - unfold zlen in Hi. simpl in Hi. lia.
    - rewrite zlen_app in Hi. destruct (Z.ltb_spec idx (acc + zlen p)).
      + exists 0%nat, p. rewrite start_0, Nat.add_0_r, Z.add_0_r.
        split; [done|]. split; [done|lia].
      + destruct (IH (S i) (acc + zlen p)) as (j & p' & -> & Hj & Hr); [lia|].
        exists (S j), p'. rewrite start_cons.
        split; [|split; [done|lia]]. f_equal; [f_equal; lia|lia].
  Qed.

  Lemma back_scan_spec dl idx : ∀ ps, dl ≤ idx < dl + zlen (mjoin ps) →
    ∃ j p, back_scan (reverse ps) (dl + zlen (mjoin ps)) idx = Some j ∧ ps !! j = Some p ∧
           dl + start ps j ≤ idx < dl + start ps j + zlen p.
  Proof.
    induction ps as [|p ps IH] using rev_ind; intros Hi.
    - unfold zlen in Hi. simpl in Hi. lia.
    - rewrite reverse_app, reverse_singleton. simpl. rewrite join_app, zlen_app in *. simpl in *.
      rewrite app_nil_r in *.
      destruct (Z.leb_spec (dl + (zlen (mjoin ps) + zlen p) - zlen p) idx).
      + exists (length ps), p. rewrite reverse_length. split; [done|].
        split; [rewrite lookup_app_r by done; by rewrite Nat.sub_diag|].
        unfold start. rewrite take_app. lia.
      + replace (dl + (zlen (mjoin ps) + zlen p) - zlen p) with (dl + zlen (mjoin ps)) by lia.
        destruct IH as (j & p' & -> & Hj & Hr); [lia|].
        exists j, p'. split; [done|]. split; [by apply lookup_app_l_Some|].
        unfold start in *. rewrite take_app_le; [done|]. apply lookup_lt_Some in Hj. lia.
  Qed.

  (** [at_page ps dl idx j p off]: get stops at page number [j] with offset [off];
      [dl] is 1 inside Insert, where length was already incremented *)
  Definition at_page ps (dl idx : Z) (j : nat) p (off : Z) : Prop :=
    ps !! j = Some p ∧
    ((idx < (dl + zlen (mjoin ps)) / 2 ∧ off = idx - start ps j ∧
        start ps j ≤ idx < start ps j + zlen p) ∨
     ((dl + zlen (mjoin ps)) / 2 ≤ idx ∧ off = idx ∧
        dl + start ps j ≤ idx < dl + start ps j + zlen p)).

  Lemma get_spec ps dl idx :
    0 ≤ dl ≤ 1 → 0 ≤ idx < zlen (mjoin ps) →
    ∃ j p off, get (MkQuicklist ps (dl + zlen (mjoin ps))) idx = Some (MkQIter (Some j) off) ∧
      at_page ps dl idx j p off.
  Proof.
    intros Hdl Hi. unfold get. simpl.
    destruct (Z.ltb_spec idx 0); [lia|]. destruct (Z.leb_spec (dl + zlen (mjoin ps)) idx); [lia|]. simpl.
    destruct (Z.ltb_spec idx ((dl + zlen (mjoin ps)) / 2)).
    - destruct (front_scan_spec idx ps 0 0) as (j & p & -> & Hj & Hr); [lia|].
      exists j, p, (idx - start ps j). split; [f_equal; f_equal; lia|]. split; [done|]. left. lia.
    - assert (dl ≤ idx).
      { destruct (decide (dl = 0)); [lia|]. replace dl with 1 in * by lia.
        assert (1 ≤ (1 + zlen (mjoin ps)) / 2); [|lia]. apply Z.div_le_lower_bound; lia. }
      destruct (back_scan_spec dl idx ps) as (j & p & -> & Hj & Hr); [lia|].
      exists j, p, idx. split; [f_equal; f_equal; lia|]. split; [done|]. right. lia.
  Qed.

  (** the position in the whole list that is hit *)
  Definition hits ps (dl idx : Z) (pos : Z) : Prop :=
    ∃ j p off, at_page ps dl idx j p off ∧ pos = start ps j + off ∧ off < zlen p.

  (** * Remove, Get *)
  Lemma Remove_at q idx j p off :
    wf q → get q idx = Some (MkQIter (Some j) off) → q_pages q !! j = Some p → 0 ≤ off →
    if off <? zlen p then
      ∃ q' v, Remove q idx = Ok (q', Some v) ∧ wf q' ∧
        elements q !! Z.to_nat (start (q_pages q) j + off) = Some v ∧
        elements q' = take (Z.to_nat (start (q_pages q) j + off)) (elements q) ++
                      drop (S (Z.to_nat (start (q_pages q) j + off))) (elements q) ∧
        (q_pages q' = <[j := take (Z.to_nat off) p ++ drop (S (Z.to_nat off)) p]> (q_pages q) ∨
         take (Z.to_nat off) p ++ drop (S (Z.to_nat off)) p = [] ∧
         q_pages q' = take j (q_pages q) ++ drop (S j) (q_pages q))
    else Remove q idx = Panic.
  Proof.
    intros [Hlen Hok] Hget Hp Hoff. unfold Remove. rewrite Hget. unfold it_page. simpl. rewrite Hp. simpl.
    unfold go_index. destruct (Z.ltb_spec off 0); [lia|].
    destruct (Z.ltb_spec off (zlen p)) as [Hlt|Hge].
    2:{ rewrite lookup_ge_None_2; [done|]. unfold zlen in Hge. lia. }
    unfold zlen in Hlt.
    destruct (lookup_lt_is_Some_2 p (Z.to_nat off)) as [v Hv]; [lia|]. rewrite Hv. simpl.
    set (o := Z.to_nat off) in *.
    assert (Hpos : Z.to_nat (start (q_pages q) j + off) = (length (mjoin (take j (q_pages q))) + o)%nat).
    { unfold start, zlen, o. lia. }
    rewrite Hpos. clear Hpos.
    assert (Hel : elements q !! (length (mjoin (take j (q_pages q))) + o)%nat = Some v).
    { unfold elements. rewrite (lookup_join _ j p) by (done || (apply lookup_lt_Some in Hv; lia)). done. }
    set (pages' := match take o p ++ drop (S o) p with [] => _ | _ => _ end).
    assert (Hel' : mjoin pages' = take (length (mjoin (take j (q_pages q))) + o) (elements q) ++
                      drop (S (length (mjoin (take j (q_pages q))) + o)) (elements q) ∧ pages_ok pages').
    { unfold elements. rewrite (join_split _ j p Hp).
      rewrite take_add_app, <-Nat.add_succ_r, drop_add_app by done.
      rewrite take_app_le by (apply lookup_lt_Some in Hv; lia).
      rewrite drop_app_le by (apply lookup_lt_Some in Hv; lia).
      rewrite <-app_assoc, (app_assoc (take o p)).
      subst pages'. destruct (take o p ++ drop (S o) p) as [|x l] eqn:E.
      - rewrite join_app. split; [done|]. apply Forall_app. split; [by apply Forall_take|by apply Forall_drop].
      - rewrite insert_take_drop by (by eapply lookup_lt_Some).
        rewrite join_app. split; [done|].
        apply Forall_app. split; [by apply Forall_take|]. constructor; [|by apply Forall_drop].
        split; [done|]. rewrite <-E. pose proof (pages_ok_lookup _ j p Hok Hp) as [_ Hle].
        unfold zlen in *. rewrite app_length, take_length, drop_length. lia. }
    destruct Hel' as [Hel' Hok'].
    eexists _, v. split; [done|]. split; [split; [|exact Hok']|].
    - simpl. unfold elements at 1. simpl. rewrite Hel', zlen_app. unfold zlen in *.
      rewrite take_length, drop_length. apply lookup_lt_Some in Hel. lia.
    - split; [done|]. split; [exact Hel'|]. simpl. subst pages'.
      destruct (take o p ++ drop (S o) p); [by right|by left].
  Qed.

  Lemma Get_at q idx j p off :
    get q idx = Some (MkQIter (Some j) off) → q_pages q !! j = Some p → 0 ≤ off →
    if off <? zlen p then
      ∃ v, QGet q idx = Ok (Some v) ∧
        elements q !! Z.to_nat (start (q_pages q) j + off) = Some v
    else QGet q idx = Panic.
  Proof.
    intros Hget Hp Hoff. unfold QGet. rewrite Hget. unfold it_value, it_page. simpl. rewrite Hp. simpl.
    unfold go_index. destruct (Z.ltb_spec off 0); [lia|].
    destruct (Z.ltb_spec off (zlen p)) as [Hlt|Hge].
    2:{ rewrite lookup_ge_None_2; [done|]. unfold zlen in Hge. lia. }
    unfold zlen in Hlt.
    destruct (lookup_lt_is_Some_2 p (Z.to_nat off)) as [v Hv]; [lia|]. rewrite Hv. simpl.
    exists v. split; [done|].
    assert (Hpos : Z.to_nat (start (q_pages q) j + off) = (length (mjoin (take j (q_pages q))) + Z.to_nat off)%nat).
    { unfold start, zlen. lia. }
    rewrite Hpos. unfold elements. rewrite (lookup_join _ j p) by (done || lia). done.
  Qed.

  (** * Insert *)
  Lemma page_insert_spec p off v : 0 ≤ off → zlen p < pageSize →
    page_insert p off v =
      if zlen p <? off then Panic else Ok (take (Z.to_nat off) p ++ v :: drop (Z.to_nat off) p).
  Proof.
    intros. unfold page_insert. destruct (Z.ltb_spec off 0); [lia|]. simpl.
    destruct (Z.ltb_spec (zlen p) off); simpl; [done|].
    destruct (Z.ltb_spec pageSize (off + 1)); [lia|done].
  Qed.

  Lemma Insert_at q idx v j p off :
    wf q → 0 ≤ idx < q_length q →
    get (MkQuicklist (q_pages q) (1 + q_length q)) idx = Some (MkQIter (Some j) off) →
    q_pages q !! j = Some p → 0 ≤ off →
    if off <=? zlen p then
      ∃ q', Insert q idx v = Ok (q', true) ∧ wf q' ∧
        elements q' = take (Z.to_nat (start (q_pages q) j + off)) (elements q) ++ v ::
                      drop (Z.to_nat (start (q_pages q) j + off)) (elements q)
    else Insert q idx v = Panic.
  Proof.
    intros [Hlen Hok] Hidx Hget Hp Hoff. unfold Insert.
    destruct (Z.ltb_spec idx 0); [lia|]. destruct (Z.ltb_spec (q_length q) idx); [lia|]. simpl.
    destruct (Z.eqb_spec idx (q_length q)); [lia|].
    rewrite (Z.add_comm (q_length q) 1), Hget. unfold it_page. simpl. rewrite Hp. simpl.
    pose proof (pages_ok_lookup _ j p Hok Hp) as [Hpos Hle].
    set (o := Z.to_nat off).
    assert (Hstart : Z.to_nat (start (q_pages q) j + off) = (length (mjoin (take j (q_pages q))) + o)%nat).
    { unfold start, zlen, o. lia. }
    rewrite Hstart. clear Hstart.
    (* the elements of the result, whatever way the page is cut *)
    assert (Hres : ∀ pages' ps', (o ≤ length p)%nat → mjoin ps' = take o p ++ v :: drop o p →
        Forall (λ p, p ≠ [] ∧ zlen p ≤ pageSize) ps' →
        pages' = take j (q_pages q) ++ ps' ++ drop (S j) (q_pages q) →
        wf (MkQuicklist pages' (1 + q_length q)) ∧
        mjoin pages' = take (length (mjoin (take j (q_pages q))) + o) (elements q) ++ v ::
                      drop (length (mjoin (take j (q_pages q))) + o) (elements q)).
    { intros pages' ps' Ho Hj Hall ->.
      assert (Hm : mjoin (take j (q_pages q) ++ ps' ++ drop (S j) (q_pages q)) =
        take (length (mjoin (take j (q_pages q))) + o) (elements q) ++ v ::
                      drop (length (mjoin (take j (q_pages q))) + o) (elements q)).
      { unfold elements. rewrite (join_split _ j p Hp).
        rewrite take_add_app, drop_add_app by done.
        rewrite take_app_le, drop_app_le by lia.
        rewrite !join_app, Hj, <-!app_assoc. done. }
      split; [|done]. split; simpl.
      - unfold elements at 1. simpl. rewrite Hm, Hlen. unfold zlen. rewrite app_length. simpl.
        rewrite take_length, drop_length.
        assert (length (mjoin (take j (q_pages q))) + o ≤ length (elements q))%nat; [|lia].
        unfold elements. rewrite (join_split _ j p Hp), !app_length. lia.
      - apply Forall_app. split; [by apply Forall_take|]. apply Forall_app. split; [done|by apply Forall_drop]. }
    destruct (Z.ltb_spec (zlen p) pageSize) as [Hnf|Hf].
    - rewrite page_insert_spec by done.
      destruct (Z.leb_spec off (zlen p)) as [Hin|Hout]; destruct (Z.ltb_spec (zlen p) off); try lia; simpl; [|done].
      eexists. split; [done|]. fold o. unfold elements at 1. simpl. apply (Hres _ [take o p ++ v :: drop o p]).
      + unfold zlen in Hin. lia.
      + simpl. by rewrite app_nil_r.
      + constructor; [|done]. split; [by destruct (take o p)|]. rewrite zlen_app, zlen_cons.
        unfold zlen in *. rewrite take_length, drop_length. lia.
      + simpl. rewrite insert_take_drop by (by eapply lookup_lt_Some). done.
    - assert (Hfull : zlen p = pageSize) by lia. unfold pageSize in *.
      change (1024 / 2) with 512. change (Z.to_nat 512) with 512%nat.
      assert (Hlp : length p = 1024%nat) by (unfold zlen in Hfull; lia).
      assert (Ht : zlen (take 512 p) = 512) by (unfold zlen; rewrite take_length; lia).
      assert (Hd : zlen (drop 512 p) = 512) by (unfold zlen; rewrite drop_length; lia).
      destruct (Z.ltb_spec off (zlen (take 512 p))) as [Hfirst|Hsecond].
      + rewrite page_insert_spec by (unfold pageSize; lia).
        destruct (Z.ltb_spec (zlen (take 512 p)) off); [lia|]. simpl.
        destruct (Z.leb_spec off (zlen p)); [|lia]. fold o.
        eexists. split; [done|]. unfold elements at 1. cbn [q_pages].
        apply (Hres _ [take o (take 512 p) ++ v :: drop o (take 512 p); drop 512 p]).
        * lia.
        * simpl. rewrite app_nil_r, <-app_assoc. rewrite take_take.
          rewrite Nat.min_l by lia. f_equal. simpl. f_equal.
          replace 512%nat with (o + (512 - o))%nat by lia.
          rewrite <-drop_drop, <-take_drop_commute, take_drop. done.
        * constructor; [|constructor; [|done]].
          -- split; [by destruct (take o (take 512 p))|]. rewrite zlen_app, zlen_cons.
             unfold zlen. rewrite !drop_length, !take_length. lia.
          -- split; [intros E; rewrite E in Hd; done|lia].
        * done.
      + rewrite page_insert_spec by (unfold pageSize; lia). rewrite Hd, Hfull.
        destruct (Z.leb_spec off 1024) as [Hin|Hout]; destruct (Z.ltb_spec 512 (off - 512)); try lia; simpl; [|done].
        replace (Z.to_nat (off - 512)) with (o - 512)%nat by lia.
        eexists. split; [done|]. unfold elements at 1. cbn [q_pages].
        apply (Hres _ [take 512 p; take (o - 512) (drop 512 p) ++ v :: drop (o - 512) (drop 512 p)]).
        * lia.
        * simpl. rewrite app_nil_r, app_assoc. rewrite drop_drop.
          replace (512 + (o - 512))%nat with o by lia. f_equal.
          rewrite <-(take_drop 512 (take o p)), take_take, Nat.min_l by lia. f_equal.
          rewrite take_drop_commute. f_equal. f_equal. lia.
        * constructor; [|constructor; [|done]].
          -- split; [intros E; rewrite E in Ht; done|lia].
          -- split; [by destruct (take (o - 512) (drop 512 p))|]. rewrite zlen_app, zlen_cons.
             unfold zlen. rewrite take_length, !drop_length. lia.
        * done.
  Qed.

  Lemma PushBack_spec q v : wf q → wf (PushBack q v) ∧ elements (PushBack q v) = elements q ++ [v].
  Proof.
    intros [Hlen Hok]. unfold PushBack.
    assert (Hgoal : ∀ ps, mjoin ps = elements q ++ [v] → pages_ok ps →
      wf (MkQuicklist ps (q_length q + 1)) ∧ elements (MkQuicklist ps (q_length q + 1)) = elements q ++ [v]).
    { intros ps' Hj Hk. split; [|done]. split; [|done]. simpl. unfold elements at 1. simpl.
      rewrite Hj, zlen_app, Hlen. done. }
    assert (Hv : [v] ≠ [] ∧ zlen [v] ≤ pageSize) by done.
    destruct (last (q_pages q)) as [p|] eqn:E.
    - apply last_Some in E as [l' E].
      destruct (Z.eqb_spec (zlen p) pageSize) as [Hf|Hnf]; apply Hgoal.
      + rewrite join_app. done.
      + apply Forall_app. split; [done|]. by constructor.
      + unfold elements. rewrite E, app_length. simpl.
        replace (pred (length l' + 1)) with (length l' + 0)%nat by lia.
        rewrite insert_app_r. simpl. rewrite !join_app. simpl. rewrite !app_nil_r. by rewrite app_assoc.
      + unfold pages_ok in *. rewrite E in Hok |- *. rewrite app_length. simpl.
        replace (pred (length l' + 1)) with (length l' + 0)%nat by lia.
        rewrite insert_app_r. simpl. rewrite Forall_app in Hok |- *. destruct Hok as [? Hp].
        split; [done|]. constructor; [|done]. inversion Hp as [|?? [? ?]]; subst.
        split; [by destruct p|]. rewrite zlen_app. unfold zlen at 2. simpl. lia.
    - apply last_None in E. apply Hgoal.
      + unfold elements. rewrite E. done.
      + by constructor.
  Qed.

  (** * Which index is reached *)
  Definition first_page ps : Z := match ps with [] => 0 | p :: _ => zlen p end.

  (** front half, or first page: the right position *)
  Lemma at_page_good ps dl idx j p off :
    pages_ok ps → 0 ≤ dl ≤ 1 → 0 ≤ idx → at_page ps dl idx j p off →
    idx < (dl + zlen (mjoin ps)) / 2 ∨ idx < dl + first_page ps →
    start ps j + off = idx ∧ 0 ≤ off < dl + zlen p.
  Proof.
    intros Hok Hdl Hidx (Hp & [(Hh & -> & Hr)|(Hh & -> & Hr)]) Hc; [lia|].
    assert (j = 0%nat) as ->.
    { destruct j as [|j]; [done|]. exfalso.
      assert (Hfp : first_page ps ≤ start ps (S j)).
      { destruct ps as [|p0 ps]; [done|]. unfold start. simpl. rewrite zlen_app.
        pose proof (zlen_nonneg (mjoin (take j ps))). lia. }
      lia. }
    rewrite start_0 in *. lia.
  Qed.

  (** otherwise: a later page *)
  Lemma at_page_bad ps dl idx j p off :
    pages_ok ps → 0 ≤ dl ≤ 1 → at_page ps dl idx j p off →
    (dl + zlen (mjoin ps)) / 2 ≤ idx → dl + first_page ps ≤ idx →
    (0 < j)%nat ∧ off = idx ∧ 0 < start ps j.
  Proof.
    intros Hok Hdl (Hp & [(Hh & -> & Hr)|(Hh & -> & Hr)]) Hc Hf; [lia|].
    assert (0 < j)%nat.
    { destruct j as [|j]; [|lia]. exfalso. destruct ps as [|p0 ps]; [done|].
      simpl in Hp, Hf. injection Hp as ->. rewrite start_0 in Hr. lia. }
    split; [done|]. split; [done|]. by eapply start_pos.
  Qed.

  Lemma get_wf q idx : wf q → 0 ≤ idx < q_length q →
    ∃ j p off, get q idx = Some (MkQIter (Some j) off) ∧ at_page (q_pages q) 0 idx j p off.
  Proof.
    intros [Hlen Hok] Hi. destruct (get_spec (q_pages q) 0 idx) as (j & p & off & Hg & Ha); [lia| |].
    - unfold elements in Hlen. lia.
    - exists j, p, off. split; [|done]. rewrite <-Hg. destruct q as [ps n]. simpl in *. f_equal. f_equal.
      unfold elements in Hlen. simpl in Hlen. lia.
  Qed.
  Lemma get_wf_insert q idx : wf q → 0 ≤ idx < q_length q →
    ∃ j p off, get (MkQuicklist (q_pages q) (1 + q_length q)) idx = Some (MkQIter (Some j) off) ∧
      at_page (q_pages q) 1 idx j p off.
  Proof.
    intros [Hlen Hok] Hi. destruct (get_spec (q_pages q) 1 idx) as (j & p & off & Hg & Ha); [lia| |].
    - unfold elements in Hlen. lia.
    - exists j, p, off. split; [|done]. rewrite <-Hg. unfold elements in Hlen. by rewrite Hlen.
  Qed.
  Lemma at_page_off ps dl idx j p off : 0 ≤ idx → at_page ps dl idx j p off → 0 ≤ off.
  Proof. intros ? (_ & [?|?]); lia. Qed.

  Lemma get_out q idx : idx < 0 ∨ q_length q ≤ idx → get q idx = None.
  Proof.
    intros Hi. unfold get. destruct (Z.ltb_spec idx 0), (Z.leb_spec (q_length q) idx); simpl; try done; lia.
  Qed.
  Lemma wf_zlen q : wf q → q_length q = zlen (mjoin (q_pages q)).
  Proof. intros [? _]. done. Qed.

  (** ** Get *)
  Theorem Get_good q idx : wf q → 0 ≤ idx < q_length q →
    idx < q_length q / 2 ∨ idx < first_page (q_pages q) →
    QGet q idx = Ok (elements q !! Z.to_nat idx).
  Proof.
    intros Hwf Hi Hc. destruct (get_wf q idx Hwf Hi) as (j & p & off & Hg & Ha).
    pose proof Ha as (Hp & _). pose proof Hwf as [_ Hok].
    destruct (at_page_good _ 0 idx j p off Hok) as [Hs Hoff]; [lia|lia|done| |].
    { rewrite <-(wf_zlen q Hwf). lia. }
    pose proof (Get_at q idx j p off Hg Hp) as HG. destruct (Z.ltb_spec off (zlen p)); [|lia].
    destruct HG as (v & -> & Hv); [lia|]. by rewrite Hs in Hv; rewrite Hv.
  Qed.
  Theorem Get_bad q idx : wf q → q_length q / 2 ≤ idx < q_length q →
    first_page (q_pages q) ≤ idx →
    QGet q idx = Panic ∨
    ∃ pos, idx < pos < q_length q ∧ QGet q idx = Ok (elements q !! Z.to_nat pos).
  Proof.
    intros Hwf Hi Hc.
    assert (Hi0 : 0 ≤ idx < q_length q).
    { pose proof (wf_zlen q Hwf). pose proof (zlen_nonneg (mjoin (q_pages q))).
      pose proof (Z.div_pos (q_length q) 2). lia. }
    destruct (get_wf q idx Hwf Hi0) as (j & p & off & Hg & Ha).
    pose proof Ha as (Hp & _). pose proof Hwf as [Hlen Hok].
    destruct (at_page_bad _ 0 idx j p off Hok) as (Hj & -> & Hs); [lia|done| |lia|].
    { rewrite <-(wf_zlen q Hwf). lia. }
    pose proof (Get_at q idx j p idx Hg Hp) as HG. destruct (Z.ltb_spec idx (zlen p)); [|left; apply HG; lia].
    right. exists (start (q_pages q) j + idx). split.
    - pose proof (start_le _ _ _ Hp). unfold elements in Hlen. lia.
    - destruct HG as (v & -> & Hv); [lia|]. by rewrite Hv.
  Qed.

  (** ** Remove *)
  Theorem Remove_good q idx : wf q → 0 ≤ idx < q_length q →
    idx < q_length q / 2 ∨ idx < first_page (q_pages q) →
    ∃ q' v, Remove q idx = Ok (q', Some v) ∧ wf q' ∧ elements q !! Z.to_nat idx = Some v ∧
      elements q' = take (Z.to_nat idx) (elements q) ++ drop (S (Z.to_nat idx)) (elements q).
  Proof.
    intros Hwf Hi Hc. destruct (get_wf q idx Hwf Hi) as (j & p & off & Hg & Ha).
    pose proof Ha as (Hp & _). pose proof Hwf as [_ Hok].
    destruct (at_page_good _ 0 idx j p off Hok) as [Hs Hoff]; [lia|lia|done| |].
    { rewrite <-(wf_zlen q Hwf). lia. }
    pose proof (Remove_at q idx j p off Hwf Hg Hp) as HG. destruct (Z.ltb_spec off (zlen p)); [|lia].
    rewrite Hs in HG. destruct HG as (q' & v & HR & Hwf' & Hv & Hel & _); [lia|]. eauto 10.
  Qed.
  Theorem Remove_bad q idx : wf q → q_length q / 2 ≤ idx < q_length q →
    first_page (q_pages q) ≤ idx →
    Remove q idx = Panic ∨
    ∃ pos q' v, idx < pos < q_length q ∧ Remove q idx = Ok (q', Some v) ∧ wf q' ∧
      elements q !! Z.to_nat pos = Some v ∧
      elements q' = take (Z.to_nat pos) (elements q) ++ drop (S (Z.to_nat pos)) (elements q).
  Proof.
    intros Hwf Hi Hc.
    assert (Hi0 : 0 ≤ idx < q_length q).
    { pose proof (wf_zlen q Hwf). pose proof (zlen_nonneg (mjoin (q_pages q))).
      pose proof (Z.div_pos (q_length q) 2). lia. }
    destruct (get_wf q idx Hwf Hi0) as (j & p & off & Hg & Ha).
    pose proof Ha as (Hp & _). pose proof Hwf as [Hlen Hok].
    destruct (at_page_bad _ 0 idx j p off Hok) as (Hj & -> & Hs); [lia|done| |lia|].
    { rewrite <-(wf_zlen q Hwf). lia. }
    pose proof (Remove_at q idx j p idx Hwf Hg Hp) as HG. destruct (Z.ltb_spec idx (zlen p)); [|left; apply HG; lia].
    right. exists (start (q_pages q) j + idx). destruct HG as (q' & v & HR & Hwf' & Hv & Hel & _); [lia|].
    exists q', v. split; [|done]. pose proof (start_le _ _ _ Hp). unfold elements in Hlen. lia.
  Qed.
  Lemma Remove_out q idx : idx < 0 ∨ q_length q ≤ idx → Remove q idx = Ok (q, None).
  Proof. intros. unfold Remove. by rewrite get_out. Qed.
  Lemma Get_out q idx : idx < 0 ∨ q_length q ≤ idx → QGet q idx = Ok None.
  Proof. intros. unfold QGet. by rewrite get_out. Qed.

  (** PopBack: one page, or a panic *)
  Theorem PopBack_one q p : wf q → q_pages q = [p] →
    ∃ q' v, PopBack q = Ok (q', Some v) ∧ wf q' ∧ elements q = elements q' ++ [v].
  Proof.
    intros Hwf Hp. pose proof (wf_zlen q Hwf) as Hlen. rewrite Hp in Hlen. simpl in Hlen. rewrite app_nil_r in Hlen.
    pose proof (pages_ok_lookup _ 0 p (proj2 Hwf)) as Hpl. rewrite Hp in Hpl. specialize (Hpl eq_refl).
    unfold PopBack. destruct (Remove_good q (q_length q - 1)) as (q' & v & HR & Hwf' & Hv & Hel); [done|lia| |].
    { right. rewrite Hp. simpl. lia. }
    exists q', v. split; [done|]. split; [done|].
    assert (HL : length (elements q) = S (Z.to_nat (q_length q - 1))).
    { destruct Hwf as [Hw _]. unfold zlen in Hw. lia. }
    rewrite Hel. rewrite (drop_ge (elements q)) by lia. rewrite app_nil_r.
    rewrite <-(take_S_r _ _ v Hv). by rewrite take_ge by lia.
  Qed.
  Theorem PopBack_many q : wf q → (1 < length (q_pages q))%nat → PopBack q = Panic.
  Proof.
    intros Hwf Hn. pose proof (wf_zlen q Hwf) as Hlen. pose proof Hwf as [_ Hok].
    destruct (q_pages q) as [|p0 [|p1 ps]] eqn:Eq; simpl in Hn; try lia. rewrite <-Eq in *.
    pose proof (pages_ok_lookup _ 0 p0 Hok) as H0. rewrite Eq in H0. specialize (H0 eq_refl).
    pose proof (pages_ok_lookup _ 1 p1 Hok) as H1. rewrite Eq in H1. specialize (H1 eq_refl).
    assert (Hl2 : zlen p0 + zlen p1 ≤ q_length q).
    { rewrite Hlen, Eq. simpl. rewrite !zlen_app. pose proof (zlen_nonneg (mjoin ps)). lia. }
    unfold PopBack. set (idx := q_length q - 1) in *.
    assert (q_length q / 2 ≤ idx) by (apply Z.div_le_upper_bound; lia).
    destruct (get_wf q idx Hwf) as (j & p & off & Hg & Ha); [lia|].
    pose proof Ha as (Hp & _).
    destruct (at_page_bad _ 0 idx j p off Hok) as (Hj & -> & Hs); [lia|done| | |].
    { rewrite <-(wf_zlen q Hwf). lia. } { rewrite Eq. simpl. lia. }
    pose proof (Remove_at q idx j p idx Hwf Hg Hp) as HG.
    pose proof (start_le _ _ _ Hp). destruct (Z.ltb_spec idx (zlen p)); [lia|]. apply HG. lia.
  Qed.

  (** ** Insert *)
  Theorem Insert_good q idx v : wf q → 0 ≤ idx ≤ q_length q →
    idx < (q_length q + 1) / 2 ∨ idx ≤ first_page (q_pages q) ∨ idx = q_length q →
    ∃ q', Insert q idx v = Ok (q', true) ∧ wf q' ∧
      elements q' = take (Z.to_nat idx) (elements q) ++ v :: drop (Z.to_nat idx) (elements q).
  Proof.
    intros Hwf Hi Hc. destruct (decide (idx = q_length q)) as [->|Hne].
    - unfold Insert. destruct (Z.ltb_spec (q_length q) 0); [lia|].
      destruct (Z.ltb_spec (q_length q) (q_length q)); [lia|]. simpl. rewrite Z.eqb_refl.
      destruct (PushBack_spec q v Hwf) as [Hwf' Hel]. eexists. split; [done|]. split; [done|].
      rewrite Hel. destruct Hwf as [Hl _]. rewrite take_ge, drop_ge by (unfold zlen in Hl; lia). done.
    - destruct (get_wf_insert q idx Hwf) as (j & p & off & Hg & Ha); [lia|].
      pose proof Ha as (Hp & _). pose proof Hwf as [_ Hok].
      destruct (at_page_good _ 1 idx j p off Hok) as [Hs Hoff]; [lia|lia|done| |].
      { rewrite <-(wf_zlen q Hwf), Z.add_comm. lia. }
      pose proof (Insert_at q idx v j p off Hwf) as HG. destruct (Z.leb_spec off (zlen p)); [|lia].
      rewrite Hs in HG. apply HG; (done || lia).
  Qed.
  Theorem Insert_bad q idx v : wf q → (q_length q + 1) / 2 ≤ idx < q_length q →
    first_page (q_pages q) < idx →
    Insert q idx v = Panic ∨
    ∃ pos q', idx < pos ≤ q_length q ∧ Insert q idx v = Ok (q', true) ∧ wf q' ∧
      elements q' = take (Z.to_nat pos) (elements q) ++ v :: drop (Z.to_nat pos) (elements q).
  Proof.
    intros Hwf Hi Hc.
    assert (Hi0 : 0 ≤ idx < q_length q).
    { pose proof (wf_zlen q Hwf). pose proof (zlen_nonneg (mjoin (q_pages q))).
      pose proof (Z.div_pos (q_length q + 1) 2). lia. }
    destruct (get_wf_insert q idx Hwf Hi0) as (j & p & off & Hg & Ha).
    pose proof Ha as (Hp & _). pose proof Hwf as [Hlen Hok].
    destruct (at_page_bad _ 1 idx j p off Hok) as (Hj & -> & Hs); [lia|done| |lia|].
    { rewrite <-(wf_zlen q Hwf), Z.add_comm. lia. }
    pose proof (Insert_at q idx v j p idx Hwf Hi0 Hg Hp) as HG.
    destruct (Z.leb_spec idx (zlen p)); [|left; apply HG; lia].
    right. exists (start (q_pages q) j + idx). destruct HG as (q' & HR & Hwf' & Hel); [lia|].
    exists q'. split; [|done]. pose proof (start_le _ _ _ Hp). unfold elements in Hlen. lia.
  Qed.
  Lemma Insert_out q idx v : idx < 0 ∨ q_length q < idx → Insert q idx v = Ok (q, false).
  Proof.
    intros Hi. unfold Insert.
    destruct (Z.ltb_spec idx 0), (Z.ltb_spec (q_length q) idx); simpl; try done; lia.
  Qed.

  (** ** the ends *)
  Theorem PushFront_spec q v : wf q →
    ∃ q', PushFront q v = Ok q' ∧ wf q' ∧ elements q' = v :: elements q.
  Proof.
    intros Hwf. pose proof (wf_zlen q Hwf) as Hl. pose proof (zlen_nonneg (mjoin (q_pages q))).
    unfold PushFront. destruct (Insert_good q 0 v Hwf) as (q' & -> & Hwf' & Hel).
    - lia.
    - destruct (decide (q_length q = 0)); [lia|]. left.
      assert (1 ≤ (q_length q + 1) / 2); [|lia]. apply Z.div_le_lower_bound; lia.
    - simpl. eauto.
  Qed.
  Theorem PopFront_spec q : wf q →
    match elements q with
    | [] => PopFront q = Ok (q, None)
    | v :: l => ∃ q', PopFront q = Ok (q', Some v) ∧ wf q' ∧ elements q' = l
    end.
  Proof.
    intros Hwf. pose proof Hwf as [Hl Hok]. unfold PopFront.
    destruct (elements q) as [|v l] eqn:E.
    - apply Remove_out. unfold zlen in Hl. simpl in Hl. lia.
    - rewrite zlen_cons in Hl. pose proof (zlen_nonneg l).
      destruct (Remove_good q 0) as (q' & v' & HR & Hwf' & Hv & Hel).
      + done.
      + lia.
      + right. destruct (q_pages q) as [|p ps] eqn:Ep.
        { unfold elements in E. by rewrite Ep in E. }
        pose proof (pages_ok_lookup (p :: ps) 0 p Hok eq_refl). simpl. lia.
      + rewrite E in *. simpl in *. simplify_eq. exists q'. eauto.
  Qed.

  Lemma wf_New : wf NewQuicklist.
  Proof. split; [done|]. constructor. Qed.

  (** * Iteration *)
  (** the iterator stands on element number [n] *)
  Definition on ps (it : qiter) (n : nat) : Prop :=
    ∃ j p, qi_node it = Some j ∧ ps !! j = Some p ∧ 0 ≤ qi_offset it < zlen p ∧
           Z.of_nat n = start ps j + qi_offset it.

  Lemma on_value q it n : on (q_pages q) it n →
    ∃ v, it_value q it = Ok v ∧ elements q !! n = Some v.
  Proof.
    intros (j & p & Hj & Hp & Ho & Hn). unfold it_value, it_page. rewrite Hj. simpl. rewrite Hp. simpl.
    unfold go_index. destruct (Z.ltb_spec (qi_offset it) 0); [lia|]. unfold zlen in Ho.
    destruct (lookup_lt_is_Some_2 p (Z.to_nat (qi_offset it))) as [v Hv]; [lia|].
    rewrite Hv. exists v. split; [done|]. unfold elements.
    replace n with (length (mjoin (take j (q_pages q))) + Z.to_nat (qi_offset it))%nat
      by (unfold start, zlen in Hn; lia).
    by rewrite (lookup_join _ j p) by (done || lia).
  Qed.

  Lemma on_lt q it n : on (q_pages q) it n → (n < length (elements q))%nat.
  Proof.
    intros H0. destruct (on_value q it n H0) as (v & _ & Hv). by eapply lookup_lt_Some.
  Qed.

  Lemma Next_on q it n : wf q → on (q_pages q) it n →
    (∃ it' v, Next q it = Ok (it', Some v) ∧ on (q_pages q) it' (S n) ∧ elements q !! S n = Some v) ∨
    (∃ it', Next q it = Ok (it', None) ∧ S n = length (elements q)).
  Proof.
    intros Hwf Hon. pose proof Hwf as [Hlen Hok]. pose proof (on_lt q it n Hon) as Hlt.
    destruct Hon as (j & p & Hj & Hp & Ho & Hn).
    unfold Next. destruct (Z.eqb_spec (q_length q) 0) as [E|_]; [unfold zlen in Hlen; lia|].
    rewrite Hj. unfold it_page. simpl. rewrite Hp. simpl.
    destruct (Z.leb_spec (zlen p) (qi_offset it + 1)) as [Hend|Hin].
    - assert (Hst : start (q_pages q) (S j) = Z.of_nat (S n)) by (rewrite (start_S _ j p) by done; lia).
      unfold node_next. destruct (decide _) as [Hlt'|Hge].
      + left. destruct (lookup_lt_is_Some_2 _ _ Hlt') as [p' Hp'].
        pose proof (pages_ok_lookup _ _ _ Hok Hp') as Hpl.
        assert (Hon' : on (q_pages q) (MkQIter (Some (S j)) 0) (S n)).
        { exists (S j), p'. simpl. split; [done|]. split; [done|]. lia. }
        destruct (on_value q _ _ Hon') as (v & Hv & He). rewrite Hv. simpl. eauto.
      + right. eexists. split; [done|]. unfold start in Hst.
        rewrite take_ge in Hst by lia. unfold elements, zlen in *. lia.
    - left. assert (Hon' : on (q_pages q) (MkQIter (Some j) (qi_offset it + 1)) (S n)).
      { exists j, p. simpl. split; [done|]. split; [done|]. lia. }
      destruct (on_value q _ _ Hon') as (v & Hv & He). rewrite Hv. simpl. eauto.
  Qed.

  Lemma Next_first q : wf q →
    match elements q with
    | [] => Next q NewQuicklistIterator = Ok (NewQuicklistIterator, None)
    | v :: _ => ∃ it', Next q NewQuicklistIterator = Ok (it', Some v) ∧ on (q_pages q) it' 0
    end.
  Proof.
    intros [Hlen Hok]. destruct (elements q) as [|v l] eqn:E.
    - unfold Next. rewrite Hlen. done.
    - unfold Next. destruct (Z.eqb_spec (q_length q) 0) as [E0|_]; [rewrite zlen_cons in Hlen; pose proof (zlen_nonneg l); lia|].
      simpl. unfold list_front. destruct (q_pages q) as [|p ps] eqn:Ep; [by unfold elements in E; rewrite Ep in E|].
      assert (Hon : on (q_pages q) (MkQIter (Some 0%nat) 0) 0).
      { rewrite Ep. exists 0%nat, p. simpl. pose proof (pages_ok_lookup (p :: ps) 0 p Hok eq_refl). split; [done|]. split; [done|]. rewrite start_0. lia. }
      destruct (on_value q _ _ Hon) as (v' & Hv & He). rewrite Hv. simpl. rewrite E in He. simpl in He.
      simplify_eq. rewrite <-Ep. eauto.
  Qed.

  (** going backwards *)
  Lemma Prev_on q it n : wf q → on (q_pages q) it n →
    (∃ it' v m, n = S m ∧ Prev q it = Ok (it', Some v) ∧ on (q_pages q) it' m ∧ elements q !! m = Some v) ∨
    (∃ it', Prev q it = Ok (it', None) ∧ n = 0%nat).
  Proof.
    intros Hwf Hon. pose proof Hwf as [Hlen Hok].
    destruct Hon as (j & p & Hj & Hp & Ho & Hn). unfold Prev.
    destruct (Z.ltb_spec (qi_offset it - 1) 0) as [Hend|Hin].
    - rewrite Hj. simpl. destruct j as [|j]; simpl.
      + right. eexists. split; [done|]. unfold start, zlen in Hn. simpl in Hn. lia.
      + left. destruct (lookup_lt_is_Some_2 (q_pages q) j) as [p' Hp']; [apply lookup_lt_Some in Hp; lia|].
        rewrite Hp'. simpl. pose proof (pages_ok_lookup _ _ _ Hok Hp') as Hpl.
        pose proof (start_S _ _ _ Hp') as HS. pose proof (start_nonneg (q_pages q) j).
        assert (Hon' : on (q_pages q) (MkQIter (Some j) (zlen p' - 1)) (pred n)).
        { exists j, p'. simpl. split; [done|]. split; [done|]. lia. }
        destruct (on_value q _ _ Hon') as (v & Hv & He). rewrite Hv. simpl.
        eexists _, v, (pred n). split; [lia|]. eauto.
    - left. rewrite Hj. pose proof (start_nonneg (q_pages q) j).
      assert (Hon' : on (q_pages q) (MkQIter (Some j) (qi_offset it - 1)) (pred n)).
      { exists j, p. simpl. split; [done|]. split; [done|]. lia. }
      destruct (on_value q _ _ Hon') as (v & Hv & He). rewrite Hv. simpl.
      eexists _, v, (pred n). split; [lia|]. eauto.
  Qed.

  Lemma q_walk_on q : wf q → ∀ fuel it n acc, on (q_pages q) it n →
    (length (elements q) < fuel + n)%nat →
    q_walk fuel q it acc = Ok (acc ++ drop (S n) (elements q)).
  Proof.
    intros Hwf. induction fuel as [|fuel IH]; intros it n acc Hon Hf.
    - pose proof (on_lt _ _ _ Hon). lia.
    - simpl. destruct (Next_on q it n Hwf Hon) as [(it' & v & -> & Hon' & Hv)|(it' & -> & Hn)]; simpl.
      + rewrite (IH it' (S n)) by (done || lia). rewrite <-app_assoc. simpl.
        by rewrite (drop_S _ v (S n)).
      + rewrite drop_ge by lia. by rewrite app_nil_r.
  Qed.
  Theorem q_items_spec q : wf q → q_items q = Ok (elements q).
  Proof.
    intros Hwf. pose proof Hwf as [Hlen _]. unfold q_items. pose proof (Next_first q Hwf) as HN.
    change (2 + Z.to_nat (q_length q))%nat with (S (S (Z.to_nat (q_length q)))).
    remember (S (Z.to_nat (q_length q))) as fuel eqn:Ef. cbn [q_walk].
    destruct (elements q) as [|v l] eqn:E.
    - by rewrite HN.
    - destruct HN as (it' & -> & Hon). cbn [mbind res_bind snd fst app].
      rewrite (q_walk_on q Hwf fuel it' 0 [v] Hon).
      + rewrite E. done.
      + rewrite E. unfold zlen in Hlen. lia.
  Qed.

  Lemma range_loop_on q : wf q → ∀ fuel it n i stop acc, on (q_pages q) it n →
    (length (elements q) < fuel + n)%nat → i ≤ stop →
    range_loop fuel q it i stop acc =
      Ok (acc ++ take (Z.to_nat (stop - i + 1)) (drop n (elements q))).
  Proof.
    intros Hwf. induction fuel as [|fuel IH]; intros it n i stop acc Hon Hf Hi.
    - pose proof (on_lt _ _ _ Hon). lia.
    - simpl. destruct (Z.ltb_spec stop i); [lia|].
      destruct (on_value q it n Hon) as (v & -> & Hv). simpl.
      rewrite (drop_S _ v n) by done.
      replace (Z.to_nat (stop - i + 1)) with (S (Z.to_nat (stop - i))) by lia. simpl.
      destruct (Next_on q it n Hwf Hon) as [(it' & v' & -> & Hon' & Hv')|(it' & -> & Hn)]; simpl.
      + destruct (decide (i = stop)) as [->|].
        * rewrite Z.sub_diag. simpl. rewrite take_0. pose proof (on_lt _ _ _ Hon').
          destruct fuel; [lia|]. simpl. destruct (Z.ltb_spec stop (stop + 1)); [done|lia].
        * rewrite (IH it' (S n)) by (done || lia). rewrite <-app_assoc. simpl. repeat f_equal. lia.
      + rewrite (drop_ge (elements q)) by lia. by rewrite take_nil.
  Qed.

  Lemma range_loop_on' q it n stop start : wf q → on (q_pages q) it n → start ≤ stop →
    range_loop (2 + Z.to_nat (q_length q)) q it start stop [] =
      Ok (take (Z.to_nat (stop - start + 1)) (drop n (elements q))).
  Proof.
    intros Hwf Hon Hs. rewrite (range_loop_on q Hwf _ it n) by (done || (destruct Hwf as [Hl _]; unfold zlen in Hl; lia)).
    done.
  Qed.

  Local Arguments range_loop : simpl never.

  (** normalised indexes of Range *)
  Definition norm (len i : Z) : Z := if i <? 0 then len + i else i.

  Theorem Range_empty q i j : wf q →
    let s := norm (q_length q) i in let e := norm (q_length q) j in
    s < 0 ∨ e < 0 ∨ e < s ∨ q_length q ≤ s → QRange q i j = Ok None.
  Proof.
    intros Hwf s e Hc. unfold QRange. fold (norm (q_length q) i) (norm (q_length q) j). fold s e.
    destruct (Z.ltb_spec s 0), (Z.ltb_spec e 0), (Z.ltb_spec e s), (Z.leb_spec (q_length q) s); simpl; try done; lia.
  Qed.

  Theorem Range_good q i j : wf q →
    let s := norm (q_length q) i in let e := norm (q_length q) j in
    0 ≤ s ≤ e → s < q_length q → s < q_length q / 2 ∨ s < first_page (q_pages q) →
    e - s + 1 ≤ 2 ^ 44 →
    QRange q i j = Ok (Some (take (Z.to_nat (e - s + 1)) (drop (Z.to_nat s) (elements q)))).
  Proof.
    intros Hwf s e Hse Hs Hc Hm. unfold QRange. fold (norm (q_length q) i) (norm (q_length q) j). fold s e.
    destruct (Z.ltb_spec s 0), (Z.ltb_spec e 0), (Z.ltb_spec e s), (Z.leb_spec (q_length q) s); simpl; try lia.
    destruct (get_wf q s Hwf) as (jj & p & off & Hg & Ha); [lia|].
    pose proof Ha as (Hp & _). pose proof Hwf as [_ Hok].
    destruct (at_page_good _ 0 s jj p off Hok) as [Hso Hoff]; [lia|lia|done| |].
    { rewrite <-(wf_zlen q Hwf). lia. }
    rewrite Hg.
    assert (Hw : wrap64 (e - s + 1) = e - s + 1).
    { unfold wrap64. rewrite Z.mod_small; lia. }
    rewrite Hw.
    assert (Hmk : make_ok (e - s + 1) any_size = true).
    { unfold make_ok, maxAlloc, any_size. lia. }
    rewrite Hmk. simpl negb. cbv iota.
    rewrite (range_loop_on' q _ (Z.to_nat s)); [done|done| |lia].
    exists jj, p. simpl. split; [done|]. split; [done|]. lia.
  Qed.
  Lemma range_loop_off q j p off fuel i stop : q_pages q !! j = Some p → zlen p ≤ off → i ≤ stop →
    range_loop (S fuel) q (MkQIter (Some j) off) i stop [] = Panic.
  Proof.
    intros Hp Ho Hi. unfold range_loop. destruct (Z.ltb_spec stop i); [lia|].
    unfold it_value, it_page. simpl. rewrite Hp. simpl. unfold go_index.
    pose proof (zlen_nonneg p). destruct (Z.ltb_spec off 0); [lia|].
    rewrite lookup_ge_None_2; [done|]. unfold zlen in Ho. lia.
  Qed.
  Theorem Range_bad q i j : wf q →
    let s := norm (q_length q) i in let e := norm (q_length q) j in
    s ≤ e → q_length q / 2 ≤ s < q_length q → first_page (q_pages q) ≤ s →
    QRange q i j = Panic ∨
    ∃ pos, s < pos < q_length q ∧
      QRange q i j = Ok (Some (take (Z.to_nat (e - s + 1)) (drop (Z.to_nat pos) (elements q)))).
  Proof.
    intros Hwf s e Hse Hs Hc. unfold QRange. fold (norm (q_length q) i) (norm (q_length q) j). fold s e.
    assert (Hi0 : 0 ≤ s).
    { pose proof (wf_zlen q Hwf). pose proof (zlen_nonneg (mjoin (q_pages q))).
      pose proof (Z.div_pos (q_length q) 2). lia. }
    destruct (Z.ltb_spec s 0), (Z.ltb_spec e 0), (Z.ltb_spec e s), (Z.leb_spec (q_length q) s); simpl; try lia.
    destruct (get_wf q s Hwf) as (jj & p & off & Hg & Ha); [lia|].
    pose proof Ha as (Hp & _). pose proof Hwf as [Hlen Hok].
    destruct (at_page_bad _ 0 s jj p off Hok) as (Hj & -> & Hst); [lia|done| |lia|].
    { rewrite <-(wf_zlen q Hwf). lia. }
    rewrite Hg. destruct (make_ok _ _); simpl; [|by left].
    destruct (decide (s < zlen p)).
    - right. exists (start (q_pages q) jj + s). split.
      { pose proof (start_le _ _ _ Hp). unfold elements in Hlen. lia. }
      pose proof (start_nonneg (q_pages q) jj).
      rewrite (range_loop_on' q _ (Z.to_nat (start (q_pages q) jj + s))); [done|done| |lia].
      exists jj, p. simpl. split; [done|]. split; [done|]. lia.
    - left. change (2 + Z.to_nat (q_length q))%nat with (S (S (Z.to_nat (q_length q)))).
      rewrite (range_loop_off _ _ p) by (done || lia). done.
  Qed.
  Theorem Range_huge q i j : wf q →
    let s := norm (q_length q) i in let e := norm (q_length q) j in
    0 ≤ s ≤ e → s < q_length q → 2 ^ 44 < e - s + 1 → e < 2 ^ 63 → QRange q i j = Panic.
  Proof.
    intros Hwf s e Hse Hs Hm He. unfold QRange. fold (norm (q_length q) i) (norm (q_length q) j). fold s e.
    destruct (Z.ltb_spec s 0), (Z.ltb_spec e 0), (Z.ltb_spec e s), (Z.leb_spec (q_length q) s); simpl; try lia.
    destruct (get_wf q s Hwf) as (jj & p & off & Hg & Ha); [lia|]. rewrite Hg.
    assert (Hmk : make_ok (wrap64 (e - s + 1)) any_size = false).
    { unfold make_ok, maxAlloc, any_size. destruct (decide (e - s + 1 = 2 ^ 63)) as [->|].
      - reflexivity.
      - unfold wrap64. rewrite Z.mod_small by lia. lia. }
    by rewrite Hmk.
  Qed.

  (** * Find *)
  Lemma page_find_spec v : ∀ p i,
    match page_find p i v with
    | Some k => ∃ n, k = i + Z.of_nat n ∧ p !! n = Some v ∧ (∀ m, (m < n)%nat → p !! m ≠ Some v)
    | None => v ∉ p
    end.
  Proof.
    induction p as [|x p IH]; intros i; simpl; [apply not_elem_of_nil|].
    destruct (decide (x = v)) as [->|Hne].
    - exists 0%nat. split; [lia|]. split; [done|]. intros m ?. lia.
    - specialize (IH (i + 1)). destruct (page_find p (i + 1) v) as [k|].
      + destruct IH as (n & -> & Hn & Hm). exists (S n). split; [lia|]. split; [done|].
        intros [|m] Hlt; simpl; [congruence|]. apply Hm. lia.
      + rewrite not_elem_of_cons. split; [congruence|done].
  Qed.
  Lemma pages_find_spec v : ∀ ps k,
    (v ∉ mjoin ps ∧ pages_find ps k v = -1) ∨
    ∃ n, pages_find ps k v = k + Z.of_nat n ∧ mjoin ps !! n = Some v ∧
         (∀ m, (m < n)%nat → mjoin ps !! m ≠ Some v).
  Proof.
    induction ps as [|p ps IH]; intros k; simpl.
    - left. split; [apply not_elem_of_nil|done].
    - pose proof (page_find_spec v p 0) as HP. destruct (page_find p 0 v) as [i|].
      + right. destruct HP as (n & -> & Hn & Hm). exists n. split; [lia|].
        assert (Hnl := lookup_lt_Some _ _ _ Hn).
        split; [by rewrite lookup_app_l|]. intros m Hlt. rewrite lookup_app_l by lia. by apply Hm.
      + destruct (IH (k + zlen p)) as [[Hni ->]|(n & -> & Hn & Hm)].
        * left. split; [|done]. rewrite not_elem_of_app. done.
        * right. exists (length p + n)%nat. split; [unfold zlen; lia|]. split.
          -- rewrite lookup_app_r by lia. by replace (length p + n - length p)%nat with n by lia.
          -- intros m Hlt He. destruct (decide (m < length p)%nat).
             ++ rewrite lookup_app_l in He by done. apply HP. by eapply elem_of_list_lookup_2.
             ++ rewrite lookup_app_r in He by lia. eapply Hm; [|exact He]. lia.
  Qed.
End proofs.
