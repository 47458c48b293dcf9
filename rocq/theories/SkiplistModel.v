(** Model of datastruct/skiplist.go.

    The nodes live in a heap [sl_heap] from node identities to nodes; node 0 is
    Head.  A nil pointer is [None]; dereferencing it, or indexing Levels out of
    range, is [Panic].  Nodes that were removed stay in the heap (they are still
    reachable through the slices returned to the caller).
    Loops over Forward pointers carry fuel [sl_next + 1], more than the number of
    nodes; running out of it is [OutOfFuel]. *)
From Verif Require Import Base Float.

(* skiplist.go:7-10 *)
Definition maxLevel : nat := 32.

(* skiplist.go:18-26 *)
Record snode := MkNode {
  n_member : bytes;
  n_score : float;
  n_back : option nat;
  n_levels : list (option nat * Z);   (* Forward, Span *)
}.
(* skiplist.go:12-16; Length never overflows, Level stays within 1..32 *)
Record skiplist := MkSl {
  sl_heap : gmap nat snode;
  sl_next : nat;                      (* next free identity *)
  sl_tail : option nat;
  sl_length : Z;
  sl_level : nat;
}.
Definition HEAD : nat := 0.
Definition n_key (n : snode) : float * bytes := (n_score n, n_member n).

(* skiplist.go:395-405 *)
Definition newSkiplistNode (level : nat) (score : float) (member : bytes) : snode :=
  MkNode member score None (replicate level (None, 0)).
(* skiplist.go:28-35 *)
Definition NewSkiplist : skiplist :=
  MkSl {[HEAD := newSkiplistNode maxLevel fzero []]} 1 None 0 1.

(* skiplist.go:382-393.  [rs] are the results of rand.Int31(); 0.25*0xFFFF =
   16383.75, so the test is (r & 0xFFFF) <= 16383.  The int8 counter may wrap. *)
Definition wrap8 (z : Z) : Z := (z + 128) mod 256 - 128.
Fixpoint randomLevel_loop (level : Z) (rs : list Z) : res (Z * list Z) :=
  match rs with
  | [] => OutOfFuel
  | r :: rs' =>
      if Z.land r 65535 <=? 16383 then randomLevel_loop (wrap8 (level + 1)) rs'
      else Ok (level, rs')
  end.
Definition randomLevel (rs : list Z) : res (Z * list Z) :=
  r ← randomLevel_loop 1 rs;
  Ok (if r.1 <? Z.of_nat maxLevel then r.1 else Z.of_nat maxLevel, r.2).

(* p.f, x.Levels[i] *)
Definition node (s : skiplist) (x : nat) : res snode := deref (sl_heap s !! x).
Definition level_of (n : snode) (i : nat) : res (option nat * Z) := deref (n_levels n !! i).
Definition level_at (s : skiplist) (x i : nat) : res (option nat * Z) :=
  n ← node s x; level_of n i.
Definition with_heap (s : skiplist) (h : gmap nat snode) : skiplist :=
  MkSl h (sl_next s) (sl_tail s) (sl_length s) (sl_level s).
(* x.Levels[i] = lv *)
Definition set_level (s : skiplist) (x i : nat) (lv : option nat * Z) : res skiplist :=
  n ← node s x;
  _ ← level_of n i;
  Ok (with_heap s (<[x := MkNode (n_member n) (n_score n) (n_back n) (<[i := lv]> (n_levels n))]>
                     (sl_heap s))).
(* x.Backward = b *)
Definition set_back (s : skiplist) (x : nat) (b : option nat) : res skiplist :=
  n ← node s x;
  Ok (with_heap s (<[x := MkNode (n_member n) (n_score n) b (n_levels n)]> (sl_heap s))).

(* the inner loop of every search: starting from x, follow level i while the
   forward node satisfies [cond rank span node]; rank accumulates the spans *)
Fixpoint walk (fuel : nat) (s : skiplist) (cond : Z → Z → snode → bool) (i x : nat) (rank : Z)
  : res (nat * Z) :=
  match fuel with
  | O => OutOfFuel
  | S fuel =>
      lv ← level_at s x i;
      match lv.1 with
      | None => Ok (x, rank)
      | Some y =>
          ny ← node s y;
          if cond rank lv.2 ny then walk fuel s cond i y (rank + lv.2) else Ok (x, rank)
      end
  end.
Definition fuel_of (s : skiplist) : nat := S (sl_next s).

(* the outer loop, levels n-1 .. 0: the list of (update[i], rank[i]), i = 0..n-1.
   [reset]: rank restarts at 0 on each level (DeleteRangeByRank) *)
Fixpoint descend (s : skiplist) (cond : Z → Z → snode → bool) (reset : bool) (n x : nat) (rank : Z)
  : res (list (nat * Z)) :=
  match n with
  | O => Ok []
  | S i =>
      r ← walk (fuel_of s) s cond i x (if reset then 0 else rank);
      rest ← descend s cond reset i r.1 r.2;
      Ok (rest ++ [r])
  end.
Definition search (s : skiplist) (cond : Z → Z → snode → bool) (reset : bool) : res (list (nat * Z)) :=
  descend s cond reset (sl_level s) HEAD 0.

Fixpoint for_levels (is : list nat) (body : skiplist → nat → res skiplist) (s : skiplist) : res skiplist :=
  match is with
  | [] => Ok s
  | i :: is' => s' ← body s i; for_levels is' body s'
  end.

Definition before (k : float * bytes) : Z → Z → snode → bool := λ _ _ n, elt (n_key n) k.

(* skiplist.go:39-102; [level] is the result of randomLevel().  A level below 1
   (int8 overflow) panics in make or in x.Levels[0]. *)
Definition Insert (s : skiplist) (level : Z) (score : float) (member : bytes) : res (skiplist * nat) :=
  us ← search s (before (score, member)) false;
  if level <? 1 then Panic else
  let level := Z.to_nat level in
  (* 62-70 *)
  s1 ← for_levels (seq (sl_level s) (level - sl_level s))
         (λ s i, lv ← level_at s HEAD i; set_level s HEAD i (lv.1, sl_length s)) s;
  let us := us ++ replicate (level - sl_level s) (HEAD, 0) in
  let s1 := MkSl (sl_heap s1) (sl_next s1) (sl_tail s1) (sl_length s1) (max level (sl_level s1)) in
  (* 72 *)
  let x := sl_next s1 in
  let s2 := MkSl (<[x := newSkiplistNode level score member]> (sl_heap s1)) (S x)
                 (sl_tail s1) (sl_length s1) (sl_level s1) in
  u0 ← deref (us !! 0%nat);
  (* 73-80 *)
  s3 ← for_levels (seq 0 level)
         (λ s i,
            u ← deref (us !! i);
            ul ← level_at s u.1 i;
            s ← set_level s x i (ul.1, ul.2 - (u0.2 - u.2));
            set_level s u.1 i (Some x, u0.2 - u.2 + 1)) s2;
  (* 83-85 *)
  s4 ← for_levels (seq level (sl_level s3 - level))
         (λ s i,
            u ← deref (us !! i);
            ul ← level_at s u.1 i;
            set_level s u.1 i (ul.1, ul.2 + 1)) s3;
  (* 87-91 *)
  s5 ← set_back s4 x (if decide (u0.1 = HEAD) then None else Some u0.1);
  (* 93-97 *)
  xl ← level_at s5 x 0;
  s6 ← match xl.1 with
       | Some f => set_back s5 f (Some x)
       | None => Ok (MkSl (sl_heap s5) (sl_next s5) (Some x) (sl_length s5) (sl_level s5))
       end;
  Ok (MkSl (sl_heap s6) (sl_next s6) (sl_tail s6) (sl_length s6 + 1) (sl_level s6), x).

(* skiplist.go:375-377 *)
Fixpoint lower_level (level : nat) (s : skiplist) : res nat :=
  match level with
  | O => Ok O
  | S l =>
      match l with
      | O => Ok 1%nat
      | S _ =>
          lv ← level_at s HEAD l;
          match lv.1 with None => lower_level l s | Some _ => Ok level end
      end
  end.

(* skiplist.go:359-380; [update] as a list *)
Definition deleteNode (s : skiplist) (x : nat) (update : list nat) : res skiplist :=
  s1 ← for_levels (seq 0 (sl_level s))
         (λ s i,
            u ← deref (update !! i);
            ul ← level_at s u i;
            if decide (ul.1 = Some x) then
              xl ← level_at s x i;
              set_level s u i (xl.1, ul.2 + (xl.2 - 1))
            else set_level s u i (ul.1, ul.2 - 1)) s;
  xl ← level_at s1 x 0;
  nx ← node s1 x;
  s2 ← match xl.1 with
       | Some f => set_back s1 f (n_back nx)
       | None => Ok (MkSl (sl_heap s1) (sl_next s1) (n_back nx) (sl_length s1) (sl_level s1))
       end;
  l ← lower_level (sl_level s2) s2;
  Ok (MkSl (sl_heap s2) (sl_next s2) (sl_tail s2) (sl_length s2 - 1) l).

(* skiplist.go:106-126; returns the node after the searched position, whether or
   not it was deleted *)
Definition SlDelete (s : skiplist) (score : float) (member : bytes) : res (skiplist * option nat) :=
  us ← search s (before (score, member)) false;
  u0 ← deref (us !! 0%nat);
  lv ← level_at s u0.1 0;
  match lv.1 with
  | None => Ok (s, None)
  | Some x =>
      n ← node s x;
      if feq score (n_score n) && bool_decide (member = n_member n)
      then s' ← deleteNode s x us.*1; Ok (s', Some x)
      else Ok (s, Some x)
  end.

(* skiplist.go:144-149 and 177-183: delete from x on while [cond i node] *)
Fixpoint delete_loop (fuel : nat) (s : skiplist) (update : list nat) (cond : Z → snode → bool)
    (i : Z) (x : option nat) (deleted : list nat) : res (skiplist * list nat) :=
  match fuel with
  | O => OutOfFuel
  | S fuel =>
      match x with
      | None => Ok (s, deleted)
      | Some x =>
          n ← node s x;
          if cond i n then
            lv ← level_of n 0;
            s' ← deleteNode s x update;
            delete_loop fuel s' update cond (i + 1) lv.1 (deleted ++ [x])
          else Ok (s, deleted)
      end
  end.

(* skiplist.go:129-152 *)
Definition DeleteRangeByScore (s : skiplist) (min max : float) : res (skiplist * list nat) :=
  us ← search s (λ _ _ n, flt (n_score n) min) false;
  u0 ← deref (us !! 0%nat);
  lv ← level_at s u0.1 0;
  delete_loop (fuel_of s) s us.*1 (λ _ n, fle (n_score n) max) 0 lv.1 [].

(* skiplist.go:156-186: [rank] restarts on every level *)
Definition DeleteRangeByRank (s : skiplist) (start end_ : Z) : res (skiplist * list nat) :=
  if (start <? 1) || (end_ <? 1) || (end_ <? start) then Ok (s, []) else
  us ← search s (λ rank span _, rank + span <? start) true;
  u0 ← deref (us !! 0%nat);
  lv ← level_at s u0.1 0;
  delete_loop (fuel_of s) s us.*1 (λ i _, i <=? end_) start lv.1 [].

(* skiplist.go:191-209 *)
Fixpoint get_rank (s : skiplist) (k : float * bytes) (n x : nat) (rank : Z) : res Z :=
  match n with
  | O => Ok 0
  | S i =>
      r ← walk (fuel_of s) s (λ _ _ nd, ele (n_key nd) k) i x rank;
      nx ← node s r.1;
      if decide (k.2 = n_member nx) then Ok r.2 else get_rank s k i r.1 r.2
  end.
Definition GetRank (s : skiplist) (score : float) (member : bytes) : res Z :=
  get_rank s (score, member) (sl_level s) HEAD 0.

(* skiplist.go:212-228 *)
Fixpoint get_by_rank (s : skiplist) (target : Z) (n x : nat) (traversed : Z) : res (option nat) :=
  match n with
  | O => Ok None
  | S i =>
      r ← walk (fuel_of s) s (λ traversed span _, traversed + span <=? target) i x traversed;
      if r.2 =? target then Ok (Some r.1) else get_by_rank s target i r.1 r.2
  end.
Definition GetElementByRank (s : skiplist) (rank : Z) : res (option nat) :=
  get_by_rank s rank (sl_level s) HEAD 0.

(* one step forward or backward *)
Definition step (s : skiplist) (reverse : bool) (x : nat) : res (option nat) :=
  n ← node s x;
  if reverse then Ok (n_back n) else lv ← level_of n 0; Ok lv.1.

(* skiplist.go:252-260 *)
Fixpoint rank_loop (fuel : nat) (s : skiplist) (reverse : bool) (i rangeLen : Z) (x : option nat)
    (acc : list nat) : res (list nat) :=
  match fuel with
  | O => OutOfFuel
  | S fuel =>
      match x with
      | Some x =>
          if i <? rangeLen then
            y ← step s reverse x;
            rank_loop fuel s reverse (i + 1) rangeLen y (acc ++ [x])
          else Ok acc
      | None => Ok acc
      end
  end.
(* skiplist.go:232-263 *)
Definition RangeByRank (s : skiplist) (start end_ : Z) (reverse : bool) : res (list nat) :=
  if (start <? 1) || (end_ <? 1) || (end_ <? start) then Ok [] else
  x ← GetElementByRank s (if reverse then sl_length s - start + 1 else start);
  let rangeLen := end_ - start + 1 in
  if negb (make_ok rangeLen 8) then Panic else
  rank_loop (S (fuel_of s)) s reverse 0 rangeLen x [].

(* skiplist.go:345-357 *)
Definition HasInScoreRange (s : skiplist) (min max : float) : res bool :=
  lv ← level_at s HEAD 0;
  match lv.1 with
  | None => Ok false
  | Some x =>
      n ← node s x;
      if flt max (n_score n) then Ok false else
      match sl_tail s with
      | None => Ok false
      | Some t => nt ← node s t; Ok (negb (flt (n_score nt) min))
      end
  end.
(* skiplist.go:305-323 *)
Definition GetFirstInScoreRange (s : skiplist) (min max : float) : res (option nat) :=
  b ← HasInScoreRange s min max;
  if negb b then Ok None else
  us ← search s (λ _ _ n, flt (n_score n) min) false;
  u0 ← deref (us !! 0%nat);
  lv ← level_at s u0.1 0;
  match lv.1 with
  | None => Ok None
  | Some x => n ← node s x; Ok (if fle (n_score n) max then Some x else None)
  end.
(* skiplist.go:326-343 *)
Definition GetLastInScoreRange (s : skiplist) (min max : float) : res (option nat) :=
  b ← HasInScoreRange s min max;
  if negb b then Ok None else
  us ← search s (λ _ _ n, fle (n_score n) max) false;
  u0 ← deref (us !! 0%nat);
  n ← node s u0.1;
  Ok (if fle min (n_score n) then Some u0.1 else None).

(* skiplist.go:275-287 *)
Fixpoint score_loop (fuel : nat) (s : skiplist) (min max : float) (limit : Z) (reverse : bool) (i : Z)
    (x : option nat) (acc : list nat) : res (list nat) :=
  match fuel with
  | O => OutOfFuel
  | S fuel =>
      match x with
      | Some x =>
          if (limit <? 0) || (i <? limit) then
            y ← step s reverse x;
            match y with
            | Some z =>
                nz ← node s z;
                if flt (n_score nz) min || flt max (n_score nz) then Ok (acc ++ [x])
                else score_loop fuel s min max limit reverse (i + 1) y (acc ++ [x])
            | None => score_loop fuel s min max limit reverse (i + 1) y (acc ++ [x])
            end
          else Ok acc
      | None => Ok acc
      end
  end.
(* skiplist.go:266-290 *)
Definition RangeByScore (s : skiplist) (min max : float) (limit : Z) (reverse : bool) : res (list nat) :=
  x ← (if reverse then GetLastInScoreRange s min max else GetFirstInScoreRange s min max);
  score_loop (S (fuel_of s)) s min max limit reverse 0 x [].

(* skiplist.go:293-302 *)
Fixpoint count_loop (fuel : nat) (s : skiplist) (max : float) (x : option nat) (count : Z) : res Z :=
  match fuel with
  | O => OutOfFuel
  | S fuel =>
      match x with
      | None => Ok count
      | Some x =>
          n ← node s x;
          if fle (n_score n) max then
            lv ← level_of n 0; count_loop fuel s max lv.1 (count + 1)
          else Ok count
      end
  end.
Definition Count (s : skiplist) (min max : float) : res Z :=
  x ← GetFirstInScoreRange s min max; count_loop (fuel_of s) s max x 0.
