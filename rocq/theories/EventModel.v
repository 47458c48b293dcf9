(** Model of the event loop: ae/ae.go, and of the part of epoll it uses.

    A handler is a closure; the model keeps a number ([fe_data]) in its place, the
    users of the loop (LoopModel.v) give it a meaning.  The clock is an oracle:
    every call of now() is an argument.

    Simplifications.
    - Descriptors are non-negative integers below 2^47 (int on a 64-bit machine,
      shifted left by 16 in getFileEventMapKey, does not overflow).
    - epoll_ctl fails only for the reasons EBADF, EEXIST and ENOENT (no lack of
      memory, no descriptor that cannot be polled).
    - int64 sums of times do not wrap around (the server only uses the interval
      1 ms; a bound is stated where it matters). *)
From Verif Require Import Base.

(** * epoll *)
(** the open descriptors and the interest list: descriptor, events *)
Record kernel := K { k_open : gset Z; k_int : gmap Z Z }.
Inductive ctl := CtlAdd | CtlMod | CtlDel.
Definition EPOLLIN : Z := 1.
Definition EPOLLOUT : Z := 4.
(** epoll_ctl(2); None: an error, nothing changes *)
Definition epoll_ctl (op : ctl) (fd ev : Z) (k : kernel) : option kernel :=
  if decide (fd ∈ k_open k) then
    match op, k_int k !! fd with
    | CtlAdd, None => Some (K (k_open k) (<[fd := ev]> (k_int k)))
    | CtlMod, Some _ => Some (K (k_open k) (<[fd := ev]> (k_int k)))
    | CtlDel, Some _ => Some (K (k_open k) (delete fd (k_int k)))
    | _, _ => None                       (* EEXIST, ENOENT *)
    end
  else None.                             (* EBADF *)
(** open and close(2): a closed descriptor leaves the interest list (no descriptor
    is duplicated) *)
Definition k_new (fd : Z) (k : kernel) : kernel := K ({[fd]} ∪ k_open k) (k_int k).
Definition k_close (fd : Z) (k : kernel) : kernel := K (k_open k ∖ {[fd]}) (delete fd (k_int k)).

(** * File events *)
(* ae.go:27-30 *)
Definition TypeFileEventReadable : Z := 1.
Definition TypeFileEventWritable : Z := 2.
(* ae.go:37-42; [fe_data]: proc and clientData *)
Record fevent := FE { fe_fd : Z; fe_mask : Z; fe_data : nat }.
(* ae.go:32-35, 44-51; [te_once]: mask = TypeTimeEventOnce *)
Record tevent := TE { te_id : Z; te_once : bool; te_when : Z; te_interval : Z }.
(* ae.go:53-60; fileEventFd is the kernel, beforeSleep and stop are in LoopModel.v *)
Record loop := EL { el_file : gmap Z fevent; el_time : list tevent; el_next : Z }.
(* ae.go:62-75 *)
Definition NewEventLoop : loop := EL ∅ [] 0.

(* ae.go:278-281 *)
Definition getFileEventMapKey (fd mask : Z) : Z := Z.lor (Z.shiftl fd 16) mask.
(* ae.go:283-293 *)
Definition getEpollEventType (t : Z) : Z :=
  if t =? TypeFileEventReadable then EPOLLIN else if t =? TypeFileEventWritable then EPOLLOUT else 0.
(* ae.go:295-304 *)
Definition getFileEventType (e : Z) : Z :=
  if e =? EPOLLIN then TypeFileEventReadable else if e =? EPOLLOUT then TypeFileEventWritable else 0.
(* ae.go:263-276 *)
Definition getEpollEventMask (el : loop) (fd : Z) : Z :=
  let mask := match el_file el !! getFileEventMapKey fd TypeFileEventReadable with
              | Some _ => Z.lor 0 EPOLLIN | None => 0 end in
  match el_file el !! getFileEventMapKey fd TypeFileEventWritable with
  | Some _ => Z.lor mask EPOLLOUT | None => mask end.
(* uint32 complement *)
Definition not32 (x : Z) : Z := Z.land (Z.lnot x) (2 ^ 32 - 1).
(* ae.go:77-103; false: an error is returned *)
Definition AddFileEvent (fd mask : Z) (data : nat) (el : loop) (k : kernel) : loop * kernel * bool :=
  let key := getFileEventMapKey fd mask in
  match el_file el !! key with
  | Some _ => (el, k, false)
  | None =>
      let ev := getEpollEventMask el fd in
      let op := if negb (ev =? 0) then CtlMod else CtlAdd in
      match epoll_ctl op fd (Z.lor ev (getEpollEventType mask)) k with
      | None => (el, k, false)
      | Some k' => (EL (<[key := FE fd mask data]> (el_file el)) (el_time el) (el_next el), k', true)
      end
  end.
(* ae.go:110-131 *)
Definition RemoveFileEvent (fd mask : Z) (el : loop) (k : kernel) : loop * kernel * bool :=
  let key := getFileEventMapKey fd mask in
  match el_file el !! key with
  | None => (el, k, false)
  | Some _ =>
      let ev := Z.land (getEpollEventMask el fd) (not32 (getEpollEventType mask)) in
      let op := if negb (ev =? 0) then CtlMod else CtlDel in
      match epoll_ctl op fd ev k with
      | None => (el, k, false)
      | Some k' => (EL (delete key (el_file el)) (el_time el) (el_next el), k', true)
      end
  end.

(* ae.go:227-238: the handlers of the reported descriptors, in the order of the
   report, reading before writing *)
Definition ready_of (el : loop) (fd revents : Z) : list fevent :=
  concat ((λ e, if negb (Z.land revents e =? 0)
                then match el_file el !! getFileEventMapKey fd (getFileEventType e) with Some fe => [fe] | None => [] end
                else []) <$> [EPOLLIN; EPOLLOUT]).
Definition fileEvents (el : loop) (reported : list (Z * Z)) : list fevent :=
  concat ((λ r, ready_of el r.1 r.2) <$> reported).

(** * Time events *)
(* ae.go:133-147 *)
Definition AddTimeEvent (once : bool) (interval now : Z) (el : loop) : loop :=
  EL (el_file el) (TE (el_next el) once (now + interval) interval :: el_time el) (el_next el + 1).
(* ae.go:149-161 *)
Fixpoint remove_time (id : Z) (l : list tevent) : option (list tevent) :=
  match l with
  | [] => None
  | te :: l => if te_id te =? id then Some l else (te ::.) <$> remove_time id l
  end.
Definition RemoveTimeEvent (id : Z) (el : loop) : loop * bool :=
  match remove_time id (el_time el) with
  | Some l => (EL (el_file el) l (el_next el), true)
  | None => (el, false)
  end.
(* ae.go:251-261 *)
Definition getNearestTime (delta now : Z) (el : loop) : Z :=
  foldl (λ nearest te, if te_when te <? nearest then te_when te else nearest) (now + delta) (el_time el).
(* ae.go:13-16, 211-214; now1, now2: the two calls of now() in the order of
   evaluation *)
Definition defaultNearestDeltaMs : Z := 1000.
Definition defaultEpollWaitMs : Z := 10.
Definition timeout (now1 now2 : Z) (el : loop) : Z :=
  let t := getNearestTime defaultNearestDeltaMs now1 el - now2 in
  if t <=? 0 then defaultEpollWaitMs else t.
(* ae.go:240-246 *)
Definition timeEvents (now : Z) (el : loop) : list tevent := filter (λ te, te_when te ≤ now) (el_time el).

(** what a time handler may do to the time events *)
Inductive taction := TAdd (once : bool) (interval now : Z) | TRemove (id : Z).
Definition act_time (a : taction) (el : loop) : loop :=
  match a with
  | TAdd once interval now => AddTimeEvent once interval now el
  | TRemove id => (RemoveTimeEvent id el).1
  end.
Definition set_when (id when : Z) (el : loop) : loop :=
  EL (el_file el) ((λ te, if te_id te =? id then TE (te_id te) (te_once te) when (te_interval te) else te) <$> el_time el) (el_next el).
(* ae.go:189-200: [acts]: what the handlers do, [clock]: the values of now() after
   each handler; the result: the identifiers of the handlers that were run, and
   false if processEvents returned early (the file events are then skipped) *)
Fixpoint process_time (tes : list tevent) (acts : Z → list taction) (clock : Z → Z) (el : loop) : loop * list Z * bool :=
  match tes with
  | [] => (el, [], true)
  | te :: tes =>
      let el := foldl (λ el a, act_time a el) el (acts (te_id te)) in
      if te_once te then
        let '(el, ok) := RemoveTimeEvent (te_id te) el in
        if ok then let '(el, ran, fin) := process_time tes acts clock el in (el, te_id te :: ran, fin)
        else (el, [te_id te], false)
      else
        (* te.when = now() + te.interval; te may have left the list *)
        let '(el, ran, fin) := process_time tes acts clock (set_when (te_id te) (clock (te_id te) + te_interval te) el) in
        (el, te_id te :: ran, fin)
  end.
