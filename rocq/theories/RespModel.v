(** Model of server/resp.go, of the query buffer handling in server/client.go and
    of readQueryFromClient in server/server.go.

    A client is reduced to the fields the parser uses.  queryBuf is a byte list
    with its full length (unused bytes are zero: buffers come from make and only
    read(2) writes to them); queryLen counts the bytes received and not consumed.
    byteutils.B2S shares memory between queryBuf and the argument strings; this
    is harmless (bytes before the start of queryBuf are never written again) and
    the model copies instead.
    Command execution (processCommand) is a parameter [exec]; it returns the new
    state and whether it failed. *)
From Verif Require Import Base Strconv.

(* client.go:19-26 *)
Inductive cmdtype := TUnknown | TInline | TBulk | TMultiBulk.
(* client.go:28-41, parser part *)
Record pclient := PC {
  q_buf : bytes;
  q_len : Z;
  c_type : cmdtype;
  c_args : list bytes;
  c_multi : Z;        (* multiBulkLen *)
  c_bulk : Z;         (* bulkLen *)
}.
Inductive perr := ETooBig | ENum | EDollar | ECRLF | EExec.

Definition maxBulk : Z := 4096.              (* server.go:23 *)
Definition MaxInlineSize : Z := 65536.       (* resp.go:10 *)

(* client.go:43-51, parser part *)
Definition NewClient : pclient := PC (replicate 4096 NUL) 0 TUnknown [] 0 0.
(* client.go:198-205 *)
Definition reset (c : pclient) : pclient := PC [] 0 TUnknown [] 0 0.

(* bytes.Index(l, "\r\n"), -1 when absent *)
Fixpoint crlf_from (i : Z) (l : bytes) : Z :=
  match l with
  | a :: l' =>
      match l' with
      | b :: _ => if (a =? CR)%char && (b =? LF)%char then i else crlf_from (i + 1) l'
      | [] => -1
      end
  | [] => -1
  end.
(* l[lo:hi] *)
Definition go_slice {A} (l : list A) (lo hi : Z) : res (list A) :=
  if (0 <=? lo) && (lo <=? hi) && (hi <=? zlen l)
  then Ok (take (Z.to_nat (hi - lo)) (drop (Z.to_nat lo) l)) else Panic.

(* client.go:53-55 *)
Definition getCRLFIndex (c : pclient) : res Z :=
  q ← go_slice (q_buf c) 0 (q_len c); Ok (crlf_from 0 q).
(* client.go:57-59 *)
Definition getNum (c : pclient) (index : Z) : res (option Z) :=
  s ← go_slice (q_buf c) 1 index; Ok (Atoi s).
(* client.go:61-64 *)
Definition moveToNextLine (c : pclient) (index : Z) : res pclient :=
  b ← go_slice (q_buf c) (index + 2) (zlen (q_buf c));
  Ok (PC b (q_len c - (index + 2)) (c_type c) (c_args c) (c_multi c) (c_bulk c)).

Definition with_args (c : pclient) (a : list bytes) : pclient :=
  PC (q_buf c) (q_len c) (c_type c) a (c_multi c) (c_bulk c).
Definition with_multi (c : pclient) (n : Z) : pclient :=
  PC (q_buf c) (q_len c) (c_type c) (c_args c) n (c_bulk c).
Definition with_bulk (c : pclient) (n : Z) : pclient :=
  PC (q_buf c) (q_len c) (c_type c) (c_args c) (c_multi c) n.
Definition with_type (c : pclient) (t : cmdtype) : pclient :=
  PC (q_buf c) (q_len c) t (c_args c) (c_multi c) (c_bulk c).

(* what a parsing function returns: (ok, err) *)
Notation parsed := (res (pclient * (perr + bool))).

(* strings.Split(s, " ") *)
Fixpoint split_spaces (word s : bytes) : list bytes :=
  match s with
  | [] => [reverse word]
  | c :: s' => if (c =? " ")%char then reverse word :: split_spaces [] s'
               else split_spaces (c :: word) s'
  end.

(* index == -1: wait for more data unless the request is too long
   (resp.go:61-67, 80-86, 117-123, 143-149) *)
Definition need_more (c : pclient) : parsed :=
  if q_len c >? MaxInlineSize then Ok (c, inl ETooBig) else Ok (c, inr false).

(* resp.go:59-75 *)
Definition processInlineBuffer (c : pclient) : parsed :=
  index ← getCRLFIndex c;
  if index =? -1 then need_more c else
  line ← go_slice (q_buf c) 1 index;
  c' ← moveToNextLine (with_args c (split_spaces [] line)) index;
  Ok (c', inr true).

(* resp.go:101-111 *)
Definition bulk_payload (c : pclient) : parsed :=
  if q_len c <? wrap64 (c_bulk c + 2) then Ok (c, inr false) else
  a ← go_slice (q_buf c) 0 (c_bulk c);
  c' ← moveToNextLine (with_args c (c_args c ++ [a])) (c_bulk c);
  Ok (with_bulk c' 0, inr true).
(* resp.go:77-112 *)
Definition processBulkBuffer (c : pclient) : parsed :=
  if c_bulk c =? 0 then
    index ← getCRLFIndex c;
    if index =? -1 then need_more c else
    n ← getNum c index;
    match n with
    | None => Ok (c, inl ENum)
    | Some num =>
        c1 ← moveToNextLine c index;
        if num =? 0 then Ok (c1, inr true) else bulk_payload (with_bulk c1 num)
    end
  else bulk_payload c.

(* resp.go:165-180: the end of the body of the loop; [None]: go on with the loop *)
Definition multi_payload (c : pclient) : res (pclient * option (perr + bool)) :=
  if q_len c <? c_bulk c then Ok (c, Some (inr false)) else
  let index := c_bulk c in
  b1 ← go_index (q_buf c) index;
  if negb (b1 =? CR)%char then Ok (c, Some (inl ECRLF)) else
  b2 ← go_index (q_buf c) (index + 1);
  if negb (b2 =? LF)%char then Ok (c, Some (inl ECRLF)) else
  a ← go_slice (q_buf c) 0 index;
  args ← go_store (c_args c) (zlen (c_args c) - c_multi c) a;
  c' ← moveToNextLine (with_multi (with_bulk (with_args c args) 0) (c_multi c - 1)) index;
  Ok (c', None).
(* resp.go:139-163: one iteration of the loop *)
Definition multi_body (c : pclient) : res (pclient * option (perr + bool)) :=
  if c_bulk c =? 0 then
    index ← getCRLFIndex c;
    if index =? -1 then (r ← need_more c; Ok (r.1, Some r.2)) else
    b0 ← go_index (q_buf c) 0;
    if negb (b0 =? "$")%char then Ok (c, Some (inl EDollar)) else
    n ← getNum c index;
    match n with
    | None => Ok (c, Some (inl ENum))
    | Some num => c1 ← moveToNextLine (with_bulk c num) index; multi_payload c1
    end
  else multi_payload c.
(* resp.go:139: for client.multiBulkLen > 0; multiBulkLen decreases in each
   round, so [fuel = multiBulkLen] rounds suffice *)
Fixpoint multi_loop (fuel : nat) (c : pclient) : parsed :=
  if c_multi c >? 0 then
    match fuel with
    | O => OutOfFuel
    | S fuel =>
        r ← multi_body c;
        match r.2 with
        | Some out => Ok (r.1, out)
        | None => multi_loop fuel r.1
        end
    end
  else Ok (c, inr true).
(* resp.go:114-183; a string header takes 16 bytes in make([]string, num) *)
Definition processMultiBulkBuffer (c : pclient) : parsed :=
  if c_multi c =? 0 then
    index ← getCRLFIndex c;
    if index =? -1 then need_more c else
    n ← getNum c index;
    match n with
    | None => Ok (c, inl ENum)
    | Some num =>
        c1 ← moveToNextLine c index;
        if num =? 0 then Ok (c1, inr true)
        else if negb (make_ok num 16) then Panic
        else multi_loop (Z.to_nat num) (with_multi (with_args c1 (replicate (Z.to_nat num) [])) num)
    end
  else multi_loop (Z.to_nat (c_multi c)) c.

Section exec.
  Context {St : Type}.
  (* processCommand (command.go:105-127) without the final reset; true: returned
     an error *)
  Variable exec : St → list bytes → res (St * bool).

  (* resp.go:15-24 *)
  Definition detect (c : pclient) : res pclient :=
    match c_type c with
    | TUnknown =>
        b ← go_index (q_buf c) 0;
        Ok (with_type c (if (b =? "*")%char then TMultiBulk
                         else if (b =? "$")%char then TBulk else TInline))
    | _ => Ok c
    end.
  (* resp.go:31-38 *)
  Definition dispatch (c : pclient) : parsed :=
    match c_type c with
    | TInline => processInlineBuffer c
    | TBulk => processBulkBuffer c
    | TMultiBulk => processMultiBulkBuffer c
    | TUnknown => Ok (c, inr false)
    end.
  (* resp.go:13-57.  Every executed command ends in reset, which empties the
     query buffer and so ends the loop: two rounds suffice. *)
  Fixpoint input_loop (fuel : nat) (c : pclient) (s : St) : res (pclient * St * option perr) :=
    if q_len c >? 0 then
      match fuel with
      | O => OutOfFuel
      | S fuel =>
          c1 ← detect c;
          r ← dispatch c1;
          let '(c2, out) := r in
          match out with
          | inl e => Ok (c2, s, Some e)
          | inr false => Ok (c2, s, None)
          | inr true =>
              match c_args c2 with
              | [] => input_loop fuel (reset c2) s
              | args =>
                  x ← exec s args;
                  let '(s', failed) := (x : St * bool) in
                  if failed then Ok (reset c2, s', Some EExec)
                  else input_loop fuel (reset c2) s'
              end
          end
      end
    else Ok (c, s, None).
  Definition processInputBuffer := input_loop 2.

  (* outcome of read(2) on a non-blocking socket *)
  Inductive read_result :=
  | RData (chunk : bytes)     (* chunk = [] is end of file *)
  | RRetry                    (* EAGAIN, EINTR *)
  | RReset                    (* ECONNRESET *)
  | RFail.                    (* any other error *)
  Inductive conn := Open (c : pclient) | Closed.

  (* server.go:172-174 *)
  Definition grow (c : pclient) : pclient :=
    if zlen (q_buf c) - q_len c <? maxBulk
    then PC (q_buf c ++ replicate 4096 NUL) (q_len c) (c_type c) (c_args c) (c_multi c) (c_bulk c)
    else c.
  (* read(2) stores the chunk at queryBuf[queryLen:]; it never returns more bytes
     than there is room for: [None] *)
  Definition fill (c : pclient) (chunk : bytes) : option pclient :=
    if zlen chunk <=? zlen (q_buf c) - q_len c then
      let n := Z.to_nat (q_len c) in
      Some (PC (take n (q_buf c) ++ chunk ++ drop (n + length chunk) (q_buf c))
               (q_len c + zlen chunk) (c_type c) (c_args c) (c_multi c) (c_bulk c))
    else None.
  (* server.go:170-205; [OutOfFuel] for an impossible read result *)
  Definition readQueryFromClient (c : pclient) (r : read_result) (s : St) : res (conn * St) :=
    let c := grow c in
    match r with
    | RRetry | RFail => Ok (Open c, s)
    | RReset | RData [] => Ok (Closed, s)
    | RData chunk =>
        match fill c chunk with
        | None => OutOfFuel
        | Some c1 =>
            x ← processInputBuffer c1 s;
            let '(c2, s', e) := x in
            match e with
            | Some _ => Ok (Closed, s')
            | None => Ok (Open c2, s')
            end
        end
    end.
  (* successive reads of one connection *)
  Fixpoint reads (k : conn) (rs : list read_result) (s : St) : res (conn * St) :=
    match k, rs with
    | Open c, r :: rs => x ← readQueryFromClient c r s; reads x.1 rs x.2
    | _, _ => Ok (k, s)
    end.
End exec.
