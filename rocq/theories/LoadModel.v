(** Loading the append only file: server/aof.go:136-213, the reading part, and the
    part of Go's bufio.Reader that the loader uses.

    Simplifications.
    - Reading a regular file returns as many bytes as requested or as are left;
      the file does not change while it is loaded.
    - make([]byte, n) and make([]string, n) panic for negative n and beyond the
      address space; memory is otherwise unlimited. *)
From Verif Require Import Base Float DictModel DatabaseModel SetModel QuicklistModel SkiplistModel ZsetModel
  Strconv RespSpec ServerModel CommandModel.

(** * bufio.Reader *)
(** [r_buf]: bytes in the buffer, not yet read; [r_rest]: the file beyond the buffer *)
Record reader := Rd { r_buf : bytes; r_rest : bytes }.
(* resp.go:10, aof.go:156: bufio.NewReaderSize(aofFile, MaxInlineSize) *)
Definition MaxInlineSize : nat := Z.to_nat 65536.
Definition NewReader (file : bytes) : reader := Rd [] file.
(* bufio.Reader.fill: one Read of the file into the free part of the buffer *)
Definition fill (r : reader) : reader :=
  let n := (MaxInlineSize - length (r_buf r))%nat in Rd (r_buf r ++ take n (r_rest r)) (drop n (r_rest r)).
(** the text up to and including the first line feed, and what follows *)
Fixpoint split_lf (s : bytes) : option (bytes * bytes) :=
  match s with
  | [] => None
  | c :: s =>
      if (c =? LF)%char then Some ([c], s)
      else match split_lf s with Some (l, t) => Some (c :: l, t) | None => None end
  end.
(* bufio.Reader.ReadBytes('\n') (collectFragments and ReadSlice): None at the end
   of the file, even if some bytes preceded it *)
Fixpoint read_bytes (fuel : nat) (acc : bytes) (r : reader) : res (reader * option bytes) :=
  match fuel with
  | O => OutOfFuel
  | S fuel =>
      match split_lf (r_buf r) with
      | Some (line, buf) => Ok (Rd buf (r_rest r), Some (acc ++ line))
      | None =>
          if decide (MaxInlineSize ≤ length (r_buf r))%nat then read_bytes fuel (acc ++ r_buf r) (Rd [] (r_rest r))
          else match r_rest r with
               | [] => Ok (Rd [] [], None)
               | _ => read_bytes fuel acc (fill r)
               end
      end
  end.
Definition ReadBytes (r : reader) : res (reader * option bytes) :=
  read_bytes (3 + 2 * length (r_rest r)) [] r.
(* bufio.Reader.Read(p) with len(p) = n: at most one Read of the file; the bytes
   read, None for io.EOF *)
Definition Read (n : nat) (r : reader) : reader * option bytes :=
  match n, r_buf r with
  | O, _ => (r, Some [])
  | _, [] =>
      match r_rest r with
      | [] => (r, None)
      | _ =>
          if decide (MaxInlineSize ≤ n)%nat then (Rd [] (drop n (r_rest r)), Some (take n (r_rest r)))
          else let r := fill r in (Rd (drop n (r_buf r)) (r_rest r), Some (take n (r_buf r)))
      end
  | _, buf => (Rd (drop n buf) (r_rest r), Some (take n buf))
  end.

(** * Loading *)
(* bytes.TrimRight(_, "\r\n") *)
Fixpoint trim_left (s : bytes) : bytes :=
  match s with
  | c :: t => if ((c =? CR) || (c =? LF))%char then trim_left t else s
  | [] => []
  end.
Definition TrimRight (s : bytes) : bytes := rev (trim_left (rev s)).
(* aof.go:138-145 *)
Definition readLine (r : reader) : res (reader * option bytes) :=
  x ← ReadBytes r; Ok (x.1, match x.2 with Some l => Some (TrimRight l) | None => None end).
(* buf[0] and strconv.Atoi(buf[1:]); errors are log.Panic *)
Definition number (mark : ascii) (buf : bytes) : res Z :=
  match buf with
  | [] => Panic
  | c :: t => if (c =? mark)%char then deref (Atoi t) else Panic
  end.
(* make([]string, n) and make([]byte, n) *)
Definition string_size : Z := 16.
(* aof.go:176-201: one argument; a short Read leaves zero bytes at the end *)
Definition read_arg (r : reader) : res (reader * bytes) :=
  x ← readLine r;
  buf ← deref x.2;
  argLen ← number "$" buf;
  if negb (make_ok argLen 1) then Panic else
  let n := Z.to_nat argLen in
  let y := Read n x.1 in
  got ← deref y.2;
  let z := Read 2 y.1 in
  _ ← deref z.2;
  Ok (z.1, got ++ replicate (n - length got) NUL).
Fixpoint read_args (n : nat) (r : reader) : res (reader * list bytes) :=
  match n with
  | O => Ok (r, [])
  | S n => x ← read_arg r; y ← read_args n x.1; Ok (y.1, x.2 :: y.2)
  end.
(* aof.go:158-202: None at the end of the file *)
Definition read_command (r : reader) : res (reader * option (list bytes)) :=
  x ← readLine r;
  match x.2 with
  | None => Ok (x.1, None)
  | Some buf =>
      argc ← number "*" buf;
      if negb (make_ok argc string_size) then Panic else
      y ← read_args (Z.to_nat argc) x.1;
      Ok (y.1, Some y.2)
  end.
(** the state when the loader stops, and how it stopped *)
Definition loaded (S : Type) : Type := S * res unit.
(* aof.go:157-211; [exec j args] executes the j-th command *)
Fixpoint load_loop {S} (exec : nat → list bytes → S → res S) (fuel j : nat) (r : reader) (s : S) : loaded S :=
  match fuel with
  | O => (s, OutOfFuel)
  | Datatypes.S fuel =>
      match read_command r with
      | Ok (_, None) => (s, Ok tt)
      | Ok (r', Some args) =>
          match exec j args s with
          | Ok s' => load_loop exec fuel (j + 1)%nat r' s'
          | Panic => (s, Panic)
          | OutOfFuel => (s, OutOfFuel)
          end
      | Panic => (s, Panic)
      | OutOfFuel => (s, OutOfFuel)
      end
  end.
(** every round of the loop reads at least one byte *)
Definition load_file {S} (exec : nat → list bytes → S → res S) (file : bytes) (s : S) : loaded S :=
  load_loop exec (length file + 1) 0 (NewReader file) s.
