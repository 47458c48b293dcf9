(** RESP values on the wire (the reply half of the protocol), independent of the
    code that writes them. *)
From Verif Require Import Base.

Inductive rval :=
| VSimple (s : bytes)
| VError (s : bytes)
| VInt (n : Z)
| VBulk (s : bytes)
| VNull
| VArray (l : list rval).

(** the text up to the first line end, which must be CR LF *)
Fixpoint line (s : bytes) : option (bytes * bytes) :=
  match s with
  | [] => None
  | c :: s =>
      if (c =? CR)%char then
        match s with c' :: s => if (c' =? LF)%char then Some ([], s) else None | [] => None end
      else if (c =? LF)%char then None
      else match line s with Some (t, s) => Some (c :: t, s) | None => None end
  end.
(** decimal numbers *)
Definition dec_digit (c : ascii) : option Z :=
  let n := Z.of_N (N_of_ascii c) in if (48 <=? n) && (n <=? 57) then Some (n - 48) else None.
Fixpoint dec_nat (acc : Z) (s : bytes) : option Z :=
  match s with
  | [] => Some acc
  | c :: s => match dec_digit c with Some d => dec_nat (10 * acc + d) s | None => None end
  end.
Definition dec_int (s : bytes) : option Z :=
  match s with
  | [] => None
  | c :: t => if (c =? "-")%char then (match t with [] => None | _ => option_map Z.opp (dec_nat 0 t) end) else dec_nat 0 s
  end.
(** a payload of [n] bytes and the line end *)
Definition payload (n : nat) (s : bytes) : option (bytes * bytes) :=
  if decide (n ≤ length s)%nat then
    match drop n s with
    | c :: c' :: rest => if ((c =? CR)%char && (c' =? LF)%char)%bool then Some (take n s, rest) else None
    | _ => None
    end
  else None.
(** one value at the beginning of the text, and what follows it *)
Fixpoint decode (fuel : nat) (s : bytes) : option (rval * bytes) :=
  match fuel, s with
  | S fuel, t :: s =>
      match line s with
      | None => None
      | Some (l, rest) =>
          if (t =? "+")%char then Some (VSimple l, rest)
          else if (t =? "-")%char then Some (VError l, rest)
          else if (t =? ":")%char then match dec_int l with Some n => Some (VInt n, rest) | None => None end
          else if (t =? "$")%char then
            match dec_int l with
            | None => None
            | Some n =>
                if n =? -1 then Some (VNull, rest)
                else if n <? 0 then None
                else match payload (Z.to_nat n) rest with Some (p, rest) => Some (VBulk p, rest) | None => None end
            end
          else if (t =? "*")%char then
            match dec_int l with
            | None => None
            | Some n =>
                if n <? 0 then None else
                match (fix many (k : nat) (s : bytes) : option (list rval * bytes) :=
                         match k with
                         | O => Some ([], s)
                         | S k => match decode fuel s with
                                  | None => None
                                  | Some (v, s) => match many k s with
                                                   | None => None
                                                   | Some (vs, s) => Some (v :: vs, s)
                                                   end
                                  end
                         end) (Z.to_nat n) rest with
                | Some (vs, rest) => Some (VArray vs, rest)
                | None => None
                end
            end
          else None
      end
  | _, _ => None
  end.
(** the text is exactly one value (values nested at most 8 deep) *)
Definition one_value (s : bytes) (v : rval) : Prop := decode 8 s = Some (v, []).
