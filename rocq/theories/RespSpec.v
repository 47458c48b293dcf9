(** The RESP request format, independent of the parser. *)
From Verif Require Import Base Strconv.

(** "$<length>\r\n", then the payload and "\r\n" *)
Definition bulk_header (a : bytes) : bytes := "$"%char :: itoa (zlen a) ++ CRLF.
Definition bulk (a : bytes) : bytes := bulk_header a ++ a ++ CRLF.
(** an array of bulk strings *)
Definition array_header (args : list bytes) : bytes := "*"%char :: itoa (zlen args) ++ CRLF.
Definition encode (args : list bytes) : bytes := array_header args ++ concat (map bulk args).

(** [P] is the part of [encode args] that ends between the payload of some
    argument and the line end that follows this payload, or inside that line end *)
Definition torn (args : list bytes) (P : bytes) : Prop :=
  ∃ as1 a as2, args = as1 ++ a :: as2 ∧
    (P = array_header args ++ concat (map bulk as1) ++ bulk_header a ++ a ∨
     P = array_header args ++ concat (map bulk as1) ++ bulk_header a ++ a ++ [CR]).

(** a request that fits in memory *)
Definition request_ok (args : list bytes) : Prop := args ≠ [] ∧ zlen (encode args) ≤ 2^44.
