(** Model of database/dict.go: the dictionary type used for every dict of the
    server (string keys, FNV-1a hash). *)
From Verif Require Import Base DictModel.

(* database/dict.go:11-16: hash/fnv New64a over the bytes of the string, Sum64
   converted to int64 (two's complement).  Constants from the Go standard
   library (offset64, prime64). *)
Definition fnv64a (s : bytes) : Z :=
  foldl (λ h c, (Z.lxor h (Z.of_N (N_of_ascii c)) * 1099511628211) mod 2 ^ 64)
        14695981039346656037 s.
Definition Hash (s : bytes) : Z := wrap64 (fnv64a s).
(* database/dict.go:18-20: Equal is ==, i.e. [decide (k = k')] in the dict model *)
