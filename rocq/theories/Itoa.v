(** * Model of decimal numbers in texts *)

From Coq Require Import DecimalString NArith String.

(** strconv.Itoa, and %d, of a number that is not negative (sarnet/sarnet.go:42-57, dirent/dirent.go:164-182) *)
Definition itoa (n : N) : string := NilZero.string_of_uint (N.to_uint n).
