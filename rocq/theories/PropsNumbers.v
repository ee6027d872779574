(** * Numbers: the properties

    Statements only; the proofs are in NumbersMain.v. *)
From Verif Require Import GoBase GoFacts Config SpecConfig Table Json SpecTable SpecWords SpecJson NumbersFacts JsonFacts JsonMain NumbersMain.
Local Open Scope string_scope.
Local Open Scope N_scope.

(** C151: a fraction is rounded to one float64, and to no other *)
Theorem C151_rounding : forall p q, 0 < q -> exists f, rounds p q f /\ forall g, rounds p q g -> g = f.
Proof. exact c151_rounding. Qed.
Print Assumptions C151_rounding.

(** C151: a number of the configuration counts as its whole part, once rounded to a float64; one that no float64 holds makes the
    configuration unreadable; what the others count as is not modelled: those of -1 and less, of 2^63 and more, and with an exponent
    of six digits *)
Theorem C151_number : forall l,
  match number l with
  | Whole n => whole_number l n
  | TooLarge => huge_number l
  | Unsupported => forall neg f, reads l neg f -> f < 2 ^ 1024 * one /\ (2 ^ 63 * one <= f \/ (neg = true /\ one <= f))
  end.
Proof. exact c151_number. Qed.
Print Assumptions C151_number.

(** C151: how a number is written makes no difference *)
Theorem C151_written : forall l l' neg m k x m' k' x' p q,
  says l neg m k x -> says l' neg m' k' x' -> (Z.abs x < 100000)%Z -> (Z.abs x' < 100000)%Z -> value m k p q -> value m' k' p q -> number l = number l'.
Proof. exact c151_written. Qed.
Print Assumptions C151_written.

(** C151: an integer of at most 2^53 counts as itself, with or without a point or an exponent *)
Theorem C151_integer : forall l m k x n, says l false m k x -> (Z.abs x < 100000)%Z -> value m k n 1 -> n <= 2 ^ 53 -> number l = Whole n.
Proof. exact c151_integer. Qed.
Print Assumptions C151_integer.

(** C151: a number with a fraction, n <= p / q < n + 1, counts as n, except where it is so close to n + 1 that it is
    rounded to it: within 2^-54 of 1, 2^-53 of 2, 2^-52 of 3 and 4, and twice as far again above each further power of 2 *)
Theorem C151_fraction : forall l m k x p q n, says l false m k x -> (Z.abs x < 100000)%Z -> value m k p q -> q * n <= p < q * (n + 1) -> n < 2 ^ 52 ->
  number l = Whole (if (q * (n + 1) - p) * 2 ^ (54 - N.log2_up (n + 1)) <=? q then n + 1 else n).
Proof. exact c151_fraction. Qed.
Print Assumptions C151_fraction.

(** C151: between -1 and 0 a number counts as 0, unless it is rounded to -1 *)
Theorem C151_negative : forall l m k x p q, says l true m k x -> (Z.abs x < 100000)%Z -> value m k p q -> p < q ->
  number l = if (q - p) * 2 ^ 54 <=? q then Unsupported else Whole 0.
Proof. exact c151_negative. Qed.
Print Assumptions C151_negative.

(** C151: so the setting that ReadConfig finds under a name is the whole part of the last number the text gives for it *)
Theorem C151_setting : forall text ms m k l, document text (TObj ms) -> unmarshal text = Map m -> last_member ms k (TNum l) -> exists n, get (JObj m) k = JNum n /\ whole_number l n.
Proof. exact c151_setting. Qed.
Print Assumptions C151_setting.

(** 7542 written in four ways; a fraction; two numbers so close below 1 that one of them is rounded to it; a number that is too large *)
Example C151_ex :
  map (fun s => number (bytes_of s)) ["7542"; "75.42e2"; "7542000E-3"; "7542.0"; "1024.75"; "0.9999999999999999"; "0.99999999999999999"; "-0.5"; "1e400"; "-3"]
    = [Whole 7542; Whole 7542; Whole 7542; Whole 7542; Whole 1024; Whole 0; Whole 1; Whole 0; TooLarge; Unsupported] /\
  (exists m k x, says (bytes_of "75.42e2") false m k x /\ (Z.abs x < 100000)%Z /\ value m k 7542 1) /\
  (exists m k x, says (bytes_of "1024.75") false m k x /\ (Z.abs x < 100000)%Z /\ value m k 4099 4 /\ 4 * 1024 <= 4099 < 4 * (1024 + 1)) /\
  (exists m k x, says (bytes_of "-0.5") true m k x /\ (Z.abs x < 100000)%Z /\ value m k 1 2) /\
  unmarshal (bytes_of "{""a"":1e3,""b"":[-0.5],""c"":0.99}") = Map [("a", JNum 1000); ("b", JArr [JNum 0]); ("c", JNum 0)] /\
  unmarshal (bytes_of "{""a"":[-5,1e309]}") = NotMap.
Proof. exact c151_ex. Qed.
Example C151_setting_ex : exists ms m, document (bytes_of "{""udpport"":1,""udpport"":75.42e2}") (TObj ms) /\ unmarshal (bytes_of "{""udpport"":1,""udpport"":75.42e2}") = Map m /\
  last_member ms "udpport" (TNum (bytes_of "75.42e2")) /\ get (JObj m) "udpport" = JNum 7542.
Proof. exact c151_setting_ex. Qed.
