(** * The numbers of a configuration: the properties (proofs) *)

From Verif Require Import GoBase GoFacts Config SpecConfig Table Json SpecTable SpecWords SpecJson NumbersFacts JsonFacts JsonMain.
Local Open Scope string_scope.
Local Open Scope N_scope.

(** C151: a fraction is rounded to one float64, and to no other *)
Lemma c151_rounding : forall p q, 0 < q -> exists f, rounds p q f /\ forall g, rounds p q g -> g = f.
Proof. intros p q Q. exists (round64 p q). split; [apply round64_rounds, Q|]. intros g G. apply (rounds_unique p q); [exact Q|exact G|apply round64_rounds, Q]. Qed.
(** C151: a number of the configuration counts as its whole part, once rounded to a float64; one that no float64 holds makes the
    configuration unreadable; what the others count as is not modelled: those of -1 and less, of 2^63 and more, and with an exponent
    of six digits *)
Lemma c151_number : forall l,
  match number l with
  | Whole n => whole_number l n
  | TooLarge => huge_number l
  | Unsupported => forall neg f, reads l neg f -> f < 2 ^ 1024 * one /\ (2 ^ 63 * one <= f \/ (neg = true /\ one <= f))
  end.
Proof.
  intros l. pose proof (number_whole l) as W. pose proof (number_huge l) as H. destruct (number l) as [n| |]; [apply W; reflexivity|apply H; reflexivity|].
  intros neg f R. assert (A : f < 2 ^ 1024 * one).
  { apply N.lt_nge. intros X. assert (Unsupported = TooLarge) by (apply H; exists neg, f; auto). discriminate. }
  split; [exact A|]. destruct (N.le_gt_cases (2 ^ 63 * one) f) as [L|L]; [auto|right].
  assert (B : forall n, n < 2 ^ 63 -> (neg = true -> n = 0) -> f / one = n -> False).
  { intros n N Z E. assert (Unsupported = Whole n) by (apply W; exists neg, f; repeat split; try assumption; apply div_one, E). discriminate. }
  destruct neg.
  - split; [reflexivity|]. apply N.le_ngt. intros X. apply (B 0); [reflexivity|auto|]. apply div_one. rewrite N.mul_0_l, N.add_0_l, N.mul_1_l. split; [apply N.le_0_l|exact X].
  - exfalso. apply (B (f / one)); [|discriminate|reflexivity]. apply N.lt_nge. intros X. apply le_one in X. set (c := 2 ^ 63 * one) in *. clearbody c. lia.
Qed.
Lemma reads_rounds : forall l neg m k x p q, says l neg m k x -> (Z.abs x < 100000)%Z -> value m k p q -> exists f, reads l neg f /\ rounds p q f.
Proof.
  intros l neg m k x p q S L V. exists (round64 p q). assert (R : rounds p q (round64 p q)) by (apply round64_rounds, V). split; [|exact R].
  exists m, k, x, p, q. auto.
Qed.
(** C151: how a number is written makes no difference *)
Lemma c151_written : forall l l' neg m k x m' k' x' p q,
  says l neg m k x -> says l' neg m' k' x' -> (Z.abs x < 100000)%Z -> (Z.abs x' < 100000)%Z -> value m k p q -> value m' k' p q -> number l = number l'.
Proof.
  intros l l' neg m k x m' k' x' p q S S' L L' V V'. destruct (reads_rounds _ _ _ _ _ _ _ S L V) as (f & R & F). destruct (reads_rounds _ _ _ _ _ _ _ S' L' V') as (f' & R' & F').
  assert (f' = f) as -> by (apply (rounds_unique p q); [apply V|exact F'|exact F]). apply reads_iff in R, R'. destruct R as (a & b & E & Ef). destruct R' as (c & d & E' & Ef').
  unfold number. rewrite E, E'. cbv zeta. rewrite <- Ef, <- Ef'. reflexivity.
Qed.
Lemma number_neg : forall l f n, reads l false f -> f / one = n -> n < 2 ^ 63 -> number l = Whole n.
Proof. intros l f n R E L. apply number_whole. exists false, f. split; [exact R|]. split; [apply div_one, E|]. split; [exact L|discriminate]. Qed.
(** C151: an integer of at most 2^53 counts as itself, with or without a point or an exponent *)
Lemma c151_integer : forall l m k x n, says l false m k x -> (Z.abs x < 100000)%Z -> value m k n 1 -> n <= 2 ^ 53 -> number l = Whole n.
Proof.
  intros l m k x n S L V N. destruct (reads_rounds _ _ _ _ _ _ _ S L V) as (f & R & F).
  assert (f = n * one) as -> by (apply (rounds_integer n 1); [lia|exact F|exact N|lia]). apply (number_neg l (n * one)); [exact R| |].
  - apply N.div_mul. apply N.neq_0_lt_0, NumbersFacts.pow_pos.
  - eapply N.le_lt_trans; [exact N|]. reflexivity.
Qed.
Lemma fraction_part : forall p q f n, 0 < q -> rounds p q f -> n < 2 ^ 52 -> q * n <= p -> p < q * (n + 1) ->
  f / one = if (q * (n + 1) - p) * 2 ^ (54 - N.log2_up (n + 1)) <=? q then n + 1 else n.
Proof.
  intros p q f n Q R N Lo Hi. pose proof (NumbersFacts.pow_pos 1074) as P. change (2 ^ 1074) with one in P.
  assert (A : 53 <= 1074) by lia.
  assert (H1 : q * (n * one) <= p * one) by (rewrite N.mul_assoc; apply N.mul_le_mono_r, Lo).
  assert (H2 : p * one < q * ((n + 1) * one)) by (rewrite N.mul_assoc; apply N.mul_lt_mono_pos_r; assumption).
  pose proof (whole_part 1074 (p * one) q f n A Q R N H1 H2) as W. change (2 ^ 1074) with one in W. rewrite W. clear W H1 H2.
  set (u := 2 ^ (54 - N.log2_up (n + 1))). set (o := one) in *. clearbody u o. replace (q * ((n + 1) * o) - p * o) with ((q * (n + 1) - p) * o) by (rewrite N.mul_sub_distr_r; f_equal; lia).
  set (d := q * (n + 1) - p). clearbody d. replace (d * o * u) with (d * u * o) by lia.
  assert (E : (d * u * o <=? q * o) = (d * u <=? q)).
  { destruct (N.leb_spec (d * u) q) as [X|X]; [apply N.leb_le, N.mul_le_mono_r, X|]. apply N.leb_gt, N.mul_lt_mono_pos_r; assumption. }
  rewrite E. reflexivity.
Qed.
(** C151: a number with a fraction, n <= p / q < n + 1, counts as n, except where it is so close to n + 1 that it is
    rounded to it: within 2^-54 of 1, 2^-53 of 2, 2^-52 of 3 and 4, and twice as far again above each further power of 2 *)
Lemma c151_fraction : forall l m k x p q n, says l false m k x -> (Z.abs x < 100000)%Z -> value m k p q -> q * n <= p < q * (n + 1) -> n < 2 ^ 52 ->
  number l = Whole (if (q * (n + 1) - p) * 2 ^ (54 - N.log2_up (n + 1)) <=? q then n + 1 else n).
Proof.
  intros l m k x p q n S L V (Lo & Hi) N. destruct (reads_rounds _ _ _ _ _ _ _ S L V) as (f & R & F).
  pose proof (fraction_part p q f n (proj1 V) F N Lo Hi) as E. apply (number_neg l f); [exact R|exact E|].
  assert (n + 1 < 2 ^ 63) by (eapply N.le_lt_trans; [apply N.le_succ_l in N; rewrite N.add_1_r; exact N|reflexivity]).
  destruct (_ <=? q); [assumption|lia].
Qed.
(** C151: between -1 and 0 a number counts as 0, unless it is rounded to -1 *)
Lemma c151_negative : forall l m k x p q, says l true m k x -> (Z.abs x < 100000)%Z -> value m k p q -> p < q ->
  number l = if (q - p) * 2 ^ 54 <=? q then Unsupported else Whole 0.
Proof.
  intros l m k x p q S L V P. destruct (reads_rounds _ _ _ _ _ _ _ S L V) as (f & R & F).
  assert (E : f / one = if (q - p) * 2 ^ 54 <=? q then 1 else 0).
  { rewrite (fraction_part p q f 0 (proj1 V) F); [|reflexivity|lia|lia]. rewrite N.add_0_l, N.mul_1_r. reflexivity. }
  pose proof (c151_number l) as C. destruct ((q - p) * 2 ^ 54 <=? q).
  - assert (X : one <= f < 2 * one).
    { apply div_one in E. rewrite N.mul_1_l in E. exact E. }
    destruct (number l) as [n| |]; [| |reflexivity]; exfalso.
    + destruct C as (neg & g & R' & B & _ & Z). destruct (reads_fun _ _ _ _ _ R R') as (<- & <-). rewrite (Z eq_refl) in B. set (o := one) in *. clearbody o. lia.
    + destruct C as (neg & g & R' & B). destruct (reads_fun _ _ _ _ _ R R') as (_ & <-). assert (2 * one <= 2 ^ 1024 * one) by (apply N.mul_le_mono_r; discriminate).
      set (c := 2 ^ 1024 * one) in *. clearbody c. set (o := one) in *. clearbody o. lia.
  - apply number_whole. exists true, f. split; [exact R|]. split; [apply div_one, E|]. split; [reflexivity|auto].
Qed.
(** C151: so the setting that ReadConfig finds under a name is the whole part of the last number the text gives for it *)
Lemma c151_setting : forall text ms m k l, document text (TObj ms) -> unmarshal text = Map m -> last_member ms k (TNum l) -> exists n, get (JObj m) k = JNum n /\ whole_number l n.
Proof.
  intros text ms m k l D U (b & a & E & A). destruct (c132_member text ms m k D U) as (H & _). destruct H as (t & (b' & a' & E' & A') & S).
  { rewrite E, map_app. apply in_or_app. right. left. reflexivity. }
  assert (t = TNum l) as ->.
  { assert (Last : forall (ms b1 a1 b2 a2 : list (list byte * jtree)) t1 t2, ms = (b1 ++ (bytes_of k, t1) :: a1)%list -> ms = (b2 ++ (bytes_of k, t2) :: a2)%list ->
      ~ In (bytes_of k) (map fst a1) -> ~ In (bytes_of k) (map fst a2) -> t1 = t2).
    { clear. induction ms as [|[k0 t0] ms IH]; intros b1 a1 b2 a2 t1 t2 E1 E2 N1 N2; [destruct b1; discriminate|].
      destruct b1 as [|x b1]; destruct b2 as [|y b2]; cbn [app] in E1, E2.
      - congruence.
      - exfalso. apply N1. assert (a1 = ms) as -> by congruence. assert (ms = (b2 ++ (bytes_of k, t2) :: a2)%list) as -> by congruence. rewrite map_app. apply in_or_app. right. left. reflexivity.
      - exfalso. apply N2. assert (a2 = ms) as -> by congruence. assert (ms = (b1 ++ (bytes_of k, t1) :: a1)%list) as -> by congruence. rewrite map_app. apply in_or_app. right. left. reflexivity.
      - apply (IH b1 a1 b2 a2); try assumption; congruence. }
    exact (Last ms b' a' b a t (TNum l) E' E A' A). }
  inversion S as [| |? n W| | |]; subst. exists n. auto.
Qed.

(** 7542 written in four ways; a fraction; two numbers so close below 1 that one of them is rounded to it; a number that is too large *)
Example c151_ex :
  map (fun s => number (bytes_of s)) ["7542"; "75.42e2"; "7542000E-3"; "7542.0"; "1024.75"; "0.9999999999999999"; "0.99999999999999999"; "-0.5"; "1e400"; "-3"]
    = [Whole 7542; Whole 7542; Whole 7542; Whole 7542; Whole 1024; Whole 0; Whole 1; Whole 0; TooLarge; Unsupported] /\
  (exists m k x, says (bytes_of "75.42e2") false m k x /\ (Z.abs x < 100000)%Z /\ value m k 7542 1) /\
  (exists m k x, says (bytes_of "1024.75") false m k x /\ (Z.abs x < 100000)%Z /\ value m k 4099 4 /\ 4 * 1024 <= 4099 < 4 * (1024 + 1)) /\
  (exists m k x, says (bytes_of "-0.5") true m k x /\ (Z.abs x < 100000)%Z /\ value m k 1 2) /\
  unmarshal (bytes_of "{""a"":1e3,""b"":[-0.5],""c"":0.99}") = Map [("a", JNum 1000); ("b", JArr [JNum 0]); ("c", JNum 0)] /\
  unmarshal (bytes_of "{""a"":[-5,1e309]}") = NotMap.
Proof.
  assert (S : forall l neg m k, read_float l = Some (neg, m, k) -> exists m' k' x, (m' = m /\ k' = k) /\ says l neg m' k' x /\ (Z.abs x < 100000)%Z).
  { intros l neg m k R. apply read_float_iff in R. destruct R as (x & A & B). exists m, k, x. auto. }
  split; [vm_compute; reflexivity|]. split; [|split; [|split; [|split; vm_compute; reflexivity]]].
  - destruct (S (bytes_of "75.42e2") false 7542 0%Z) as (m & k & x & (-> & ->) & A & B); [vm_compute; reflexivity|]. exists 7542, 0%Z, x. split; [exact A|]. split; [exact B|]. split; reflexivity.
  - destruct (S (bytes_of "1024.75") false 102475 (-2)%Z) as (m & k & x & (-> & ->) & A & B); [vm_compute; reflexivity|]. exists 102475, (-2)%Z, x. split; [exact A|]. split; [exact B|].
    split; [split; reflexivity|]. split; [discriminate|reflexivity].
  - destruct (S (bytes_of "-0.5") true 5 (-1)%Z) as (m & k & x & (-> & ->) & A & B); [vm_compute; reflexivity|]. exists 5, (-1)%Z, x. split; [exact A|]. split; [exact B|]. split; reflexivity.
Qed.
Example c151_setting_ex : exists ms m, document (bytes_of "{""udpport"":1,""udpport"":75.42e2}") (TObj ms) /\ unmarshal (bytes_of "{""udpport"":1,""udpport"":75.42e2}") = Map m /\
  last_member ms "udpport" (TNum (bytes_of "75.42e2")) /\ get (JObj m) "udpport" = JNum 7542.
Proof.
  exists [(bytes_of "udpport", TNum (bytes_of "1")); (bytes_of "udpport", TNum (bytes_of "75.42e2"))], [("udpport", JNum 7542)].
  split; [apply c131_text; vm_compute; reflexivity|]. split; [vm_compute; reflexivity|]. split; [|reflexivity].
  exists [(bytes_of "udpport", TNum (bytes_of "1"))], []. split; [reflexivity|intros []].
Qed.
