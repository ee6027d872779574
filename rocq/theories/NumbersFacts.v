(** * Facts about rounding to float64 *)

From Verif Require Import GoBase Config Json SpecJson.
From Coq Require Import Lia.
Local Open Scope N_scope.

Lemma pow_pos : forall k, 0 < 2 ^ k.
Proof. intros k. apply N.neq_0_lt_0, N.pow_nonzero. lia. Qed.
Lemma pow_split : forall a b, a <= b -> 2 ^ b = 2 ^ (b - a) * 2 ^ a.
Proof. intros a b L. rewrite <- N.pow_add_r. f_equal. lia. Qed.
Lemma gap_scale : forall c a b, gap (c * a) (c * b) = c * gap a b.
Proof. intros c a b. unfold gap. rewrite N.mul_add_distr_l, !N.mul_sub_distr_l. reflexivity. Qed.

Lemma half_even_cases : forall s q, 0 < q -> exists d r, s = q * d + r /\ r < q /\
  ((half_even s q = d /\ 2 * r <= q /\ (2 * r = q -> N.even d = true)) \/ (half_even s q = d + 1 /\ q <= 2 * r /\ (2 * r = q -> N.even (d + 1) = true))).
Proof.
  intros s q Q. exists (s / q), (s mod q). split; [apply N.div_mod; lia|]. split; [apply N.mod_lt; lia|]. unfold half_even, N.div, N.modulo.
  destruct (N.div_eucl s q) as [d r]. cbn [fst snd].
  destruct (N.ltb_spec (2 * r) q); [left; split; [reflexivity|]; split; [lia|intros; lia]|].
  destruct (N.ltb_spec q (2 * r)); [right; split; [reflexivity|]; split; [lia|intros; lia]|].
  destruct (N.even d) eqn:E; [left; split; [reflexivity|]; split; [lia|auto]|]. right. split; [reflexivity|]. split; [lia|]. intros _.
  rewrite N.add_1_r, N.even_succ, <- N.negb_even, E. reflexivity.
Qed.
Lemma half_even_is : forall s q, half_even s q = if 2 * (s mod q) <? q then s / q else if q <? 2 * (s mod q) then s / q + 1 else if N.even (s / q) then s / q else s / q + 1.
Proof. intros s q. unfold half_even, N.div, N.modulo. destruct (N.div_eucl s q) as [d r]. reflexivity. Qed.
Lemma half_even_scale : forall c s q, 0 < c -> 0 < q -> half_even (c * s) (c * q) = half_even s q.
Proof.
  intros c s q C Q. rewrite !half_even_is. rewrite N.div_mul_cancel_l, N.mul_mod_distr_l by lia. set (r := s mod q). set (d := s / q). clearbody r d.
  assert (L : forall a b, (c * a <? c * b) = (a <? b)).
  { intros a b. destruct (N.ltb_spec a b) as [H|H]; [apply N.ltb_lt, N.mul_lt_mono_pos_l; assumption|apply N.ltb_ge, N.mul_le_mono_l, H]. }
  replace (2 * (c * r)) with (c * (2 * r)) by lia. rewrite !L. reflexivity.
Qed.
Lemma half_even_near : forall s q j, 0 < q -> gap s (q * half_even s q) <= gap s (q * j) /\
  (gap s (q * half_even s q) = gap s (q * j) -> j = half_even s q \/ N.even (half_even s q) = true).
Proof.
  intros s q j Q. destruct (half_even_cases s q Q) as (d & r & -> & L & C).
  assert (J : q * j <= q * d /\ j <= d \/ q * d + q <= q * j /\ d + 1 <= j).
  { destruct (N.le_gt_cases j d) as [H|H]; [left; split; [apply N.mul_le_mono_l, H|exact H]|right]. split; [|lia].
    replace (q * d + q) with (q * (d + 1)) by lia. apply N.mul_le_mono_l. lia. }
  assert (I : forall a, j <> a -> q * j = q * a -> False) by (intros a NE E; apply NE; apply (N.mul_cancel_l j a q); lia).
  destruct C as [(-> & A & B)|(-> & A & B)].
  - specialize (I d). set (x := q * d) in *. set (y := q * j) in *. clearbody x y. unfold gap. split; [destruct J; lia|]. intros E.
    destruct (N.eq_dec j d) as [H|H]; [auto|]. right. apply B. specialize (I H). destruct J; lia.
  - specialize (I (d + 1)). rewrite N.mul_add_distr_l, N.mul_1_r in *. set (x := q * d) in *. set (y := q * j) in *. clearbody x y. unfold gap.
    split; [destruct J; lia|]. intros E. destruct (N.eq_dec j (d + 1)) as [H|H]; [auto|]. right. apply B. specialize (I H). destruct J; lia.
Qed.
Lemma half_even_bounds : forall s q a b, 0 < q -> q * a <= s -> s < q * b -> a <= half_even s q <= b.
Proof.
  intros s q a b Q A B. destruct (half_even_cases s q Q) as (d & r & E & L & C).
  assert (a < d + 1) by (apply (N.mul_lt_mono_pos_l q); lia). assert (d < b) by (apply (N.mul_lt_mono_pos_l q); lia). destruct C as [(-> & _)|(-> & _)]; lia.
Qed.

(** ** Rounding *)
Lemma log2_bounds : forall s q k, 0 < q -> k = N.log2 (s / q) - 52 -> s < q * 2 ^ (53 + k) /\ (0 < k -> q * 2 ^ (52 + k) <= s).
Proof.
  intros s q k Q K. set (w := s / q) in *. assert (W : q * w <= s < q * (w + 1)).
  { pose proof (N.div_mod s q) as E. pose proof (N.mod_lt s q) as M. fold w in E. set (r := s mod q) in *. clearbody w r. assert (s = q * w + r) by (apply E; lia).
    assert (r < q) by (apply M; lia). clear E M K. lia. }
  assert (L : w < 2 ^ (53 + k)).
  { destruct (N.eq_dec w 0) as [->|NZ]; [apply pow_pos|]. destruct (N.log2_spec w) as (_ & U); [lia|]. eapply N.lt_le_trans; [exact U|].
    apply N.pow_le_mono_r; lia. }
  split.
  - eapply N.lt_le_trans; [apply W|]. apply N.mul_le_mono_l. lia.
  - intros P. assert (w <> 0) by (intros E; rewrite E in K; cbn in K; lia). destruct (N.log2_spec w) as (U & _); [lia|].
    replace (52 + k) with (N.log2 w) by lia. eapply N.le_trans; [|apply W]. apply N.mul_le_mono_l, U.
Qed.
(** What [closest], [rounds] say, of s / q in units *)
Definition closest_s (s q f : N) : Prop := float64 f /\ forall g, float64 g -> gap s (q * f) <= gap s (q * g).
Definition rounds_s (s q f : N) : Prop := closest_s s q f /\ forall g, closest_s s q g -> g = f \/ even_float f.
Definition round_s (s q : N) : N := let k := N.log2 (s / q) - 52 in half_even s (q * 2 ^ k) * 2 ^ k.

Lemma round_rounds : forall s q, 0 < q -> rounds_s s q (round_s s q).
Proof.
  intros s q Q. unfold round_s. cbv zeta. set (k := N.log2 (s / q) - 52). destruct (log2_bounds s q k Q eq_refl) as (U & D). clearbody k.
  pose proof (pow_pos k) as Pk. assert (Qk : 0 < q * 2 ^ k) by (apply N.mul_pos_pos; assumption).
  pose proof (half_even_near s (q * 2 ^ k)) as Near. pose proof (half_even_bounds s (q * 2 ^ k)) as Bounds. set (h := half_even s (q * 2 ^ k)) in *. clearbody h.
  assert (H : h <= 2 ^ 53 /\ (0 < k -> 2 ^ 52 <= h)).
  { split.
    - apply (Bounds 0 (2 ^ 53) Qk); [lia|]. rewrite N.pow_add_r in U. lia.
    - intros P. specialize (D P). rewrite N.pow_add_r in D. rewrite N.pow_add_r in U. apply (Bounds (2 ^ 52) (2 ^ 53) Qk); lia. }
  destruct H as (H1 & H2).
  assert (F : float64 (h * 2 ^ k)).
  { destruct (N.eq_dec h (2 ^ 53)) as [->|NE]; [exists (2 ^ 52), (k + 1)|exists h, k].
    - split; [reflexivity|]. rewrite N.add_1_r, N.pow_succ_r by lia. change (2 ^ 53) with (2 ^ 52 * 2). lia.
    - split; [lia|reflexivity]. }
  (* a float64 is a multiple of 2^k, or below 2^(52+k) *)
  assert (G : forall g, float64 g -> (exists j, g = j * 2 ^ k) \/ (0 < k /\ g < 2 ^ 52 * 2 ^ k)).
  { intros g (m & i & M & ->). destruct (N.le_gt_cases k i) as [L|L].
    - left. exists (m * 2 ^ (i - k)). rewrite (pow_split k i L). lia.
    - right. split; [lia|]. replace k with (i + 1 + (k - i - 1)) by lia. rewrite !N.pow_add_r. change (2 ^ 1) with 2. pose proof (pow_pos i). pose proof (pow_pos (k - i - 1)).
      change (2 ^ 53) with (2 ^ 52 * 2) in M. set (a := 2 ^ i) in *. set (b := 2 ^ (k - i - 1)) in *. set (c := 2 ^ 52) in *. clearbody a b c.
      assert (m * a < c * 2 * a) by (apply N.mul_lt_mono_pos_r; assumption). assert (c * 2 * a * 1 <= c * 2 * a * b) by (apply N.mul_le_mono_l; lia). lia. }
  assert (Mul : forall j, q * (j * 2 ^ k) = q * 2 ^ k * j) by (intros j; lia).
  assert (Below : forall g, 0 < k -> g < 2 ^ 52 * 2 ^ k -> gap s (q * (h * 2 ^ k)) < gap s (q * g)).
  { intros g P L. specialize (D P). rewrite N.pow_add_r in D. destruct (Near (2 ^ 52) Qk) as (N1 & _). rewrite Mul. eapply N.le_lt_trans; [exact N1|].
    assert (q * g < q * (2 ^ 52 * 2 ^ k)) by (apply N.mul_lt_mono_pos_l; assumption). rewrite <- Mul.
    set (x := q * (2 ^ 52 * 2 ^ k)) in *. set (y := q * g) in *. clearbody x y. unfold gap. lia. }
  split.
  - split; [exact F|]. intros g Fg. destruct (G g Fg) as [(j & ->)|(P & L)]; [rewrite !Mul; apply Near, Qk|]. apply N.lt_le_incl, Below; assumption.
  - intros g (Fg & Cg). specialize (Cg _ F). destruct (G g Fg) as [(j & ->)|(P & L)]; [|pose proof (Below g P L); lia].
    rewrite !Mul in Cg. destruct (Near j Qk) as (N1 & N2). destruct N2 as [->|E]; [lia|left; reflexivity|]. right.
    destruct (N.eq_dec h (2 ^ 53)) as [->|NE].
    + exists (2 ^ 52), (k + 1). split; [reflexivity|]. rewrite N.add_1_r, N.pow_succ_r by lia. change (2 ^ 53) with (2 ^ 52 * 2). split; [lia|]. split; [left; lia|reflexivity].
    + exists h, k. split; [lia|]. split; [reflexivity|]. split; [|exact E]. destruct (N.eq_dec k 0) as [Z|Z]; [auto|left; apply H2; lia].
Qed.

Lemma rounds_unique_s : forall s q f g, 0 < q -> rounds_s s q f -> rounds_s s q g -> f = g.
Proof.
  assert (Lt : forall s q f g, 0 < q -> rounds_s s q f -> rounds_s s q g -> f < g -> False).
  { intros s q f g Q ((Ff & Cf) & Ef) ((Fg & Cg) & Eg) L.
    assert (X : even_float f) by (destruct (Ef g) as [E|E]; [split; assumption|lia|exact E]).
    assert (Y : even_float g) by (destruct (Eg f) as [E|E]; [split; assumption|lia|exact E]).
    destruct X as (a & i & A & -> & A1 & A2). destruct Y as (b & j & B & -> & B1 & B2).
    assert (A3 : a + 1 < 2 ^ 53).
    { destruct (N.eq_dec (a + 1) (2 ^ 53)) as [E|E]; [|lia]. exfalso. assert (a = 2 ^ 53 - 1) as -> by lia. discriminate A2. }
    assert (N : float64 ((a + 1) * 2 ^ i)) by (exists (a + 1), i; auto).
    assert (E : b * 2 ^ j = (a + 1) * 2 ^ i).
    { assert (M : (a + 1) * 2 ^ i <= b * 2 ^ j).
      { destruct (N.le_gt_cases i j) as [H|H].
        - rewrite (pow_split i j H) in *. rewrite N.mul_assoc in *. apply N.mul_le_mono_r. enough (a < b * 2 ^ (j - i)) by lia.
          apply (N.mul_lt_mono_pos_r (2 ^ i)); [apply pow_pos|exact L].
        - exfalso. rewrite (pow_split j i) in L by lia. assert (2 ^ 52 <= a) by (destruct A1; lia).
          replace (i - j) with (1 + (i - j - 1)) in L by lia. rewrite N.pow_add_r in L. change (2 ^ 1) with 2 in L. pose proof (pow_pos (i - j - 1)).
          assert (Lab : a * (2 * 2 ^ (i - j - 1)) < b) by (apply (N.mul_lt_mono_pos_r (2 ^ j)); [apply pow_pos|lia]).
          change (2 ^ 53) with (2 * 2 ^ 52) in B. set (c := 2 ^ 52) in *. set (u := 2 ^ (i - j - 1)) in *. clearbody c u. nia. }
      specialize (Cf _ N). specialize (Cg _ N). pose proof (Cf) as Cf'. pose proof (pow_pos i).
      assert (H1 : q * (a * 2 ^ i) < q * ((a + 1) * 2 ^ i)) by (apply N.mul_lt_mono_pos_l; lia).
      assert (H2 : q * ((a + 1) * 2 ^ i) <= q * (b * 2 ^ j)) by (apply N.mul_le_mono_l; exact M).
      destruct (N.eq_dec (q * ((a + 1) * 2 ^ i)) (q * (b * 2 ^ j))) as [E|E]; [apply N.mul_cancel_l in E; lia|].
      unfold gap in *. lia. }
    assert (O : N.even (a + 1) = false) by (rewrite N.add_1_r, N.even_succ, <- N.negb_even, A2; reflexivity).
    destruct (N.lt_trichotomy i j) as [H|[H|H]].
    - rewrite (pow_split i j) in E by lia. rewrite N.mul_assoc in E. apply N.mul_cancel_r in E; [|pose proof (pow_pos i); lia].
      rewrite <- E, N.even_mul, B2 in O. discriminate O.
    - subst j. apply N.mul_cancel_r in E; [|pose proof (pow_pos i); lia]. congruence.
    - rewrite (pow_split j i) in E by lia. rewrite N.mul_assoc in E. apply N.mul_cancel_r in E; [|pose proof (pow_pos j); lia].
      assert (2 ^ 52 <= a) by (destruct A1; lia). replace (i - j) with (1 + (i - j - 1)) in E by lia. rewrite N.pow_add_r in E. change (2 ^ 1) with 2 in E.
      pose proof (pow_pos (i - j - 1)). change (2 ^ 53) with (2 * 2 ^ 52) in B. set (c := 2 ^ 52) in *. set (u := 2 ^ (i - j - 1)) in *. clearbody c u. nia. }
  intros s q f g Q F G. destruct (N.lt_trichotomy f g) as [H|[H|H]]; [exfalso; eauto|exact H|exfalso; eauto].
Qed.

(** ** In terms of the specification *)
Lemma rounds_is : forall p q f, rounds p q f <-> rounds_s (p * one) q f.
Proof. intros p q f. reflexivity. Qed.
Lemma closest_scale : forall c s q f, 0 < c -> (closest_s (c * s) (c * q) f <-> closest_s s q f).
Proof.
  intros c s q f C. assert (E : forall g, gap (c * s) (c * q * g) = c * gap s (q * g)) by (intros g; rewrite <- N.mul_assoc; apply gap_scale).
  unfold closest_s. split; intros (F & H); (split; [exact F|]); intros g G; specialize (H g G); rewrite ?E in *; [apply (N.mul_le_mono_pos_l _ _ c) in H; assumption|].
  apply N.mul_le_mono_l, H.
Qed.
Lemma rounds_scale : forall c s q f, 0 < c -> (rounds_s (c * s) (c * q) f <-> rounds_s s q f).
Proof.
  intros c s q f C. unfold rounds_s. rewrite closest_scale by exact C.
  split; intros (A & B); (split; [exact A|]); intros g G; apply B; apply (closest_scale c s q g C); exact G.
Qed.
Lemma rounds_same : forall p q p' q' f, 0 < q -> 0 < q' -> p * q' = p' * q -> rounds p q f -> rounds p' q' f.
Proof.
  intros p q p' q' f Q Q' E H. apply rounds_is in H. apply rounds_is. apply (rounds_scale q') in H; [|exact Q']. apply (rounds_scale q); [exact Q|].
  replace (q * (p' * one)) with (q' * (p * one)) by (set (o := one) in *; clearbody o; clear H; transitivity (p * q' * o); [lia|rewrite E; lia]).
  rewrite (N.mul_comm q q'). exact H.
Qed.
Lemma rounds_unique : forall p q f g, 0 < q -> rounds p q f -> rounds p q g -> f = g.
Proof. intros p q f g Q. apply rounds_unique_s, Q. Qed.
Lemma round64_rounds : forall p q, 0 < q -> rounds p q (round64 p q).
Proof.
  intros p q Q. apply rounds_is. assert (E : round64 p q = round_s (p * one) q).
  { unfold round64, round_s. cbv zeta. change float_unit with one. set (k := N.log2 (p * one / q) - 52). clearbody k. f_equal. unfold one.
    destruct (N.le_gt_cases k 1074) as [L|L].
    - replace (k - 1074) with 0 by lia. rewrite N.pow_0_r, N.mul_1_r. rewrite (pow_split k 1074 L). replace (p * (2 ^ (1074 - k) * 2 ^ k)) with (2 ^ k * (p * 2 ^ (1074 - k))) by lia.
      rewrite (N.mul_comm q). symmetry. apply half_even_scale; [apply pow_pos|exact Q].
    - replace (1074 - k) with 0 by lia. rewrite N.pow_0_r, N.mul_1_r. rewrite (pow_split 1074 k) by lia. rewrite (N.mul_comm p). replace (q * (2 ^ (k - 1074) * 2 ^ 1074)) with (2 ^ 1074 * (q * 2 ^ (k - 1074))) by lia.
      symmetry. apply half_even_scale; [apply pow_pos|apply N.mul_pos_pos; [exact Q|apply pow_pos]]. }
  rewrite E. exact (round_rounds (p * one) q Q).
Qed.

(** Integers up to 2^53 are float64 *)
Lemma float_integer : forall a n, n <= 2 ^ 53 -> float64 (n * 2 ^ a).
Proof.
  intros a n L. destruct (N.eq_dec n (2 ^ 53)) as [->|NE]; [exists 1, (53 + a)|exists n, a; split; [lia|reflexivity]].
  split; [reflexivity|]. rewrite N.pow_add_r. lia.
Qed.
Lemma exact_s : forall s q f g, 0 < q -> closest_s s q f -> float64 g -> s = q * g -> f = g.
Proof.
  intros s q f g Q (F & C) G E. specialize (C g G). rewrite E in C. unfold gap in C. apply (N.mul_cancel_l f g q); [lia|].
  set (x := q * f) in *. set (y := q * g) in *. clearbody x y. lia.
Qed.
Lemma rounds_integer : forall p q f n, 0 < q -> rounds p q f -> n <= 2 ^ 53 -> p = q * n -> f = n * one.
Proof.
  intros p q f n Q (C & _) L E. apply (exact_s (p * one) q f (n * one) Q C); [apply float_integer, L|]. rewrite E. set (o := one). clearbody o. lia.
Qed.
(** A float64 that lies between the rounded number and the number does not exist *)
Lemma closest_up : forall s q f g, 0 < q -> closest_s s q f -> float64 g -> q * g <= s -> g <= f.
Proof.
  intros s q f g Q (F & C) G L. destruct (N.le_gt_cases g f) as [H|H]; [exact H|]. exfalso. specialize (C g G).
  assert (X : q * f < q * g) by (apply N.mul_lt_mono_pos_l; assumption). unfold gap in C. set (x := q * f) in *. set (y := q * g) in *. clearbody x y. lia.
Qed.
Lemma closest_down : forall s q f g, 0 < q -> closest_s s q f -> float64 g -> s <= q * g -> f <= g.
Proof.
  intros s q f g Q (F & C) G L. destruct (N.le_gt_cases f g) as [H|H]; [exact H|]. exfalso. specialize (C g G).
  assert (X : q * g < q * f) by (apply N.mul_lt_mono_pos_l; assumption). unfold gap in C. set (x := q * f) in *. set (y := q * g) in *. clearbody x y. lia.
Qed.

(** The float64 before v * 2^a, for 2^(L-1) < v <= 2^L, is less by 2^(L+a-53) *)
Lemma float_before : forall a v L g, 53 <= a -> L <= 52 -> v <= 2 ^ L -> 2 ^ L < 2 * v -> float64 g -> g < v * 2 ^ a -> g + 2 ^ (L + (a - 53)) <= v * 2 ^ a.
Proof.
  intros a v L g A Ll V1 V2 (m & k & M & ->) G. set (e := L + (a - 53)).
  assert (Va : v * 2 ^ a = v * 2 ^ (53 - L) * 2 ^ e) by (rewrite <- N.mul_assoc, <- N.pow_add_r; do 2 f_equal; unfold e; lia).
  rewrite Va in *. destruct (N.le_gt_cases e k) as [H|H].
  - rewrite (pow_split e k H), N.mul_assoc in *. assert (m * 2 ^ (k - e) < v * 2 ^ (53 - L)) by (apply (N.mul_lt_mono_pos_r (2 ^ e)); [apply pow_pos|exact G]).
    replace (m * 2 ^ (k - e) * 2 ^ e + 2 ^ e) with ((m * 2 ^ (k - e) + 1) * 2 ^ e) by lia. apply N.mul_le_mono_r. lia.
  - assert (X : m * 2 ^ k < 2 ^ 52 * 2 ^ e).
    { replace e with (k + 1 + (e - k - 1)) by lia. rewrite !N.pow_add_r. change (2 ^ 1) with 2. pose proof (pow_pos k). pose proof (pow_pos (e - k - 1)).
      change (2 ^ 53) with (2 ^ 52 * 2) in M. set (x := 2 ^ k) in *. set (b := 2 ^ (e - k - 1)) in *. set (c := 2 ^ 52) in *. clearbody x b c.
      assert (m * x < c * 2 * x) by (apply N.mul_lt_mono_pos_r; assumption). assert (c * 2 * x * 1 <= c * 2 * x * b) by (apply N.mul_le_mono_l; lia). lia. }
    assert (Y : 2 ^ 52 + 1 <= v * 2 ^ (53 - L)).
    { assert (E : 2 ^ 53 = 2 ^ L * 2 ^ (53 - L)) by (rewrite <- N.pow_add_r; f_equal; lia). change (2 ^ 53) with (2 ^ 52 * 2) in E.
      assert (2 ^ L * 2 ^ (53 - L) < 2 * v * 2 ^ (53 - L)) by (apply N.mul_lt_mono_pos_r; [apply pow_pos|exact V2]).
      rewrite <- E, <- N.mul_assoc in H0. set (w := v * 2 ^ (53 - L)) in *. set (c := 2 ^ 52) in *. clearbody c w. clear - H0. lia. }
    assert ((2 ^ 52 + 1) * 2 ^ e <= v * 2 ^ (53 - L) * 2 ^ e) by (apply N.mul_le_mono_r, Y). set (c := 2 ^ 52) in *. set (z := 2 ^ e) in *. clearbody c z. lia.
Qed.
Lemma float_before_is : forall a v L, 53 <= a -> L <= 52 -> v <= 2 ^ L -> 2 ^ L < 2 * v ->
  exists b, b * 2 ^ (L + (a - 53)) + 2 ^ (L + (a - 53)) = v * 2 ^ a /\ 2 ^ 52 <= b /\ b < 2 ^ 53 /\ N.even b = false.
Proof.
  intros a v L A Ll V1 V2. set (e := L + (a - 53)). exists (v * 2 ^ (53 - L) - 1).
  assert (Va : v * 2 ^ a = v * 2 ^ (53 - L) * 2 ^ e) by (rewrite <- N.mul_assoc, <- N.pow_add_r; do 2 f_equal; unfold e; lia).
  assert (E : 2 ^ 53 = 2 ^ L * 2 ^ (53 - L)) by (rewrite <- N.pow_add_r; f_equal; lia).
  assert (Y1 : 2 ^ L * 2 ^ (53 - L) < 2 * v * 2 ^ (53 - L)) by (apply N.mul_lt_mono_pos_r; [apply pow_pos|exact V2]).
  assert (Y2 : v * 2 ^ (53 - L) <= 2 ^ L * 2 ^ (53 - L)) by (apply N.mul_le_mono_r; exact V1).
  replace (2 * v * 2 ^ (53 - L)) with (2 * (v * 2 ^ (53 - L))) in Y1 by apply N.mul_assoc.
  assert (Ev : N.even (v * 2 ^ (53 - L)) = true).
  { replace (53 - L) with (N.succ (52 - L)) by lia. rewrite N.pow_succ_r by lia. rewrite !N.even_mul. change (N.even 2) with true. rewrite orb_true_l, orb_true_r. reflexivity. }
  set (w := v * 2 ^ (53 - L)) in *. rewrite <- E in Y1, Y2. change (2 ^ 53) with (2 ^ 52 * 2) in *. set (c := 2 ^ 52) in *. assert (0 < c) by (unfold c; reflexivity). clearbody c w.
  split; [rewrite Va; set (z := 2 ^ e); clearbody z; clear - Y1 H; nia|]. split; [lia|]. split; [lia|].
  replace w with (N.succ (w - 1)) in Ev by lia. rewrite N.even_succ, <- N.negb_even in Ev. destruct (N.even (w - 1)); [discriminate|reflexivity].
Qed.

(** The whole part of a number between n and n + 1, once rounded *)
Lemma whole_part : forall a s q f n, 53 <= a -> 0 < q -> rounds_s s q f -> n < 2 ^ 52 -> q * (n * 2 ^ a) <= s -> s < q * ((n + 1) * 2 ^ a) ->
  f / 2 ^ a = if (q * ((n + 1) * 2 ^ a) - s) * 2 ^ (54 - N.log2_up (n + 1)) <=? q * 2 ^ a then n + 1 else n.
Proof.
  intros a s q f n A Q (C & T) N Lo Hi. set (L := N.log2_up (n + 1)). set (v := n + 1) in *.
  assert (V1 : v <= 2 ^ L) by (apply N.log2_log2_up_spec; unfold v; lia).
  assert (Ll : L <= 52) by (apply N.log2_up_le_pow2; unfold v; lia).
  assert (V2 : 2 ^ L < 2 * v).
  { destruct (N.eq_dec v 1) as [E|E]; [unfold L; rewrite E; reflexivity|]. destruct (N.log2_up_spec v) as (U & _); [unfold v in *; lia|]. fold L in U.
    assert (0 < L) by (apply N.log2_up_pos; unfold v in *; lia). replace L with (N.succ (N.pred L)) by lia. rewrite N.pow_succ_r by lia. lia. }
  destruct (float_before_is a v L A Ll V1 V2) as (b & B1 & B2 & B3 & B4). set (e := L + (a - 53)) in *.
  assert (Fv : float64 (v * 2 ^ a)) by (apply float_integer; unfold v; change (2 ^ 53) with (2 ^ 52 + 2 ^ 52); lia).
  assert (Fn : float64 (n * 2 ^ a)) by (apply float_integer; change (2 ^ 53) with (2 ^ 52 + 2 ^ 52); lia).
  assert (Fb : float64 (b * 2 ^ e)) by (exists b, e; auto).
  pose proof (closest_up s q f _ Q C Fn Lo) as Fl. pose proof (closest_down s q f _ Q C Fv (N.lt_le_incl _ _ Hi)) as Fu. pose proof (pow_pos a) as Pa. pose proof (pow_pos e) as Pe.
  (* the question in terms of the float64 before v *)
  assert (Q54 : (q * (v * 2 ^ a) - s) * 2 ^ (54 - L) <=? q * 2 ^ a = (2 * (q * (v * 2 ^ a) - s) <=? q * 2 ^ e)).
  { assert (E : 2 ^ a = 2 ^ (53 - L) * 2 ^ e) by (rewrite <- N.pow_add_r; f_equal; unfold e; lia). replace (54 - L) with (N.succ (53 - L)) by lia. rewrite N.pow_succ_r by lia.
    set (d := q * (v * 2 ^ a) - s). replace (q * 2 ^ a) with (q * 2 ^ e * 2 ^ (53 - L)) by (rewrite E; lia).
    pose proof (pow_pos (53 - L)). set (u := 2 ^ (53 - L)) in *. set (z := q * 2 ^ e). clearbody d u z. replace (d * (2 * u)) with (2 * d * u) by lia.
    destruct (N.leb_spec (2 * d * u) (z * u)) as [H1|H1]; destruct (N.leb_spec (2 * d) z) as [H2|H2]; try reflexivity; exfalso.
    - assert (z * u < 2 * d * u) by (apply N.mul_lt_mono_pos_r; assumption). lia.
    - assert (2 * d * u <= z * u) by (apply N.mul_le_mono_r; assumption). lia. }
  rewrite Q54. assert (Bq : q * (b * 2 ^ e) + q * 2 ^ e = q * (v * 2 ^ a)) by (rewrite <- B1; lia).
  assert (Fc : f <> v * 2 ^ a -> q * f + q * 2 ^ e <= q * (v * 2 ^ a)).
  { intros NE. assert (X : f < v * 2 ^ a) by lia. apply (float_before a v L) in X; try assumption; [|apply C]. fold e in X.
    replace (q * f + q * 2 ^ e) with (q * (f + 2 ^ e)) by lia. apply N.mul_le_mono_l, X. }
  assert (Below : f <> v * 2 ^ a -> f / 2 ^ a = n).
  { intros NE. symmetry. apply (N.div_unique f (2 ^ a) n (f - n * 2 ^ a)); [|lia]. unfold v in *. lia. }
  assert (Dec : f = v * 2 ^ a \/ f <> v * 2 ^ a) by (destruct (N.eq_dec f (v * 2 ^ a)); auto).
  destruct (N.leb_spec (2 * (q * (v * 2 ^ a) - s)) (q * 2 ^ e)) as [H|H].
  - destruct Dec as [E|NE]; [rewrite E; apply N.div_mul; lia|]. exfalso. specialize (Fc NE). destruct C as (Ff & C). pose proof (C _ Fv) as Cv.
    assert (Nq : f <> b * 2 ^ e -> q * f < q * (b * 2 ^ e)).
    { intros X. apply N.mul_lt_mono_pos_l; [exact Q|]. assert (q * f <= q * (b * 2 ^ e)) by lia. assert (f <= b * 2 ^ e) by (apply (N.mul_le_mono_pos_l _ _ q); assumption). lia. }
    assert (Eq : f = b * 2 ^ e).
    { destruct (N.eq_dec f (b * 2 ^ e)) as [E|X]; [exact E|]. exfalso. specialize (Nq X). unfold gap in Cv.
      set (x := q * f) in *. set (y := q * (v * 2 ^ a)) in *. set (z := q * 2 ^ e) in *. set (w := q * (b * 2 ^ e)) in *. clearbody x y z w. lia. }
    destruct (T (v * 2 ^ a)) as [E|E].
    + split; [exact Fv|]. intros g G. eapply N.le_trans; [|apply C, G]. subst f. unfold gap in *.
      set (y := q * (v * 2 ^ a)) in *. set (z := q * 2 ^ e) in *. set (w := q * (b * 2 ^ e)) in *. clearbody y z w. lia.
    + congruence.
    + destruct E as (m & k & M & E & M1 & M2). rewrite Eq in E. destruct (N.le_gt_cases e k) as [K|K].
      * rewrite (pow_split e k K), N.mul_assoc in E. apply N.mul_cancel_r in E; [|lia]. rewrite E, N.even_mul, M2 in B4. discriminate B4.
      * rewrite (pow_split k e) in E by lia. rewrite N.mul_assoc in E. apply N.mul_cancel_r in E; [|pose proof (pow_pos k); lia].
        replace (e - k) with (N.succ (e - k - 1)) in E by lia. rewrite N.pow_succ_r in E by lia. pose proof (pow_pos (e - k - 1)).
        assert (b * 2 * 1 <= b * 2 * 2 ^ (e - k - 1)) by (apply N.mul_le_mono_l; lia). change (2 ^ 53) with (2 ^ 52 * 2) in *. set (c := 2 ^ 52) in *. clearbody c. lia.
  - destruct Dec as [E|NE]; [|apply Below, NE]. exfalso. assert (Pz : 0 < q * 2 ^ e) by (apply N.mul_pos_pos; assumption). destruct C as (Ff & C). pose proof (C _ Fb) as Cb. rewrite E in Cb. unfold gap in Cb.
    set (y := q * (v * 2 ^ a)) in *. set (z := q * 2 ^ e) in *. set (w := q * (b * 2 ^ e)) in *. clearbody y z w. lia.
Qed.
