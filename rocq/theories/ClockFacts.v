(** * The calendar of package time is the calendar *)

From Verif Require Import GoBase GoFacts Flags Config Shipped Timestamp Sarnet SpecWords Clock SpecClock.
Local Open Scope string_scope.
Local Open Scope Z_scope.

Definition as_date (x : Z * Z * Z) : date := let '(y, m, d) := x in {| d_year := y; d_month := m; d_day := d |}.
(** Days between the start of [absolute_zero_year] and 1970 *)
Definition zero_day : Z := 106751991073094.
Definition civil (n : Z) : date := as_date (abs_date (n + zero_day)).

Lemma leap_same : forall y, is_leap y = leap_year y.
Proof.
  intros y. unfold is_leap, leap_year.
  destruct (Z.eqb_spec (y mod 400) 0) as [A|A]; destruct (Z.eqb_spec (y mod 100) 0) as [B|B]; destruct (Z.eqb_spec (y mod 4) 0) as [C|C]; try reflexivity; exfalso;
    Z.div_mod_to_equations; lia.
Qed.
Lemma leap_400 : forall y k, leap_year (y + 400 * k) = leap_year y.
Proof.
  intros y k. unfold leap_year.
  replace ((y + 400 * k) mod 400) with (y mod 400) by (replace (y + 400 * k) with (y + k * 400) by lia; rewrite Z.mod_add by lia; reflexivity).
  replace ((y + 400 * k) mod 100) with (y mod 100) by (replace (y + 400 * k) with (y + (4 * k) * 100) by lia; rewrite Z.mod_add by lia; reflexivity).
  replace ((y + 400 * k) mod 4) with (y mod 4) by (replace (y + 400 * k) with (y + (100 * k) * 4) by lia; rewrite Z.mod_add by lia; reflexivity).
  reflexivity.
Qed.
Definition date_eqb (a b : date) : bool := (d_year a =? d_year b) && (d_month a =? d_month b) && (d_day a =? d_day b).
Definition real_dateb (d : date) : bool :=
  (1 <=? d_month d) && (d_month d <=? 12) && (1 <=? d_day d) && (d_day d <=? month_length (d_year d) (d_month d)).
Lemma date_eqb_eq : forall a b, date_eqb a b = true -> a = b.
Proof.
  intros [y m d] [y' m' d'] H. unfold date_eqb in H. cbn [d_year d_month d_day] in H.
  apply andb_prop in H. destruct H as [H H3]. apply andb_prop in H. destruct H as [H1 H2].
  apply Z.eqb_eq in H1, H2, H3. congruence.
Qed.
Lemma real_dateb_real : forall d, real_dateb d = true -> real_date d.
Proof.
  intros d H. unfold real_dateb in H. repeat (apply andb_prop in H; destruct H as [H ?]).
  unfold real_date. repeat match goal with X : (_ <=? _) = true |- _ => apply Z.leb_le in X end. lia.
Qed.

(** Years counted from [absolute_zero_year] = 1 modulo 400 *)
Definition year_days (y : Z) : Z := if leap_year (y + 1) then 366 else 365.
Definition days_to (y : Z) : Z := 365 * y + y / 4 - y / 100 + y / 400.
Lemma div_succ : forall y k, 0 < k -> (y + 1) / k = y / k + (if (y + 1) mod k =? 0 then 1 else 0).
Proof.
  intros y k K. pose proof (Z.div_mod y k) as A. pose proof (Z.mod_pos_bound y k K) as B.
  pose proof (Z.div_mod (y + 1) k) as C. pose proof (Z.mod_pos_bound (y + 1) k K) as D.
  destruct (Z.eqb_spec ((y + 1) mod k) 0) as [E|E]; nia.
Qed.
Lemma days_to_next : forall y, days_to (y + 1) = days_to y + year_days y.
Proof.
  intros y. unfold days_to, year_days, leap_year. rewrite !div_succ by lia.
  destruct (Z.eqb_spec ((y + 1) mod 400) 0) as [A|A]; destruct (Z.eqb_spec ((y + 1) mod 100) 0) as [B|B]; destruct (Z.eqb_spec ((y + 1) mod 4) 0) as [C|C]; try lia;
    exfalso; Z.div_mod_to_equations; lia.
Qed.
Lemma year_days_pos : forall y, 365 <= year_days y <= 366.
Proof. intros y. unfold year_days. destruct (leap_year _); lia. Qed.
Lemma days_to_mono : forall y k, 0 <= k -> days_to y + 365 * k <= days_to (y + k).
Proof.
  intros y. apply natlike_ind; [replace (y + 0) with y by lia; lia|]. intros k P IH.
  replace (y + Z.succ k) with (y + k + 1) by lia. rewrite days_to_next. pose proof (year_days_pos (y + k)). lia.
Qed.
Lemma days_to_at : forall q c b a, 0 <= c <= 3 -> 0 <= b <= 24 -> 0 <= a <= 3 ->
  days_to (400 * q + 100 * c + 4 * b + a) = 146097 * q + 36524 * c + 1461 * b + 365 * a.
Proof.
  intros q c b a C B A. unfold days_to.
  rewrite <- (Z.div_unique (400 * q + 100 * c + 4 * b + a) 4 (100 * q + 25 * c + b) a) by lia.
  rewrite <- (Z.div_unique (400 * q + 100 * c + 4 * b + a) 100 (4 * q + c) (4 * b + a)) by lia.
  rewrite <- (Z.div_unique (400 * q + 100 * c + 4 * b + a) 400 q (100 * c + 4 * b + a)) by lia. lia.
Qed.
Lemma year_days_at : forall q c b a, 0 <= c <= 3 -> 0 <= b <= 24 -> 0 <= a <= 3 ->
  year_days (400 * q + 100 * c + 4 * b + a) = if (a =? 3) && (negb (b =? 24) || (c =? 3)) then 366 else 365.
Proof.
  intros q c b a C B A. unfold year_days, leap_year.
  rewrite <- (Z.mod_unique (400 * q + 100 * c + 4 * b + a + 1) 4 (100 * q + 25 * c + b + (if a =? 3 then 1 else 0)) (if a =? 3 then 0 else a + 1)) by (destruct (Z.eqb_spec a 3); lia).
  rewrite <- (Z.mod_unique (400 * q + 100 * c + 4 * b + a + 1) 100 (4 * q + c + (if (b =? 24) && (a =? 3) then 1 else 0)) (if (b =? 24) && (a =? 3) then 0 else 4 * b + a + 1))
    by (destruct (Z.eqb_spec a 3), (Z.eqb_spec b 24); cbn [andb]; lia).
  rewrite <- (Z.mod_unique (400 * q + 100 * c + 4 * b + a + 1) 400 (q + (if (c =? 3) && ((b =? 24) && (a =? 3)) then 1 else 0)) (if (c =? 3) && ((b =? 24) && (a =? 3)) then 0 else 100 * c + 4 * b + a + 1))
    by (destruct (Z.eqb_spec a 3), (Z.eqb_spec b 24), (Z.eqb_spec c 3); cbn [andb]; lia).
  destruct (Z.eqb_spec a 3), (Z.eqb_spec b 24), (Z.eqb_spec c 3); cbn [andb negb orb];
    repeat match goal with |- context[?x =? 0] => destruct (Z.eqb_spec x 0); try lia end.
Qed.
Lemma shift_two : forall n, 0 <= n < 8 -> Z.shiftr n 2 = if n <? 4 then 0 else 1.
Proof. intros n H. rewrite Z.shiftr_div_pow2 by lia. change (2 ^ 2) with 4. destruct (Z.ltb_spec n 4); Z.div_mod_to_equations; lia. Qed.

Lemma abs_year_spec : forall d y n, abs_year d = (y, n) ->
  d = days_to (y - absolute_zero_year) + n /\ 0 <= n < year_days (y - absolute_zero_year).
Proof.
  intros d y n H. unfold abs_year in H. cbv zeta in H.
  set (q := d / 146097) in *. set (r := d - 146097 * q) in *.
  assert (R : 0 <= r < 146097) by (unfold r, q; Z.div_mod_to_equations; lia).
  set (c0 := r / 36524) in *. assert (C0 : 0 <= c0 <= 4) by (unfold c0; Z.div_mod_to_equations; lia).
  rewrite (shift_two c0) in H by lia. set (c := c0 - (if c0 <? 4 then 0 else 1)) in *.
  assert (C : 0 <= c <= 3 /\ 0 <= r - 36524 * c <= 36524 /\ (r - 36524 * c = 36524 -> c = 3)).
  { unfold c. destruct (Z.ltb_spec c0 4); unfold c0 in *; Z.div_mod_to_equations; lia. }
  set (s := r - 36524 * c) in *. set (b := s / 1461) in *.
  assert (B : 0 <= b <= 24) by (unfold b; Z.div_mod_to_equations; lia).
  set (t := s - 1461 * b) in *. assert (T : 0 <= t < 1461 /\ (b = 24 -> c <> 3 -> t < 1460)) by (unfold t, b in *; Z.div_mod_to_equations; lia).
  set (a0 := t / 365) in *. assert (A0 : 0 <= a0 <= 4) by (unfold a0; Z.div_mod_to_equations; lia).
  rewrite (shift_two a0) in H by lia. set (a := a0 - (if a0 <? 4 then 0 else 1)) in *.
  assert (A : 0 <= a <= 3 /\ 0 <= t - 365 * a <= 365 /\ (t - 365 * a = 365 -> a = 3 /\ t = 1460)).
  { unfold a. destruct (Z.ltb_spec a0 4); unfold a0 in *; Z.div_mod_to_equations; lia. }
  assert (E1 : y - absolute_zero_year = 400 * q + 100 * c + 4 * b + a) by (apply (f_equal fst) in H; cbn [fst] in H; rewrite <- H; ring).
  assert (E2 : n = t - 365 * a) by (apply (f_equal snd) in H; symmetry; exact H). clear H. rewrite E1, E2.
  rewrite days_to_at, year_days_at by lia. clearbody q. clearbody c b a. split; [unfold t, s, r; lia|].
  destruct (Z.eqb_spec a 3), (Z.eqb_spec b 24), (Z.eqb_spec c 3); cbn [andb negb orb]; lia.
Qed.
Lemma year_unique : forall y n y' n', days_to y + n = days_to y' + n' -> 0 <= n < year_days y -> 0 <= n' < year_days y' -> y = y' /\ n = n'.
Proof.
  intros y n y' n' E N N'.
  assert (H : forall u v, u < v -> days_to u + year_days u <= days_to v).
  { intros u v L. rewrite <- days_to_next. replace v with ((u + 1) + (v - u - 1)) by lia. pose proof (days_to_mono (u + 1) (v - u - 1)). lia. }
  destruct (Z.lt_trichotomy y y') as [L|[->|L]]; [apply H in L; lia|lia|apply H in L; lia].
Qed.

Definition month_ok (leap : bool) (n : Z) : bool :=
  let y := if leap then 2000 else 2001 in
  let at_ n := let (m, d) := month_day y n in {| d_year := y; d_month := m; d_day := d |} in
  real_dateb (at_ n) &&
  date_eqb (next_day (at_ n)) (if n + 1 <? (if leap then 366 else 365) then at_ (n + 1) else {| d_year := y + 1; d_month := 1; d_day := 1 |}).
Fixpoint check (leap : bool) (k : nat) (d : Z) : bool := match k with O => true | S k => month_ok leap d && check leap k (d + 1) end.
Lemma check_sound : forall leap k d, check leap k d = true -> forall i, d <= i < d + Z.of_nat k -> month_ok leap i = true.
Proof.
  intros leap. induction k as [|k IH]; intros d H i R; [lia|]. cbn [check] in H. apply andb_prop in H. destruct H as [H1 H2].
  destruct (Z.eq_dec i d) as [->|N]; [exact H1|]. apply (IH (d + 1)); [exact H2|lia].
Qed.
Lemma month_day_leap : forall y y' n, leap_year y = leap_year y' -> month_day y n = month_day y' n.
Proof. intros y y' n H. unfold month_day. rewrite !leap_same, H. reflexivity. Qed.
Lemma month_length_leap : forall y y' m, leap_year y = leap_year y' -> month_length y m = month_length y' m.
Proof. intros y y' m H. unfold month_length. rewrite H. reflexivity. Qed.
Lemma month_step : forall y n, 0 <= n < (if leap_year y then 366 else 365) ->
  let at_ y n := let (m, d) := month_day y n in {| d_year := y; d_month := m; d_day := d |} in
  real_date (at_ y n) /\
  next_day (at_ y n) = if n + 1 <? (if leap_year y then 366 else 365) then at_ y (n + 1) else at_ (y + 1) 0.
Proof.
  intros y n R at_.
  assert (K : month_ok (leap_year y) n = true).
  { destruct (leap_year y).
    - apply (check_sound true 366 0); [vm_compute; reflexivity|]. change (Z.of_nat 366) with 366. lia.
    - apply (check_sound false 365 0); [vm_compute; reflexivity|]. change (Z.of_nat 365) with 365. lia. }
  unfold month_ok in K. set (y0 := if leap_year y then 2000 else 2001) in *.
  assert (Y : leap_year y0 = leap_year y) by (unfold y0; destruct (leap_year y); reflexivity). clearbody y0.
  apply andb_prop in K. destruct K as [K1 K2]. apply real_dateb_real in K1. apply date_eqb_eq in K2.
  rewrite (month_day_leap y0 y n Y) in K1, K2. rewrite (month_day_leap y0 y (n + 1) Y) in K2. unfold at_.
  assert (Z0 : forall y, month_day y 0 = (1, 1)).
  { intros z. unfold month_day. change (0 =? 31 + 29 - 1) with false. change (31 + 29 - 1 <? 0) with false. rewrite !andb_false_r. reflexivity. }
  rewrite Z0. destruct (month_day y n) as [m d]. destruct (month_day y (n + 1)) as [m' d'].
  unfold real_date, next_day in *. cbn [d_year d_month d_day] in *. rewrite (month_length_leap y0 y m Y) in *.
  split; [exact K1|]. set (len := if leap_year y then 366 else 365) in *. clearbody len.
  destruct (d <? month_length y m); [|destruct (m <? 12)]; destruct (n + 1 <? len);
    pose proof (f_equal d_year K2) as P1; pose proof (f_equal d_month K2) as P2; pose proof (f_equal d_day K2) as P3; cbn [d_year d_month d_day] in P1, P2, P3;
    try (exfalso; lia); subst; reflexivity.
Qed.

Lemma abs_date_step : forall d, as_date (abs_date (d + 1)) = next_day (as_date (abs_date d)) /\ real_date (as_date (abs_date d)).
Proof.
  intros d. unfold abs_date. destruct (abs_year d) as [y n] eqn:A. destruct (abs_year (d + 1)) as [y' n'] eqn:A'.
  apply abs_year_spec in A, A'. destruct A as [A B]. destruct A' as [A' B'].
  assert (Y : forall z, (if leap_year z then 366 else 365) = year_days (z - absolute_zero_year)).
  { intros z. unfold year_days. replace (z - absolute_zero_year + 1) with (z + 400 * 730692556) by (unfold absolute_zero_year; lia). rewrite leap_400. reflexivity. }
  destruct (month_step y n) as [R S]; [rewrite Y; exact B|]. rewrite Y in S.
  assert (E : (y', n') = if n + 1 <? year_days (y - absolute_zero_year) then (y, n + 1) else (y + 1, 0)).
  { destruct (Z.ltb_spec (n + 1) (year_days (y - absolute_zero_year))) as [L|L].
    - destruct (year_unique (y' - absolute_zero_year) n' (y - absolute_zero_year) (n + 1)); [lia..|]. f_equal; lia.
    - pose proof (days_to_next (y - absolute_zero_year)) as N. pose proof (year_days_pos (y - absolute_zero_year + 1)).
      destruct (year_unique (y' - absolute_zero_year) n' (y - absolute_zero_year + 1) 0); [lia..|]. f_equal; lia. }
  destruct (n + 1 <? year_days (y - absolute_zero_year)); injection E as -> ->.
  - destruct (month_day y n) as [m e]. destruct (month_day y (n + 1)) as [m' e']. cbn [as_date]. split; [symmetry; exact S|exact R].
  - destruct (month_day y n) as [m e]. destruct (month_day (y + 1) 0) as [m' e']. cbn [as_date]. split; [symmetry; exact S|exact R].
Qed.
Lemma civil_step : forall n, civil (n + 1) = next_day (civil n).
Proof. intros n. unfold civil. replace (n + 1 + zero_day) with (n + zero_day + 1) by lia. apply abs_date_step. Qed.
Lemma civil_real : forall n, real_date (civil n).
Proof. intros n. apply abs_date_step. Qed.
Lemma civil_epoch : civil 0 = {| d_year := 1970; d_month := 1; d_day := 1 |}.
Proof. vm_compute. reflexivity. Qed.

Lemma length_range : forall y m, 28 <= month_length y m <= 31.
Proof.
  intros y m. unfold month_length. destruct (leap_year y); destruct m as [|p|p]; try lia;
    repeat (destruct p as [p|p|]; try lia).
Qed.
Lemma next_inj : forall a b, real_date a -> real_date b -> next_day a = next_day b -> a = b.
Proof.
  intros [y m d] [y' m' d'] [M D] [M' D'] H. unfold next_day in H. cbn [d_year d_month d_day] in *.
  pose proof (length_range y m). pose proof (length_range y' m').
  repeat match type of H with context[if ?a <? ?b then _ else _] => destruct (Z.ltb_spec a b) end; injection H; intros; try lia; subst.
  - f_equal. lia.
  - assert (m = m') by lia. subst. f_equal. lia.
  - assert (m = 12) by lia. assert (m' = 12) by lia. subst. assert (y = y') by lia. subst. f_equal.
    lia.
Qed.

Lemma day_number_civil : forall n d, day_number n d <-> d = civil n.
Proof.
  intros n d. split.
  - intros H. induction H as [|n d H IH|n d R H IH].
    + symmetry. apply civil_epoch.
    + rewrite civil_step, IH. reflexivity.
    + rewrite civil_step in IH. apply next_inj; auto. apply civil_real.
  - intros ->. destruct (Z.le_gt_cases 0 n) as [P|P].
    + revert n P. apply natlike_ind; [rewrite civil_epoch; constructor|]. intros n P IH.
      change (Z.succ n) with (n + 1). rewrite civil_step. constructor. exact IH.
    + replace n with (- (- n)) by lia. assert (Q : 0 <= - n) by lia. revert Q. generalize (- n). clear P n.
      apply natlike_ind; [rewrite Z.opp_0, civil_epoch; constructor|]. intros k P IH.
      apply day_before; [apply civil_real|]. rewrite <- civil_step. replace (- Z.succ k + 1) with (- k) by lia. exact IH.
Qed.
Lemma day_number_real : forall n d, day_number n d -> real_date d.
Proof. intros n d H. apply day_number_civil in H. subst. apply civil_real. Qed.
