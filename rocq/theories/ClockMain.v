(** * Timestamps in words: the properties (proofs) *)

From Verif Require Import GoBase GoFacts Flags SpecFlags Config Shipped SpecWire SarFacts Timestamp SpecTime TimeMain Sarnet SarnetMain SpecWords Words WordsFacts TextFacts Clock SpecClock ClockFacts.
From Coq Require Import Zquot.
Local Open Scope string_scope.
Local Open Scope Z_scope.

(** ** The fields of the text *)
Fixpoint upto (k : nat) (P : Z -> bool) (i : Z) : bool := match k with O => true | S k => P i && upto k P (i + 1) end.
Lemma upto_all : forall k P i, upto k P i = true -> forall j, i <= j < i + Z.of_nat k -> P j = true.
Proof.
  induction k as [|k IH]; intros P i H j R; [lia|]. cbn [upto] in H. apply andb_prop in H. destruct H as [H1 H2].
  destruct (Z.eq_dec j i) as [->|N]; [exact H1|]. apply (IH P (i + 1)); [exact H2|lia].
Qed.
Lemma two_append : forall n, 0 <= n < 100 -> append_int n 2 = two n.
Proof. intros n H. apply String.eqb_eq. apply (upto_all 100 (fun n => String.eqb (append_int n 2) (two n)) 0); [vm_compute; reflexivity|lia]. Qed.
Lemma three_append : forall n, 0 <= n < 1000 -> append_int n 3 = three n.
Proof. intros n H. apply String.eqb_eq. apply (upto_all 1000 (fun n => String.eqb (append_int n 3) (three n)) 0); [vm_compute; reflexivity|lia]. Qed.
Lemma day_append : forall n, 1 <= n <= 31 -> (if n <? 10 then " " else "") ++ append_int n 0 = day_text n.
Proof. intros n H. apply String.eqb_eq. apply (upto_all 31 (fun n => String.eqb ((if n <? 10 then " " else "") ++ append_int n 0) (day_text n)) 1); [vm_compute; reflexivity|lia]. Qed.
Lemma month_append : forall m, 1 <= m <= 12 -> nth (Z.to_nat (m - 1)) short_month_names "" = month_name m.
Proof. intros n H. apply String.eqb_eq. apply (upto_all 12 (fun m => String.eqb (nth (Z.to_nat (m - 1)) short_month_names "") (month_name m)) 1); [vm_compute; reflexivity|lia]. Qed.
Lemma week_append : forall n, nth (Z.to_nat ((n + 4) mod 7)) short_day_names "" = week_day n.
Proof.
  intros n. unfold week_day. pose proof (Z.mod_pos_bound n 7 ltac:(lia)) as B.
  replace ((n + 4) mod 7) with ((n mod 7 + 4) mod 7) by (rewrite Zplus_mod_idemp_l; reflexivity).
  assert (C : n mod 7 = 0 \/ n mod 7 = 1 \/ n mod 7 = 2 \/ n mod 7 = 3 \/ n mod 7 = 4 \/ n mod 7 = 5 \/ n mod 7 = 6) by lia.
  destruct C as [C|[C|[C|[C|[C|[C|C]]]]]]; rewrite C; reflexivity.
Qed.
Lemma year_append : forall y, year_text y (append_int y 4).
Proof.
  intros y. unfold year_text, append_int. set (u := itoa (Z.to_N (Z.abs y))).
  exists (repeat "0"%char (4 - slen u) ++ bytes_of u)%list. split; [apply decimal_zeros, itoa_decimal|].
  rewrite app_length, repeat_length, bytes_of_length. split; [lia|]. split.
  - intros L F. replace (4 - slen u)%nat with 0%nat in F by lia. cbn [repeat app] in F.
    destruct (bytes_of u) as [|a l] eqn:E; [discriminate|]. injection F as ->. apply itoa_front in E. destruct E as [E ->].
    revert L. unfold u. rewrite E. vm_compute. lia.
  - f_equal. apply bytes_inj. rewrite bytes_of_app, !bytes_of_string_of. reflexivity.
Qed.

(** ** Instants *)
Lemma i64_mod : forall x, i64_of_Z x = (x + 2 ^ 63) mod 2 ^ 64 - 2 ^ 63.
Proof.
  intros x. unfold i64_of_Z, i64_of_N, u64_of_Z. change (2 ^ 64)%N with (Z.to_N (2 ^ 64)).
  pose proof (Z.mod_pos_bound x (2 ^ 64) ltac:(lia)) as B.
  rewrite <- Z2N.inj_mod by lia. rewrite Z.mod_mod by lia. rewrite Z2N.id by lia.
  destruct (N.ltb_spec (Z.to_N (x mod 2 ^ 64)) (2 ^ 63)); Z.div_mod_to_equations; lia.
Qed.
Lemma i64_add : forall x k, i64_of_Z (i64_of_Z x + k) = i64_of_Z (x + k).
Proof.
  intros x k. rewrite !i64_mod. f_equal. replace ((x + 2 ^ 63) mod 2 ^ 64 - 2 ^ 63 + k + 2 ^ 63) with ((x + 2 ^ 63) mod 2 ^ 64 + k) by lia.
  rewrite Zplus_mod_idemp_l. f_equal. lia.
Qed.
Lemma signed64_i64 : forall n, (n < 2 ^ 64)%N -> i64_of_N n = signed64 n /\ - 2 ^ 63 <= signed64 n < 2 ^ 63.
Proof.
  intros n H. unfold i64_of_N, signed64. rewrite N.mod_small by exact H. destruct (N.ltb_spec n (2 ^ 63)); split; lia.
Qed.
Lemma time_of_unix_spec : forall s nsec, let ns := s * 10 ^ 9 + nsec in
  - 2 ^ 63 <= ns / 10 ^ 9 < 2 ^ 63 ->
  time_of_unix (i64_of_Z s) nsec = {| unix_secs := ns / 10 ^ 9; unix_nanos := ns mod 10 ^ 9 |}.
Proof.
  intros s nsec ns R. unfold time_of_unix. change 1000000000 with (10 ^ 9) in *.
  assert (G : forall q r, nsec = q * 10 ^ 9 + r -> 0 <= r < 10 ^ 9 -> ns / 10 ^ 9 = s + q /\ ns mod 10 ^ 9 = r).
  { intros q r E B. split; [symmetry; apply Z.div_unique with r|symmetry; apply Z.mod_unique with (s + q)]; unfold ns; lia. }
  destruct (Z.ltb_spec nsec 0) as [L|L]; cbn [orb].
  - pose proof (Z.quot_rem' nsec (10 ^ 9)) as Q. pose proof (Zrem_lt_neg nsec (10 ^ 9) ltac:(lia) ltac:(lia)) as B.
    change (Z.abs (10 ^ 9)) with (10 ^ 9) in B. set (n := nsec ÷ 10 ^ 9) in *. set (r := Z.rem nsec (10 ^ 9)) in *.
    replace (nsec - n * 10 ^ 9) with r by lia.
    destruct (Z.ltb_spec r 0) as [M|M].
    + destruct (G (n - 1) (r + 10 ^ 9)) as [E1 E2]; [lia..|]. rewrite i64_add. replace (i64_of_Z (s + n) - 1) with (i64_of_Z (s + n) + (-1)) by lia.
      rewrite i64_add, i64_of_Z_small by lia. rewrite E1, E2. f_equal. lia.
    + destruct (G n r) as [E1 E2]; [lia..|]. rewrite i64_add, i64_of_Z_small by lia. rewrite E1, E2. reflexivity.
  - destruct (Z.leb_spec (10 ^ 9) nsec) as [L2|L2].
    + pose proof (Z.quot_rem' nsec (10 ^ 9)) as Q. pose proof (Z.rem_bound_pos nsec (10 ^ 9) ltac:(lia) ltac:(lia)) as B.
      set (n := nsec ÷ 10 ^ 9) in *. set (r := Z.rem nsec (10 ^ 9)) in *.
      replace (nsec - n * 10 ^ 9) with r by lia. destruct (Z.ltb_spec r 0) as [M|M]; [lia|].
      destruct (G n r) as [E1 E2]; [lia..|]. rewrite i64_add, i64_of_Z_small by lia. rewrite E1, E2. reflexivity.
    + destruct (G 0 nsec) as [E1 E2]; [lia..|]. rewrite i64_of_Z_small by lia. rewrite E1, E2. f_equal. lia.
Qed.

Lemma format_spec : forall milli ns, writable_instant ns ->
  utc_text milli ns (time_format milli {| unix_secs := ns / 10 ^ 9; unix_nanos := ns mod 10 ^ 9 |}).
Proof.
  intros milli ns W. unfold writable_instant in W. unfold time_format, abs_secs. cbn [unix_secs unix_nanos].
  set (sec := ns / 10 ^ 9) in *.
  assert (A : (sec + (62135596800 + 9223371966579724800)) mod 2 ^ 64 = sec + 86400 * zero_day).
  { rewrite Z.mod_small by lia. unfold zero_day. lia. }
  rewrite A.
  assert (DAY : (sec + 86400 * zero_day) / 86400 = sec / 86400 + zero_day) by (rewrite (Z.mul_comm 86400), Z.div_add by lia; reflexivity).
  assert (SEC : (sec + 86400 * zero_day) mod 86400 = sec mod 86400) by (rewrite (Z.mul_comm 86400), Z.mod_add by lia; reflexivity).
  assert (NS : ns / (86400 * 10 ^ 9) = sec / 86400) by (unfold sec; rewrite Z.div_div by lia; f_equal).
  rewrite DAY, SEC.
  assert (WD : abs_weekday (sec + 86400 * zero_day) = (sec / 86400 + 4) mod 7).
  { unfold abs_weekday. replace 604800 with (86400 * 7) by lia. rewrite Z.rem_mul_r by lia.
    replace (sec + 86400 * zero_day + 1 * 86400) with (sec + (zero_day + 1) * 86400) by lia.
    rewrite Z.mod_add, Z.div_add by lia. rewrite (Z.add_comm (sec mod 86400)), Z.mul_comm.
    rewrite Z.div_add_l by lia. rewrite (Z.div_small (sec mod 86400)) by (apply Z.mod_pos_bound; lia). rewrite Z.add_0_r.
    unfold zero_day. replace (sec / 86400 + (106751991073094 + 1)) with (sec / 86400 + 4 + 15250284439013 * 7) by lia.
    rewrite Z.mod_add by lia. reflexivity. }
  rewrite WD, week_append.
  destruct (abs_date (sec / 86400 + zero_day)) as [[y mo] da] eqn:E.
  assert (C : civil (sec / 86400) = {| d_year := y; d_month := mo; d_day := da |}) by (unfold civil; rewrite E; reflexivity).
  pose proof (civil_real (sec / 86400)) as R. rewrite C in R. destruct R as [RM RD]. cbn [d_year d_month d_day] in RM, RD.
  pose proof (length_range y mo) as LR.
  pose proof (Z.mod_pos_bound sec 86400 ltac:(lia)) as B.
  set (r := sec mod 86400) in *.
  exists {| d_year := y; d_month := mo; d_day := da |}, (r / 3600), (r mod 3600 / 60), (r mod 60), (append_int y 4).
  rewrite NS. cbn [d_year d_month d_day].
  split; [apply day_number_civil; symmetry; exact C|].
  split; [Z.div_mod_to_equations; lia|]. split; [Z.div_mod_to_equations; lia|]. split; [Z.div_mod_to_equations; lia|].
  split; [unfold r; clear; Z.div_mod_to_equations; lia|]. split; [apply year_append|].
  rewrite month_append by lia. f_equal. f_equal. f_equal. f_equal.
  rewrite <- append_assoc. rewrite day_append by lia. f_equal. f_equal.
  rewrite !two_append by (Z.div_mod_to_equations; lia). do 5 f_equal. f_equal.
  destruct milli; [|reflexivity]. f_equal. f_equal. change 1000000 with (10 ^ 6).
  rewrite three_append.
  - f_equal. change (10 ^ 9) with (10 ^ 6 * 1000). rewrite Z.rem_mul_r by lia. rewrite (Z.mul_comm (10 ^ 6) (_ mod 1000)), Z.div_add by lia.
    rewrite Z.div_small by (apply Z.mod_pos_bound; lia). reflexivity.
  - pose proof (Z.mod_pos_bound ns (10 ^ 9) ltac:(lia)). Z.div_mod_to_equations. lia.
Qed.

Ltac name_of H := rewrite H; match goal with |- context[opt_name ?o ?v] => let r := eval vm_compute in (opt_name o v) in change (opt_name o v) with r end; cbn [obind].

Lemma print_format : forall t L, (t_secs t < 2 ^ 64)%N -> (t_nsecs t < 2 ^ 64)%N ->
  ts_type (t_header t) = Some L -> writable_instant (instant t) ->
  ts_print t = Ret (time_format (0 <? tl_nanos L)%nat {| unix_secs := instant t / 10 ^ 9; unix_nanos := instant t mod 10 ^ 9 |}).
Proof.
  intros t L S N H W. unfold ts_print.
  destruct (signed64_i64 _ S) as [ES BS]. destruct (signed64_i64 _ N) as [EN BN].
  assert (P : forall s, instant t = s * 10 ^ 9 + signed64 (t_nsecs t) ->
    time_of_unix (i64_of_Z s) (signed64 (t_nsecs t)) = {| unix_secs := instant t / 10 ^ 9; unix_nanos := instant t mod 10 ^ 9 |}).
  { intros s E. rewrite (time_of_unix_spec s); [|rewrite <- E; unfold writable_instant in W; lia]. rewrite <- E. reflexivity. }
  assert (I : i64_of_N (t_secs t) = i64_of_Z (signed64 (t_secs t))) by (rewrite ES, i64_of_Z_small; lia).
  assert (E2K : i64_of_N (u64 (u64_of_Z epoch2k_unix + t_secs t)) = i64_of_Z (signed64 (t_secs t) + 946684800)).
  { change (u64_of_Z epoch2k_unix) with 946684800%N. unfold u64, wrap.
    assert (X : ((946684800 + t_secs t) mod 2 ^ 64)%N = u64_of_Z (signed64 (t_secs t) + 946684800)).
    { unfold u64_of_Z. rewrite <- (N2Z.id ((946684800 + t_secs t) mod 2 ^ 64)). f_equal. rewrite N2Z.inj_mod. change (Z.of_N (2 ^ 64)) with (2 ^ 64).
      unfold signed64. destruct (t_secs t <? 2 ^ 63)%N; [f_equal; lia|].
      replace (Z.of_N (t_secs t) - 2 ^ 64 + 946684800) with (Z.of_N (946684800 + t_secs t) + (-1) * 2 ^ 64) by lia.
      rewrite Z.mod_add by lia. reflexivity. }
    rewrite X. reflexivity. }
  rewrite st_getstr_eq by (destruct (ts_type_cases _ _ H) as [E|[E|[E|[E|E]]]]; rewrite E; reflexivity).
  destruct (ts_type_cases _ _ H) as [E|[E|[E|[E|E]]]]; rewrite E in H; injection H as <-; cbn [tl_nanos];
    name_of E; unfold one_of; cbn [existsb]; eval_eqbs; cbn [orb]; cbv iota; rewrite EN;
    first [rewrite I | rewrite E2K]; rewrite P by (unfold instant; rewrite E; cbn [N.eqb Pos.eqb]; lia); reflexivity.
Qed.

(** C102: a numeric timestamp prints as the date and time, in UTC, of the instant it
    holds: to the millisecond if it holds nanoseconds, to the second otherwise. *)
Lemma c102_print : forall t L, (t_secs t < 2 ^ 64)%N -> (t_nsecs t < 2 ^ 64)%N ->
  ts_type (t_header t) = Some L -> writable_instant (instant t) ->
  exists text, ts_print t = Ret text /\ utc_text (0 <? tl_nanos L)%nat (instant t) text.
Proof. intros t L S N H W. rewrite (print_format t L S N H W). eexists. split; [reflexivity|]. apply format_spec, W. Qed.
Example c102_print_ex :
  ts_print {| t_header := 3; t_secs := 1709210096; t_nsecs := 789000000; t_local := ""; t_ttype := "posix32_32" |}
    = Ret "Thu Feb 29 12:34:56.789 2024 UTC" /\
  ts_print {| t_header := 5; t_secs := 0; t_nsecs := 0; t_local := ""; t_ttype := "epoch2000_32" |} = Ret "Sat Jan  1 00:00:00 2000 UTC" /\
  ts_print {| t_header := 2; t_secs := 18446744011573954815; t_nsecs := 0; t_local := ""; t_ttype := "posix64" |} = Ret "Sun Dec 31 23:59:59 0000 UTC".
Proof. vm_compute. repeat split; reflexivity. Qed.
(** C102: a timestamp of type 0 prints as the text it holds, and any other type byte
    ends the process. *)
Lemma c102_other : forall t, (t_header t < 256)%N -> ts_type (t_header t) = None ->
  ts_print t = if (t_header t =? 0)%N then Ret (t_local t) else Fatal.
Proof.
  intros t B H. unfold ts_print. rewrite st_getstr_eq by exact B. destruct (N.eqb_spec (t_header t) 0) as [E|E].
  - rewrite E. reflexivity.
  - rewrite opt_name_tstamp_other; [reflexivity|]. destruct (N.le_gt_cases 6 (t_header t)) as [L|L]; [exact L|].
    assert (C : (t_header t = 1 \/ t_header t = 2 \/ t_header t = 3 \/ t_header t = 4 \/ t_header t = 5)%N) by lia.
    exfalso. destruct C as [C|[C|[C|[C|C]]]]; rewrite C in H; discriminate.
Qed.
Example c102_other_ex :
  ts_print {| t_header := 0; t_secs := 7; t_nsecs := 8; t_local := "noon"; t_ttype := "localinterp" |} = Ret "noon" /\
  ts_print {| t_header := 6; t_secs := 7; t_nsecs := 8; t_local := "noon"; t_ttype := "" |} = Fatal.
Proof. vm_compute. split; reflexivity. Qed.

(** C102: printing ends the process in no other case (this is what the models of the
    commands use) *)
Lemma c102_ends : forall t, (exists text, ts_print t = Ret text) <-> ts_print_ok t = Ret tt.
Proof.
  intros t. unfold ts_print, ts_print_ok. destruct (st_getstr sar (t_header t)) as [nm| |]; cbn [obind].
  - split; [reflexivity|intros _]. destruct (one_of nm _); [eauto|]. destruct (one_of nm _); [eauto|]. destruct (String.eqb nm _); eauto.
  - split; [intros (x & X); discriminate|discriminate].
  - split; [intros (x & X); discriminate|discriminate].
Qed.
Example c102_ends_ex : ts_print_ok {| t_header := 5; t_secs := 1; t_nsecs := 0; t_local := ""; t_ttype := "" |} = Ret tt.
Proof. vm_compute. reflexivity. Qed.

(** ** One text, one instant *)
Definition code (d : date) : Z := d_year d * 416 + d_month d * 32 + d_day d.
Lemma code_step : forall n, code (civil n) < code (civil (n + 1)).
Proof.
  intros n. rewrite civil_step. pose proof (civil_real n) as [M D]. unfold code, next_day. pose proof (length_range (d_year (civil n)) (d_month (civil n))).
  destruct (Z.ltb_spec (d_day (civil n)) (month_length (d_year (civil n)) (d_month (civil n)))); cbn [d_year d_month d_day]; [lia|].
  destruct (Z.ltb_spec (d_month (civil n)) 12); cbn [d_year d_month d_day]; lia.
Qed.
Lemma code_mono : forall n k, 0 <= k -> code (civil n) + k <= code (civil (n + k)).
Proof.
  intros n. apply natlike_ind; [replace (n + 0) with n by lia; lia|]. intros k P IH.
  replace (n + Z.succ k) with (n + k + 1) by lia. pose proof (code_step (n + k)). lia.
Qed.
Lemma civil_inj : forall n m, civil n = civil m -> n = m.
Proof.
  intros n m E. destruct (Z.lt_trichotomy n m) as [L|[L|L]]; [exfalso|exact L|exfalso].
  - pose proof (code_mono n (m - n) ltac:(lia)) as C. replace (n + (m - n)) with m in C by lia. rewrite E in C. lia.
  - pose proof (code_mono m (n - m) ltac:(lia)) as C. replace (m + (n - m)) with n in C by lia. rewrite E in C. lia.
Qed.
Lemma two_length : forall n, slen (two n) = 2%nat.
Proof. reflexivity. Qed.
Lemma three_length : forall n, slen (three n) = 3%nat.
Proof. reflexivity. Qed.
Lemma week_length : forall n, slen (week_day n) = 3%nat.
Proof. intros n. unfold week_day. destruct (n mod 7) as [|p|p]; [reflexivity| |reflexivity]. do 3 (destruct p as [p|p|]; try reflexivity). Qed.
Lemma month_len : forall n, slen (month_name n) = 3%nat.
Proof. intros n. unfold month_name. destruct n as [|p|p]; [reflexivity| |reflexivity]. do 4 (destruct p as [p|p|]; try reflexivity). Qed.
Lemma day_length : forall n, slen (day_text n) = 2%nat.
Proof. intros n. unfold day_text. destruct (n <? 10); reflexivity. Qed.
Fixpoint pairs (k : nat) (f : Z -> string) (i : Z) (j : Z) (l : nat) : bool :=
  match k with O => true | S k => upto l (fun b => implb (String.eqb (f i) (f b)) (i =? b)) j && pairs k f (i + 1) j l end.
Lemma pairs_all : forall k f i j l, pairs k f i j l = true ->
  forall a b, i <= a < i + Z.of_nat k -> j <= b < j + Z.of_nat l -> f a = f b -> a = b.
Proof.
  induction k as [|k IH]; intros f i j l H a b A B E; [lia|]. cbn [pairs] in H. apply andb_prop in H. destruct H as [H1 H2].
  destruct (Z.eq_dec a i) as [->|N]; [|apply (IH f (i + 1) j l); auto; lia].
  pose proof (upto_all _ _ _ H1 b B) as X. cbv beta in X. rewrite E, String.eqb_refl in X. cbn [implb] in X. apply Z.eqb_eq, X.
Qed.
Lemma two_inj : forall a b, 0 <= a < 60 -> 0 <= b < 60 -> two a = two b -> a = b.
Proof. intros a b A B. apply (pairs_all 60 two 0 0 60); [vm_compute; reflexivity|lia..]. Qed.
Lemma three_inj : forall a b, 0 <= a < 1000 -> 0 <= b < 1000 -> three a = three b -> a = b.
Proof.
  intros a b A B E. unfold three in E. apply append_inj in E; [|reflexivity]. destruct E as [E1 E2].
  assert (H : forall x y, 0 <= x < 10 -> 0 <= y < 10 -> one x = one y -> x = y) by (intros x y X Y; apply (pairs_all 10 one 0 0 10); [vm_compute; reflexivity|lia..]).
  unfold two in E2. apply append_inj in E2; [|reflexivity]. destruct E2 as [E2 E3].
  apply H in E1, E2, E3; Z.div_mod_to_equations; lia.
Qed.
Lemma month_inj : forall a b, 1 <= a <= 12 -> 1 <= b <= 12 -> month_name a = month_name b -> a = b.
Proof. intros a b A B. apply (pairs_all 12 month_name 1 1 12); [vm_compute; reflexivity|lia..]. Qed.
Lemma day_inj : forall a b, 1 <= a <= 31 -> 1 <= b <= 31 -> day_text a = day_text b -> a = b.
Proof. intros a b A B. apply (pairs_all 31 day_text 1 1 31); [vm_compute; reflexivity|lia..]. Qed.
Lemma year_inj : forall a b s, year_text a s -> year_text b s -> a = b.
Proof.
  assert (G : forall l n, decimal l n -> nth_error l 0 <> Some "-"%char).
  { intros l n D. apply digits_decimal in D. destruct l as [|c l]; [discriminate|]. intros X. injection X as ->. discriminate. }
  assert (K : forall x l y m, string_of l = String x (string_of y) -> m = l -> nth_error m 0 = Some x) by (intros x l y m E ->; destruct l; [discriminate|injection E as -> _; reflexivity]).
  intros a b s (la & A1 & _ & _ & A2) (lb & B1 & _ & _ & B2). subst s.
  destruct (Z.ltb_spec a 0) as [SA|SA]; destruct (Z.ltb_spec b 0) as [SB|SB]; cbn [append] in B2.
  - injection B2 as B2. apply (f_equal bytes_of) in B2. rewrite !bytes_of_string_of in B2. subst. pose proof (decimal_fun _ _ _ A1 B1). lia.
  - exfalso. apply (G _ _ B1). eapply K; [symmetry; exact B2|reflexivity].
  - exfalso. apply (G _ _ A1). eapply K; [exact B2|reflexivity].
  - apply (f_equal bytes_of) in B2. rewrite !bytes_of_string_of in B2. subst. pose proof (decimal_fun _ _ _ A1 B1). lia.
Qed.

Lemma utc_text_unit : forall milli ns ms text, utc_text milli ns text -> utc_text milli ms text ->
  ns / (if milli then 10 ^ 6 else 10 ^ 9) = ms / (if milli then 10 ^ 6 else 10 ^ 9).
Proof.
  intros milli ns ms text (d & h & m & s & y & D & H & M & S & E & Y & T) (d' & h' & m' & s' & y' & D' & H' & M' & S' & E' & Y' & T').
  rewrite T in T'. clear T.
  pose proof (day_number_real _ _ D) as [R1 R2]. pose proof (day_number_real _ _ D') as [R1' R2'].
  pose proof (length_range (d_year d) (d_month d)). pose proof (length_range (d_year d') (d_month d')).
  apply append_inj in T'; [|rewrite !week_length; reflexivity]. destruct T' as [_ T]. apply append_inj in T; [|reflexivity]. destruct T as [_ T].
  apply append_inj in T; [|rewrite !month_len; reflexivity]. destruct T as [TM T]. apply append_inj in T; [|reflexivity]. destruct T as [_ T].
  apply append_inj in T; [|rewrite !day_length; reflexivity]. destruct T as [TD T]. apply append_inj in T; [|reflexivity]. destruct T as [_ T].
  apply append_inj in T; [|reflexivity]. destruct T as [Th T]. apply append_inj in T; [|reflexivity]. destruct T as [_ T].
  apply append_inj in T; [|reflexivity]. destruct T as [Tm T]. apply append_inj in T; [|reflexivity]. destruct T as [_ T].
  apply append_inj in T; [|reflexivity]. destruct T as [Ts T].
  apply append_inj in T; [|destruct milli; reflexivity]. destruct T as [Tf T]. apply append_inj in T; [|reflexivity]. destruct T as [_ T].
  apply append_inj_r in T. subst y'. pose proof (year_inj _ _ _ Y Y') as YE.
  apply month_inj in TM; [|lia..]. apply day_inj in TD; [|lia..]. apply two_inj in Th; [|lia..]. apply two_inj in Tm; [|lia..]. apply two_inj in Ts; [|lia..].
  assert (DE : d = d') by (destruct d as [y1 m1 d1], d' as [y2 m2 d2]; cbn [SpecClock.d_year SpecClock.d_month SpecClock.d_day] in *; congruence). subst d'.
  apply day_number_civil in D, D'. rewrite D in D'. apply civil_inj in D'. rewrite <- D' in E'. subst h' m' s'.
  assert (SS : ns / 10 ^ 9 = ms / 10 ^ 9) by lia. destruct milli; [|exact SS].
  apply append_inj in Tf; [|reflexivity]. destruct Tf as [_ Tf].
  apply three_inj in Tf; [|apply Z.mod_pos_bound; lia..].
  assert (Q : forall x, x / 10 ^ 9 = x / 10 ^ 6 / 1000) by (intros x; rewrite Z.div_div by lia; f_equal).
  rewrite !Q in SS. rewrite (Z.div_mod (ns / 10 ^ 6) 1000), (Z.div_mod (ms / 10 ^ 6) 1000) by lia. rewrite SS, Tf. reflexivity.
Qed.
Lemma format_unit : forall (milli : bool) ns ms, ns / (if milli then 10 ^ 6 else 10 ^ 9) = ms / (if milli then 10 ^ 6 else 10 ^ 9) ->
  time_format milli {| unix_secs := ns / 10 ^ 9; unix_nanos := ns mod 10 ^ 9 |} = time_format milli {| unix_secs := ms / 10 ^ 9; unix_nanos := ms mod 10 ^ 9 |}.
Proof.
  intros milli ns ms U.
  assert (Q : forall x, x / 10 ^ 9 = x / 10 ^ 6 / 1000) by (intros x; rewrite Z.div_div by lia; f_equal).
  assert (SS : ns / 10 ^ 9 = ms / 10 ^ 9) by (destruct milli; [rewrite !Q, U; reflexivity|exact U]).
  unfold time_format, abs_secs. cbn [unix_secs unix_nanos]. rewrite SS. destruct milli; [|reflexivity].
  replace (ns mod 10 ^ 9 / 1000000) with (ms mod 10 ^ 9 / 1000000); [reflexivity|].
  assert (F : forall x, x mod 10 ^ 9 / 1000000 = x / 10 ^ 6 mod 1000); [|rewrite !F, U; reflexivity].
  intros x. change 1000000 with (10 ^ 6). change (10 ^ 9) with (10 ^ 6 * 1000). rewrite Z.rem_mul_r by lia.
  rewrite (Z.mul_comm (10 ^ 6) (_ mod 1000)), Z.div_add by lia. rewrite Z.div_small by (apply Z.mod_pos_bound; lia). reflexivity.
Qed.

(** C102: two numeric timestamps of the same precision print the same text exactly
    when they hold the same second (or, with nanoseconds, the same millisecond). *)
Lemma c102_same : forall t t' L L', (t_secs t < 2 ^ 64)%N -> (t_nsecs t < 2 ^ 64)%N -> (t_secs t' < 2 ^ 64)%N -> (t_nsecs t' < 2 ^ 64)%N ->
  ts_type (t_header t) = Some L -> ts_type (t_header t') = Some L' -> (0 <? tl_nanos L)%nat = (0 <? tl_nanos L')%nat ->
  writable_instant (instant t) -> writable_instant (instant t') ->
  (ts_print t = ts_print t' <->
   instant t / (if (0 <? tl_nanos L)%nat then 10 ^ 6 else 10 ^ 9) = instant t' / (if (0 <? tl_nanos L)%nat then 10 ^ 6 else 10 ^ 9)).
Proof.
  intros t t' L L' S N S' N' H H' P W W'. rewrite (print_format t L S N H W), (print_format t' L' S' N' H' W'), <- P. split.
  - pose proof (format_spec (0 <? tl_nanos L)%nat _ W) as F. pose proof (format_spec (0 <? tl_nanos L)%nat _ W') as F'.
    intros E. assert (R : forall (a b : string), Ret a = Ret b -> a = b) by (intros a b X; injection X; auto). apply R in E.
    rewrite E in F. exact (utc_text_unit _ _ _ _ F F').
  - intros E. f_equal. apply format_unit, E.
Qed.
Example c102_same_ex :
  let t1 := {| t_header := 3; t_secs := 1; t_nsecs := 999999999; t_local := ""; t_ttype := "" |} in
  let t2 := {| t_header := 4; t_secs := 0; t_nsecs := 1999000000; t_local := ""; t_ttype := "" |} in
  ts_print t1 = Ret "Thu Jan  1 00:00:01.999 1970 UTC" /\ ts_print t2 = ts_print t1.
Proof. vm_compute. split; reflexivity. Qed.
