(** * The share of a disk in use: the theorems *)

From Coq Require Import ZArith NArith Reals Lra Lia.
From Flocq Require Import Core IEEE754.BinarySingleNaN.
Require Import Flocq.Prop.Relative.
From Verif Require Import GoBase GoFacts Sarnet SarnetMain DiskUse.
Local Open Scope N_scope.

Notation fexp32 := (SpecFloat.fexp 24 128).
Notation rnd := (round radix2 fexp32 ZnearestE).
Local Instance p24 : Prec_gt_0 24 := prec_gt_0_24.
Local Instance p128 : Prec_lt_emax 24 128 := prec_lt_128.
Lemma fexp_is_FLT : forall e, fexp32 e = FLT_exp (-149) 24 e.
Proof. intros e. unfold SpecFloat.fexp, FLT_exp, SpecFloat.emin. reflexivity. Qed.
Local Open Scope R_scope.
Definition big : R := IZR (2 ^ 64).
Lemma big_pow : big = bpow radix2 64.
Proof. unfold big. rewrite <- IZR_Zpower by discriminate. reflexivity. Qed.
Local Instance vexp : Valid_exp fexp32 := fexp_correct 24 128 prec_gt_0_24.
Lemma round_bounds : forall x, 0 <= x <= big -> 0 <= rnd x <= big.
Proof.
  intros x [A B]. split.
  - rewrite <- (round_0 radix2 fexp32 ZnearestE). apply round_le; [exact vexp|apply valid_rnd_N|exact A].
  - rewrite <- (round_generic radix2 fexp32 ZnearestE big).
    + apply round_le; [exact vexp|apply valid_rnd_N|exact B].
    + rewrite big_pow. apply generic_format_bpow. vm_compute. discriminate.
Qed.
Lemma big_lt_emax : big < bpow radix2 128.
Proof. rewrite big_pow. apply bpow_lt. reflexivity. Qed.
Lemma f32_of_correct : forall n, (n < 2 ^ 64)%N -> B2R (f32_of n) = rnd (IZR (Z.of_N n)) /\ is_finite (f32_of n) = true.
Proof.
  intros n H. pose proof (binary_normalize_correct 24 128 prec_gt_0_24 prec_lt_128 mode_NE (Z.of_N n) 0 false) as C. cbv zeta in C.
  assert (FX : F2R (Float radix2 (Z.of_N n) 0) = IZR (Z.of_N n)). { unfold F2R. cbn [Fnum Fexp bpow]. lra. }
  rewrite FX in C. cbn [round_mode] in C.
  assert (BD : 0 <= IZR (Z.of_N n) <= big). { unfold big. split; apply IZR_le; lia. }
  pose proof (round_bounds _ BD) as R. pose proof big_lt_emax. rewrite Rlt_bool_true in C by (rewrite Rabs_pos_eq by lra; lra).
  destruct C as (A & B & _). auto.
Qed.
Definition ulp24 : R := / IZR (2 ^ 24).
Lemma relative : forall x, bpow radix2 (-126) <= Rabs x -> exists d, Rabs d <= ulp24 /\ rnd x = x * (1 + d).
Proof.
  intros x H. destruct (relative_error_N_FLT_ex radix2 (-149) 24 ltac:(reflexivity) (fun n => negb (Z.even n)) x) as (d & D & E).
  - replace (-149 + 24 - 1)%Z with (-126)%Z by reflexivity. exact H.
  - exists d. split.
    + eapply Rle_trans; [exact D|]. unfold ulp24. change (bpow radix2 (- (24) + 1)) with (/ IZR (2 ^ 23)). cbn [Z.pow Z.pow_pos Pos.iter Z.mul Pos.mul]. lra.
    + exact E.
Qed.
Lemma relative_int : forall n, (0 < n < 2 ^ 64)%N -> exists d, Rabs d <= ulp24 /\ rnd (IZR (Z.of_N n)) = IZR (Z.of_N n) * (1 + d).
Proof.
  intros n H. apply relative. assert (1 <= IZR (Z.of_N n)) by (apply IZR_le; lia). rewrite Rabs_pos_eq by lra.
  apply Rle_trans with 1; [|assumption]. change 1 with (bpow radix2 0). apply bpow_le. discriminate.
Qed.
Lemma div_correct : forall a b, (a <= b < 2 ^ 64)%N -> (0 < b)%N ->
  let q := f32_div (f32_of a) (f32_of b) in
  is_finite q = true /\ 0 <= B2R q <= 1 /\ B2R q = rnd (rnd (IZR (Z.of_N a)) / rnd (IZR (Z.of_N b))).
Proof.
  intros a b H P q. destruct (f32_of_correct a ltac:(lia)) as (EA & FA). destruct (f32_of_correct b ltac:(lia)) as (EB & FB).
  assert (PB : 1 <= rnd (IZR (Z.of_N b))).
  { rewrite <- (round_generic radix2 fexp32 ZnearestE 1); [apply round_le; [exact vexp|apply valid_rnd_N|apply IZR_le; lia]|]. change 1 with (bpow radix2 0). apply generic_format_bpow. vm_compute. discriminate. }
  assert (PA : 0 <= rnd (IZR (Z.of_N a)) <= rnd (IZR (Z.of_N b))).
  { split; [rewrite <- (round_0 radix2 fexp32 ZnearestE)|]; apply round_le; try exact vexp; try apply valid_rnd_N; apply IZR_le; lia. }
  set (x := rnd (IZR (Z.of_N a))) in *. set (y := rnd (IZR (Z.of_N b))) in *.
  assert (Q : 0 <= x / y <= 1). { split; [apply Rmult_le_pos; [lra|]; apply Rlt_le, Rinv_0_lt_compat; lra|]. apply Rmult_le_reg_r with y; [lra|]. unfold Rdiv. rewrite Rmult_assoc, Rinv_l by lra. lra. }
  assert (RQ : 0 <= rnd (x / y) <= 1).
  { split; [rewrite <- (round_0 radix2 fexp32 ZnearestE); apply round_le; [exact vexp|apply valid_rnd_N|lra]|].
    apply Rle_trans with (rnd 1); [apply round_le; [exact vexp|apply valid_rnd_N|lra]|]. apply Req_le, round_generic; [apply valid_rnd_N|]. change 1 with (bpow radix2 0). apply generic_format_bpow. vm_compute. discriminate. }
  pose proof (Bdiv_correct 24 128 prec_gt_0_24 prec_lt_128 mode_NE (f32_of a) (f32_of b) ltac:(rewrite EB; lra)) as C.
  rewrite EA, EB in C. fold x y in C. cbn [round_mode] in C. assert (1 < bpow radix2 128) by (change 1 with (bpow radix2 0); apply bpow_lt; reflexivity).
  rewrite Rlt_bool_true in C by (rewrite Rabs_pos_eq by lra; lra). destruct C as (C1 & C2 & _). unfold q, f32_div. rewrite C1, C2. auto.
Qed.
Lemma three_errors : forall r d1 d2 d3, 0 <= r -> Rabs d1 <= ulp24 -> Rabs d2 <= ulp24 -> Rabs d3 <= ulp24 ->
  Rabs (r * (1 + d1) / (1 + d2) * (1 + d3) - r) <= r * / IZR (2 ^ 22).
Proof.
  intros r d1 d2 d3 P A B C. unfold ulp24 in *. cbn [Z.pow Z.pow_pos Pos.iter Z.mul Pos.mul] in *.
  apply Rabs_le_inv in A, B, C. assert (K : 0 < 1 + d2) by lra.
  replace (r * (1 + d1) / (1 + d2) * (1 + d3) - r) with (r * (((1 + d1) * (1 + d3) - (1 + d2)) / (1 + d2))) by (field; lra).
  rewrite Rabs_mult, (Rabs_pos_eq r P). apply Rmult_le_compat_l; [exact P|].
  apply Rabs_le. split.
  - apply Rmult_le_reg_r with (1 + d2); [exact K|]. unfold Rdiv. rewrite Rmult_assoc, Rinv_l by lra. nra.
  - apply Rmult_le_reg_r with (1 + d2); [exact K|]. unfold Rdiv. rewrite Rmult_assoc, Rinv_l by lra. nra.
Qed.
Lemma quotient : forall a b, (a <= b < 2 ^ 64)%N -> (0 < b)%N ->
  let q := f32_div (f32_of a) (f32_of b) in let r := IZR (Z.of_N a) / IZR (Z.of_N b) in
  is_finite q = true /\ 0 <= B2R q <= 1 /\ Rabs (B2R q - r) <= r * / IZR (2 ^ 22).
Proof.
  intros a b H P q r. destruct (div_correct a b H P) as (F & B & E). fold q in F, B, E. split; [exact F|]. split; [exact B|].
  destruct (N.eq_dec a 0) as [->|NZ].
  - unfold r. rewrite E. cbn [Z.of_N]. rewrite round_0 by apply valid_rnd_N. unfold Rdiv. rewrite Rmult_0_l, round_0 by apply valid_rnd_N. rewrite Rmult_0_l, Rminus_0_r, Rabs_R0. lra.
  - destruct (relative_int a ltac:(lia)) as (d1 & D1 & E1). destruct (relative_int b ltac:(lia)) as (d2 & D2 & E2).
    assert (XA : 1 <= IZR (Z.of_N a)) by (apply IZR_le; lia). assert (XB : 1 <= IZR (Z.of_N b) <= big) by (unfold big; split; apply IZR_le; lia).
    pose proof (Rabs_le_inv _ _ D1) as I1. pose proof (Rabs_le_inv _ _ D2) as I2. unfold ulp24 in I1, I2. cbn [Z.pow Z.pow_pos Pos.iter Z.mul Pos.mul] in I1, I2.
    rewrite E1, E2 in E.
    assert (LOW : bpow radix2 (-126) <= Rabs (IZR (Z.of_N a) * (1 + d1) / (IZR (Z.of_N b) * (1 + d2)))).
    { rewrite Rabs_pos_eq by (apply Rmult_le_pos; [nra|apply Rlt_le, Rinv_0_lt_compat; nra]).
      apply Rle_trans with (/ IZR (2 ^ 66)).
      - change (/ IZR (2 ^ 66)) with (bpow radix2 (-66)). apply bpow_le. discriminate.
      - apply Rmult_le_reg_r with (IZR (Z.of_N b) * (1 + d2)); [nra|]. unfold Rdiv. rewrite Rmult_assoc, Rinv_l by nra. rewrite Rmult_1_r.
        unfold big in XB. cbn [Z.pow Z.pow_pos Pos.iter Z.mul Pos.mul] in *. nra. }
    destruct (relative _ LOW) as (d3 & D3 & E3). rewrite E3 in E. rewrite E.
    replace (IZR (Z.of_N a) * (1 + d1) / (IZR (Z.of_N b) * (1 + d2)) * (1 + d3)) with (r * (1 + d1) / (1 + d2) * (1 + d3)) by (unfold r; field; lra).
    apply three_errors; auto. unfold r. apply Rmult_le_pos; [lra|apply Rlt_le, Rinv_0_lt_compat; lra].
Qed.

(** C130: The share of a file system in use is between 0 and 1 and differs from the share of its blocks that are not free by
    less than one part in four millions. *)
Lemma c130_share : forall s, (0 < sf_bsize s < 2 ^ 63)%Z -> (0 < sf_blocks s)%N -> (sf_blocks s * Z.to_N (sf_bsize s) < 2 ^ 64)%N -> (sf_bfree s <= sf_blocks s)%N ->
  let share := (IZR (Z.of_N (sf_blocks s)) - IZR (Z.of_N (sf_bfree s))) / IZR (Z.of_N (sf_blocks s)) in
  is_finite (du_usage s) = true /\ 0 <= B2R (du_usage s) <= 1 /\ Rabs (B2R (du_usage s) - share) <= share / 4194304.
Proof.
  intros s B BP SZ FR share. destruct (c78_usage {| sf_bsize := sf_bsize s; sf_blocks := sf_blocks s; sf_bfree := sf_bfree s; sf_bavail := 0 |} ltac:(cbn [sf_bsize]; lia)) as (EX & _). cbn [sf_bsize sf_blocks sf_bfree sf_bavail] in EX.
  destruct (EX SZ FR ltac:(lia)) as (ES & _ & _ & EU). clear EX.
  change (du_size _) with (du_size s) in ES. change (du_used _) with (du_used s) in EU.
  set (b := Z.to_N (sf_bsize s)) in *. assert (0 < b)%N by (unfold b; lia).
  assert (P : (0 < du_size s)%N) by (rewrite ES; nia).
  destruct (quotient (du_used s) (du_size s)) as (F & Q & E); [rewrite ES, EU; split; [nia|exact SZ]|exact P|].
  fold (du_usage s) in F, Q, E. split; [exact F|]. split; [exact Q|].
  replace (IZR (Z.of_N (du_used s)) / IZR (Z.of_N (du_size s))) with share in E; [unfold Rdiv; exact E|].
  rewrite ES, EU. unfold share. rewrite !N2Z.inj_mul, N2Z.inj_sub by exact FR. rewrite !mult_IZR, minus_IZR.
  assert (1 <= IZR (Z.of_N b)) by (apply IZR_le; lia). assert (1 <= IZR (Z.of_N (sf_blocks s))) by (apply IZR_le; lia). field. lra.
Qed.
(** C130: If the file system cannot be asked, all sizes are 0 and the share in use is not a number (defect). *)
Lemma c130_failed : let s := new_disk_usage None in
  du_size s = 0%N /\ du_free s = 0%N /\ du_available s = 0%N /\ du_used s = 0%N /\ is_nan (du_usage s) = true.
Proof. vm_compute. auto. Qed.
(** C130: On Windows too, if the file system cannot be asked, all sizes are 0 and the share in use is not a number
    (defect). *)
Lemma c130_windows_failed : let u := win_disk_usage None in
  win_size u = 0%N /\ win_free u = 0%N /\ win_available u = 0%N /\ win_used u = 0%N /\ is_nan (win_usage u) = true.
Proof. vm_compute. auto. Qed.
(** C130: On Windows what is called free is what is available to the user, and what is called available is what is free
    (defect). *)
Lemma c130_windows : forall a, (wa_total a < 2 ^ 64)%N -> (wa_available a <= wa_free a)%N -> (wa_free a <= wa_total a)%N ->
  let u := win_disk_usage (Some a) in
  win_free u = wa_available a /\ win_available u = wa_free a /\ win_size u = wa_total a /\ win_used u = (wa_total a - wa_available a)%N /\
  (win_used u = (wa_total a - wa_free a)%N <-> wa_available a = wa_free a) /\
  ((0 < wa_total a)%N -> let share := (IZR (Z.of_N (wa_total a)) - IZR (Z.of_N (wa_available a))) / IZR (Z.of_N (wa_total a)) in
     is_finite (win_usage u) = true /\ 0 <= B2R (win_usage u) <= 1 /\ Rabs (B2R (win_usage u) - share) <= share / 4194304).
Proof.
  intros a T A F u. assert (U : win_used u = (wa_total a - wa_available a)%N).
  { unfold win_used, u, win_size, win_free. cbn [win_disk_usage wu_totalBytes wu_freeBytes]. unfold go_sub.
    replace (wa_total a + 2 ^ 64 - wa_available a)%N with ((wa_total a - wa_available a) + 1 * 2 ^ 64)%N by (change (2 ^ 64)%N with 18446744073709551616%N in *; lia).
    rewrite N.mod_add by discriminate. apply N.mod_small. change (2 ^ 64)%N with 18446744073709551616%N in *. lia. }
  split; [reflexivity|]. split; [reflexivity|]. split; [reflexivity|]. split; [exact U|]. split; [rewrite U; lia|].
  intros P share. destruct (quotient (win_used u) (win_size u)) as (X & Q & E); [rewrite U; change (win_size u) with (wa_total a); lia|exact P|].
  fold (win_usage u) in X, Q, E. split; [exact X|]. split; [exact Q|].
  replace (IZR (Z.of_N (win_used u)) / IZR (Z.of_N (win_size u))) with share in E; [unfold Rdiv; exact E|].
  rewrite U. change (win_size u) with (wa_total a). unfold share. rewrite N2Z.inj_sub by lia. rewrite minus_IZR. reflexivity.
Qed.
Example c130_share_ex : let s := {| sf_bsize := 4096; sf_blocks := 1000; sf_bfree := 250; sf_bavail := 200 |} in
  (sf_blocks s * Z.to_N (sf_bsize s) < 2 ^ 64)%N /\ (sf_bfree s <= sf_blocks s)%N /\ B2SF (du_usage s) = SpecFloat.S754_finite false 12582912 (-24).
Proof. split; [reflexivity|]. split; [discriminate|]. vm_compute. reflexivity. Qed.
Example c130_windows_ex : let a := {| wa_available := 10; wa_total := 1000; wa_free := 400 |} in
  win_used (win_disk_usage (Some a)) = 990%N /\ (wa_total a - wa_free a = 600)%N.
Proof. split; reflexivity. Qed.
