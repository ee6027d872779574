(** * DiskUse: the properties

    Statements only; the proofs are in DiskUseMain.v. *)
From Verif Require Import GoBase GoFacts Sarnet SarnetMain DiskUse DiskUseMain.
From Coq Require Import ZArith NArith Reals Lra Lia.
From Flocq Require Import Core IEEE754.BinarySingleNaN.
Local Open Scope N_scope.
Local Open Scope R_scope.

(** C130: The share of a file system in use is between 0 and 1 and differs from the share of its blocks that are not free by
    less than one part in four millions. *)
Theorem C130_share : forall s, (0 < sf_bsize s < 2 ^ 63)%Z -> (0 < sf_blocks s)%N -> (sf_blocks s * Z.to_N (sf_bsize s) < 2 ^ 64)%N -> (sf_bfree s <= sf_blocks s)%N ->
  let share := (IZR (Z.of_N (sf_blocks s)) - IZR (Z.of_N (sf_bfree s))) / IZR (Z.of_N (sf_blocks s)) in
  is_finite (du_usage s) = true /\ 0 <= B2R (du_usage s) <= 1 /\ Rabs (B2R (du_usage s) - share) <= share / 4194304.
Proof. exact c130_share. Qed.
Print Assumptions C130_share.

(** C130: If the file system cannot be asked, all sizes are 0 and the share in use is not a number (defect). *)
Theorem C130_failed : let s := new_disk_usage None in
  du_size s = 0%N /\ du_free s = 0%N /\ du_available s = 0%N /\ du_used s = 0%N /\ is_nan (du_usage s) = true.
Proof. exact c130_failed. Qed.
Print Assumptions C130_failed.

(** C130: On Windows too, if the file system cannot be asked, all sizes are 0 and the share in use is not a number
    (defect). *)
Theorem C130_windows_failed : let u := win_disk_usage None in
  win_size u = 0%N /\ win_free u = 0%N /\ win_available u = 0%N /\ win_used u = 0%N /\ is_nan (win_usage u) = true.
Proof. exact c130_windows_failed. Qed.
Print Assumptions C130_windows_failed.

(** C130: On Windows what is called free is what is available to the user, and what is called available is what is free
    (defect). *)
Theorem C130_windows : forall a, (wa_total a < 2 ^ 64)%N -> (wa_available a <= wa_free a)%N -> (wa_free a <= wa_total a)%N ->
  let u := win_disk_usage (Some a) in
  win_free u = wa_available a /\ win_available u = wa_free a /\ win_size u = wa_total a /\ win_used u = (wa_total a - wa_available a)%N /\
  (win_used u = (wa_total a - wa_free a)%N <-> wa_available a = wa_free a) /\
  ((0 < wa_total a)%N -> let share := (IZR (Z.of_N (wa_total a)) - IZR (Z.of_N (wa_available a))) / IZR (Z.of_N (wa_total a)) in
     is_finite (win_usage u) = true /\ 0 <= B2R (win_usage u) <= 1 /\ Rabs (B2R (win_usage u) - share) <= share / 4194304).
Proof. exact c130_windows. Qed.
Print Assumptions C130_windows.
Example C130_share_ex : let s := {| sf_bsize := 4096; sf_blocks := 1000; sf_bfree := 250; sf_bavail := 200 |} in
  (sf_blocks s * Z.to_N (sf_bsize s) < 2 ^ 64)%N /\ (sf_bfree s <= sf_blocks s)%N /\ B2SF (du_usage s) = SpecFloat.S754_finite false 12582912 (-24).
Proof. exact c130_share_ex. Qed.
Example C130_windows_ex : let a := {| wa_available := 10; wa_total := 1000; wa_free := 400 |} in
  win_used (win_disk_usage (Some a)) = 990%N /\ (wa_total a - wa_free a = 600)%N.
Proof. exact c130_windows_ex. Qed.
