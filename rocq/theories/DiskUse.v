(** * Model of the rest of sarsys: the share of a disk in use, and disk usage on Windows *)

From Flocq Require Import Core IEEE754.BinarySingleNaN.
From Coq Require Import ZArith NArith.
From Verif Require Import GoBase Sarnet.
Local Open Scope N_scope.

(** float32 of Go is the binary32 format of IEEE 754, with rounding to nearest, ties to even
    (sarsys/sys_linux.go:49-51) *)
Definition f32 : Set := binary_float 24 128.
(** Auxiliary, no code: the precision of float32 (sarsys/sys_linux.go:49-51) is positive, as Flocq asks *)
Definition prec_gt_0_24 : Prec_gt_0 24 := eq_refl.
(** Auxiliary, no code: the precision of float32 (sarsys/sys_linux.go:49-51) is below the largest exponent, as Flocq
    asks *)
Definition prec_lt_128 : Prec_lt_emax 24 128 := eq_refl.
(** The conversion float32(n) of a uint64 (sarsys/sys_linux.go:49-51) *)
Definition f32_of (n : N) : f32 := binary_normalize 24 128 prec_gt_0_24 prec_lt_128 mode_NE (Z.of_N n) 0 false.
(** The quotient of two float32 (sarsys/sys_linux.go:49-51) *)
Definition f32_div (a b : f32) : f32 := @Bdiv 24 128 prec_gt_0_24 prec_lt_128 mode_NE a b.

(** sys_linux.go:49-51 Usage, sys_darwin.go:49-51 *)
Definition du_usage (s : statfs) : f32 := f32_div (f32_of (du_used s)) (f32_of (du_size s)).
(** sys_linux.go:21-26 NewDiskUsage, sys_darwin.go:21-26: an error of Statfs is ignored; [None] is an error *)
Definition new_disk_usage (answer : option statfs) : statfs :=
  match answer with
  | Some s => s
  | None => {| sf_bsize := 0; sf_blocks := 0; sf_bfree := 0; sf_bavail := 0 |}
  end.

(** sys_windows.go:15-19 DiskUsage; the numbers are int64 there and are only read as uint64 *)
Record wusage := { wu_freeBytes : N; wu_totalBytes : N; wu_availBytes : N }.
(** What GetDiskFreeSpaceExW stores through its second, third and fourth parameter, by the documentation of Windows:
    the bytes available to the caller, all bytes, all free bytes (sarsys/sys_windows.go:24-38) *)
Record wanswer := { wa_available : N; wa_total : N; wa_free : N }.
(** sys_windows.go:24-38 NewDiskUsage *)
Definition win_disk_usage (answer : option wanswer) : wusage :=
  match answer with
  | Some a => {| wu_freeBytes := wa_available a; wu_totalBytes := wa_total a; wu_availBytes := wa_free a |}
  | None => {| wu_freeBytes := 0; wu_totalBytes := 0; wu_availBytes := 0 |}
  end.
(** sys_windows.go:41-63 Free, Available, Size, Used, Usage *)
Definition win_free (u : wusage) : N := wu_freeBytes u.
(** sarsys/sys_windows.go:46-48 Available *)
Definition win_available (u : wusage) : N := wu_availBytes u.
(** sarsys/sys_windows.go:51-53 Size *)
Definition win_size (u : wusage) : N := wu_totalBytes u.
(** sarsys/sys_windows.go:56-58 Used *)
Definition win_used (u : wusage) : N := go_sub 64 (win_size u) (win_free u).
(** sarsys/sys_windows.go:61-63 Usage *)
Definition win_usage (u : wusage) : f32 := f32_div (f32_of (win_used u)) (f32_of (win_size u)).
