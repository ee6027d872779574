(** * Model of building frames while the clock moves

    Data.v and Status.v let all calls of time.Now() during one New return the same instant.  Here the clock may move from one flag of
    the text to the next: [clock i] is what it says while the flag number [i] is worked on. *)

From Verif Require Import GoBase Flags Config Shipped Timestamp Data Status.
Local Open Scope string_scope.
Local Open Scope N_scope.

(** data.go:64-99: the loop over the flags, from flag number [n] on; each flag asks for the time at most once (lines 85, 90) *)
Fixpoint data_flags_c (clock : nat -> gotime) (n : nat) (items : list string) (d : data) : outcome (data * error) :=
  match items with
  | [] => Ret (d, None)
  | it :: rest =>
      try d <- data_flags (clock n) [it] d;
      data_flags_c clock (S n) rest d
  end.
(** data.go:49-108 New; [info] is a non-nil *Dinfo *)
Definition data_new_c (clock : nat -> gotime) (d : data) (flags : string) (info : dinfo) : outcome (data * error) :=
  do h <- sf_set sar (d_header d) "version" "v1";
  do h <- sf_set sar h "frametype" "data";
  try d <- data_flags_c clock 0 (split_on "," (remove_spaces flags)) (d_set_header d h);
  Ret (d_fill d info, None).
(** status.go:74-104: the loop over the flags, from flag number [n] on (lines 88, 95 ask for the time) *)
Fixpoint status_flags_c (clock : nat -> gotime) (n : nat) (items : list string) (s : status) : outcome (status * error) :=
  match items with
  | [] => Ret (s, None)
  | it :: rest =>
      try s <- status_flags (clock n) [it] s;
      status_flags_c clock (S n) rest s
  end.
(** status.go:59-117 New *)
Definition status_new_c (clock : nat -> gotime) (s : status) (flags : string) (info : sinfo) : outcome (status * error) :=
  do h <- sf_set sar (s_header s) "version" "v1";
  do h <- sf_set sar h "frametype" "status";
  try s <- status_flags_c clock 0 (split_on "," (remove_spaces flags)) (s_set_header s h);
  Ret (s_fill s info, None).
