(** * Clock: the properties

    Statements only; the proofs are in ClockMain.v. *)
From Verif Require Import GoBase GoFacts Flags SpecFlags Config Shipped SpecWire SarFacts Timestamp SpecTime TimeMain Sarnet SarnetMain SpecWords Words WordsFacts TextFacts Clock SpecClock ClockFacts ClockMain.
From Coq Require Import Zquot.
Local Open Scope string_scope.
Local Open Scope Z_scope.

(** C102: a numeric timestamp prints as the date and time, in UTC, of the instant it
    holds: to the millisecond if it holds nanoseconds, to the second otherwise. *)
Theorem C102_print : forall t L, (t_secs t < 2 ^ 64)%N -> (t_nsecs t < 2 ^ 64)%N ->
  ts_type (t_header t) = Some L -> writable_instant (instant t) ->
  exists text, ts_print t = Ret text /\ utc_text (0 <? tl_nanos L)%nat (instant t) text.
Proof. exact c102_print. Qed.
Print Assumptions C102_print.
Example C102_print_ex :
  ts_print {| t_header := 3; t_secs := 1709210096; t_nsecs := 789000000; t_local := ""; t_ttype := "posix32_32" |}
    = Ret "Thu Feb 29 12:34:56.789 2024 UTC" /\
  ts_print {| t_header := 5; t_secs := 0; t_nsecs := 0; t_local := ""; t_ttype := "epoch2000_32" |} = Ret "Sat Jan  1 00:00:00 2000 UTC" /\
  ts_print {| t_header := 2; t_secs := 18446744011573954815; t_nsecs := 0; t_local := ""; t_ttype := "posix64" |} = Ret "Sun Dec 31 23:59:59 0000 UTC".
Proof. exact c102_print_ex. Qed.

(** C102: a timestamp of type 0 prints as the text it holds, and any other type byte
    ends the process. *)
Theorem C102_other : forall t, (t_header t < 256)%N -> ts_type (t_header t) = None ->
  ts_print t = if (t_header t =? 0)%N then Ret (t_local t) else Fatal.
Proof. exact c102_other. Qed.
Print Assumptions C102_other.
Example C102_other_ex :
  ts_print {| t_header := 0; t_secs := 7; t_nsecs := 8; t_local := "noon"; t_ttype := "localinterp" |} = Ret "noon" /\
  ts_print {| t_header := 6; t_secs := 7; t_nsecs := 8; t_local := "noon"; t_ttype := "" |} = Fatal.
Proof. exact c102_other_ex. Qed.

(** C102: printing ends the process in no other case (this is what the models of the
    commands use) *)
Theorem C102_ends : forall t, (exists text, ts_print t = Ret text) <-> ts_print_ok t = Ret tt.
Proof. exact c102_ends. Qed.
Print Assumptions C102_ends.
Example C102_ends_ex : ts_print_ok {| t_header := 5; t_secs := 1; t_nsecs := 0; t_local := ""; t_ttype := "" |} = Ret tt.
Proof. exact c102_ends_ex. Qed.

(** C102: two numeric timestamps of the same precision print the same text exactly
    when they hold the same second (or, with nanoseconds, the same millisecond). *)
Theorem C102_same : forall t t' L L', (t_secs t < 2 ^ 64)%N -> (t_nsecs t < 2 ^ 64)%N -> (t_secs t' < 2 ^ 64)%N -> (t_nsecs t' < 2 ^ 64)%N ->
  ts_type (t_header t) = Some L -> ts_type (t_header t') = Some L' -> (0 <? tl_nanos L)%nat = (0 <? tl_nanos L')%nat ->
  writable_instant (instant t) -> writable_instant (instant t') ->
  (ts_print t = ts_print t' <->
   instant t / (if (0 <? tl_nanos L)%nat then 10 ^ 6 else 10 ^ 9) = instant t' / (if (0 <? tl_nanos L)%nat then 10 ^ 6 else 10 ^ 9)).
Proof. exact c102_same. Qed.
Print Assumptions C102_same.
Example C102_same_ex :
  let t1 := {| t_header := 3; t_secs := 1; t_nsecs := 999999999; t_local := ""; t_ttype := "" |} in
  let t2 := {| t_header := 4; t_secs := 0; t_nsecs := 1999000000; t_local := ""; t_ttype := "" |} in
  ts_print t1 = Ret "Thu Jan  1 00:00:01.999 1970 UTC" /\ ts_print t2 = ts_print t1.
Proof. exact c102_same_ex. Qed.
