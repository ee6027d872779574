(** * Model of how package time writes an instant, and of timestamp.Print

    The parts of Go's package time used by timestamp/timestamp.go:177-197: Unix, UTC
    and Format with the two layouts of that function.  int64 and uint64 are [Z] with
    the wrap-around written where it can happen. *)

From Verif Require Import GoBase Flags Config Shipped Timestamp Sarnet.
Local Open Scope string_scope.
Local Open Scope Z_scope.

(** time.Unix(sec, nsec) (package time, time.go Unix), both int64 (called in timestamp/timestamp.go:177-197 Print) *)
Definition time_of_unix (sec nsec : Z) : gotime :=
  if (nsec <? 0) || (1000000000 <=? nsec) then
    let n := Z.quot nsec 1000000000 in
    let sec := i64_of_Z (sec + n) in
    let nsec := nsec - n * 1000000000 in
    if nsec <? 0 then {| unix_secs := i64_of_Z (sec - 1); unix_nanos := nsec + 1000000000 |}
    else {| unix_secs := sec; unix_nanos := nsec |}
  else {| unix_secs := sec; unix_nanos := nsec |}.

(** time.Time.abs of a time in UTC: seconds since the start of the year
    [absolute_zero_year], as uint64 (unixToInternal + internalToAbsolute are added)
    (package time, for timestamp/timestamp.go:177-197 Print and beacon.go:280-302) *)
Definition absolute_zero_year : Z := -292277022399.
(** Time.Time.abs (package time, for timestamp/timestamp.go:177-197 Print) *)
Definition abs_secs (t : gotime) : Z := (unix_secs t + (62135596800 + 9223371966579724800)) mod 2 ^ 64.

(** package time: isLeap (for timestamp/timestamp.go:177-197 Print) *)
Definition is_leap (year : Z) : bool := (year mod 4 =? 0) && (negb (year mod 100 =? 0) || (year mod 400 =? 0)).
(** package time: daysBefore (for timestamp/timestamp.go:177-197 Print) *)
Definition days_before : list Z := [0; 31; 59; 90; 120; 151; 181; 212; 243; 273; 304; 334; 365].
(** The table daysBefore of package time (for timestamp/timestamp.go:177-197 Print) *)
Definition days_before_at (m : Z) : Z := nth (Z.to_nat m) days_before 0.

(** package time: absDate, the part giving the year and the day of it, for a number
    of days since the start of [absolute_zero_year] (for timestamp/timestamp.go:177-197 Print) *)
Definition abs_year (d : Z) : Z * Z :=
  let n := d / 146097 in
  let y := 400 * n in
  let d := d - 146097 * n in
  let n := d / 36524 in
  let n := n - Z.shiftr n 2 in
  let y := y + 100 * n in
  let d := d - 36524 * n in
  let n := d / 1461 in
  let y := y + 4 * n in
  let d := d - 1461 * n in
  let n := d / 365 in
  let n := n - Z.shiftr n 2 in
  let y := y + n in
  let d := d - 365 * n in
  (y + absolute_zero_year, d).
(** package time: absDate, the part giving the month and the day of it (for timestamp/timestamp.go:177-197 Print) *)
Definition month_day (year yday : Z) : Z * Z :=
  if is_leap year && (yday =? 31 + 29 - 1) then (2, 29)
  else
    let day := if is_leap year && (31 + 29 - 1 <? yday) then yday - 1 else yday in
    let m := day / 31 in
    let e := days_before_at (m + 1) in
    if e <=? day then (m + 2, day - e + 1) else (m + 1, day - days_before_at m + 1).
(** package time: absDate (for timestamp/timestamp.go:177-197 Print) *)
Definition abs_date (d : Z) : Z * Z * Z :=
  let (year, yday) := abs_year d in
  let (month, day) := month_day year yday in (year, month, day).
(** package time: absWeekday, 0 is Sunday (1 January of [absolute_zero_year] is a Monday)
    (for timestamp/timestamp.go:177-197 Print) *)
Definition abs_weekday (abs : Z) : Z := ((abs + 1 * 86400) mod 604800) / 86400.

(** package time: format.go appendInt on int (for timestamp/timestamp.go:177-197 Print) *)
Definition append_int (x : Z) (width : nat) : string :=
  let u := itoa (Z.to_N (Z.abs x)) in
  (if x <? 0 then "-" else "") ++ string_of (repeat "0"%char (width - slen u)) ++ u.

(** package time: shortDayNames, shortMonthNames (for timestamp/timestamp.go:177-197 Print) *)
Definition short_day_names : list string := ["Sun"; "Mon"; "Tue"; "Wed"; "Thu"; "Fri"; "Sat"].
(** The table shortMonthNames of package time (for timestamp/timestamp.go:177-197 Print) *)
Definition short_month_names : list string :=
  ["Jan"; "Feb"; "Mar"; "Apr"; "May"; "Jun"; "Jul"; "Aug"; "Sep"; "Oct"; "Nov"; "Dec"].

(** t.UTC().Format("Mon Jan _2 15:04:05 2006 UTC"), or with [milli] the layout
    "Mon Jan _2 15:04:05.000 2006 UTC" (called in timestamp/timestamp.go:177-197 Print) *)
Definition time_format (milli : bool) (t : gotime) : string :=
  let abs := abs_secs t in
  let '(year, month, day) := abs_date (abs / 86400) in
  let sec := abs mod 86400 in
  nth (Z.to_nat (abs_weekday abs)) short_day_names "" ++ " " ++
  nth (Z.to_nat (month - 1)) short_month_names "" ++ " " ++
  (if day <? 10 then " " else "") ++ append_int day 0 ++ " " ++
  append_int (sec / 3600) 2 ++ ":" ++
  append_int (sec mod 3600 / 60) 2 ++ ":" ++
  append_int (sec mod 60) 2 ++
  (if milli then "." ++ append_int (unix_nanos t / 1000000) 3 else "") ++ " " ++
  append_int year 4 ++ " UTC".

(** timestamp.go:177-197 Print *)
Definition ts_print (t : timestamp) : outcome string :=
  do nm <- st_getstr sar (t_header t);
  if one_of nm ["posix32"; "posix64"] then
    Ret (time_format false (time_of_unix (i64_of_N (t_secs t)) (i64_of_N (t_nsecs t))))
  else if one_of nm ["posix32_32"; "posix64_32"] then
    Ret (time_format true (time_of_unix (i64_of_N (t_secs t)) (i64_of_N (t_nsecs t))))
  else if String.eqb nm "epoch2000_32" then
    let ut := u64 (u64_of_Z epoch2k_unix + t_secs t) in
    Ret (time_format false (time_of_unix (i64_of_N ut) (i64_of_N (t_nsecs t))))
  else Ret (t_local t).
