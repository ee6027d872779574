(** * Specification vocabulary for dates *)

From Verif Require Import GoBase SpecWords Timestamp.
Local Open Scope string_scope.
Local Open Scope Z_scope.

(** ** The calendar *)
Record date := { d_year : Z; d_month : Z; d_day : Z }.
Definition leap_year (y : Z) : bool :=
  if y mod 400 =? 0 then true else if y mod 100 =? 0 then false else y mod 4 =? 0.
Definition month_length (y m : Z) : Z :=
  match m with
  | 2 => if leap_year y then 29 else 28
  | 4 | 6 | 9 | 11 => 30
  | _ => 31
  end.
Definition real_date (d : date) : Prop :=
  1 <= d_month d <= 12 /\ 1 <= d_day d <= month_length (d_year d) (d_month d).
Definition next_day (d : date) : date :=
  if d_day d <? month_length (d_year d) (d_month d) then {| d_year := d_year d; d_month := d_month d; d_day := d_day d + 1 |}
  else if d_month d <? 12 then {| d_year := d_year d; d_month := d_month d + 1; d_day := 1 |}
  else {| d_year := d_year d + 1; d_month := 1; d_day := 1 |}.
(** Day 0 is 1 January 1970; days are counted forwards and backwards from it *)
Inductive day_number : Z -> date -> Prop :=
| day_epoch : day_number 0 {| d_year := 1970; d_month := 1; d_day := 1 |}
| day_after : forall n d, day_number n d -> day_number (n + 1) (next_day d)
| day_before : forall n d, real_date d -> day_number (n + 1) (next_day d) -> day_number n d.

(** ** Its texts *)
Definition month_name (m : Z) : string :=
  match m with
  | 1 => "Jan" | 2 => "Feb" | 3 => "Mar" | 4 => "Apr" | 5 => "May" | 6 => "Jun"
  | 7 => "Jul" | 8 => "Aug" | 9 => "Sep" | 10 => "Oct" | 11 => "Nov" | _ => "Dec"
  end.
(** Day 0 was a Thursday *)
Definition week_day (n : Z) : string :=
  match n mod 7 with
  | 0 => "Thu" | 1 => "Fri" | 2 => "Sat" | 3 => "Sun" | 4 => "Mon" | 5 => "Tue" | _ => "Wed"
  end.
(** A digit, and a number in two or three digits *)
Definition one (n : Z) : string := String (ascii_of_N (48 + Z.to_N n)) "".
Definition two (n : Z) : string := one (n / 10) ++ one (n mod 10).
Definition three (n : Z) : string := one (n / 100) ++ two (n mod 100).
(** A day in two columns *)
Definition day_text (d : Z) : string := if d <? 10 then " " ++ one d else two d.
(** A year: its digits, at least four of them (and no zero in front of more), after a
    minus sign if it is before year 0 *)
Definition year_text (y : Z) (s : string) : Prop :=
  exists l, decimal l (Z.to_N (Z.abs y)) /\ (4 <= length l)%nat /\
    ((4 < length l)%nat -> nth_error l 0 <> Some "0"%char) /\
    s = (if y <? 0 then "-" else "") ++ string_of l.

(** [text] is the UTC date and time of the instant [ns] nanoseconds after the start of
    1970, to the second or ([milli]) to the millisecond *)
Definition utc_text (milli : bool) (ns : Z) (text : string) : Prop :=
  exists d h m s y,
    day_number (ns / (86400 * 10 ^ 9)) d /\
    0 <= h < 24 /\ 0 <= m < 60 /\ 0 <= s < 60 /\
    ns / 10 ^ 9 = 86400 * (ns / (86400 * 10 ^ 9)) + 3600 * h + 60 * m + s /\
    year_text (d_year d) y /\
    text = week_day (ns / (86400 * 10 ^ 9)) ++ " " ++ month_name (d_month d) ++ " " ++ day_text (d_day d) ++ " " ++
           two h ++ ":" ++ two m ++ ":" ++ two s ++ (if milli then "." ++ three (ns / 10 ^ 6 mod 1000) else "") ++
           " " ++ y ++ " UTC".

(** ** The instant a timestamp holds, in nanoseconds after the start of 1970: 64-bit
    numbers count from 2^63 on as negative; type 5 counts from 2000 *)
Definition signed64 (n : N) : Z := if (n <? 2 ^ 63)%N then Z.of_N n else Z.of_N n - 2 ^ 64.
Definition instant (t : timestamp) : Z :=
  (signed64 (t_secs t) + (if (t_header t =? 5)%N then 946684800 else 0)) * 10 ^ 9 + signed64 (t_nsecs t).
(** The instants package time can write: their seconds fit int64 and they are not
    among the first 260 years of that range *)
Definition writable_instant (ns : Z) : Prop := - 9223372028715321600 <= ns / 10 ^ 9 < 2 ^ 63.
