(** * Model of timestamp/timestamp.go *)

From Verif Require Import GoBase Flags Config Shipped.
Local Open Scope string_scope.
Local Open Scope N_scope.

(** timestamp.go:15-21 Timestamp *)
Record timestamp := {
  t_header : N;      (* uint8 *)
  t_secs : N;        (* uint64 *)
  t_nsecs : N;       (* uint64 *)
  t_local : string;
  t_ttype : string
}.
(** timestamp/timestamp.go:15-21: the zero value of a Timestamp *)
Definition zero_timestamp : timestamp :=
  {| t_header := 0; t_secs := 0; t_nsecs := 0; t_local := ""; t_ttype := "" |}.

(** sarflags.go:166-171 *)
Definition MaxUint16 : N := 65535.
(** sarflags/sarflags.go:166-171 MaxUint32 *)
Definition MaxUint32 : N := 4294967295.
(** sarflags/sarflags.go:166-171 MaxUint64 *)
Definition MaxUint64 : N := 18446744073709551615.
(** sarflags/sarflags.go:166-171 MaxInt64 *)
Definition MaxInt64 : N := 9223372036854775807.

(** timestamp.go:72-74, 188-189: time.Parse(RFC3339, "2000-01-01T00:00:00Z").Unix() *)
Definition epoch2k_unix : Z := 946684800.

(** timestamp.go:25-87 New.  The receiver is returned as it is on return, also
    when an error is returned after it has been partly written. *)
Definition ts_new (t : timestamp) (flag0 : string) (ts : gotime) : outcome (timestamp * error) :=
  let flag := remove_spaces flag0 in
  do header <- st_set sar 0 flag;
  let t := {| t_header := header; t_secs := t_secs t; t_nsecs := t_nsecs t;
              t_local := t_local t; t_ttype := t_ttype t |} in
  if String.eqb flag "posix32" then
    let secs := u64_of_Z (time_Unix ts) in
    if MaxUint32 <? secs
    then Ret ({| t_header := header; t_secs := secs; t_nsecs := t_nsecs t; t_local := t_local t; t_ttype := flag |},
              Some "posix32:Seconds exceed 32 bits")
    else Ret ({| t_header := header; t_secs := secs; t_nsecs := 0; t_local := ""; t_ttype := flag |}, None)
  else if String.eqb flag "posix64" then
    let secs := u64_of_Z (time_Unix ts) in
    Ret ({| t_header := header; t_secs := secs; t_nsecs := 0; t_local := ""; t_ttype := flag |}, None)
  else if String.eqb flag "posix32_32" then
    (* int64 division and remainder truncate towards zero *)
    let n := time_UnixNano ts in
    let secs := u64_of_Z (Z.quot n 1000000000) in
    let nsecs := u64_of_Z (Z.rem n 1000000000) in
    if MaxUint32 <? secs
    then Ret ({| t_header := header; t_secs := secs; t_nsecs := nsecs; t_local := t_local t; t_ttype := flag |},
              Some "posix32_32:Seconds exceed 32 bits")
    else Ret ({| t_header := header; t_secs := secs; t_nsecs := nsecs; t_local := ""; t_ttype := flag |}, None)
  else if String.eqb flag "posix64_32" then
    let n := time_UnixNano ts in
    let secs := u64_of_Z (Z.quot n 1000000000) in
    let nsecs := u64_of_Z (Z.rem n 1000000000) in
    if MaxUint32 <? nsecs
    then Ret ({| t_header := header; t_secs := secs; t_nsecs := nsecs; t_local := t_local t; t_ttype := flag |},
              Some "posix64_32:Remainder exceed 32 bits")
    else Ret ({| t_header := header; t_secs := secs; t_nsecs := nsecs; t_local := ""; t_ttype := flag |}, None)
  else if String.eqb flag "epoch2000_32" then
    let secs := u64_of_Z (i64_of_Z (time_Unix ts - epoch2k_unix)) in
    if MaxUint32 <? secs
    then Ret ({| t_header := header; t_secs := secs; t_nsecs := t_nsecs t; t_local := t_local t; t_ttype := flag |},
              Some "epoch2000_32:Seconds out of bounds")
    else Ret ({| t_header := header; t_secs := secs; t_nsecs := 0; t_local := ""; t_ttype := flag |}, None)
  else
    Ret ({| t_header := header; t_secs := t_secs t; t_nsecs := t_nsecs t; t_local := flag; t_ttype := flag |}, None).

(** timestamp.go:120-127 Now; [now] is what time.Now() returns *)
Definition ts_now (now : gotime) (t : timestamp) (flag : string) : outcome (timestamp * error) :=
  do ' (t', e) <- ts_new t flag now;
  match e with
  | Some _ => Ret (t', Some ("TimeStampNow invalid flag:" ++ flag))
  | None => Ret (t', None)
  end.

(** timestamp.go:90-117 Put *)
Definition ts_put (t : timestamp) : outcome (list byte) :=
  let buf := make_bytes 16 in
  do buf <- copy_range buf 0 1 [byte_of_N (t_header t)];          (* tstamp[0] = byte(t.header) *)
  do nm <- st_name sar (t_header t);
  if String.eqb nm "posix32" then
    put_uint 4 buf 1 5 (u32 (t_secs t))
  else if String.eqb nm "posix64" then
    put_uint 8 buf 1 9 (t_secs t)
  else if String.eqb nm "posix32_32" then
    do buf <- put_uint 4 buf 1 5 (u32 (t_secs t));
    put_uint 4 buf 5 9 (u32 (t_nsecs t))
  else if String.eqb nm "posix64_32" then
    do buf <- put_uint 8 buf 1 9 (t_secs t);
    put_uint 4 buf 9 13 (u32 (t_nsecs t))
  else if String.eqb nm "epoch2000_32" then
    put_uint 4 buf 1 5 (u32 (t_secs t))
  else
    copy_range buf 1 15 (bytes_of (t_local t)).

(** timestamp.go:130-169 Get *)
Definition ts_get (t : timestamp) (b : list byte) : outcome (timestamp * error) :=
  do b0 <- index b 0;
  let header := N_of_ascii b0 in
  do ttype <- st_getstr sar header;
  if String.eqb ttype "posix32" then
    do secs <- get_uint 4 b 1 5;
    Ret ({| t_header := header; t_secs := secs; t_nsecs := 0; t_local := ""; t_ttype := ttype |}, None)
  else if String.eqb ttype "posix64" then
    do secs <- get_uint 8 b 1 9;
    Ret ({| t_header := header; t_secs := secs; t_nsecs := 0; t_local := ""; t_ttype := ttype |}, None)
  else if String.eqb ttype "posix32_32" then
    do secs <- get_uint 4 b 1 5;
    do nsecs <- get_uint 4 b 5 9;
    Ret ({| t_header := header; t_secs := secs; t_nsecs := nsecs; t_local := ""; t_ttype := ttype |}, None)
  else if String.eqb ttype "posix64_32" then
    do secs <- get_uint 8 b 1 9;
    do nsecs <- get_uint 4 b 9 13;
    Ret ({| t_header := header; t_secs := secs; t_nsecs := nsecs; t_local := ""; t_ttype := ttype |}, None)
  else if String.eqb ttype "epoch2000_32" then
    do secs <- get_uint 4 b 1 5;
    Ret ({| t_header := header; t_secs := secs; t_nsecs := 0; t_local := ""; t_ttype := ttype |}, None)
  else
    do loc <- slice b 1 15;
    Ret ({| t_header := header; t_secs := 0; t_nsecs := 0; t_local := string_of loc; t_ttype := ttype |},
         Some ("timestamp.Get: Invalid Timestamp type:" ++ ttype)).

(** timestamp.go:177-197 Print: whether it returns; the text is [ts_print] in Clock.v *)
Definition ts_print_ok (t : timestamp) : outcome unit :=
  do _ <- st_getstr sar (t_header t); Ret tt.
