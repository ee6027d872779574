(** * Time: the properties

    Statements only; the proofs are in TimeMain.v. *)
From Verif Require Import GoBase GoFacts Flags SpecFlags FlagsFacts Config Shipped ConfigFacts SpecWire SarFacts Timestamp SpecTime TimeMain.
Local Open Scope string_scope.
Local Open Scope N_scope.

(** C11: a numeric timestamp is sent as type byte, seconds, nanoseconds, zeros. *)
Theorem C11_put_layout : forall t L, t_header t < 256 -> ts_type (t_header t) = Some L ->
  ts_put t = Ret (ts_wire (t_header t) L (t_secs t) (t_nsecs t)) /\
  length (ts_wire (t_header t) L (t_secs t) (t_nsecs t)) = 16%nat.
Proof. exact c11_put_layout. Qed.
Print Assumptions C11_put_layout.
Example C11_put_layout_ex :
  ts_put {| t_header := 3; t_secs := 0x01020304; t_nsecs := 5; t_local := ""; t_ttype := "posix32_32" |}
  = Ret (map ascii_of_N [3; 1; 2; 3; 4; 0; 0; 0; 5; 0; 0; 0; 0; 0; 0; 0]).
Proof. exact c11_put_layout_ex. Qed.

(** C14: decoding sixteen bytes: the numbers of the layout for types 1..5, an error
    for type 0, the end of the process for all others. *)
Theorem C14_get_spec : forall t b, length b = 16%nat ->
  match ts_type (number_at b 0 1) with
  | Some L => ts_get t b = Ret ({| t_header := number_at b 0 1; t_secs := number_at b 1 (tl_secs L);
                                   t_nsecs := number_at b (1 + tl_secs L) (tl_nanos L);
                                   t_local := ""; t_ttype := tl_name L |}, None)
  | None => if number_at b 0 1 =? 0 then exists t' e, ts_get t b = Ret (t', Some e) else ts_get t b = Fatal
  end.
Proof. exact c14_get_spec. Qed.
Print Assumptions C14_get_spec.
Example C14_get_spec_ex :
  ts_get zero_timestamp (make_bytes 16) = Ret ({| t_header := 0; t_secs := 0; t_nsecs := 0;
     t_local := string_of (make_bytes 14); t_ttype := "localinterp" |}, Some "timestamp.Get: Invalid Timestamp type:localinterp")
  /\ ts_get zero_timestamp (ascii_of_N 9 :: make_bytes 15) = Fatal.
Proof. exact c14_get_spec_ex. Qed.

(** C14: when it succeeds, fails, and kills. *)
Theorem C14_get_exactly_when : forall t b, length b = 16%nat ->
  ((exists t', ts_get t b = Ret (t', None)) <-> 1 <= number_at b 0 1 <= 5) /\
  ((exists t' e, ts_get t b = Ret (t', Some e)) <-> number_at b 0 1 = 0) /\
  (ts_get t b = Fatal <-> 6 <= number_at b 0 1) /\
  ts_get t b <> Panic.
Proof. exact c14_get_exactly_when. Qed.
Print Assumptions C14_get_exactly_when.

(** C11: a numeric timestamp whose values fit is read back unchanged. *)
Theorem C11_roundtrip : forall t t0 L, t_header t < 256 -> ts_type (t_header t) = Some L -> ts_fits L t ->
  exists b, ts_put t = Ret b /\ length b = 16%nat /\
    ts_get t0 b = Ret ({| t_header := t_header t; t_secs := t_secs t; t_nsecs := t_nsecs t;
                          t_local := ""; t_ttype := tl_name L |}, None).
Proof. exact c11_roundtrip. Qed.
Print Assumptions C11_roundtrip.
Example C11_roundtrip_ex :
  let t := {| t_header := 4; t_secs := 0x102030405060708; t_nsecs := 999999999; t_local := ""; t_ttype := "posix64_32" |} in
  exists L, ts_type (t_header t) = Some L /\ ts_fits L t.
Proof. exact c11_roundtrip_ex. Qed.

(** C12: posix32: seconds since 1970 stored exactly when they fit 32 bits, otherwise an error. *)
Theorem C12_posix32 : forall t ts, real_time ts ->
  ((0 <= unix_secs ts < 2 ^ 32)%Z ->
   ts_new t "posix32" ts = Ret (stamp 1 {| tl_name := "posix32"; tl_secs := 4; tl_nanos := 0 |} (unix_secs ts) 0, None)) /\
  (~ (0 <= unix_secs ts < 2 ^ 32)%Z -> exists t' e, ts_new t "posix32" ts = Ret (t', Some e)).
Proof. exact c12_posix32. Qed.
Print Assumptions C12_posix32.

(** C12: posix64: seconds since 1970 stored as 64 bits; there is no error. *)
Theorem C12_posix64 : forall t ts, real_time ts ->
  ts_new t "posix64" ts = Ret (stamp 2 {| tl_name := "posix64"; tl_secs := 8; tl_nanos := 0 |} (unix_secs ts mod 2 ^ 64) 0, None).
Proof. exact c12_posix64. Qed.
Print Assumptions C12_posix64.

(** C12: posix32_32, for every time whose nanoseconds since 1970 fit 64 bits
    (1678 to 2262), outside the last second before 1970. *)
Theorem C12_posix32_32 : forall t ts, real_time ts -> (- 2 ^ 63 <= nanos_of ts < 2 ^ 63)%Z ->
  ((0 <= unix_secs ts < 2 ^ 32)%Z ->
   ts_new t "posix32_32" ts =
     Ret (stamp 3 {| tl_name := "posix32_32"; tl_secs := 4; tl_nanos := 4 |} (unix_secs ts) (unix_nanos ts), None)) /\
  ((2 ^ 32 <= unix_secs ts \/ unix_secs ts < -1 \/ (unix_secs ts = -1 /\ unix_nanos ts = 0))%Z ->
   exists t' e, ts_new t "posix32_32" ts = Ret (t', Some e)).
Proof. exact c12_posix32_32. Qed.
Print Assumptions C12_posix32_32.

(** C12: posix64_32, for every such time from 1970 on; no error. *)
Theorem C12_posix64_32 : forall t ts, real_time ts -> (0 <= nanos_of ts < 2 ^ 63)%Z ->
  ts_new t "posix64_32" ts =
    Ret (stamp 4 {| tl_name := "posix64_32"; tl_secs := 8; tl_nanos := 4 |} (unix_secs ts) (unix_nanos ts), None).
Proof. exact c12_posix64_32. Qed.
Print Assumptions C12_posix64_32.

(** C12: epoch2000_32: seconds since 2000-01-01 when they fit 32 bits, otherwise an error. *)
Theorem C12_epoch2000 : forall t ts, real_time ts -> (- 2 ^ 63 + 946684800 <= unix_secs ts)%Z ->
  ((0 <= unix_secs ts - 946684800 < 2 ^ 32)%Z ->
   ts_new t "epoch2000_32" ts =
     Ret (stamp 5 {| tl_name := "epoch2000_32"; tl_secs := 4; tl_nanos := 0 |} (unix_secs ts - 946684800) 0, None)) /\
  (~ (0 <= unix_secs ts - 946684800 < 2 ^ 32)%Z -> exists t' e, ts_new t "epoch2000_32" ts = Ret (t', Some e)).
Proof. exact c12_epoch2000. Qed.
Print Assumptions C12_epoch2000.

(** C12: an unknown type name terminates the process. *)
Theorem C12_unknown_type : forall t ts flag,
  ~ In (remove_spaces flag) ["localinterp"; "posix32"; "posix64"; "posix32_32"; "posix64_32"; "epoch2000_32"] ->
  ts_new t flag ts = Fatal.
Proof. exact c12_unknown_type. Qed.
Print Assumptions C12_unknown_type.
Example C12_ex :
  let ts := {| unix_secs := 1700000000; unix_nanos := 123456789 |} in
  real_time ts /\ (0 <= nanos_of ts < 2 ^ 63)%Z /\
  ts_new zero_timestamp "posix32_32" ts = Ret ({| t_header := 3; t_secs := 1700000000; t_nsecs := 123456789; t_local := ""; t_ttype := "posix32_32" |}, None) /\
  ts_new zero_timestamp "epoch_2000_32" ts = Fatal.
Proof. exact c12_ex. Qed.

(** C12: beyond 2262 the 64-bit nanosecond counter wraps, so a time 2^64 ns later is
    stamped as the earlier one, without error (defect). *)
Theorem C12_far_future_wraps : forall t ts, real_time ts -> (2 ^ 64 <= nanos_of ts < 2 ^ 64 + 2 ^ 32 * 1000000000)%Z ->
  ts_new t "posix32_32" ts =
    Ret (stamp 3 {| tl_name := "posix32_32"; tl_secs := 4; tl_nanos := 4 |}
           ((nanos_of ts - 2 ^ 64) / 1000000000) ((nanos_of ts - 2 ^ 64) mod 1000000000), None) /\
  (2 ^ 32 <= unix_secs ts)%Z.
Proof. exact c12_far_future_wraps. Qed.
Print Assumptions C12_far_future_wraps.
Example C12_far_future_ex : ts_new zero_timestamp "posix32_32" {| unix_secs := 18446744073; unix_nanos := 709551616 |}
  = Ret ({| t_header := 3; t_secs := 0; t_nsecs := 0; t_local := ""; t_ttype := "posix32_32" |}, None).
Proof. exact c12_far_future_ex. Qed.

(** C13: a local-interpretation timestamp is built (keeping whatever time the receiver
    held) and sent, but never read. *)
Theorem C13_localinterp : forall t ts, exists t' b,
  ts_new t "localinterp" ts = Ret (t', None) /\ t_local t' = "localinterp" /\ t_secs t' = t_secs t /\ t_nsecs t' = t_nsecs t /\
  ts_put t' = Ret b /\ length b = 16%nat /\ number_at b 0 1 = 0 /\
  forall t0, exists t1 e, ts_get t0 b = Ret (t1, Some e).
Proof. exact c13_localinterp. Qed.
Print Assumptions C13_localinterp.
Example C13_ex : exists b, ts_put {| t_header := 0; t_secs := 7; t_nsecs := 0; t_local := "abc"; t_ttype := "localinterp" |} = Ret b.
Proof. exact c13_ex. Qed.

(** C13: whatever the local text, a type 0 timestamp encodes and is rejected on decoding. *)
Theorem C13_any_local : forall t, t_header t = 0 -> exists b, ts_put t = Ret b /\ length b = 16%nat /\
  forall t0, exists t1 e, ts_get t0 b = Ret (t1, Some e).
Proof. exact c13_any_local. Qed.
Print Assumptions C13_any_local.

(** C15: in the last second before 1970, posix32_32 stores a nanosecond count that
    does not fit and is not what is read back; posix64_32 reports an error. *)
Theorem C15_pre1970 : forall t ts, real_time ts -> unix_secs ts = (-1)%Z -> (0 < unix_nanos ts)%Z ->
  (exists t', ts_new t "posix32_32" ts = Ret (t', None) /\ t_secs t' = 0 /\ 1000000000 <= t_nsecs t' /\
     forall b t0 t1, ts_put t' = Ret b -> ts_get t0 b = Ret (t1, None) -> t_nsecs t1 <> t_nsecs t') /\
  (exists t' e, ts_new t "posix64_32" ts = Ret (t', Some e)).
Proof. exact c15_pre1970. Qed.
Print Assumptions C15_pre1970.
Example C15_ex : ts_new zero_timestamp "posix32_32" {| unix_secs := -1; unix_nanos := 500000000 |} =
  Ret ({| t_header := 3; t_secs := 0; t_nsecs := 18446744073209551616; t_local := ""; t_ttype := "posix32_32" |}, None).
Proof. exact c15_ex. Qed.
