(** * Specification vocabulary for timestamps *)

From Verif Require Import GoBase Timestamp SpecWire.
Local Open Scope string_scope.
Local Open Scope N_scope.

(** The stored values fit the widths of the type *)
Definition ts_fits (L : ts_layout) (t : timestamp) : Prop :=
  t_secs t < 2 ^ (8 * N.of_nat (tl_secs L)) /\
  t_nsecs t < 2 ^ (8 * N.of_nat (tl_nanos L)).   (* no nanoseconds: they are zero *)

(** A time.Time: 64-bit seconds, normalised nanoseconds *)
Definition real_time (ts : gotime) : Prop :=
  (- 2 ^ 63 <= unix_secs ts < 2 ^ 63 /\ 0 <= unix_nanos ts < 1000000000)%Z.

(** Nanoseconds since 1970 *)
Definition nanos_of (ts : gotime) : Z := (unix_secs ts * 1000000000 + unix_nanos ts)%Z.

(** The timestamp of numeric type [ty] holding exactly these values *)
Definition stamp (ty : N) (L : ts_layout) (secs nsecs : Z) : timestamp :=
  {| t_header := ty; t_secs := Z.to_N secs; t_nsecs := Z.to_N nsecs; t_local := ""; t_ttype := tl_name L |}.
