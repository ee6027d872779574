(** * Specification vocabulary for building frames while the clock moves *)

From Verif Require Import GoBase Flags Timestamp SpecTime Data Status.
Local Open Scope string_scope.
Local Open Scope N_scope.

(** An instant in the years 2000 to 2105 *)
Definition ordinary (t : gotime) : Prop := real_time t /\ (946684800 <= unix_secs t < 2 ^ 32)%Z.

(** The flags of a data frame that put the time into it *)
Definition data_time_flag (it : string) : bool :=
  match split_on "=" it with
  | name :: ty :: _ => String.eqb name "reqtstamp" && existsb (String.eqb ty) ["yes"; "posix32"; "posix64"; "posix32_32"; "posix64_32"; "epoch2000_32"]
  | _ => false
  end.
(** ... and of a status frame *)
Definition status_time_flag (it : string) : bool :=
  match split_on "=" it with
  | name :: r => existsb (String.eqb name) ["posix32"; "posix64"; "posix32_32"; "posix64_32"] ||
                 (String.eqb name "reqtstamp" && match r with v :: _ => String.eqb v "yes" | [] => false end)
  | [] => false
  end.
(** The number of the last flag of this kind *)
Fixpoint last_of (p : string -> bool) (items : list string) : option nat :=
  match items with
  | [] => None
  | it :: r => match last_of p r with
               | Some k => Some (S k)
               | None => if p it then Some 0%nat else None
               end
  end.
(** The flags of a text *)
Definition flags_of (text : string) : list string := split_on "," (remove_spaces text).

(** Two results of New: on success the same frame, otherwise the same error or the same end of the program *)
Inductive same_result {A} : outcome (A * error) -> outcome (A * error) -> Prop :=
| sr_frame : forall a, same_result (Ret (a, None)) (Ret (a, None))
| sr_error : forall a b e, same_result (Ret (a, Some e)) (Ret (b, Some e))
| sr_panic : same_result Panic Panic
| sr_fatal : same_result Fatal Fatal.

(** The time in a timestamp is this instant: in seconds since 1970 or since 2000, with or without the nanoseconds *)
Definition of_instant (t : gotime) (ts : timestamp) : Prop :=
  (Z.of_N (t_secs ts) = unix_secs t \/ Z.of_N (t_secs ts) = (unix_secs t - 946684800)%Z) /\
  (t_nsecs ts = 0 \/ Z.of_N (t_nsecs ts) = unix_nanos t).
