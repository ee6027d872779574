(** * Ticks: the properties

    Statements only; the proofs are in TicksMain.v. *)
From Verif Require Import GoBase GoFacts Flags Config Shipped Timestamp SpecTime TimeMain Data Status Ticks SpecTicks TicksMain.
Local Open Scope string_scope.
Local Open Scope N_scope.

(** C161: a data frame built from flags while the clock moves, between 2000 and 2105, is the frame that is built when all of it happens at
    one instant, that of the last flag that asks for the time; if none does, at any instant. *)
Theorem C161_data : forall clock now d flags info, (forall i, ordinary (clock i)) -> ordinary now ->
  (forall k, last_of data_time_flag (flags_of flags) = Some k -> now = clock k) ->
  same_result (data_new_c clock d flags info) (data_new now d flags info).
Proof. exact c161_data. Qed.
Print Assumptions C161_data.

(** C161: the same for a status frame. *)
Theorem C161_status : forall clock now s flags info, (forall i, ordinary (clock i)) -> ordinary now ->
  (forall k, last_of status_time_flag (flags_of flags) = Some k -> now = clock k) ->
  same_result (status_new_c clock s flags info) (status_new now s flags info).
Proof. exact c161_status. Qed.
Print Assumptions C161_status.

(** C161: a frame with the time in it carries one instant, not parts of two: that of the last flag that asks for it.  Without such a flag
    the time stays what it was. *)
Theorem C161_instant : forall clock d flags info d', (forall i, ordinary (clock i)) -> data_new_c clock d flags info = Ret (d', None) ->
  match last_of data_time_flag (flags_of flags) with
  | Some k => of_instant (clock k) (d_tstamp d')
  | None => t_secs (d_tstamp d') = t_secs (d_tstamp d) /\ t_nsecs (d_tstamp d') = t_nsecs (d_tstamp d)
  end.
Proof. exact c161_instant. Qed.
Print Assumptions C161_instant.

(** C161: the same for a status frame. *)
Theorem C161_status_instant : forall clock s flags info s', (forall i, ordinary (clock i)) -> status_new_c clock s flags info = Ret (s', None) ->
  match last_of status_time_flag (flags_of flags) with
  | Some k => of_instant (clock k) (s_tstamp s')
  | None => t_secs (s_tstamp s') = t_secs (s_tstamp s) /\ t_nsecs (s_tstamp s') = t_nsecs (s_tstamp s)
  end.
Proof. exact c161_status_instant. Qed.
Print Assumptions C161_status_instant.
Example C161_ex : (forall i, ordinary (ex_clock i)) /\
  last_of data_time_flag (flags_of "reqtstamp=yes,descriptor=d32,reqtstamp=posix32_32,reqtstamp=localinterp") = Some 2%nat /\
  exists d, data_new_c ex_clock zero_data "reqtstamp=yes,descriptor=d32,reqtstamp=posix32_32,reqtstamp=localinterp" ex_dinfo = Ret (d, None) /\
    t_secs (d_tstamp d) = 1700000002 /\ t_nsecs (d_tstamp d) = 5.
Proof. exact c161_ex. Qed.
