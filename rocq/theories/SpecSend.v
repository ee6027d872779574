(** * Specification vocabulary for what the command line sends *)

From Verif Require Import GoBase Flags SpecFlags Config Shipped Data SpecFrames Beacon SpecBeacon Trans Sarnet Transfer Words SpecWords Cli SpecCli SpecRun.
Local Open Scope string_scope.
Local Open Scope N_scope.

(** What goroutine [i] has sent, in order *)
Definition frames_by (i : nat) (s : ystate) : list (udpaddr * list byte) :=
  map (fun x => (snd (fst x), snd x)) (filter (fun x => Nat.eqb (fst (fst x)) i) (y_sent s)).

(** [f] is a beacon that says what the settings [c] say, with the free space the system
    has, for a connection to [to]: the local end of it and the process id name the sender *)
Definition beacon_of (E : cenv) (to : udpaddr) (c : cliflags) (f : list byte) : Prop :=
  exists local h w n, ce_dial E to = Some local /\ f = beacon_wire h w n (local ++ "-" ++ itoa (ce_pid E)) /\
    h < 2 ^ 32 /\ space_width h = Some w /\ n < 2 ^ (8 * N.of_nat w) /\
    reads sar h "version" "v1" /\ reads sar h "frametype" "beacon" /\
    (forall k v, In k ["descriptor"; "stream"; "txwilling"; "rxwilling"; "udplite"] -> value c (Flag k) = KText v -> reads sar h k v) /\
    (value c (Flag "freespace") = KText "no" -> reads sar h "freespace" "no") /\
    (value c (Flag "freespace") = KText "yes" ->
       match free_space (ce_sys E) 0 with
       | Some space => n = space /\ reads sar h "freespace" "yes"
       | None => reads sar h "freespace" "no"
       end).

(** The addresses a beacon command with these words after "beacon" sends to.  With more
    than one word the first is not among them (defect). *)
Definition beacon_targets (c : cliflags) (args : list string) : list string :=
  match args with
  | [] => []
  | [a] =>
      if String.eqb a "?" then [] else if String.eqb a "off" then []
      else if String.eqb a "v4" then [cl_v4 c] else if String.eqb a "v6" then [cl_v6 c] else [a]
  | first :: rest => if String.eqb first "off" then [] else rest
  end.
(** What a text given as an address stands for, when the system's resolver is [r] *)
Definition address (r : string -> option udpaddr) (text : string) : option udpaddr :=
  match udp_address r text with (Some to, None) => Some to | _ => None end.

(** The system lets beacons be built and sent *)
Definition fair (E : cenv) : Prop :=
  ce_write E = true /\ (forall a, ce_dial E a <> None) /\ se_getwd (ce_sys E) = None /\
  forall n, free_space (ce_sys E) 0 = Some n -> space_descriptor n <> None.

(** Goroutine [i] has only ever been run in surroundings for which [ok] holds *)
Definition only_in (ok : cenv -> Prop) (i : nat) (ls : list ylabel) : Prop := forall E, In (YStep E i) ls -> ok E.

(** What may have been sent to an address, given as a text, if anything can go wrong:
    nothing, or at most [count] copies of one beacon *)
Definition some_sent (ok : cenv -> Prop) (c : cliflags) (text : string) (sent : list (udpaddr * list byte)) : Prop :=
  sent = [] \/
  exists E to f k, ok E /\ address (ce_resolve E) text = Some to /\ beacon_of E to c f /\ (k <= N.to_nat (cl_bcount c))%nat /\ sent = repeat (to, f) k.
(** ... and if nothing goes wrong: exactly [count] copies, or nothing if the text is not
    an address *)
Definition all_sent (ok : cenv -> Prop) (r : string -> option udpaddr) (c : cliflags) (text : string) (sent : list (udpaddr * list byte)) : Prop :=
  match address r text with
  | None => sent = []
  | Some to => exists E f, ok E /\ beacon_of E to c f /\ sent = repeat (to, f) (N.to_nat (cl_bcount c))
  end.
