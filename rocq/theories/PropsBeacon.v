(** * Beacon: the properties

    Statements only; the proofs are in BeaconMain.v. *)
From Verif Require Import GoBase GoFacts Flags SpecFlags FlagsFacts Config Shipped ConfigFacts SpecWire SarFacts Timestamp SpecTime TimeMain Data SpecFrames FrameFacts FlagStrFacts BuildFacts Beacon SpecBeacon BeaconMain.
Local Open Scope string_scope.
Local Open Scope N_scope.

(** C39: what encoding a beacon gives, for every beacon. *)
Theorem C39_encode : forall b,
  match space_width (b_header b) with
  | None => exists e, beacon_encode b = Ret (EncErr e)
  | Some w => beacon_encode b = Ret (Frame (beacon_wire (b_header b) w (b_freespace b) (b_eid b)))
  end.
Proof. exact c39_encode. Qed.
Print Assumptions C39_encode.

(** C39: a beacon whose free space fits the announced width survives, whatever
    the receiver held before. *)
Theorem C39_roundtrip : forall b b0 w, b_header b < 2 ^ 32 -> space_width (b_header b) = Some w ->
  b_freespace b < 2 ^ (8 * N.of_nat w) ->
  exists f, beacon_encode b = Ret (Frame f) /\ beacon_decode b0 f = Ret (b, None).
Proof. exact c39_roundtrip. Qed.
Print Assumptions C39_roundtrip.

(** C40: the verdict on arbitrary bytes, whatever the receiver holds. *)
Theorem C40_verdict : forall b f, verdict_of (beacon_decode b f) = beacon_verdict f.
Proof. exact c40_verdict. Qed.
Print Assumptions C40_verdict.

(** C40: a panic exactly when the bytes are shorter than the header, or than the
    announced free space field; an error exactly for 128 bits; never process exit. *)
Theorem C40_iff : forall b f,
  (beacon_decode b f = Panic <->
     (length f < 4)%nat \/
     (hd_freespace (number_at f 0 4) = 1 /\
      exists w, descriptor_width (hd_freespaced (number_at f 0 4)) = Some w /\ (length f < 4 + w)%nat)) /\
  ((exists b' e, beacon_decode b f = Ret (b', Some e)) <->
     (4 <= length f)%nat /\ hd_freespace (number_at f 0 4) = 1 /\ hd_freespaced (number_at f 0 4) = 3) /\
  beacon_decode b f <> Fatal.
Proof. exact c40_iff. Qed.
Print Assumptions C40_iff.

(** C40: what an accepted beacon decodes to. *)
Theorem C40_value : forall b f, beacon_verdict f = Accept -> exists w,
  space_width (number_at f 0 4) = Some w /\
  beacon_decode b f =
    Ret ({| b_header := number_at f 0 4; b_freespace := number_at f 4 w; b_eid := string_of (skipn (4 + w) f) |}, None).
Proof. exact c40_value. Qed.
Print Assumptions C40_value.

(** C38: building a beacon from a header: every flag of the header is kept, and
    the width of the free space is chosen from its value. *)
Theorem C38_make : forall env b header info, header < 2 ^ 32 ->
  beacon_built env header [("version", "v1"); ("frametype", "beacon")] info (beacon_make env b header info).
Proof. exact c38_make. Qed.
Print Assumptions C38_make.

(** C71: an item that is not acceptable decides what becomes of a construction. *)
Theorem C71_verdict : forall env b items info,
  items <> [] -> (forall p, In p items -> clean (fst p) /\ clean (snd p)) ->
  first_bad (map (beacon_item_verdict sar) items) <> Accept ->
  verdict_of (beacon_new env b (flag_list items) info) = first_bad (map (beacon_item_verdict sar) items).
Proof. exact c71_verdict. Qed.
Print Assumptions C71_verdict.

(** C38: building a beacon from a flag list, all items acceptable: exactly the
    requested flags, with the width of the free space chosen from its value. *)
Theorem C38_new : forall env b items info,
  items <> [] -> (forall p, In p items -> clean (fst p) /\ clean (snd p)) ->
  (forall p, In p items -> beacon_item_verdict sar p = Accept) ->
  b_header b < 2 ^ 32 ->
  beacon_built env (b_header b) (("version", "v1") :: ("frametype", "beacon") :: flat_map beacon_settings items) info
    (beacon_new env b (flag_list items) info).
Proof. exact c38_new. Qed.
Print Assumptions C38_new.

(** C71: an empty flag string panics. *)
Theorem C71_empty : forall env b info, beacon_new env b "" info = Panic.
Proof. exact c71_empty. Qed.
Print Assumptions C71_empty.

(** C38: the chosen width holds the value, and every narrower width either does
    not, or holds it only as its largest number. *)
Theorem C38_width : forall n d, space_descriptor n = Some d -> exists w,
  width_named d = Some w /\ n < 2 ^ (8 * N.of_nat w) - 1 /\
  forall d' w', width_named d' = Some w' -> (w' < w)%nat -> 2 ^ (8 * N.of_nat w') - 1 <= n.
Proof. exact c38_width. Qed.
Print Assumptions C38_width.

(** C38: only the largest 64-bit number has no width. *)
Theorem C38_refused : forall n, n < 2 ^ 64 -> (space_descriptor n = None <-> n = 2 ^ 64 - 1).
Proof. exact c38_refused. Qed.
Print Assumptions C38_refused.

(** C39: every beacon that the constructors build survives the wire; its free
    space is never truncated. *)
Theorem C39_built : forall env b header items info b',
  (header < 2 ^ 32 /\ beacon_make env b header info = Ret (b', None)) \/
  (items <> [] /\ (forall p, In p items -> clean (fst p) /\ clean (snd p)) /\ b_header b < 2 ^ 32 /\
   beacon_new env b (flag_list items) info = Ret (b', None)) ->
  exists f, beacon_encode b' = Ret (Frame f) /\ forall b0, beacon_decode b0 f = Ret (b', None).
Proof. exact c39_built. Qed.
Print Assumptions C39_built.
Example C38_new_ex :
  map (beacon_item_verdict sar) ex_items = [Accept; Accept; Accept; Accept; Accept; Accept] /\
  asks_space 0 (("version", "v1") :: ("frametype", "beacon") :: flat_map beacon_settings ex_items) = true /\
  free_space ex_env 0 = Some 400000000 /\ space_descriptor 400000000 = Some "d32" /\
  exists b', beacon_new ex_env zero_beacon (flag_list ex_items) {| bi_freespace := 0; bi_eid := "me" |} = Ret (b', None) /\
    b_freespace b' = 400000000 /\ hd_freespaced (b_header b') = 1 /\ b_eid b' = "me".
Proof. exact c38_new_ex. Qed.
Example C38_make_ex : beacon_make ex_env zero_beacon 0x4000 {| bi_freespace := 65535; bi_eid := "" |} =
  Ret ({| b_header := 0x20005000; b_freespace := 65535; b_eid := "" |}, None) /\
  space_descriptor 65534 = Some "d16" /\ space_descriptor (2 ^ 64 - 1) = None.
Proof. exact c38_make_ex. Qed.
Example C39_roundtrip_ex : space_width 0x20005000 = Some 4%nat /\
  beacon_encode {| b_header := 0x20005000; b_freespace := 65535; b_eid := "ab" |} =
    Ret (Frame (wire 4 0x20005000 ++ wire 4 65535 ++ bytes_of "ab")%list).
Proof. exact c39_roundtrip_ex. Qed.
Example C40_verdict_ex :
  beacon_verdict (wire 3 0) = Crash /\ beacon_verdict (wire 4 0x20005000 ++ zeros 3) = Crash /\
  beacon_verdict (wire 4 0x20005000 ++ zeros 4) = Accept /\ beacon_verdict (wire 4 0x20007000 ++ zeros 30) = Reject /\
  beacon_verdict (wire 4 0x20000000) = Accept.
Proof. exact c40_verdict_ex. Qed.
Example C71_verdict_ex : map (beacon_item_verdict sar) [("freespaced", "d128"); ("txwilling", "on"); ("version", "v1")] = [Reject; Kill; Reject].
Proof. exact c71_verdict_ex. Qed.
