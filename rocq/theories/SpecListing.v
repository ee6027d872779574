(** * Specification vocabulary for the peers command while beacons arrive *)

From Verif Require Import GoBase Flags Shipped Timestamp Beacon Itoa SpecFlags SpecWire SpecFrames SpecPeers SpecClock SpecTable.
From Coq Require Import Permutation.
Local Open Scope string_scope.
Local Open Scope N_scope.

(** Entries whose times are times *)
Definition timed_peer (p : peer) : Prop :=
  exists c u, good_now c /\ good_now u /\ p_created p = stamp_at c /\ p_updated p = stamp_at u.

(** [v] is what an entry of address [a] said in the table [ps], or what a beacon from [a] in [hist] said *)
Definition offered {V} (ps : list peer) (hist : list sighting) (a : string) (in_table : peer -> V -> Prop) (in_beacon : sighting -> V -> Prop) (v : V) : Prop :=
  (exists p, In p ps /\ p_addr p = a /\ in_table p v) \/
  (exists s, In s hist /\ sg_from s = Some a /\ in_beacon s v).

(** The members of an entry, each for itself *)
Definition free_offered ps hist a (n : N) : Prop :=
  offered ps hist a (fun p v => p_freespace p = v) (fun s v => b_freespace (sg_beacon s) = v) n.
Definition eid_offered ps hist a (e : string) : Prop :=
  offered ps hist a (fun p v => p_eid p = v) (fun s v => b_eid (sg_beacon s) = v) e.
Definition desc_offered ps hist a (d : string) : Prop :=
  offered ps hist a (fun p v => p_maxdesc p = v) (fun s v => reads sar (b_header (sg_beacon s)) "descriptor" v) d.
Definition rx_offered ps hist a (d : string) : Prop :=
  offered ps hist a (fun p v => p_canrx p = v) (fun s v => reads sar (b_header (sg_beacon s)) "rxwilling" v) d.
Definition tx_offered ps hist a (d : string) : Prop :=
  offered ps hist a (fun p v => p_cantx p = v) (fun s v => reads sar (b_header (sg_beacon s)) "txwilling" v) d.
Definition created_offered ps hist a (t : gotime) : Prop :=
  offered ps hist a (fun p v => good_now v /\ p_created p = stamp_at v) (fun s v => sg_now s = v) t.
Definition updated_offered ps hist a (t : gotime) : Prop :=
  offered ps hist a (fun p v => good_now v /\ p_updated p = stamp_at v) (fun s v => sg_now s = v) t.

(** The line of address [a]: each cell, and of the time of the latest change even the seconds and the nanoseconds, was
    offered - but maybe not by the same beacon *)
Definition row_seen (ps : list peer) (hist : list sighting) (ws : list nat) (a line : string) : Prop :=
  exists n e d r t (c u v : gotime) cre upd,
    free_offered ps hist a n /\ eid_offered ps hist a e /\ desc_offered ps hist a d /\ rx_offered ps hist a r /\
    tx_offered ps hist a t /\ created_offered ps hist a c /\ updated_offered ps hist a u /\ updated_offered ps hist a v /\
    utc_text true (unix_secs c * 10 ^ 9 + unix_nanos c)%Z cre /\
    utc_text true (unix_secs u * 10 ^ 9 + unix_nanos v)%Z upd /\
    row_of "|" ws [a; itoa (n / 2 ^ 20); e; d; r; t; cre; upd] line.

(** A width that the column of the texts [ok] may get: at least [least], and the length of one of them if more *)
Definition width_seen (least : nat) (ok : string -> Prop) (w : nat) : Prop :=
  w = least \/ (least <= w)%nat /\ exists s, ok s /\ w = String.length s.

(** The table of addresses after the first [k] beacons of [hist] *)
Definition addresses_after (ps : list peer) (hist : list sighting) (k : nat) (l : list string) : Prop :=
  exists ps' reps, register_all ps (firstn k hist) = Ret (ps', reps) /\ map p_addr ps' = l.

(** What the command shows: nothing but [No Peers] if there was none when it began (after [i] beacons); else a table with
    columns for the peers of a moment (after [j] beacons) and rows for those of a later one (after [k] beacons) *)
Definition listing_seen (ps : list peer) (hist : list sighting) (text : string) : Prop :=
  exists i j k before between after,
    (i <= j <= k)%nat /\ (k <= List.length hist)%nat /\
    addresses_after ps hist i before /\ addresses_after ps hist j between /\ addresses_after ps hist k after /\
    ((before = [] /\ text = "No Peers") \/
     (before <> [] /\ exists e r t head rows order,
        let ws := [longest between; 6; e; 3; r; t; 32; 32]%nat in
        width_seen 3 (fun s => exists a, eid_offered ps hist a s) e /\
        width_seen 0 (fun s => exists a, rx_offered ps hist a s) r /\
        width_seen 0 (fun s => exists a, tx_offered ps hist a s) t /\
        text = table_text (border_of "+" ws) head rows /\
        row_of "|" ws ["IP"; "GB"; "EID"; "Des"; "Rx"; "Tx"; "Created"; "Modified"] head /\
        ordered rows /\ Permutation order after /\ Forall2 (row_seen ps hist ws) order rows)).

(** An entry of which some members are as they were and the others as a beacon has them *)
Record choice := { new_free : bool; new_eid : bool; new_desc : bool; new_rx : bool; new_tx : bool; new_secs : bool; new_nanos : bool }.
Definition mixture (c : choice) (p q m : peer) : Prop :=
  p_addr m = p_addr p /\ p_created m = p_created p /\
  p_freespace m = (if new_free c then p_freespace q else p_freespace p) /\
  p_eid m = (if new_eid c then p_eid q else p_eid p) /\
  p_maxdesc m = (if new_desc c then p_maxdesc q else p_maxdesc p) /\
  p_canrx m = (if new_rx c then p_canrx q else p_canrx p) /\
  p_cantx m = (if new_tx c then p_cantx q else p_cantx p) /\
  t_secs (p_updated m) = t_secs (p_updated (if new_secs c then q else p)) /\
  t_nsecs (p_updated m) = t_nsecs (p_updated (if new_nanos c then q else p)) /\
  t_header (p_updated m) = t_header (p_updated p) /\ t_local (p_updated m) = t_local (p_updated p) /\
  t_ttype (p_updated m) = t_ttype (p_updated p).
