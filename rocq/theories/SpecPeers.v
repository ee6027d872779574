(** * Specification vocabulary for the peer table *)

From Verif Require Import GoBase Flags SpecFlags Shipped SpecWire Timestamp SpecTime Data Beacon SpecFrames.
Local Open Scope string_scope.
Local Open Scope N_scope.

(** A beacon that is received: when, what, and from whom *)
Record sighting := { sg_now : gotime; sg_beacon : beacon; sg_from : option string }.

(** Registering a history of beacons; the reports of the calls *)
Fixpoint register_all (ps : list peer) (hist : list sighting) : outcome (list peer * list bool) :=
  match hist with
  | [] => Ret (ps, [])
  | s :: r =>
      do ' (ps1, rep) <- new_peer (sg_now s) ps (sg_beacon s) (sg_from s);
      do ' (ps2, reps) <- register_all ps1 r;
      Ret (ps2, rep :: reps)
  end.

(** What a beacon says about its sender: free space, endpoint id, descriptor,
    willingness to receive (bits 14-15) and to send (bits 12-13) *)
Definition advert : Type := N * string * N * N * N.
Definition advert_of (b : beacon) : advert :=
  (b_freespace b, b_eid b, hd_descriptor (b_header b), bit_field 32 14 2 (b_header b), bit_field 32 12 2 (b_header b)).
Definition advert_dec : forall a b : advert, {a = b} + {a <> b}.
Proof. repeat decide equality. Defined.

(** An entry shows what a beacon says *)
Definition shows (p : peer) (b : beacon) : Prop :=
  p_freespace p = b_freespace b /\ p_eid p = b_eid b /\
  reads sar (b_header b) "descriptor" (p_maxdesc p) /\
  reads sar (b_header b) "rxwilling" (p_canrx p) /\
  reads sar (b_header b) "txwilling" (p_cantx p).

Definition is_from (a : string) (s : sighting) : bool :=
  match sg_from s with Some x => String.eqb x a | None => false end.
(** The beacons from one address, latest first *)
Definition seen (a : string) (hist : list sighting) : list sighting := rev (filter (is_from a) hist).

(** Of beacons listed latest first: the latest that says something else than the
    one before it *)
Fixpoint last_change (l : list sighting) : option sighting :=
  match l with
  | [] => None
  | s :: r =>
      match r with
      | [] => Some s
      | s' :: _ => if advert_dec (advert_of (sg_beacon s)) (advert_of (sg_beacon s')) then last_change r else Some s
      end
  end.

(** The 32+32 bit timestamp of an instant *)
Definition stamp_at (now : gotime) : timestamp :=
  stamp 3 {| tl_name := "posix32_32"; tl_secs := 4; tl_nanos := 4 |} (unix_secs now) (unix_nanos now).

(** The entry that a history calls for *)
Definition right_entry (hist : list sighting) (p : peer) : Prop :=
  exists latest rest c,
    seen (p_addr p) hist = latest :: rest /\
    shows p (sg_beacon latest) /\
    p_created p = stamp_at (sg_now (last rest latest)) /\
    last_change (seen (p_addr p) hist) = Some c /\ p_updated p = stamp_at (sg_now c).

(** The report a beacon calls for after a history *)
Definition is_news (hist : list sighting) (s : sighting) : Prop :=
  exists a, sg_from s = Some a /\
    match seen a hist with
    | [] => True
    | s' :: _ => advert_of (sg_beacon s) <> advert_of (sg_beacon s')
    end.

(** Entries for one address *)
Definition entries (a : string) (ps : list peer) : nat := length (filter (fun p => String.eqb (p_addr p) a) ps).
