(** * What the value given to a constructor of frames says (specification) *)

From Verif Require Import GoBase Holes Data Status Request Beacon Metadata Reflect.
Local Open Scope string_scope.
Local Open Scope N_scope.

(** [v] is the member [name] of a structure with these members *)
Definition member (fs : list (string * gval)) (name : string) (v : gval) : Prop :=
  exists before after, fs = (before ++ (name, v) :: after)%list /\ ~ In name (map fst before).
(** It has no member of that name *)
Definition lacks (fs : list (string * gval)) (name : string) : Prop := ~ In name (map fst fs).

(** The value is a pointer to (or an interface that holds) a structure with these members *)
Inductive points_to : rvalue -> list (string * gval) -> Prop :=
| by_pointer : forall t ts fs, points_to (Some (GPtr t (Some (GStruct ts fs)))) fs
| by_interface : forall t ts fs, points_to (Some (GIface t (Some (GStruct ts fs)))) fs.

(** A text: a number, byte list, structure... is none *)
Definition is_text (v : gval) : Prop := exists t s, v = GString t s.
(** What a member is when it is taken for a text *)
Inductive taken_for_text (fs : list (string * gval)) (name : string) : string -> Prop :=
| a_text : forall t s, member fs name (GString t s) -> taken_for_text fs name s
| no_member : lacks fs name -> taken_for_text fs name "<invalid Value>"
| not_text : forall v, member fs name v -> ~ is_text v -> taken_for_text fs name ("<" ++ type_text v ++ " Value>").

(** What is needed of data frames: three members, each of any type of its kind *)
Inductive data_info (info : rvalue) : dinfo -> Prop :=
| data_members : forall fs t1 s t2 o t3 p, points_to info fs ->
    member fs "Session" (GUint t1 s) -> member fs "Offset" (GUint t2 o) -> member fs "Payload" (GBytes t3 p) ->
    data_info info {| di_session := s; di_offset := o; di_payload := p |}.

(** A structure with a Start and an End *)
Definition hole_of (v : gval) (h : hole) : Prop :=
  exists t fs ta tb, v = GStruct t fs /\ member fs "Start" (GInt ta (h_start h)) /\ member fs "End" (GInt tb (h_end h)).
(** A list of those, or anything that can have a length and is empty *)
Inductive holes_of : gval -> holes -> Prop :=
| hole_list : forall t l hs, Forall2 hole_of l hs -> holes_of (GSlice t l) hs
| empty_text : forall t, holes_of (GString t "") []
| empty_bytes : forall t, holes_of (GBytes t []) []
| empty_counted : forall t, holes_of (GCounted t 0) [].
(** What is needed of status frames *)
Inductive status_info (info : rvalue) : sinfo -> Prop :=
| status_members : forall fs t1 s t2 p t3 r v hs, points_to info fs ->
    member fs "Session" (GUint t1 s) -> member fs "Progress" (GUint t2 p) -> member fs "Inrespto" (GUint t3 r) ->
    member fs "Holes" v -> holes_of v hs ->
    status_info info {| si_session := s; si_progress := p; si_inrespto := r; si_holes := hs |}.

(** What is needed of requests: any member, or none, is taken for the file name *)
Inductive request_info (info : rvalue) : rinfo -> Prop :=
| request_members : forall fs t1 s n t3 a, points_to info fs ->
    member fs "Session" (GUint t1 s) -> taken_for_text fs "Fname" n -> member fs "Auth" (GBytes t3 a) ->
    request_info info {| ri_session := s; ri_fname := n; ri_auth := a |}.

(** What is needed of beacons that tell the free space *)
Inductive beacon_info (info : rvalue) : binfo -> Prop :=
| beacon_members : forall fs t1 n e, points_to info fs ->
    member fs "Freespace" (GUint t1 n) -> taken_for_text fs "Eid" e ->
    beacon_info info {| bi_freespace := n; bi_eid := e |}.
(** What is needed of beacons that do not: a structure *)
Inductive beacon_eid (info : rvalue) : string -> Prop :=
| beacon_named : forall fs e, points_to info fs -> taken_for_text fs "Eid" e -> beacon_eid info e.

(** What is needed of metadata *)
Inductive meta_info (info : rvalue) : minfo -> Prop :=
| meta_members : forall fs t1 s n, points_to info fs ->
    member fs "Session" (GUint t1 s) -> taken_for_text fs "Fname" n ->
    meta_info info {| mi_session := s; mi_fname := n |}.
(** and the session together with the text of its type *)
Inductive meta_session (info : rvalue) : N -> string -> Prop :=
| meta_numbered : forall fs t s, points_to info fs -> member fs "Session" (GUint t s) -> meta_session info s t.

(** ** The values that are meant: &Dinfo{...} and so on, with the types of their members *)
Definition to_dinfo (i : dinfo) : rvalue :=
  Some (GPtr "*data.Dinfo" (Some (GStruct "data.Dinfo"
    [("Session", GUint "uint32" (di_session i)); ("Offset", GUint "uint64" (di_offset i));
     ("Payload", GBytes "[]uint8" (di_payload i))]))).
Definition a_hole (h : hole) : gval :=
  GStruct "holes.Hole" [("Start", GInt "int" (h_start h)); ("End", GInt "int" (h_end h))].
Definition to_sinfo (i : sinfo) : rvalue :=
  Some (GPtr "*status.Sinfo" (Some (GStruct "status.Sinfo"
    [("Session", GUint "uint32" (si_session i)); ("Progress", GUint "uint64" (si_progress i));
     ("Inrespto", GUint "uint64" (si_inrespto i)); ("Holes", GSlice "holes.Holes" (map a_hole (si_holes i)))]))).
Definition to_rinfo (i : rinfo) : rvalue :=
  Some (GPtr "*request.Rinfo" (Some (GStruct "request.Rinfo"
    [("Session", GUint "uint32" (ri_session i)); ("Fname", GString "string" (ri_fname i));
     ("Auth", GBytes "[]uint8" (ri_auth i))]))).
Definition to_binfo (i : binfo) : rvalue :=
  Some (GPtr "*beacon.Binfo" (Some (GStruct "beacon.Binfo"
    [("Freespace", GUint "uint64" (bi_freespace i)); ("Eid", GString "string" (bi_eid i))]))).
Definition to_minfo (i : minfo) : rvalue :=
  Some (GPtr "*metadata.Minfo" (Some (GStruct "metadata.Minfo"
    [("Session", GUint "uint32" (mi_session i)); ("Fname", GString "string" (mi_fname i))]))).

(** The same program with a panic in place of every frame that is made: the flags are refused as ever *)
Definition panics_instead {A} (o : outcome (A * error)) : outcome (A * error) :=
  match o with Ret (_, None) => Panic | _ => o end.
