(** * Specification vocabulary for the listener, the main loop and received requests *)

From Verif Require Import GoBase Flags SpecFlags Shipped SpecWire Timestamp SpecTime Holes Data SpecFrames Status SpecStatus Request SpecRequest
  Beacon SpecBeacon Fileio Dirent SpecDirent Metadata SpecMetadata Trans Listen.
Local Open Scope string_scope.
Local Open Scope N_scope.

(** ** Fields of the first four bytes *)
Definition hd_version (h : N) : N := bit_field 32 0 3 h.
Definition hd_frametype (h : N) : N := bit_field 32 3 5 h.
Definition hd_errcode (h : N) : N := bit_field 32 24 8 h.
Definition hd_csumtype (h : N) : N := bit_field 32 28 4 h.
Definition hd_stream (h : N) : N := bit_field 32 11 1 h.
Definition hd_udplite (h : N) : N := bit_field 32 16 1 h.
Definition hd_txwilling (h : N) : N := bit_field 32 12 2 h.
Definition hd_rxwilling (h : N) : N := bit_field 32 14 2 h.
Definition hd_reqtype (h : N) : N := bit_field 32 24 8 h.

(** ** The frame that a complete datagram holds *)
Definition frame_in (f : list byte) : option frame :=
  let h := number_at f 0 4 in
  let s := number_at f 4 4 in
  match hd_frametype h with
  | 0 => match space_width h with
         | Some w => Some (FBeacon {| b_header := h; b_freespace := number_at f 4 w; b_eid := string_of (skipn (4 + w) f) |})
         | None => None
         end
  | 1 => let name := before_zero (skipn 8 f) in
         Some (FRequest {| r_header := h; r_session := s; r_fname := string_of (latin1_utf8 name);
                           r_auth := skipn (9 + length name + high_count name) f |})
  | 2 => let rest := skipn (8 + csum_bytes h) f in
         match descriptor_width (dh_descriptor (number_at rest 0 2)) with
         | Some w => Some (FMetadata {| m_header := h; m_session := s; m_checksum := firstn (csum_bytes h) (skipn 8 f);
                                        m_dir := dirent_at rest w |})
         | None => None
         end
  | 3 => match descriptor_width (hd_descriptor h) with
         | Some w => Some (FData {| d_header := h; d_session := s; d_tstamp := ts_read zero_timestamp f;
                                    d_offset := number_at f (after_ts h) w; d_payload := skipn (after_ts h + w) f |})
         | None => None
         end
  | 4 => match descriptor_width (hd_descriptor h) with
         | Some w => Some (FStatus {| s_header := h; s_session := s; s_tstamp := ts_read zero_timestamp f;
                                      s_progress := number_at f (after_ts h) w; s_inrespto := number_at f (after_ts h + w) w;
                                      s_holes := holes_from f (after_ts h + 2 * w) w |})
         | None => None
         end
  | _ => None
  end.

(** The sizes the listener looks at *)
Definition fits_mtu (mtu : Z) (f : list byte) : Prop := (8 <= length f)%nat /\ (Z.of_nat (length f) <= mtu - 60)%Z.
Definition fits_mtu_b (mtu : Z) (f : list byte) : bool := Nat.leb 8 (length f) && (Z.of_nat (length f) <=? mtu - 60)%Z.

(** ** What becomes of a datagram *)
Inductive fate := Ignored | HandedOn | Answered | Died.
Definition fate_of (r : outcome heard) : fate :=
  match r with Ret Dropped => Ignored | Ret (ToRx _) => HandedOn | Ret (ToTx _) => Answered | _ => Died end.

(** A rejected frame is ignored or answered, an accepted one handed on *)
Definition fate_by (v : verdict) (rejected accepted : fate) : fate :=
  match v with Accept => accepted | Reject => rejected | _ => Died end.
Definition datagram_fate (mtu : Z) (f : list byte) : fate :=
  if fits_mtu_b mtu f then
    let h := number_at f 0 4 in
    match hd_version h with
    | 0 => Answered
    | 1 => match hd_frametype h with
           | 0 => fate_by (beacon_verdict f) Ignored HandedOn
           | 1 => fate_by (request_verdict 0 f) Ignored HandedOn
           | 2 => fate_by (meta_verdict f) Answered HandedOn
           | 3 => fate_by (data_verdict f) Answered HandedOn
           | 4 => fate_by (status_verdict f) Answered (if hd_errcode h <=? 18 then HandedOn else Died)
           | _ => Died
           end
    | _ => Died
    end
  else Ignored.

(** An error status: only the given settings, nothing else *)
Definition error_status (st : status) (settings : list (string * string)) (session progress : N) : Prop :=
  set_exactly sar 0 (s_header st) (("version", "v1") :: ("frametype", "status") :: settings) /\
  s_session st = session /\ s_progress st = progress /\ s_inrespto st = 0 /\ s_holes st = [] /\ s_tstamp st = zero_timestamp.
(** The answer to a frame whose header announces descriptor [d] *)
Definition bad_settings (d : string) : list (string * string) :=
  [("descriptor", d); ("metadatarecvd", "no"); ("allholes", "yes"); ("reqholes", "requested"); ("errcode", "badpacket")].
(** The session and progress that the answer to a rejected frame quotes: what the
    decoder has read before it gave up *)
Definition quoted (f : list byte) : N * N :=
  if hd_frametype (number_at f 0 4) =? 3 then
    if Nat.ltb (length f) 10 then (0, 0)
    else (number_at f 4 4,
          match ts_verdict f, descriptor_width (hd_descriptor (number_at f 0 4)) with
          | Accept, Some _ => number_at f 24 2
          | _, _ => 0
          end)
  else (number_at f 4 4, 0).

(** ** Received requests: the decision table *)
Inductive decision :=
| Refuse (code : string)
| Remove_file
| Take_on (ttype : string)
| Kills.
Definition request_types : list (N * string) :=
  [(0, "noaction"); (1, "get"); (2, "put"); (3, "take"); (4, "give"); (5, "delete"); (6, "getdir")].
Fixpoint assoc {A} (n : N) (l : list (N * A)) : option A :=
  match l with [] => None | (k, v) :: r => if n =? k then Some v else assoc n r end.
(** [there]: the named file exists; [removable]: removing it succeeds *)
Definition decide (h : N) (there removable : bool) : decision :=
  match assoc (hd_reqtype h) request_types with
  | None => Kills
  | Some t =>
      if 2 <=? hd_version h then Kills
      else if hd_version h =? 0 then Refuse "badrequest"
      else if hd_udplite h =? 1 then Refuse "badrequest"
      else if hd_stream h =? 1 then Refuse "badrequest"
      else if hd_rxwilling h =? 1 then Refuse "cantreceive"
      else if hd_txwilling h =? 1 then Refuse "cantsend"
      else match t with
           | "get" | "take" | "getdir" =>
               if negb (hd_rxwilling h =? 3) then Refuse "cantreceive"
               else if there then Take_on t else Refuse "filenotfound"
           | "put" | "give" =>
               if negb (hd_txwilling h =? 3) then Refuse "cantsend"
               else if there then Refuse "fileinuse" else Take_on t
           | "delete" =>
               if there then if removable then Remove_file else Refuse "didnotdelete" else Refuse "filenotfound"
           | _ => Refuse "badrequest"
           end
  end.
