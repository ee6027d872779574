(** * Specification vocabulary for sending frames *)

From Verif Require Import GoBase Flags SpecFlags Shipped SpecWire Timestamp SpecTime Holes SpecHoles Data SpecFrames Status SpecStatus Request SpecRequest
  Beacon SpecBeacon Fileio Dirent SpecDirent Metadata SpecMetadata Trans Listen SpecListen Transmit.
Local Open Scope string_scope.
Local Open Scope N_scope.

(** The bytes of a frame, if it has any.  Written from the layouts, not the encoders. *)
Definition frame_wire (f : frame) : option (list byte) :=
  match f with
  | FBeacon b => match space_width (b_header b) with Some w => Some (beacon_wire (b_header b) w (b_freespace b) (b_eid b)) | None => None end
  | FRequest r => Some (request_wire (r_header r) (r_session r) (r_fname r) (r_auth r))
  | FMetadata m =>
      match descriptor_width (dh_descriptor (de_header (m_dir m))) with
      | Some w => Some (meta_wire (m_header m) (m_session m) (m_checksum m)
                          (dirent_wire (de_header (m_dir m)) w (de_size (m_dir m)) (t_secs (de_mtime (m_dir m))) (t_secs (de_ctime (m_dir m))) (de_path (m_dir m))))
      | None => None
      end
  | FData d =>
      match descriptor_width (hd_descriptor (d_header d)) with
      | Some w => match (if hd_reqtstamp (d_header d) =? 0 then Some [] else ts_bytes (d_tstamp d)) with
                  | Some ts => Some (data_wire (d_header d) (d_session d) ts w (d_offset d) (d_payload d))
                  | None => None
                  end
      | None => None
      end
  | FStatus s =>
      match descriptor_width (hd_descriptor (s_header s)) with
      | Some w => Some (status_wire (s_header s) (s_session s) w (s_progress s) (s_inrespto s) (s_holes s))
      | None => None
      end
  end.

(** A 32-bit header of version 1 that announces frame type [k] *)
Definition header_of (k h : N) : Prop := h < 2 ^ 32 /\ SpecListen.hd_version h = 1 /\ SpecListen.hd_frametype h = k.

(** The entry of a metadata frame can be put on the wire *)
Definition entry_sendable (d : dirent) : Prop :=
  (slen (de_path d) <= 1024)%nat /\
  ((dh_descriptor (de_header d) = 0 /\ de_size d < 2 ^ 16) \/
   ((dh_descriptor (de_header d) = 1 \/ dh_descriptor (de_header d) = 2) /\ de_size d < 2 ^ 32)).

(** A frame whose numbers fit the widths it announces, as the constructors build them *)
Definition well_formed (f : frame) : Prop :=
  match f with
  | FBeacon b => header_of 0 (b_header b) /\ exists w, space_width (b_header b) = Some w /\ b_freespace b < 2 ^ (8 * N.of_nat w)
  | FRequest r => header_of 1 (r_header r) /\ r_session r < 2 ^ 32 /\ ascii_name (r_fname r)
  | FMetadata m =>
      header_of 2 (m_header m) /\ m_session m < 2 ^ 32 /\ List.length (m_checksum m) = csum_bytes (m_header m) /\
      entry_sendable (m_dir m) /\ de_header (m_dir m) < 2 ^ 16 /\ ascii_name (de_path (m_dir m)) /\
      (exists t, de_mtime (m_dir m) = y2k t /\ t < 2 ^ 32) /\ (exists t, de_ctime (m_dir m) = y2k t /\ t < 2 ^ 32)
  | FData d =>
      header_of 3 (d_header d) /\ d_session d < 2 ^ 32 /\
      (if hd_reqtstamp (d_header d) =? 1 then proper_stamp (d_tstamp d) else d_tstamp d = zero_timestamp) /\
      exists w, descriptor_width (hd_descriptor (d_header d)) = Some w /\ d_offset d < 2 ^ (8 * N.of_nat w) /\
        ~ (hd_reqtstamp (d_header d) = 1 /\ w = 2%nat /\ d_payload d = [])
  | FStatus s =>
      header_of 4 (s_header s) /\ s_session s < 2 ^ 32 /\ hd_reqtstamp (s_header s) = 0 /\ SpecListen.hd_errcode (s_header s) <= 18 /\
      s_tstamp s = zero_timestamp /\
      exists w, descriptor_width (hd_descriptor (s_header s)) = Some w /\
        s_progress s < 2 ^ (8 * N.of_nat w) /\ s_inrespto s < 2 ^ (8 * N.of_nat w) /\
        (forall h, In h (s_holes s) -> offset_fits w (h_start h) /\ offset_fits w (h_end h))
  end.

(** Where a frame goes: a beacon along the connection, all others to the address given *)
Definition goes_to (f : frame) (to : udpaddr) : option udpaddr := match f with FBeacon _ => None | _ => Some to end.

(** The socket took all of the bytes *)
Definition took_all (sk : socket) (to : option udpaddr) (buf : list byte) : Prop := sk_write sk to buf = Took (List.length buf).
