(** * Head: the properties

    Statements only; the proofs are in HeadMain.v. *)
From Verif Require Import GoBase GoFacts Flags SpecFlags FlagsFacts Config Shipped ConfigFacts SpecWire SarFacts Timestamp SpecTime TimeMain Holes Data SpecFrames FrameFacts DataMain Status SpecStatus StatusMain Request SpecRequest RequestMain Beacon SpecBeacon BeaconMain Fileio Dirent SpecDirent FlagsMain DirentMain Metadata SpecMetadata MetadataMain SpecHead HeadMain.
Local Open Scope string_scope.
Local Open Scope N_scope.

(** C145: Decoding a data frame uses no part of its header but the descriptor and whether there is a timestamp. *)
Theorem C145_data : forall d f g, same_behind 4 f g ->
  hd_reqtstamp (header_of f) = hd_reqtstamp (header_of g) -> hd_descriptor (header_of f) = hd_descriptor (header_of g) ->
  ends_alike data_alike (data_decode d f) (data_decode d g).
Proof. exact c145_data. Qed.
Print Assumptions C145_data.

(** C145: Decoding a status uses no part of its header but the descriptor and whether there is a timestamp. *)
Theorem C145_status : forall s f g, same_behind 4 f g ->
  hd_reqtstamp (header_of f) = hd_reqtstamp (header_of g) -> hd_descriptor (header_of f) = hd_descriptor (header_of g) ->
  ends_alike status_alike (status_decode s f) (status_decode s g).
Proof. exact c145_status. Qed.
Print Assumptions C145_status.

(** C145: Decoding a request uses no part of its header. *)
Theorem C145_request : forall r f g, same_behind 4 f g -> ends_alike request_alike (request_decode r f) (request_decode r g).
Proof. exact c145_request. Qed.
Print Assumptions C145_request.

(** C145: Decoding a beacon uses no part of its header but whether there is free space and, if so, its descriptor. *)
Theorem C145_beacon : forall b f g, same_behind 4 f g ->
  hd_freespace (header_of f) = hd_freespace (header_of g) ->
  (hd_freespace (header_of f) = 1 -> hd_freespaced (header_of f) = hd_freespaced (header_of g)) ->
  ends_alike beacon_alike (beacon_decode b f) (beacon_decode b g).
Proof. exact c145_beacon. Qed.
Print Assumptions C145_beacon.

(** C145: Decoding a directory entry uses no part of its header but the descriptor. *)
Theorem C145_entry : forall d f g, same_behind 2 f g -> dh_descriptor (number_at f 0 2) = dh_descriptor (number_at g 0 2) ->
  ends_alike entry_alike (dirent_decode d f) (dirent_decode d g).
Proof. exact c145_entry. Qed.
Print Assumptions C145_entry.

(** C145: Decoding metadata uses no part of its header but the length of the checksum. *)
Theorem C145_metadata : forall m f g, same_behind 4 f g -> hd_csumlen (header_of f) = hd_csumlen (header_of g) ->
  ends_alike metadata_alike (meta_decode m f) (meta_decode m g).
Proof. exact c145_metadata. Qed.
Print Assumptions C145_metadata.

(** C145: The first byte of a datagram, its version and its type, changes nothing in what any of the five decoders does. *)
Theorem C145_any_type : forall f g, same_behind 1 f g ->
  (forall d, ends_alike data_alike (data_decode d f) (data_decode d g))
  /\ (forall s, ends_alike status_alike (status_decode s f) (status_decode s g))
  /\ (forall r, ends_alike request_alike (request_decode r f) (request_decode r g))
  /\ (forall b, ends_alike beacon_alike (beacon_decode b f) (beacon_decode b g))
  /\ (forall m, ends_alike metadata_alike (meta_decode m f) (meta_decode m g)).
Proof. exact c145_any_type. Qed.
Print Assumptions C145_any_type.

(** C145: Encoding a data frame uses no other part of its header either; the header is copied to the front. *)
Theorem C145_data_out : forall d h', hd_reqtstamp (d_header d) = hd_reqtstamp h' -> hd_descriptor (d_header d) = hd_descriptor h' ->
  encodes_alike 4 (d_header d) h' (data_encode d)
    (data_encode {| d_header := h'; d_session := d_session d; d_tstamp := d_tstamp d; d_offset := d_offset d; d_payload := d_payload d |}).
Proof. exact c145_data_out. Qed.
Print Assumptions C145_data_out.

(** C145: Likewise for a status. *)
Theorem C145_status_out : forall s h', hd_reqtstamp (s_header s) = hd_reqtstamp h' -> hd_descriptor (s_header s) = hd_descriptor h' ->
  encodes_alike 4 (s_header s) h' (status_encode s)
    (status_encode {| s_header := h'; s_session := s_session s; s_tstamp := s_tstamp s; s_progress := s_progress s; s_inrespto := s_inrespto s; s_holes := s_holes s |}).
Proof. exact c145_status_out. Qed.
Print Assumptions C145_status_out.

(** C145: Encoding a request uses no part of its header. *)
Theorem C145_request_out : forall r h',
  encodes_alike 4 (r_header r) h' (request_encode r)
    (request_encode {| r_header := h'; r_session := r_session r; r_fname := r_fname r; r_auth := r_auth r |}).
Proof. exact c145_request_out. Qed.
Print Assumptions C145_request_out.

(** C145: Encoding a beacon uses only whether there is free space and, if so, its descriptor. *)
Theorem C145_beacon_out : forall b h', hd_freespace (b_header b) = hd_freespace h' ->
  (hd_freespace h' = 1 -> hd_freespaced (b_header b) = hd_freespaced h') ->
  encodes_alike 4 (b_header b) h' (beacon_encode b)
    (beacon_encode {| b_header := h'; b_freespace := b_freespace b; b_eid := b_eid b |}).
Proof. exact c145_beacon_out. Qed.
Print Assumptions C145_beacon_out.

(** C145: Encoding a directory entry uses only the descriptor. *)
Theorem C145_entry_out : forall d h', dh_descriptor (de_header d) = dh_descriptor h' ->
  encodes_alike 2 (de_header d) h' (dirent_encode d)
    (dirent_encode {| de_header := h'; de_size := de_size d; de_mtime := de_mtime d; de_ctime := de_ctime d; de_path := de_path d |}).
Proof. exact c145_entry_out. Qed.
Print Assumptions C145_entry_out.

(** C145: Encoding metadata uses no part of its header, not even the length of the checksum. *)
Theorem C145_metadata_out : forall m h',
  encodes_alike 4 (m_header m) h' (meta_encode m)
    (meta_encode {| m_header := h'; m_session := m_session m; m_checksum := m_checksum m; m_dir := m_dir m |}).
Proof. exact c145_metadata_out. Qed.
Print Assumptions C145_metadata_out.
Example C145_ex :
  (* data: descriptor 16, 32 bits, and a timestamp *)
  ex_offset (data_decode zero_data (ex_frame 0 40)) = Some (1345, 39%nat, false)
  /\ ex_offset (data_decode zero_data (ex_frame (2 ^ 22) 40)) = Some (88162625, 37%nat, false)
  /\ ex_offset (data_decode zero_data (ex_frame (2 ^ 19) 40)) = Some (16705, 23%nat, false)
  (* another version, type and end of data: no difference *)
  /\ ex_offset (data_decode zero_data (ex_frame (255 * 2 ^ 24 + 3 * 2 ^ 20 + 65535) 40)) = Some (1345, 39%nat, false)
  /\ ex_progress (status_decode zero_status (ex_frame 0 40)) = Some (1345, 9%nat)
  /\ ex_progress (status_decode zero_status (ex_frame (2 ^ 22) 40)) = Some (88162625, 4%nat)
  /\ ex_progress (status_decode zero_status (ex_frame (2 ^ 19) 40)) = Some (16705, 5%nat)
  /\ ex_space (beacon_decode zero_beacon (ex_frame 0 4)) = Some (0, 9%nat)
  /\ ex_space (beacon_decode zero_beacon (ex_frame (2 ^ 14) 4)) = Some (0, 7%nat)
  /\ ex_space (beacon_decode zero_beacon (ex_frame (2 ^ 14 + 2 ^ 12) 4)) = Some (7, 5%nat)
  /\ ex_csum (meta_decode zero_metadata (ex_frame 0 40)) = Some 0%nat
  /\ ex_csum (meta_decode zero_metadata (ex_frame (2 * 2 ^ 4) 40)) = Some 8%nat
  /\ ex_desize (dirent_decode zero_dirent (ex_frame 3 40)) = Some 3
  /\ ex_desize (dirent_decode zero_dirent (ex_frame (2 ^ 22 + 3) 40)) = Some 196608.
Proof. exact c145_ex. Qed.
