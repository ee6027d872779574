(** * Reason: the properties

    Statements only; the proofs are in ReasonMain.v. *)
From Verif Require Import GoBase GoFacts Flags SpecFlags FlagsFacts Config Shipped ConfigFacts SpecWire SarFacts Timestamp SpecTime TimeMain Holes Data SpecFrames FrameFacts FlagStrFacts BuildFacts DataMain Status SpecStatus StatusMain Request SpecRequest RequestMain Beacon SpecBeacon BeaconMain Fileio Itoa Dirent SpecDirent FlagsMain DirentMain Metadata SpecMetadata MetadataMain SpecReason ReasonMain.
Local Open Scope string_scope.
Local Open Scope N_scope.

(** C144: A data frame is refused for one of four reasons, and leaves what was read before the reason was met. *)
Theorem C144_data : forall d f, data_verdict f = Reject -> data_decode d f = Ret (data_left d f, Some (data_reason f)).
Proof. exact c144_data. Qed.
Print Assumptions C144_data.

(** C144: A status is refused for one of three reasons; its holes and numbers are then not taken over. *)
Theorem C144_status : forall s f, status_verdict f = Reject -> status_decode s f = Ret (status_left s f, Some (status_reason f)).
Proof. exact c144_status. Qed.
Print Assumptions C144_status.

(** C144: A beacon is refused for one reason. *)
Theorem C144_beacon : forall b f, beacon_verdict f = Reject ->
  beacon_decode b f = Ret ({| b_header := number_at f 0 4; b_freespace := b_freespace b; b_eid := b_eid b |},
                           Some "d128 not supported invalid beacon frame").
Proof. exact c144_beacon. Qed.
Print Assumptions C144_beacon.

(** C144: A request is refused for one reason. *)
Theorem C144_request : forall r f, request_verdict (slen (r_fname r)) f = Reject ->
  request_decode r f = Ret (r, Some "request.Decode - request frame too short").
Proof. exact c144_request. Qed.
Print Assumptions C144_request.

(** C144: A directory entry is refused for one of two reasons. *)
Theorem C144_entry : forall d f, dirent_verdict f = Reject -> dirent_decode d f = Ret (entry_left d f, Some (entry_reason f)).
Proof. exact c144_entry. Qed.
Print Assumptions C144_entry.

(** C144: Metadata are refused for one of three reasons. *)
Theorem C144_metadata : forall m f, meta_verdict f = Reject -> meta_decode m f = Ret (meta_left m f, Some (meta_reason f)).
Proof. exact c144_metadata. Qed.
Print Assumptions C144_metadata.

(** C144: A data frame with 128-bit offsets cannot be sent. *)
Theorem C144_encode_data : forall d, hd_descriptor (d_header d) = 3 -> data_encode d = Ret (EncErr "d128d128 not supported in data").
Proof. exact c144_encode_data. Qed.
Print Assumptions C144_encode_data.

(** C144: A status with 128-bit offsets cannot be sent. *)
Theorem C144_encode_status : forall s, hd_descriptor (s_header s) = 3 -> status_encode s = Ret (EncErr "d128 not supported in status").
Proof. exact c144_encode_status. Qed.
Print Assumptions C144_encode_status.

(** C144: A beacon with 128-bit free space cannot be sent. *)
Theorem C144_encode_beacon : forall b, hd_freespace (b_header b) = 1 -> hd_freespaced (b_header b) = 3 ->
  beacon_encode b = Ret (EncErr "d128 not supported invalid beacon frame").
Proof. exact c144_encode_beacon. Qed.
Print Assumptions C144_encode_beacon.

(** C144: A directory entry that cannot be encoded is refused for its path, its size or its descriptor. *)
Theorem C144_encode_entry : forall d, (forall f, dirent_encode d <> Ret (Frame f)) -> dirent_encode d = Ret (EncErr (entry_unsendable d)).
Proof. exact c144_encode_entry. Qed.
Print Assumptions C144_encode_entry.

(** C144: The first item of a list of flags that a data frame does not take is named. *)
Theorem C144_new_data : forall now d items info e, good_now now -> (forall p, In p items -> clean (fst p) /\ clean (snd p)) ->
  first_refusal (data_item_verdict sar) data_item_reason items = Some e -> exists d', data_new now d (flag_list items) info = Ret (d', Some e).
Proof. exact c144_new_data. Qed.
Print Assumptions C144_new_data.

(** C144: The first item of a list of flags that a status does not take is named. *)
Theorem C144_new_status : forall now s items info e, good_now now -> (forall p, In p items -> clean (fst p) /\ clean (snd p)) ->
  first_refusal (status_item_verdict sar) status_item_reason items = Some e -> exists s', status_new now s (flag_list items) info = Ret (s', Some e).
Proof. exact c144_new_status. Qed.
Print Assumptions C144_new_status.

(** C144: The first item of a list of flags that a request does not take is named, with the whole list. *)
Theorem C144_new_request : forall r items n info e, (forall p, In p items -> clean (fst p) /\ clean (snd p)) ->
  first_refusal (request_item_verdict sar) (request_item_reason (flag_list items)) items = Some e ->
  exists r', request_new r (flag_list items ++ commas n) info = Ret (r', Some e).
Proof. exact c144_new_request. Qed.
Print Assumptions C144_new_request.

(** C144: The first item of a list of flags that a beacon does not take is named. *)
Theorem C144_new_beacon : forall env b items info e, (forall p, In p items -> clean (fst p) /\ clean (snd p)) ->
  first_refusal (beacon_item_verdict sar) beacon_item_reason items = Some e -> exists b', beacon_new env b (flag_list items) info = Ret (b', Some e).
Proof. exact c144_new_beacon. Qed.
Print Assumptions C144_new_beacon.

(** C144: The first item of a list of flags that a directory entry does not take is named. *)
Theorem C144_new_entry : forall E d items path e, (forall p, In p items -> clean (fst p) /\ clean (snd p)) ->
  first_refusal (dirent_item_verdict sar) entry_item_reason items = Some e -> exists d', dirent_new E d (flag_list items) path = Ret (d', Some e).
Proof. exact c144_new_entry. Qed.
Print Assumptions C144_new_entry.

(** C144: The first item of a list of flags that metadata do not take is named. *)
Theorem C144_new_metadata : forall E m items info e, (forall p, In p items -> clean (fst p) /\ clean (snd p)) ->
  first_refusal (meta_item_verdict sar) meta_item_reason items = Some e -> exists m', meta_new E m (flag_list items) info = Ret (m', Some e).
Proof. exact c144_new_metadata. Qed.
Print Assumptions C144_new_metadata.

(** C144: What is in the working directory but is not what the flags say is refused with its name. *)
Theorem C144_node : forall E m items info n, items <> [] -> (forall p, In p items -> clean (fst p) /\ clean (snd p)) ->
  (forall p, In p items -> meta_item_verdict sar p = Accept) -> m_header m < 2 ^ 32 -> here E (mi_fname info) = inl n ->
  exists h, set_exactly sar (m_header m) h (("version", "v1") :: ("frametype", "metadata") :: flat_map meta_settings items) /\
    (node_verdict h n = Reject -> exists m', meta_new E m (flag_list items) info = Ret (m', Some (node_reason h n (mi_fname info)))).
Proof. exact c144_node. Qed.
Print Assumptions C144_node.

(** C144: A directory entry with too long a path is refused for that. *)
Theorem C144_path : forall E d items path, items <> [] -> (forall p, In p items -> clean (fst p) /\ clean (snd p)) ->
  (forall p, In p items -> dirent_item_verdict sar p = Accept) -> (1024 < slen path)%nat ->
  exists d', dirent_new E d (flag_list items) path = Ret (d', Some "path name exceeds 1024 bytes").
Proof. exact c144_path. Qed.
Print Assumptions C144_path.

(** C144: An instant that does not fit is refused by the type it was to be stored in. *)
Theorem C144_instant : forall t ty ts t' e, In ty ["posix32"; "posix64"; "posix32_32"; "posix64_32"; "epoch2000_32"] ->
  ts_new t ty ts = Ret (t', Some e) -> e = instant_reason ty.
Proof. exact c144_instant. Qed.
Print Assumptions C144_instant.

(** C144: The current time that does not fit is refused with the flag. *)
Theorem C144_now : forall now t flag t' e, ts_now now t flag = Ret (t', Some e) -> e = "TimeStampNow invalid flag:" ++ flag.
Proof. exact c144_now. Qed.
Print Assumptions C144_now.

(** C144: A timestamp of local text is refused, but its text is kept. *)
Theorem C144_stamp : forall t b, length b = 16%nat -> number_at b 0 1 = 0 ->
  ts_get t b = Ret ({| t_header := 0; t_secs := 0; t_nsecs := 0; t_local := string_of (firstn 14 (skipn 1 b)); t_ttype := "localinterp" |}, Some stamp_reason).
Proof. exact c144_stamp. Qed.
Print Assumptions C144_stamp.
Example C144_ex :
  data_verdict (wire 4 0x23080000 ++ wire 4 7 ++ zeros 16) = Reject /\
  data_reason (wire 4 0x23080000 ++ wire 4 7 ++ zeros 16) = "timestamp.Get: Invalid Timestamp type:localinterp" /\
  data_reason (wire 4 0x23080000 ++ wire 4 7 ++ wire 1 1 ++ zeros 15 ++ zeros 2) = "length of data payload is 0" /\
  status_reason (wire 4 0x24C00000 ++ zeros 20) = "d128 not supported in status" /\
  first_refusal (data_item_verdict sar) data_item_reason [("descriptor", "d16"); ("reqtstamp", "posix16")] = Some "posix16 invalid timestamp type in data" /\
  first_refusal (beacon_item_verdict sar) beacon_item_reason [("freespaced", "d128")] = Some "Beacon.New: Invalid freespaced d128" /\
  entry_unsendable {| de_header := 0x8080; de_size := 2 ^ 32; de_mtime := y2k 0; de_ctime := y2k 0; de_path := "f" |} = "Descriptor d64 too small for file size 4294967296" /\
  node_reason 0 {| n_kind := KDir; n_size := 0; n_mtime := {| unix_secs := 0; unix_nanos := 0 |}; n_ctime := {| unix_secs := 0; unix_nanos := 0 |} |} "d" = "d not a file".
Proof. exact c144_ex. Qed.
