(** * Memory: the properties

    Statements only; the proofs are in MemoryMain.v. *)
From Verif Require Import GoBase GoFacts Flags SpecFlags FlagsFacts Config Shipped ConfigFacts SpecWire SarFacts Timestamp SpecTime Holes Data Status Request Beacon Fileio Dirent Metadata Trans Listen Memory SpecMemory MemoryFacts MemoryMain.
Local Open Scope string_scope.
Local Open Scope N_scope.

(** C146: Decoding a data frame writes to nothing that existed, and the frame does not change when the datagram's buffer does. *)
Theorem C146_data : forall M d f, alive (mb M) (md_payload d) ->
  decoded_apart data_value data_apart M (mdata_decode M d f) (data_decode (data_value M d) (seen (mb M) f)).
Proof. exact c146_data. Qed.
Print Assumptions C146_data.

(** C146: The same for a request. *)
Theorem C146_request : forall M r f,
  decoded_apart request_value request_apart M (mrequest_decode M r f) (request_decode (request_value M r) (seen (mb M) f)).
Proof. exact c146_request. Qed.
Print Assumptions C146_request.

(** C146: The same for metadata. *)
Theorem C146_metadata : forall M m f, alive (mb M) f ->
  decoded_apart metadata_value metadata_apart M (mmeta_decode M m f) (meta_decode (metadata_value M m) (seen (mb M) f)).
Proof. exact c146_metadata. Qed.
Print Assumptions C146_metadata.

(** C146: The same for a status into which nothing was decoded before, as the listener's. *)
Theorem C146_status : forall grow M s f, ms_holes s = None ->
  decoded_apart status_value status_apart M (mstatus_decode grow M s f) (status_decode (status_value M s) (seen (mb M) f)).
Proof. exact c146_status. Qed.
Print Assumptions C146_status.

(** C146: New and Make give a data frame a payload of its own, equal to the caller's. *)
Theorem C146_new_data : forall M d session offset pay,
  decoded_apart data_value data_apart M (let '(M1, x) := mdata_fill M d session offset pay in Ret (M1, x, None))
    (Ret (d_fill (data_value M d) {| di_session := session; di_offset := offset; di_payload := seen (mb M) pay |}, None)).
Proof. exact c146_new_data. Qed.
Print Assumptions C146_new_data.

(** C146: The bytes an encoded data frame gives are its own. *)
Theorem C146_data_out : forall M d, alive (mb M) (md_payload d) -> encoded_apart M (mdata_encode M d) (data_encode (data_value M d)).
Proof. exact c146_data_out. Qed.
Print Assumptions C146_data_out.

(** C146: The same for a request. *)
Theorem C146_request_out : forall M r, alive (mb M) (mr_auth r) -> encoded_apart M (mrequest_encode M r) (request_encode (request_value M r)).
Proof. exact c146_request_out. Qed.
Print Assumptions C146_request_out.

(** C146: The same for metadata. *)
Theorem C146_metadata_out : forall M m, alive (mb M) (mm_checksum m) -> encoded_apart M (mmeta_encode M m) (meta_encode (metadata_value M m)).
Proof. exact c146_metadata_out. Qed.
Print Assumptions C146_metadata_out.

(** C146: The same for a status. *)
Theorem C146_status_out : forall M s, encoded_apart M (mstatus_encode M s) (status_encode (status_value M s)).
Proof. exact c146_status_out. Qed.
Print Assumptions C146_status_out.

(** C147: Whatever arrives at the listeners, in whatever order, every frame they have delivered is at the end, and whatever the
    program writes to older memory then, still the one its datagram stood for when it arrived. *)
Theorem C147_delivered : forall grow mtu bufs l M, buffers_ready mtu bufs M ->
  match mlisten grow mtu bufs M l with
  | Ret (M1, hs) => each_alone mtu l = Ret (map (heard_value M1) hs)
      /\ forall M2, older_overwritten M M1 M2 -> map (heard_value M2) hs = map (heard_value M1) hs
  | Panic => each_alone mtu l = Panic
  | Fatal => each_alone mtu l = Fatal
  end.
Proof. exact c147_delivered. Qed.
Print Assumptions C147_delivered.

(** C147: A listener's buffer is made unless the MTU is below -40, where the listener panics; it is as large as it should be. *)
Theorem C147_buffer : forall M mtu,
  (new_buf M mtu = Panic <-> (mtu < -40)%Z)
  /\ forall M' b, new_buf M mtu = Ret (M', b) -> alive (mb M') (Some b) /\ sl_length b = Z.to_nat (mtu + 40) /\ made_since (mb M) (Some b) /\ nothing_written M M'.
Proof. exact c147_buffer. Qed.
Print Assumptions C147_buffer.

(** C146: New and Make give a status that had no holes before holes of its own, equal to the caller's. *)
Theorem C146_new_status : forall grow M s session progress inrespto hs, ms_holes s = None -> alive (mh M) hs ->
  decoded_apart status_value status_apart M (let '(M1, x) := mstatus_fill grow M s session progress inrespto hs in Ret (M1, x, None))
    (Ret (s_fill (status_value M s) {| si_session := session; si_progress := progress; si_inrespto := inrespto; si_holes := seen (mh M) hs |}, None)).
Proof. exact c146_new_status. Qed.
Print Assumptions C146_new_status.

(** C148: A status and a copy of it, decoded into one after the other: the second decoding replaces the holes that the first one
    gave, as far as they are in the array both had, that is when it had room for them. *)
Theorem C148_status : forall grow M s c f1 f2 M1 s1 M2 c2, alive (mh M) (ms_holes s) -> ms_holes c = ms_holes s ->
  mstatus_decode grow M s f1 = Ret (M1, s1, None) -> mstatus_decode grow M1 c f2 = Ret (M2, c2, None) ->
  exists h1 h2, let old := s_holes (status_value M s) in
    s_holes (status_value M1 s1) = (old ++ h1)%list
    /\ s_holes (status_value M2 c2) = (old ++ h2)%list
    /\ s_holes (status_value M2 s1) = (old ++ (if (List.length h1 <=? room (ms_holes s))%nat then written_over h1 h2 else h1))%list.
Proof. exact c148_status. Qed.
Print Assumptions C148_status.

(** C148: New on a request writes the authentication field over the one that the request has, and so in every copy of the request
    as well; as many bytes as both have.  Nothing else is changed.  Without such a field nothing is stored. *)
Theorem C148_request : forall M r session fname auth, alive (mb M) (mr_auth r) ->
  let '(M1, r1) := mrequest_fill M r session fname auth in
  let now := seen (mb M) auth in
  request_value M1 r1 = {| r_header := mr_header r; r_session := u32 session; r_fname := fname; r_auth := written_over (r_auth (request_value M r)) now |}
  /\ (forall c, mr_auth c = mr_auth r -> r_auth (request_value M1 c) = written_over (r_auth (request_value M c)) now)
  /\ (forall s t, mr_auth r = Some t -> sl_array s <> sl_array t -> seen (mb M1) (Some s) = seen (mb M) (Some s))
  /\ mh M1 = mh M
  /\ (mr_auth r = None -> M1 = M).
Proof. exact c148_request. Qed.
Print Assumptions C148_request.
Example C146_ex :
  alive (mb ex_mem) (Some (whole 0 16)) /\
  exists M1 d, mdata_decode ex_mem mdata0 (Some (whole 0 16)) = Ret (M1, d, None) /\ d_payload (data_value M1 d) = bytes_of "abcdef" /\
    older_overwritten ex_mem M1 {| mb := copy_in (mb M1) (Some (whole 0 16)) (ex_data "123456"); mh := mh M1 |} /\
    d_payload (data_value {| mb := copy_in (mb M1) (Some (whole 0 16)) (ex_data "123456"); mh := mh M1 |} d) = bytes_of "abcdef" /\
    exists M2 s, mdata_encode M1 d = Ret (M2, inl s) /\ seen (mb M2) (Some s) = ex_data "abcdef" /\ sl_array s = 2%nat.
Proof. exact c146_ex. Qed.

(** Two data frames come in through the same buffer of 1540 bytes; both payloads are there afterwards *)
Example C147_ex : exists M b, new_buf ex_mem 1500 = Ret (M, b) /\ buffers_ready 1500 (fun _ => b) M /\ sl_length b = 1540%nat /\
  exists M1 d1 d2, mlisten (fun n => 2 * n)%nat 1500 (fun _ => b) M
      [ {| ar_socket := 0; ar_now := ex_t; ar_bytes := ex_data "first"; ar_from := ex_peer |};
        {| ar_socket := 0; ar_now := ex_t; ar_bytes := ex_data "SECOND"; ar_from := ex_peer |} ]
    = Ret (M1, [MToRx ex_peer (MData d1); MToRx ex_peer (MData d2)]) /\
    d_payload (data_value M1 d1) = bytes_of "first" /\ d_payload (data_value M1 d2) = bytes_of "SECOND".
Proof. exact c147_ex. Qed.

(** A status with one hole and room for two more, and a copy of it; a frame with one hole is decoded into each.  The first
    one's new hole becomes the second one's.  A request's authentication field and that of a copy, when New is called. *)
Example C148_ex :
  let s := {| ms_header := 0; ms_session := 0; ms_tstamp := s_tstamp zero_status; ms_progress := 0; ms_inrespto := 0;
              ms_holes := Some {| sl_array := 0; sl_start := 0; sl_length := 1; sl_capacity := 3 |} |} in
  let M := {| mb := [ex_status [4; 5]; ex_status [6; 7]; bytes_of "secret"; bytes_of "PW"]; mh := mh ex_mem |} in
  alive (mh M) (ms_holes s) /\ room (ms_holes s) = 2%nat /\
  (exists M1 s1 M2 c2, mstatus_decode (fun n => n) M s (Some (whole 0 16)) = Ret (M1, s1, None) /\ mstatus_decode (fun n => n) M1 s (Some (whole 1 16)) = Ret (M2, c2, None) /\
    s_holes (status_value M1 s1) = [{| h_start := 1; h_end := 2 |}; {| h_start := 4; h_end := 5 |}] /\
    s_holes (status_value M2 s1) = [{| h_start := 1; h_end := 2 |}; {| h_start := 6; h_end := 7 |}]) /\
  let r := {| mr_header := 0; mr_session := 0; mr_fname := ""; mr_auth := Some (whole 2 6) |} in
  alive (mb M) (mr_auth r) /\
  let '(M1, r1) := mrequest_fill M r 5 "name" (Some (whole 3 2)) in
  r_auth (request_value M1 r1) = bytes_of "PWcret" /\ r_auth (request_value M1 r) = bytes_of "PWcret".
Proof. exact c148_ex. Qed.
