(** * Part: the properties

    Statements only; the proofs are in PartMain.v. *)
From Verif Require Import GoBase GoFacts Flags Config Shipped Timestamp Data Holes Status Request Beacon Dirent Metadata Part PartFacts PartMain.
From Coq Require Import Lia.
Local Open Scope string_scope.
Local Open Scope nat_scope.

(** C141: data frames: Decode of the first n bytes of a buffer does what it does with a copy of these bytes; where the copy would crash it, it never succeeds *)
Theorem C141_data : forall (buf : list byte) (n : nat) d, n <= List.length buf ->
  (data_decode d (firstn n buf) <> Panic -> data_decode_p d {| p_buf := buf; p_len := n |} = data_decode d (firstn n buf)) /\
  (data_decode d (firstn n buf) = Panic -> forall d', data_decode_p d {| p_buf := buf; p_len := n |} <> Ret (d', None)).
Proof. exact c141_data. Qed.
Print Assumptions C141_data.

(** C141: the same for status frames *)
Theorem C141_status : forall (buf : list byte) (n : nat) s, n <= List.length buf ->
  (status_decode s (firstn n buf) <> Panic -> status_decode_p s {| p_buf := buf; p_len := n |} = status_decode s (firstn n buf)) /\
  (status_decode s (firstn n buf) = Panic -> forall s', status_decode_p s {| p_buf := buf; p_len := n |} <> Ret (s', None)).
Proof. exact c141_status. Qed.
Print Assumptions C141_status.

(** C141: the same for beacons *)
Theorem C141_beacon : forall (buf : list byte) (n : nat) b, n <= List.length buf ->
  (beacon_decode b (firstn n buf) <> Panic -> beacon_decode_p b {| p_buf := buf; p_len := n |} = beacon_decode b (firstn n buf)) /\
  (beacon_decode b (firstn n buf) = Panic -> forall b', beacon_decode_p b {| p_buf := buf; p_len := n |} <> Ret (b', None)).
Proof. exact c141_beacon. Qed.
Print Assumptions C141_beacon.

(** C141: the same for directory entries *)
Theorem C141_dirent : forall (buf : list byte) (n : nat) d, n <= List.length buf ->
  (dirent_decode d (firstn n buf) <> Panic -> dirent_decode_p d {| p_buf := buf; p_len := n |} = dirent_decode d (firstn n buf)) /\
  (dirent_decode d (firstn n buf) = Panic -> forall d', dirent_decode_p d {| p_buf := buf; p_len := n |} <> Ret (d', None)).
Proof. exact c141_dirent. Qed.
Print Assumptions C141_dirent.

(** C141: the same for metadata *)
Theorem C141_meta : forall (buf : list byte) (n : nat) m, n <= List.length buf ->
  (meta_decode m (firstn n buf) <> Panic -> meta_decode_p m {| p_buf := buf; p_len := n |} = meta_decode m (firstn n buf)) /\
  (meta_decode m (firstn n buf) = Panic -> forall m', meta_decode_p m {| p_buf := buf; p_len := n |} <> Ret (m', None)).
Proof. exact c141_meta. Qed.
Print Assumptions C141_meta.

(** C141: requests: Decode of the first n bytes of a buffer always does what it does with a copy of these bytes *)
Theorem C141_request : forall (buf : list byte) (n : nat) r, n <= List.length buf ->
  request_decode_p r {| p_buf := buf; p_len := n |} = request_decode r (firstn n buf).
Proof. exact c141_request. Qed.
Print Assumptions C141_request.

(** C141: timestamps (defect): Get takes all bytes but the first from the buffer, wherever the slice ends *)
Theorem C141_timestamp : forall (buf : list byte) (n : nat) t,
  ts_get_p t {| p_buf := buf; p_len := n |} = if Nat.eqb n 0 then Panic else ts_get t buf.
Proof. exact c141_timestamp. Qed.
Print Assumptions C141_timestamp.

(** C141: a slice with no spare capacity, which is what the listener and the client hand over, is decoded as the list of its bytes *)
Theorem C141_whole : forall (buf : list byte), let whole := {| p_buf := buf; p_len := List.length buf |} in
  (forall d, data_decode_p d whole = data_decode d buf) /\ (forall s, status_decode_p s whole = status_decode s buf) /\
  (forall b, beacon_decode_p b whole = beacon_decode b buf) /\ (forall d, dirent_decode_p d whole = dirent_decode d buf) /\
  (forall m, meta_decode_p m whole = meta_decode m buf) /\ (forall r, request_decode_p r whole = request_decode r buf).
Proof. exact c141_whole. Qed.
Print Assumptions C141_whole.

(** A data frame with the payload [9; 8] in a larger buffer.  A status frame with a timestamp, cut to 12 bytes: its copy
    crashes Decode; in a larger buffer it is an error.  A timestamp of one byte is read from the bytes behind it. *)
Example C141_ex :
  let data_buf := ex_buf [0x23; 0; 0; 0; 0; 0; 0; 7; 0; 5; 9; 8; 1; 1; 1; 1]%N in
  let status_buf := (ex_buf [0x24; 0x48; 0; 0; 0; 0; 0; 7; 0; 0; 0; 0] ++ make_bytes 30)%list%N in
  let stamp_buf := ex_buf [1; 0; 0; 0; 9; 3]%N in
  data_decode_p zero_data {| p_buf := data_buf; p_len := 12 |}
    = Ret ({| d_header := 587202560; d_session := 7; d_tstamp := zero_timestamp; d_offset := 5; d_payload := ex_buf [9; 8]%N |}, None) /\
  status_decode zero_status (firstn 12 status_buf) = Panic /\
  (exists s e, status_decode_p zero_status {| p_buf := status_buf; p_len := 12 |} = Ret (s, Some e)) /\
  ts_get zero_timestamp (firstn 1 stamp_buf) = Panic /\
  ts_get_p zero_timestamp {| p_buf := stamp_buf; p_len := 1 |}
    = Ret ({| t_header := 1; t_secs := 9; t_nsecs := 0; t_local := ""; t_ttype := "posix32" |}, None).
Proof. exact c141_ex. Qed.
