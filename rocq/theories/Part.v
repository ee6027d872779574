(** * Model of the decoders on a slice that is part of a larger buffer

    The models of the decoders elsewhere take a frame as the list of its bytes, which is exact where the capacity of the
    slice is its length.  Here a slice is the first bytes of a buffer, and a slice expression s[i:j] may, as in Go, go
    past the end of the slice, up to the end of the buffer. *)

From Verif Require Import GoBase Flags Config Shipped Timestamp Data Holes Status Request Beacon Dirent Metadata.
Local Open Scope string_scope.
Local Open Scope N_scope.

(** A []byte (Go semantics; the parameter of the decoders, e.g. data/data.go:152): the bytes from its first one to the
    end of its capacity, and its length *)
Record part := { p_buf : list byte; p_len : nat }.
(** The bytes of a slice: what copy(_, s), string(s) and range s see (e.g. beacon/beacon.go:253-275) *)
Definition p_bytes (p : part) : list byte := firstn (p_len p) (p_buf p).
(** s[i:j]: j may go up to the capacity (e.g. data/data.go:160-189) *)
Definition p_sub (p : part) (i j : nat) : outcome part :=
  if Nat.leb i j && Nat.leb j (List.length (p_buf p)) then Ret {| p_buf := skipn i (p_buf p); p_len := (j - i)%nat |} else Panic.
(** s[i:] is s[i:len(s)] (e.g. data/data.go:164-178) *)
Definition p_from (p : part) (i : nat) : outcome part :=
  if Nat.leb i (p_len p) then Ret {| p_buf := skipn i (p_buf p); p_len := (p_len p - i)%nat |} else Panic.
(** s[i] (timestamp/timestamp.go:132) *)
Definition p_at (p : part) (i : nat) : outcome byte :=
  if Nat.ltb i (p_len p) then index (p_buf p) i else Panic.
(** binary.BigEndian.Uint16, Uint32, Uint64 of s[i:j] (e.g. data/data.go:157-158) *)
Definition p_uint (k : nat) (p : part) (i j : nat) : outcome N :=
  do q <- p_sub p i j;
  if Nat.leb k (p_len q) then Ret (be_value (firstn k (p_buf q))) else Panic.

(** timestamp.go:130-169 Get *)
Definition ts_get_p (t : timestamp) (b : part) : outcome (timestamp * error) :=
  do b0 <- p_at b 0;
  let header := N_of_ascii b0 in
  do ttype <- st_getstr sar header;
  if String.eqb ttype "posix32" then
    do secs <- p_uint 4 b 1 5;
    Ret ({| t_header := header; t_secs := secs; t_nsecs := 0; t_local := ""; t_ttype := ttype |}, None)
  else if String.eqb ttype "posix64" then
    do secs <- p_uint 8 b 1 9;
    Ret ({| t_header := header; t_secs := secs; t_nsecs := 0; t_local := ""; t_ttype := ttype |}, None)
  else if String.eqb ttype "posix32_32" then
    do secs <- p_uint 4 b 1 5;
    do nsecs <- p_uint 4 b 5 9;
    Ret ({| t_header := header; t_secs := secs; t_nsecs := nsecs; t_local := ""; t_ttype := ttype |}, None)
  else if String.eqb ttype "posix64_32" then
    do secs <- p_uint 8 b 1 9;
    do nsecs <- p_uint 4 b 9 13;
    Ret ({| t_header := header; t_secs := secs; t_nsecs := nsecs; t_local := ""; t_ttype := ttype |}, None)
  else if String.eqb ttype "epoch2000_32" then
    do secs <- p_uint 4 b 1 5;
    Ret ({| t_header := header; t_secs := secs; t_nsecs := 0; t_local := ""; t_ttype := ttype |}, None)
  else
    do loc <- p_sub b 1 15;
    Ret ({| t_header := header; t_secs := 0; t_nsecs := 0; t_local := string_of (p_bytes loc); t_ttype := ttype |},
         Some ("timestamp.Get: Invalid Timestamp type:" ++ ttype)).

(** data.go:163-186 and 189-209: offset and payload, as [d_offset_payload] in Data.v *)
Definition d_offset_payload_p (d : data) (frame : part) (pos k : nat) (need : bool) : outcome (data * error) :=
  do off <- p_uint k frame pos (pos + k);
  do pay <- p_from frame (pos + k);
  let d := {| d_header := d_header d; d_session := d_session d; d_tstamp := d_tstamp d;
              d_offset := off; d_payload := p_bytes pay |} in
  if need && Nat.eqb (p_len pay) 0 then Ret (d, Some "length of data payload is 0") else Ret (d, None).
(** data.go:152-211 Decode *)
Definition data_decode_p (d : data) (frame : part) : outcome (data * error) :=
  if Nat.ltb (p_len frame) 10 then Ret (d, Some "data.Get - data frame too short")
  else
    do h <- p_uint 4 frame 0 4;
    do s <- p_uint 4 frame 4 8;
    let d := {| d_header := h; d_session := s; d_tstamp := d_tstamp d;
                d_offset := d_offset d; d_payload := d_payload d |} in
    do rt <- sf_getstr sar h "reqtstamp";
    if String.eqb rt "yes" then
      do tb <- p_sub frame 8 24;
      do ' (t, e) <- ts_get_p (d_tstamp d) tb;
      let d := d_set_tstamp d t in
      match e with
      | Some e => Ret (d, Some e)
      | None =>
          do ds <- sf_getstr sar h "descriptor";
          if String.eqb ds "d16" then d_offset_payload_p d frame 24 2 true
          else if String.eqb ds "d32" then d_offset_payload_p d frame 24 4 false
          else if String.eqb ds "d64" then d_offset_payload_p d frame 24 8 false
          else if String.eqb ds "d128" then Ret (d, Some (ds ++ "d128 not supported in data"))
          else Ret (d, Some (ds ++ " invalid descriptor in data"))
      end
    else
      do ds <- sf_getstr sar h "descriptor";
      if String.eqb ds "d16" then d_offset_payload_p d frame 8 2 false
      else if String.eqb ds "d32" then d_offset_payload_p d frame 8 4 false
      else if String.eqb ds "d64" then d_offset_payload_p d frame 8 8 false
      else if String.eqb ds "d128" then Ret (d, Some (ds ++ "d128 not supported in data"))
      else Ret (d, Some (ds ++ "invalid descriptor in data")).

(** status.go:266-272, 280-286, 294-300: the hole loop of Decode, [n] iterations *)
Fixpoint dec_holes_p (k n : nat) (frame : part) (pos : nat) : outcome holes :=
  match n with
  | O => Ret []
  | S n' =>
      do st <- p_uint k frame pos (pos + k);
      do en <- p_uint k frame (pos + k) (pos + k + k);
      do r <- dec_holes_p k n' frame (pos + k + k);
      Ret ({| h_start := i64_of_N st; h_end := i64_of_N en |} :: r)
  end.
(** status.go:259-272, 274-286, 288-300: the fields of width [k] at [pos] *)
Definition s_fields_p (s : status) (frame : part) (pos k : nat) : outcome (status * error) :=
  do p <- p_uint k frame pos (pos + k);
  do i <- p_uint k frame (pos + k) (pos + k + k);
  do rest <- p_from frame (pos + k + k);
  let hlen := p_len rest in
  do hs <- dec_holes_p k (hlen / 2 / k) frame (pos + k + k);
  Ret ({| s_header := s_header s; s_session := s_session s; s_tstamp := s_tstamp s;
          s_progress := p; s_inrespto := i; s_holes := (s_holes s ++ hs)%list |}, None).
(** status.go:238-322 Decode *)
Definition status_decode_p (s : status) (frame : part) : outcome (status * error) :=
  if Nat.ltb (p_len frame) 12 then Ret (s, Some "status frame too short")
  else
    do h <- p_uint 4 frame 0 4;
    do se <- p_uint 4 frame 4 8;
    let s := {| s_header := h; s_session := se; s_tstamp := s_tstamp s;
                s_progress := s_progress s; s_inrespto := s_inrespto s; s_holes := s_holes s |} in
    do rt <- sf_getstr sar h "reqtstamp";
    do ' (s, pos, err) <-
      (if String.eqb rt "yes" then
         do tb <- p_sub frame 8 24;
         do ' (t, e) <- ts_get_p (s_tstamp s) tb;
         Ret (s_set_tstamp s t, 24%nat, e)
       else Ret (s, 8%nat, None));
    match err with
    | Some e => Ret (s, Some e)
    | None =>
        do ds <- sf_getstr sar h "descriptor";
        if String.eqb ds "d16" then s_fields_p s frame pos 2
        else if String.eqb ds "d32" then s_fields_p s frame pos 4
        else if String.eqb ds "d64" then s_fields_p s frame pos 8
        else if String.eqb ds "d128" then Ret (s, Some "d128 not supported in status")
        else Ret (s, Some "invalid descriptor in status")
    end.

(** beacon.go:253-261: free space of width [k] then the endpoint id *)
Definition b_space_eid_p (b : beacon) (frame : part) (k : nat) : outcome (beacon * error) :=
  do fr <- p_uint k frame 4 (4 + k);
  do eid <- p_from frame (4 + k);
  Ret ({| b_header := b_header b; b_freespace := fr; b_eid := string_of (p_bytes eid) |}, None).
(** beacon.go:248-277 Decode *)
Definition beacon_decode_p (b : beacon) (frame : part) : outcome (beacon * error) :=
  do h <- p_uint 4 frame 0 4;
  let b := b_set_header b h in
  do fs <- sf_getstr sar h "freespace";
  if String.eqb fs "yes" then
    do ds <- sf_getstr sar h "freespaced";
    if String.eqb ds "d16" then b_space_eid_p b frame 2
    else if String.eqb ds "d32" then b_space_eid_p b frame 4
    else if String.eqb ds "d64" then b_space_eid_p b frame 8
    else if String.eqb ds "d128" then Ret (b, Some "d128 not supported invalid beacon frame")
    else
      do eid <- p_from frame 4;
      Ret ({| b_header := h; b_freespace := 0; b_eid := string_of (p_bytes eid) |}, Some "invalid beacon frame")
  else
    do eid <- p_from frame 4;
    Ret ({| b_header := h; b_freespace := 0; b_eid := string_of (p_bytes eid) |}, None).

(** request.go:122-145 Decode *)
Definition request_decode_p (r : request) (frame : part) : outcome (request * error) :=
  if Nat.ltb (p_len frame) 9 then Ret (r, Some "request.Decode - request frame too short")
  else
    do h <- p_uint 4 frame 0 4;
    do s <- p_uint 4 frame 4 8;
    do tail <- p_from frame 8;
    let fname := (r_fname r ++ string_of (scan_name (p_bytes tail)))%string in
    let pos := (8 + 1 + slen fname)%nat in
    if Nat.eqb pos (p_len frame) then
      Ret ({| r_header := h; r_session := s; r_fname := fname; r_auth := [] |}, None)
    else
      do auth <- p_from frame pos;
      Ret ({| r_header := h; r_session := s; r_fname := fname; r_auth := p_bytes auth |}, None).

(** dirent.go:223-248: the times and the path from position [pos] on.  The times are decoded from a buffer of five bytes
    of its own. *)
Definition de_times_path_p (d : dirent) (frame : part) (pos : nat) : outcome (dirent * error) :=
  do th <- st_set sar 0 "epoch2000_32";
  let ts := (byte_of_N th :: make_bytes 4)%list in
  do mb <- p_sub frame pos (pos + 4);
  do ts <- copy_from ts 1 (p_bytes mb);
  do ' (mt, e) <- ts_get (de_mtime d) ts;
  let d := {| de_header := de_header d; de_size := de_size d; de_mtime := mt;
              de_ctime := de_ctime d; de_path := de_path d |} in
  match e with
  | Some _ => Ret (d, Some "invalid Mtime")
  | None =>
      let pos := (pos + 4)%nat in
      do cb <- p_sub frame pos (pos + 4);
      do ts <- copy_from ts 1 (p_bytes cb);
      do ' (ct, e) <- ts_get (de_ctime d) ts;
      let d := {| de_header := de_header d; de_size := de_size d; de_mtime := de_mtime d;
                  de_ctime := ct; de_path := de_path d |} in
      match e with
      | Some _ => Ret (d, Some "invalid Ctime")
      | None =>
          let pos := (pos + 4)%nat in
          do tail <- p_from frame pos;
          Ret ({| de_header := de_header d; de_size := de_size d; de_mtime := de_mtime d;
                  de_ctime := de_ctime d; de_path := string_of (scan_name (p_bytes tail)) |}, None)
      end
  end.
(** dirent.go:206-217: size of width [k] at position 2, then the rest *)
Definition de_size_rest_p (d : dirent) (frame : part) (k : nat) : outcome (dirent * error) :=
  do sz <- p_uint k frame 2 (2 + k);
  de_times_path_p {| de_header := de_header d; de_size := sz; de_mtime := de_mtime d;
                     de_ctime := de_ctime d; de_path := de_path d |} frame (2 + k).
(** dirent.go:197-249 Decode *)
Definition dirent_decode_p (d : dirent) (frame : part) : outcome (dirent * error) :=
  if Nat.ltb (p_len frame) 12 then Ret (d, Some "DirEntGet - Entry too short")
  else
    do h <- p_uint 2 frame 0 2;
    let d := de_set_header d h in
    do ds <- sd_getstr sar h "descriptor";
    if String.eqb ds "d16" then de_size_rest_p d frame 2
    else if String.eqb ds "d32" then de_size_rest_p d frame 4
    else if String.eqb ds "d64" then de_size_rest_p d frame 8
    else Ret (d, Some "invalid MetaData Frame").

(** metadata.go:269-288 Decode *)
Definition meta_decode_p (m : metadata) (frame : part) : outcome (metadata * error) :=
  if Nat.ltb (p_len frame) 8 then Ret (m, Some "MetaDataGet - Frame too short")
  else
    do h <- p_uint 4 frame 0 4;
    do s <- p_uint 4 frame 4 8;
    let csuml := (N.to_nat (sf_get sar h "csumlen") * 4)%nat in
    do cs <- p_sub frame 8 (8 + csuml);
    do tail <- p_from frame (8 + csuml);
    do ' (d, e) <- dirent_decode_p (m_dir m) tail;
    Ret ({| m_header := h; m_session := s; m_checksum := p_bytes cs; m_dir := d |}, e).
