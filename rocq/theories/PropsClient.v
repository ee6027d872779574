(** * Client: the properties

    Statements only; the proofs are in ClientMain.v. *)
From Verif Require Import GoBase GoFacts Flags SpecFlags FlagsFacts Config Shipped ConfigFacts SpecWire SarFacts Timestamp SpecTime TimeMain FlagStrFacts Holes SpecHoles HolesMain Data SpecFrames FrameFacts BuildFacts DataMain Status SpecStatus StatusMain TransferMain Fileio SpecFileio FileioFacts FileioMain Listen SpecListen ListenMain Client SpecClient ClientFacts ClientMain.
Local Open Scope string_scope.
Local Open Scope N_scope.

(** C123: The room for bytes of the file in a frame is what is left of the MTU after the largest IP header, the UDP header, the
    first eight bytes, the offset if its width is mentioned, and the timestamp if there is one. *)
Theorem C123_room : forall mtu items, usable items -> maxpaylen mtu (flag_list items) = Ret (room mtu items).
Proof. exact c123_room. Qed.
Print Assumptions C123_room.

(** C123: A file is sent in consecutive parts of that size, each in one frame with its position, up to the first part that is
    shorter.  Exactly the last frame is marked as the end.  A status is asked for with every hundredth frame and with the last.
    The other flags are those that were asked for.  A frame that cannot be sent is reported and not sent again. *)
Theorem C123_sends : forall s session items, usable items -> (0 < room (c_mtu s) items)%Z ->
  let plen := Z.to_nat (room (c_mtu s) items) in let last := last_part (c_file s) plen in
  (forall i, (i <= last)%nat -> good_now (c_now s i) /\ c_readerr s i = false) ->
  exists ds, frames_for s session items plen (S last) ds /\
    forall fuel, (last < fuel)%nat -> senddata fuel s session (flag_list items) = Ret ((handing s 0 ds ++ [CSay "success"])%list, true).
Proof. exact c123_sends. Qed.
Print Assumptions C123_sends.

(** C123: If reading the file fails, the frames before are sent and the failure is reported. *)
Theorem C123_read_error : forall s session items k, usable items -> (0 < room (c_mtu s) items)%Z ->
  let plen := Z.to_nat (room (c_mtu s) items) in
  (k <= last_part (c_file s) plen)%nat -> (forall i, (i < k)%nat -> good_now (c_now s i) /\ c_readerr s i = false) -> c_readerr s k = true ->
  exists ds, frames_for s session items plen k ds /\
    forall fuel, (k < fuel)%nat -> senddata fuel s session (flag_list items) = Ret ((handing s 0 ds ++ [CSay "accessdenied"])%list, true).
Proof. exact c123_read_error. Qed.
Print Assumptions C123_read_error.

(** C123: The bytes of the frames, in order, are the file. *)
Theorem C123_whole : forall s session items plen ds, (0 < plen)%nat -> frames_for s session items plen (S (last_part (c_file s) plen)) ds ->
  concat (map d_payload ds) = c_file s /\
  forall i d, nth_error ds i = Some d -> true_chunk (c_file s) (d_offset d, d_payload d) /\
    (i < last_part (c_file s) plen -> List.length (d_payload d) = plen)%nat /\
    (i = last_part (c_file s) plen -> List.length (d_payload d) = List.length (c_file s) mod plen)%nat.
Proof. exact c123_whole. Qed.
Print Assumptions C123_whole.

(** C123: Without room for a single byte the sender never comes to an end: it sends empty frames for position 0 for ever.  With
    less than no room it panics. *)
Theorem C123_no_room : forall s session items, usable items ->
  ((room (c_mtu s) items < 0)%Z -> forall fuel, senddata fuel s session (flag_list items) = Panic) /\
  (room (c_mtu s) items = 0%Z -> (forall i, good_now (c_now s i) /\ c_readerr s i = false) ->
   forall fuel, exists ds, senddata fuel s session (flag_list items) = Ret (handing s 0 ds, false) /\ List.length ds = fuel /\
     forall d, In d ds -> d_offset d = 0 /\ d_payload d = []).
Proof. exact c123_no_room. Qed.
Print Assumptions C123_no_room.

(** C123: Every frame fits what a receiver on a link with the same MTU takes. *)
Theorem C123_fits : forall s session items plen i d f, Z.of_nat plen = room (c_mtu s) items -> good_now (c_now s i) ->
  frame_for s session items plen i d -> data_encode d = Ret (Frame f) -> fits_mtu (c_mtu s) f.
Proof. exact c123_fits. Qed.
Print Assumptions C123_fits.

(** C124: The width of offset that is chosen by the size of a file is enough for every position in it. *)
Theorem C124_descriptor : forall items size v, (0 <= size < 2 ^ 64)%Z -> setting_of items "descriptor" = Some v ->
  filedescriptor (Some (Z.to_N size)) = "descriptor=" ++ v -> exists w, offset_bytes items = Some w /\ (size < 2 ^ (8 * Z.of_nat w))%Z.
Proof. exact c124_descriptor. Qed.
Print Assumptions C124_descriptor.

(** C124: End to end.  A sender sends a file.  The network delivers any of its frames with bytes, in any order, any number of times.
    The receiver decodes them, writes the bytes to a new file and records the ranges.  The record is complete exactly if every
    frame with bytes was delivered, and then the new file is the file. *)
Theorem C124_end_to_end : forall s session items w, usable items -> (0 < room (c_mtu s) items)%Z ->
  let plen := Z.to_nat (room (c_mtu s) items) in let last := last_part (c_file s) plen in
  (forall i, (i <= last)%nat -> good_now (c_now s i) /\ c_readerr s i = false) ->
  offset_bytes items = Some w -> N.of_nat (List.length (c_file s)) < 2 ^ (8 * N.of_nat w) -> N.of_nat (List.length (c_file s)) <= 2 ^ 63 ->
  exists ds, (forall fuel, (last < fuel)%nat -> senddata fuel s session (flag_list items) = Ret ((handing s 0 ds ++ [CSay "success"])%list, true)) /\
    forall fs f arrived, of_write f = true -> content_of fs (of_path f) = Some [] ->
      (forall g, In g arrived -> exists d, In d ds /\ d_payload d <> [] /\ data_encode d = Ret (Frame g)) ->
      exists chunks fs', Forall2 chunk_of arrived chunks /\ write_all fs (Some f) chunks = Some fs' /\
        forall l, run (map range_of chunks) l ->
          (l = [{| h_start := 0; h_end := Z.of_nat (List.length (c_file s)) |}] <->
           c_file s <> [] /\ forall d, In d ds -> d_payload d <> [] -> exists g, In g arrived /\ data_encode d = Ret (Frame g)) /\
          (l = [{| h_start := 0; h_end := Z.of_nat (List.length (c_file s)) |}] -> content_of fs' (of_path f) = Some (c_file s)).
Proof. exact c124_end_to_end. Qed.
Print Assumptions C124_end_to_end.

(** C125: The receiver learns from the last frame that the file ends there, unless the offsets have 16 bits, the frames have
    timestamps and the last frame is empty: then decoding it fails.  No other frame is marked as the end (defect). *)
Theorem C125_end : forall s session items plen w ds d d0, (0 < plen)%nat -> (forall i, (i <= last_part (c_file s) plen)%nat -> good_now (c_now s i)) ->
  offset_bytes items = Some w -> N.of_nat (List.length (c_file s)) < 2 ^ (8 * N.of_nat w) ->
  frames_for s session items plen (S (last_part (c_file s) plen)) ds -> nth_error ds (last_part (c_file s) plen) = Some d ->
  (exists g, data_encode d = Ret (Frame g) /\
    ((exists d', data_decode d0 g = Ret (d', None) /\ reads sar (d_header d') "eod" "yes") <->
     ~ (stamps items = true /\ w = 2%nat /\ (List.length (c_file s) mod plen = 0)%nat))) /\
  (forall i e, nth_error ds i = Some e -> i <> last_part (c_file s) plen -> reads sar (d_header e) "eod" "no").
Proof. exact c125_end. Qed.
Print Assumptions C125_end.

(** C126: Bytes that are missing at the other end are not sent again: nothing is sent for a hole with room to spare in one
    frame (defect). *)
Theorem C126_short : forall s session items h n, usable items -> (0 <= h_start h <= h_end h)%Z -> (h_end h <= Z.of_nat (List.length (c_file s)))%Z ->
  (h_end h - h_start h <= 2 ^ 48)%Z -> (h_end h - h_start h < room (c_mtu s) items)%Z -> fill_hole s session (flag_list items) h n = Ret ([], None, n).
Proof. exact c126_short. Qed.
Print Assumptions C126_short.

(** C126: For any other hole that does not start at the start of the file, the program panics (defect). *)
Theorem C126_panics : forall s session items h n, usable items -> (0 < h_start h <= h_end h)%Z -> (h_end h <= Z.of_nat (List.length (c_file s)))%Z ->
  (0 < room (c_mtu s) items <= h_end h - h_start h)%Z -> (h_end h < 2 ^ 63)%Z -> fill_hole s session (flag_list items) h n = Panic.
Proof. exact c126_panics. Qed.
Print Assumptions C126_panics.

(** C126: When an MTU leaves no room at all for data, exactly 0 bytes end the program at the first hole (a division by zero, defect), and
    with less than that nothing is sent again. *)
Theorem C126_no_room : forall s session items h n, usable items -> (0 <= h_start h <= h_end h)%Z -> (h_end h <= Z.of_nat (List.length (c_file s)))%Z ->
  (h_end h - h_start h <= 2 ^ 48)%Z -> (room (c_mtu s) items <= 0)%Z ->
  fill_hole s session (flag_list items) h n = if (room (c_mtu s) items =? 0)%Z then Panic else Ret ([], None, n).
Proof. exact c126_no_room. Qed.
Print Assumptions C126_no_room.

(** C126: For a hole at the start of the file, frames are sent from its end backwards, the first of them empty: as many as
    there are whole parts in the hole, so that the first part is never sent (defect).  A write that fails ends the put. *)
Theorem C126_first : forall s session items h n, usable items -> h_start h = 0%Z -> (h_end h <= Z.of_nat (List.length (c_file s)))%Z ->
  (h_end h <= 2 ^ 48)%Z -> (0 < room (c_mtu s) items <= h_end h)%Z ->
  (forall i, good_now (c_now s i)) ->
  let k := Z.to_nat (h_end h / room (c_mtu s) items) in
  exists ds stop, fill_hole s session (flag_list items) h n = Ret (map CSend ds, stop, (n + List.length ds)%nat) /\ written (c_write s) n k (List.length ds) stop /\
    forall i d, nth_error ds i = Some d -> d_session d = session mod 2 ^ 32 /\ Z.of_N (d_offset d) = (h_end h - Z.of_nat i * room (c_mtu s) items)%Z /\
      (0 < Z.of_N (d_offset d))%Z /\
      d_payload d = match i with O => [] | _ => firstn (Z.to_nat (room (c_mtu s) items)) (skipn (N.to_nat (d_offset d)) (c_file s)) end.
Proof. exact c126_first. Qed.
Print Assumptions C126_first.

(** C126: A hole of negative length, or longer than any memory, makes the program panic; one outside the file ends the put. *)
Theorem C126_outside : forall s session items h n, let len := hole_length h in
  ((len < 0 \/ 2 ^ 48 < len)%Z -> fill_hole s session (flag_list items) h n = Panic) /\
  ((0 <= len <= 2 ^ 48)%Z -> (h_start h < 0)%Z \/ (0 < len /\ Z.of_nat (List.length (c_file s)) < h_start h + len)%Z ->
   fill_hole s session (flag_list items) h n = Ret ([], Some "badoffset", n)).
Proof. exact c126_outside. Qed.
Print Assumptions C126_outside.

(** C126: The holes of a status are dealt with in turn, until one of them ends the put. *)
Theorem C126_turn : forall s session dflags hs n o, fill_holes s session dflags hs n = o <-> in_turn (fill_hole s session dflags) hs n o.
Proof. exact c126_turn. Qed.
Print Assumptions C126_turn.

(** C126: So whatever is sent for a hole, nothing of its first part is among it: no hole is ever filled (defect). *)
Theorem C126_never : forall s session items h n l stop n', usable items -> (0 < room (c_mtu s) items)%Z -> (Z.of_nat (List.length (c_file s)) < 2 ^ 63)%Z -> in_int64 h ->
  fill_hole s session (flag_list items) h n = Ret (l, stop, n') ->
  forall d p, In (CSend d) l -> carries d p -> ~ (h_start h <= p < h_start h + room (c_mtu s) items)%Z.
Proof. exact c126_never. Qed.
Print Assumptions C126_never.

(** C127: A put ends with the first message that is not a success: exactly then, and with that message. *)
Theorem C127_first : forall scan msgs e, cput_loop scan msgs = Some e <->
  exists before m after, msgs = (before ++ m :: after)%list /\ (forall x, In x before -> passes scan x) /\ ends_with scan m e.
Proof. exact c127_first. Qed.
Print Assumptions C127_first.

(** C127: So a put never reports success, whatever happens, and a put that should remove the local file afterwards never
    removes it (defect). *)
Theorem C127_never : forall scan msgs removed,
  cput_loop scan msgs <> Some "success" /\
  forall e gone, cputrm (cput_loop scan msgs) removed = Some (e, gone) -> gone = false /\ cput_loop scan msgs = Some e.
Proof. exact c127_never. Qed.
Print Assumptions C127_never.

(** C128: A datagram of less than four bytes ends the program with a panic.  A frame of version 0 ends the transfer.  A frame of
    any other version but 1, and any frame of version 1 but a status frame, terminates the program (defect). *)
Theorem C128_other : forall s session dflags f n,
  ((List.length f < 4)%nat -> on_datagram s session dflags f n = Panic) /\
  ((4 <= List.length f)%nat -> SpecListen.hd_version (number_at f 0 4) = 0 -> on_datagram s session dflags f n = Ret ([], Some "badpacket", n)) /\
  ((4 <= List.length f)%nat -> SpecListen.hd_version (number_at f 0 4) <> 0 -> ~ (SpecListen.hd_version (number_at f 0 4) = 1 /\ SpecListen.hd_frametype (number_at f 0 4) = 4) ->
   on_datagram s session dflags f n = Fatal).
Proof. exact c128_other. Qed.
Print Assumptions C128_other.

(** C128: A status frame that cannot be decoded ends the transfer, or the program as decoding it does. *)
Theorem C128_undecodable : forall s session dflags f n, (4 <= List.length f)%nat ->
  SpecListen.hd_version (number_at f 0 4) = 1 -> SpecListen.hd_frametype (number_at f 0 4) = 4 ->
  (status_verdict f = Reject -> on_datagram s session dflags f n = Ret ([], Some "badpacket", n)) /\
  (status_verdict f = Crash -> on_datagram s session dflags f n = Panic) /\
  (status_verdict f = Kill -> on_datagram s session dflags f n = Fatal).
Proof. exact c128_undecodable. Qed.
Print Assumptions C128_undecodable.

(** C128: A status with an error ends the transfer with that error.  One with an error code that has no name terminates the
    program. *)
Theorem C128_error : forall s session dflags f n, is_status f ->
  (forall e, reads sar (number_at f 0 4) "errcode" e -> e <> "success" -> on_datagram s session dflags f n = Ret ([], Some e, n)) /\
  ((forall e, ~ reads sar (number_at f 0 4) "errcode" e) -> on_datagram s session dflags f n = Fatal).
Proof. exact c128_error. Qed.
Print Assumptions C128_error.

(** C128: A status without an error: the metadata is sent again iff it was not received, the position is told, success is told
    if the position is the end of the file, the holes are dealt with, and success is told, again if it was told before. *)
Theorem C128_success : forall s session dflags f n, is_status f -> reads sar (number_at f 0 4) "errcode" "success" ->
  exists st, status_decode zero_status f = Ret (st, None) /\
  let finished := if s_progress st =? N.of_nat (List.length (c_file s)) then [CSay "success"] else [] in
  (reads sar (number_at f 0 4) "metadatarecvd" "yes" ->
   on_datagram s session dflags f n =
     (do ' (l, stop, n') <- fill_holes s session dflags (s_holes st) n;
      Ret ((CPos (s_progress st) (s_inrespto st) :: finished ++ l ++ match stop with None => [CSay "success"] | Some _ => [] end)%list, stop, n'))) /\
  (reads sar (number_at f 0 4) "metadatarecvd" "no" -> c_write s n = "success" ->
   on_datagram s session dflags f n =
     (do ' (l, stop, n') <- fill_holes s session dflags (s_holes st) (S n);
      Ret ((CMeta :: CPos (s_progress st) (s_inrespto st) :: finished ++ l ++ match stop with None => [CSay "success"] | Some _ => [] end)%list, stop, n'))) /\
  (reads sar (number_at f 0 4) "metadatarecvd" "no" -> c_write s n <> "success" ->
   on_datagram s session dflags f n = Ret ([CMeta], Some (c_write s n), S n)).
Proof. exact c128_success. Qed.
Print Assumptions C128_success.

(** C127: A put of which everything is confirmed is reported as failed in the end: when no more status frames come, reading them
    fails, and that is what is reported, in whatever order the messages of the two tasks come (defect). *)
Theorem C127_confirmed : forall s session items fs n scan, usable items -> (0 < room (c_mtu s) items)%Z ->
  (forall i, good_now (c_now s i) /\ c_readerr s i = false /\ c_write s i = "success") -> (forall f, In f fs -> confirms f) -> scan "cantreceive" = None ->
  exists fuel told sent, senddata fuel s session (flag_list items) = Ret (sent, true) /\
    readstatus s session (flag_list items) (map RGot fs ++ [RFailed])%list n = Ret (told, true) /\
    forall msgs, merged (flat_map by_status told) (flat_map by_data sent) msgs -> cput_loop scan msgs = Some "cantreceive".
Proof. exact c127_confirmed. Qed.
Print Assumptions C127_confirmed.

(** C129: Of the eight types of transfer only three do anything: the others are answered with "undefined". *)
Theorem C129_undefined : forall ttype a scan msgs removed, ~ In ttype ["put"; "putrm"; "putblind"] ->
  doclient ttype a scan msgs removed = Ret ([], Some "undefined", false).
Proof. exact c129_undefined. Qed.
Print Assumptions C129_undefined.

(** C129: A blind put reports success exactly if the metadata was handed to the socket.  It sends no request and never any of
    the file (defect). *)
Theorem C129_blind : forall a scan msgs removed,
  exists ks e, doclient "putblind" a scan msgs removed = Ret (ks, Some e, false) /\
  (ks = [KMetadata] \/ ks = []) /\ (ks = [KMetadata] <-> connects a /\ a_metadata a = true) /\
  (e = "success" <-> connects a /\ a_metadata a = true /\ a_write a 0%nat = "success") /\
  (ks = [KMetadata] -> e = a_write a 0%nat).
Proof. exact c129_blind. Qed.
Print Assumptions C129_blind.

(** C129: A put hands over the request and then the metadata before anything else.  What fails is reported and nothing follows;
    but if the socket cannot be made the program panics (defect). *)
Theorem C129_put : forall a scan msgs removed,
  let r := doclient "put" a scan msgs removed in
  (put_starts a -> r = Ret ([KRequest; KMetadata], cput_loop scan msgs, false)) /\
  (dial_fails a -> r = Panic) /\
  (~ put_starts a -> ~ dial_fails a -> exists ks e, r = Ret (ks, Some e, false) /\ e <> "success" /\
    (In KRequest ks <-> connects a /\ a_request a = true) /\
    (In KMetadata ks <-> connects a /\ a_request a = true /\ a_write a 0%nat = "success" /\ a_metadata a = true)).
Proof. exact c129_put. Qed.
Print Assumptions C129_put.

(** C129: A put that should remove the file afterwards does and reports what a put does, and removes nothing (defect). *)
Theorem C129_putrm : forall a scan msgs removed, doclient "putrm" a scan msgs removed = doclient "put" a scan msgs removed.
Proof. exact c129_putrm. Qed.
Print Assumptions C129_putrm.
Example C123_ex : usable ex_items /\ room (c_mtu ex_surroundings) ex_items = 10%Z /\ (forall i, good_now (c_now ex_surroundings i)) /\
  match senddata 3 ex_surroundings 7 (flag_list ex_items) with
  | Ret (acts, true) =>
      map (fun a => match a with CSend d => Some (d_offset d, d_payload d, hd_reqtstamp (d_header d)) | _ => None end) acts =
        [Some (0, bytes_of "twenty-fiv", 1); Some (10, bytes_of "e bytes of", 1); Some (20, bytes_of " text", 1); None] /\
      nth_error acts 3 = Some (CSay "success")
  | _ => False
  end.
Proof. exact c123_ex. Qed.
Example C123_read_error_ex : forall acts fin,
  senddata 3 {| c_mtu := 104; c_file := ex_file; c_now := fun _ => StatusMain.ex_now; c_write := fun _ => "success"; c_readerr := Nat.eqb 1 |} 7 (flag_list ex_items) = Ret (acts, fin) ->
  fin = true /\ List.length acts = 2%nat /\ nth_error acts 1 = Some (CSay "accessdenied").
Proof. exact c123_read_error_ex. Qed.
Example C123_no_room_ex : room 94 ex_items = 0%Z /\ room 93 ex_items = (-1)%Z.
Proof. exact c123_no_room_ex. Qed.
Example C124_ex : filedescriptor (Some (Z.to_N 25)) = "descriptor=d16" /\ setting_of ex_items "descriptor" = Some "d16" /\ offset_bytes ex_items = Some 2%nat /\
  N.of_nat (List.length (c_file ex_surroundings)) < 2 ^ (8 * N.of_nat 2).
Proof. exact c124_ex. Qed.
Example C125_ex :
  match senddata 3 ex_twenty 7 (flag_list ex_items) with
  | Ret ([CSend _; CSend _; CSend d; CSay m], true) =>
      m = "success" /\ d_payload d = [] /\
      match data_encode d with Ret (Frame g) => match data_decode zero_data g with Ret (_, Some _) => True | _ => False end | _ => False end
  | _ => False
  end.
Proof. exact c125_ex. Qed.
Example C126_ex :
  fill_hole ex_surroundings 7 (flag_list ex_items) {| h_start := 5; h_end := 14 |} 0 = Ret ([], None, 0%nat) /\
  fill_hole ex_surroundings 7 (flag_list ex_items) {| h_start := 5; h_end := 15 |} 0 = Panic /\
  match fill_hole ex_surroundings 7 (flag_list ex_items) {| h_start := 0; h_end := 20 |} 0 with
  | Ret ([CSend a; CSend b], None, 2%nat) => d_offset a = 20 /\ d_payload a = [] /\ d_offset b = 10 /\ d_payload b = bytes_of "e bytes of"
  | _ => False
  end.
Proof. exact c126_ex. Qed.
Example C126_no_room_ex : usable ex_items /\ exists mtu, room mtu ex_items = 0%Z /\ room (mtu - 1) ex_items = (-1)%Z.
Proof. exact c126_no_room_ex. Qed.
Example C126_outside_ex : let h a b := {| h_start := a; h_end := b |} in
  map (fun h => (hole_length h, match fill_hole ex_surroundings 7 (flag_list ex_items) h 0 with Ret (_, e, _) => e | _ => Some "panic" end))
    [h 5 4; h 0 (2 ^ 48 + 1); h (-1) (2 ^ 63 - 1); h (-1) 4; h 20 26]%Z =
  [(-1, Some "panic"); (2 ^ 48 + 1, Some "panic"); (- 2 ^ 63, Some "panic"); (5, Some "badoffset"); (6, Some "badoffset")]%Z.
Proof. exact c126_outside_ex. Qed.
Example C127_first_ex : cput_loop (fun _ => None) [MPos; MStatus "success"; MData "success"; MStatus "cantreceive"; MData "badpacket"] = Some "cantreceive".
Proof. exact c127_first_ex. Qed.
Example C127_confirmed_ex : confirms ex_confirmation.
Proof. exact c127_confirmed_ex. Qed.
Example C127_confirmed_run_ex :
  readstatus ex_surroundings 7 (flag_list ex_items) [RGot ex_confirmation; RFailed] 0 =
    Ret ([CPos 25 25; CSay "success"; CSay "success"; CSay "cantreceive"], true).
Proof. exact c127_confirmed_run_ex. Qed.
Example C128_other_ex :
  SpecListen.hd_version (number_at ListenMain.ex_beacon_dgram 0 4) = 1 /\ SpecListen.hd_frametype (number_at ListenMain.ex_beacon_dgram 0 4) <> 4 /\
  on_datagram ex_surroundings 7 (flag_list ex_items) ListenMain.ex_beacon_dgram 0 = Fatal /\
  on_datagram ex_surroundings 7 (flag_list ex_items) (wire 4 0) 0 = Ret ([], Some "badpacket", 0%nat).
Proof. exact c128_other_ex. Qed.
Example C128_undecodable_ex : status_verdict (firstn 11 ex_confirmation) = Reject.
Proof. exact c128_undecodable_ex. Qed.

(** error code 3, and 20, which has no name *)
Example C128_error_ex :
  let bad e := (wire 4 (0x24000000 + e) ++ skipn 4 ex_confirmation)%list in
  is_status (bad 3) /\ is_status (bad 20) /\
  on_datagram ex_surroundings 7 (flag_list ex_items) (bad 3) 0 = Ret ([], Some "cantreceive", 0%nat) /\
  on_datagram ex_surroundings 7 (flag_list ex_items) (bad 20) 0 = Fatal.
Proof. exact c128_error_ex. Qed.
Example C128_success_ex :
  is_status (ex_missing 3 5) /\ reads sar (number_at (ex_missing 3 5) 0 4) "errcode" "success" /\
  on_datagram ex_surroundings 7 (flag_list ex_items) (ex_missing 3 5) 0 = Ret ([CPos 25 25; CSay "success"; CSay "success"], None, 0%nat) /\
  on_datagram ex_surroundings 7 (flag_list ex_items) (ex_missing 5 15) 0 = Panic.
Proof. exact c128_success_ex. Qed.
Example C129_undefined_ex : In "get" transfer_types /\ ~ In "get" ["put"; "putrm"; "putblind"] /\ doclient "get" ex_answers (fun _ => None) [] true = Ret ([], Some "undefined", false).
Proof. exact c129_undefined_ex. Qed.
Example C129_blind_ex : connects ex_answers /\ doclient "putblind" ex_answers (fun _ => None) [] true = Ret ([KMetadata], Some "success", false).
Proof. exact c129_blind_ex. Qed.
Example C129_put_ex : put_starts ex_answers /\
  doclient "putrm" ex_answers (fun _ => None) [MStatus "success"; MData "success"; MStatus "cantreceive"] true = Ret ([KRequest; KMetadata], Some "cantreceive", false).
Proof. exact c129_put_ex. Qed.
Example C129_dial_ex : dial_fails ex_no_socket /\ doclient "put" ex_no_socket (fun _ => None) [] true = Panic /\ doclient "putblind" ex_no_socket (fun _ => None) [] true = Ret ([], Some "cantsend", false).
Proof. exact c129_dial_ex. Qed.
