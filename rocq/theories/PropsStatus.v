(** * Status: the properties

    Statements only; the proofs are in StatusMain.v. *)
From Verif Require Import GoBase GoFacts Flags SpecFlags FlagsFacts Config Shipped ConfigFacts SpecWire SarFacts Timestamp SpecTime TimeMain Holes Data Status SpecFrames FrameFacts FlagStrFacts BuildFacts SpecStatus StatusMain.
Local Open Scope string_scope.
Local Open Scope N_scope.

(** C27: what encoding a status frame gives when no timestamp is requested. *)
Theorem C27_encode : forall s, hd_reqtstamp (s_header s) = 0 ->
  match descriptor_width (hd_descriptor (s_header s)) with
  | None => exists e, status_encode s = Ret (EncErr e)
  | Some w => status_encode s =
      Ret (Frame (status_wire (s_header s) (s_session s) w (s_progress s) (s_inrespto s) (s_holes s)))
  end.
Proof. exact c27_encode. Qed.
Print Assumptions C27_encode.

(** C29: a requested timestamp is not written: the fields follow the session
    directly and sixteen zero bytes trail. *)
Theorem C29_encode : forall s, hd_reqtstamp (s_header s) = 1 ->
  match descriptor_width (hd_descriptor (s_header s)) with
  | None => exists e, status_encode s = Ret (EncErr e)
  | Some w => status_encode s =
      Ret (Frame (status_wire (s_header s) (s_session s) w (s_progress s) (s_inrespto s) (s_holes s) ++ zeros 16))
  end.
Proof. exact c29_encode. Qed.
Print Assumptions C29_encode.

(** C30: the verdict on arbitrary bytes. *)
Theorem C30_verdict : forall s f, verdict_of (status_decode s f) = status_verdict f.
Proof. exact c30_verdict. Qed.
Print Assumptions C30_verdict.

(** C30: it panics exactly when the announced timestamp, or after a readable
    timestamp the progress and in-response-to fields, are cut short. *)
Theorem C30_panics_iff : forall s f,
  status_decode s f = Panic <->
    (12 <= length f)%nat /\
    let h := number_at f 0 4 in
    ((hd_reqtstamp h = 1 /\ (length f < 24)%nat) \/
     ((hd_reqtstamp h = 0 \/ (24 <= length f)%nat /\ 1 <= number_at f 8 1 <= 5) /\
      exists w, descriptor_width (hd_descriptor h) = Some w /\ (length f < after_ts h + 2 * w)%nat)).
Proof. exact c30_panics_iff. Qed.
Print Assumptions C30_panics_iff.

(** C30: it terminates the process exactly for a complete timestamp of an unknown type. *)
Theorem C30_fatal_iff : forall s f,
  status_decode s f = Fatal <->
    (24 <= length f)%nat /\ hd_reqtstamp (number_at f 0 4) = 1 /\ 6 <= number_at f 8 1.
Proof. exact c30_fatal_iff. Qed.
Print Assumptions C30_fatal_iff.

(** C31: what an accepted frame decodes to: the holes of the frame are appended
    to those of the receiver; a trailing partial pair is ignored. *)
Theorem C31_value : forall s f, status_verdict f = Accept -> exists w,
  descriptor_width (hd_descriptor (number_at f 0 4)) = Some w /\
  let p := after_ts (number_at f 0 4) in
  status_decode s f =
    Ret ({| s_header := number_at f 0 4; s_session := number_at f 4 4; s_tstamp := ts_read (s_tstamp s) f;
            s_progress := number_at f p w; s_inrespto := number_at f (p + w) w;
            s_holes := (s_holes s ++ holes_from f (p + 2 * w) w)%list |}, None).
Proof. exact c31_value. Qed.
Print Assumptions C31_value.

(** C31: the number of holes added. *)
Theorem C31_count : forall s s' f, status_decode s f = Ret (s', None) -> exists w,
  descriptor_width (hd_descriptor (number_at f 0 4)) = Some w /\
  length (s_holes s') = (length (s_holes s) + (length f - after_ts (number_at f 0 4) - 2 * w) / (2 * w))%nat /\
  firstn (length (s_holes s)) (s_holes s') = s_holes s.
Proof. exact c31_count. Qed.
Print Assumptions C31_count.

(** C28: decoding an encoded status frame without timestamp.  The receiver is
    arbitrary: its timestamp stays and its holes come first. *)
Theorem C28_roundtrip : forall s s0 w,
  s_header s < 2 ^ 32 -> s_session s < 2 ^ 32 -> hd_reqtstamp (s_header s) = 0 ->
  descriptor_width (hd_descriptor (s_header s)) = Some w ->
  s_progress s < 2 ^ (8 * N.of_nat w) -> s_inrespto s < 2 ^ (8 * N.of_nat w) ->
  (forall h, In h (s_holes s) -> offset_fits w (h_start h) /\ offset_fits w (h_end h)) ->
  exists f, status_encode s = Ret (Frame f) /\
    status_decode s0 f =
      Ret ({| s_header := s_header s; s_session := s_session s; s_tstamp := s_tstamp s0;
              s_progress := s_progress s; s_inrespto := s_inrespto s;
              s_holes := (s_holes s0 ++ s_holes s)%list |}, None).
Proof. exact c28_roundtrip. Qed.
Print Assumptions C28_roundtrip.

(** C29: decoding such a frame into a fresh receiver never gives back the
    progress, in-response-to and holes that were encoded. *)
Theorem C29_never_survives : forall s s0 s' f, hd_reqtstamp (s_header s) = 1 -> s_header s < 2 ^ 32 -> s_holes s0 = [] ->
  status_encode s = Ret (Frame f) -> status_decode s0 f = Ret (s', None) ->
  ~ (s_progress s' = s_progress s /\ s_inrespto s' = s_inrespto s /\ s_holes s' = s_holes s).
Proof. exact c29_never_survives. Qed.
Print Assumptions C29_never_survives.

(** C69: what becomes of a construction: the first item that is not acceptable decides. *)
Theorem C69_verdict : forall now s items info,
  good_now now -> items <> [] -> (forall p, In p items -> clean (fst p) /\ clean (snd p)) ->
  verdict_of (status_new now s (flag_list items) info) = first_bad (map (status_item_verdict sar) items).
Proof. exact c69_verdict. Qed.
Print Assumptions C69_verdict.

(** C69: an accepted construction: version 1, status frame, exactly the requested
    flags, the caller's values, the caller's holes after those the receiver held
    before, and the time stamped iff requested. *)
Theorem C69_result : forall now s items info,
  good_now now -> items <> [] -> (forall p, In p items -> clean (fst p) /\ clean (snd p)) ->
  (forall p, In p items -> status_item_verdict sar p = Accept) ->
  s_header s < 2 ^ 32 ->
  let settings := ("version", "v1") :: ("frametype", "status") :: flat_map status_settings items in
  exists s', status_new now s (flag_list items) info = Ret (s', None) /\
    set_exactly sar (s_header s) (s_header s') settings /\
    s_session s' = si_session info mod 2 ^ 32 /\ s_progress s' = si_progress info /\ s_inrespto s' = si_inrespto info /\
    s_holes s' = (s_holes s ++ si_holes info)%list /\
    stamped now (s_tstamp s) (flat_map status_stamp items) (s_tstamp s').
Proof. exact c69_result. Qed.
Print Assumptions C69_result.

(** C69: the header-based constructor keeps every other flag of the given header;
    it never stamps the time, even if the header asks for a timestamp. *)
Theorem C69_make : forall s header info, header < 2 ^ 32 ->
  exists s', status_make s header info = Ret (s', None) /\
    set_exactly sar header (s_header s') [("version", "v1"); ("frametype", "status")] /\
    s_session s' = si_session info mod 2 ^ 32 /\ s_progress s' = si_progress info /\ s_inrespto s' = si_inrespto info /\
    s_holes s' = (s_holes s ++ si_holes info)%list /\ s_tstamp s' = s_tstamp s.
Proof. exact c69_make. Qed.
Print Assumptions C69_make.
Example C27_encode_ex : hd_reqtstamp (s_header ex_status) = 0 /\
  descriptor_width (hd_descriptor (s_header ex_status)) = Some 4%nat /\
  status_encode ex_status = Ret (Frame (wire 4 0x24400000 ++ wire 4 9 ++ wire 4 70000 ++ wire 4 3 ++
     wire 4 10 ++ wire 4 20 ++ wire 4 65536 ++ wire 4 70000)%list).
Proof. exact c27_encode_ex. Qed.
Example C28_roundtrip_ex :
  s_header ex_status < 2 ^ 32 /\ s_progress ex_status < 2 ^ (8 * N.of_nat 4) /\
  (forall h, In h (s_holes ex_status) -> offset_fits 4 (h_start h) /\ offset_fits 4 (h_end h)) /\
  forall f, status_encode ex_status = Ret (Frame f) -> status_decode zero_status f = Ret (ex_status, None).
Proof. exact c28_roundtrip_ex. Qed.

(** with the top byte of the progress equal to 1 the decoder accepts, and reads nonsense *)
Example C29_never_survives_ex : exists s s' f, hd_reqtstamp (s_header s) = 1 /\ status_encode s = Ret (Frame f) /\
  status_decode zero_status f = Ret (s', None) /\ s_progress s = 0x01000005 /\ s_progress s' = 0.
Proof. exact c29_never_survives_ex. Qed.
Example C30_verdict_ex :
  status_verdict (wire 4 0x24080000 ++ zeros 8) = Crash /\
  status_verdict (wire 4 0x24800000 ++ zeros 8) = Crash /\
  status_verdict (wire 4 0x24080000 ++ zeros 4 ++ wire 1 200 ++ zeros 15) = Kill /\
  status_verdict (wire 4 0x24080000 ++ zeros 4 ++ wire 1 3 ++ zeros 19) = Accept.
Proof. exact c30_verdict_ex. Qed.

(** a receiver with one hole decodes a frame with two pairs and a partial one *)
Example C31_count_ex : exists s',
  status_decode {| s_header := 0; s_session := 0; s_tstamp := zero_timestamp; s_progress := 0; s_inrespto := 0;
                   s_holes := [ {| h_start := 1; h_end := 2 |} ] |}
    (wire 4 0x24000000 ++ wire 4 9 ++ wire 2 70 ++ wire 2 3 ++ wire 2 10 ++ wire 2 20 ++ wire 2 30 ++ wire 2 40 ++ zeros 3) = Ret (s', None) /\
  s_holes s' = [ {| h_start := 1; h_end := 2 |}; {| h_start := 10; h_end := 20 |}; {| h_start := 30; h_end := 40 |} ].
Proof. exact c31_count_ex. Qed.
Example C69_result_ex :
  let items := [("descriptor", "d32"); ("posix64", "x"); ("errcode", "badpacket"); ("allholes", "no")] in
  map (status_item_verdict sar) items = [Accept; Accept; Accept; Accept] /\
  flat_map status_stamp items = ["posix64"] /\
  exists s', status_new ex_now zero_status (flag_list items)
    {| si_session := 9; si_progress := 70000; si_inrespto := 3; si_holes := [ {| h_start := 1; h_end := 2 |} ] |} = Ret (s', None) /\
    t_secs (s_tstamp s') = 1700000000.
Proof. exact c69_result_ex. Qed.
