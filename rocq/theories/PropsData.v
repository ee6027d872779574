(** * Data: the properties

    Statements only; the proofs are in DataMain.v. *)
From Verif Require Import GoBase GoFacts Flags SpecFlags FlagsFacts Config Shipped ConfigFacts SpecWire SarFacts Timestamp SpecTime TimeMain Data SpecFrames FrameFacts FlagStrFacts BuildFacts DataMain.
Local Open Scope string_scope.
Local Open Scope N_scope.

(** C23: what encoding a data frame gives, for every frame: the documented
    bytes; an error for the 128-bit descriptor; the process terminates for a
    timestamp of a type that does not exist.  It never panics. *)
Theorem C23_encode : forall d, t_header (d_tstamp d) < 256 ->
  match descriptor_width (hd_descriptor (d_header d)) with
  | None => exists e, data_encode d = Ret (EncErr e)
  | Some w =>
      if hd_reqtstamp (d_header d) =? 0
      then data_encode d = Ret (Frame (data_wire (d_header d) (d_session d) [] w (d_offset d) (d_payload d)))
      else match ts_bytes (d_tstamp d) with
           | Some ts => data_encode d = Ret (Frame (data_wire (d_header d) (d_session d) ts w (d_offset d) (d_payload d)))
                        /\ length ts = 16%nat
           | None => data_encode d = Fatal
           end
  end.
Proof. exact c23_encode. Qed.
Print Assumptions C23_encode.

(** C24: decoding an encoded data frame.  The receiver [d0] is arbitrary; without
    a timestamp it keeps the timestamp it had. *)
Theorem C24_roundtrip : forall d d0 w,
  d_header d < 2 ^ 32 -> d_session d < 2 ^ 32 ->
  descriptor_width (hd_descriptor (d_header d)) = Some w ->
  d_offset d < 2 ^ (8 * N.of_nat w) ->
  (hd_reqtstamp (d_header d) = 1 -> proper_stamp (d_tstamp d)) ->
  t_header (d_tstamp d) < 256 ->
  exists f, data_encode d = Ret (Frame f) /\
    if (hd_reqtstamp (d_header d) =? 1) && Nat.eqb w 2 && Nat.eqb (length (d_payload d)) 0
    then exists d' e, data_decode d0 f = Ret (d', Some e)
    else data_decode d0 f =
           Ret ({| d_header := d_header d; d_session := d_session d;
                   d_tstamp := if hd_reqtstamp (d_header d) =? 1 then d_tstamp d else d_tstamp d0;
                   d_offset := d_offset d; d_payload := d_payload d |}, None).
Proof. exact c24_roundtrip. Qed.
Print Assumptions C24_roundtrip.

(** C25: the verdict on arbitrary bytes, whatever the receiver holds. *)
Theorem C25_verdict : forall d f, verdict_of (data_decode d f) = data_verdict f.
Proof. exact c25_verdict. Qed.
Print Assumptions C25_verdict.

(** C25: it panics exactly when the announced timestamp, or after a readable
    timestamp the announced offset, is cut short. *)
Theorem C25_panics_iff : forall d f,
  data_decode d f = Panic <->
    (10 <= length f)%nat /\
    let h := number_at f 0 4 in
    ((hd_reqtstamp h = 1 /\ (length f < 24)%nat) \/
     ((hd_reqtstamp h = 0 \/ (24 <= length f)%nat /\ 1 <= number_at f 8 1 <= 5) /\
      exists w, descriptor_width (hd_descriptor h) = Some w /\ (length f < after_ts h + w)%nat)).
Proof. exact c25_panics_iff. Qed.
Print Assumptions C25_panics_iff.

(** C25: it terminates the process exactly when a complete timestamp of an
    unknown type is announced. *)
Theorem C25_fatal_iff : forall d f,
  data_decode d f = Fatal <->
    (24 <= length f)%nat /\ hd_reqtstamp (number_at f 0 4) = 1 /\ 6 <= number_at f 8 1.
Proof. exact c25_fatal_iff. Qed.
Print Assumptions C25_fatal_iff.

(** C25: what an accepted frame decodes to. *)
Theorem C25_value : forall d f, data_verdict f = Accept -> exists w,
  descriptor_width (hd_descriptor (number_at f 0 4)) = Some w /\
  data_decode d f =
    Ret ({| d_header := number_at f 0 4; d_session := number_at f 4 4; d_tstamp := ts_read (d_tstamp d) f;
            d_offset := number_at f (after_ts (number_at f 0 4)) w;
            d_payload := skipn (after_ts (number_at f 0 4) + w) f |}, None).
Proof. exact c25_value. Qed.
Print Assumptions C25_value.

(** C26: what becomes of a construction: the first item that is not acceptable
    decides. *)
Theorem C26_verdict : forall now d items info,
  good_now now -> items <> [] -> (forall p, In p items -> clean (fst p) /\ clean (snd p)) ->
  verdict_of (data_new now d (flag_list items) info) = first_bad (map (data_item_verdict sar) items).
Proof. exact c26_verdict. Qed.
Print Assumptions C26_verdict.

(** C26: an accepted construction: version 1, data frame, exactly the requested
    flags (the last setting of a flag counts), the caller's values, and the time stamped
    iff a timestamp is requested.  The transfer flag leaves no trace. *)
Theorem C26_result : forall now d items info,
  good_now now -> items <> [] -> (forall p, In p items -> clean (fst p) /\ clean (snd p)) ->
  (forall p, In p items -> data_item_verdict sar p = Accept) ->
  d_header d < 2 ^ 32 ->
  let settings := ("version", "v1") :: ("frametype", "data") :: flat_map data_settings items in
  exists d', data_new now d (flag_list items) info = Ret (d', None) /\
    set_exactly sar (d_header d) (d_header d') settings /\
    d_session d' = di_session info mod 2 ^ 32 /\ d_offset d' = di_offset info /\ d_payload d' = di_payload info /\
    stamped now (d_tstamp d) (flat_map data_stamp items) (d_tstamp d').
Proof. exact c26_result. Qed.
Print Assumptions C26_result.

(** C26: an empty flag string is refused. *)
Theorem C26_empty : forall now d info, exists d' e, data_new now d "" info = Ret (d', Some e).
Proof. exact c26_empty. Qed.
Print Assumptions C26_empty.

(** C26: the header-based constructor keeps every flag of the given header
    except version and frame type, and stamps the time iff the header asks for it. *)
Theorem C26_make : forall now d header info, good_now now -> header < 2 ^ 32 ->
  exists d', data_make now d header info = Ret (d', None) /\
    set_exactly sar header (d_header d') [("version", "v1"); ("frametype", "data")] /\
    d_session d' = di_session info mod 2 ^ 32 /\ d_offset d' = di_offset info /\ d_payload d' = di_payload info /\
    if hd_reqtstamp header =? 1 then ts_new (d_tstamp d) "posix32" now = Ret (d_tstamp d', None)
    else d_tstamp d' = d_tstamp d.
Proof. exact c26_make. Qed.
Print Assumptions C26_make.
Example C23_encode_ex : t_header (d_tstamp ex_data) < 256 /\ descriptor_width (hd_descriptor (d_header ex_data)) = Some 4%nat /\
  data_encode ex_data = Ret (Frame (wire 4 0x23480000 ++ wire 4 7 ++ wire 1 4 ++ wire 8 1700000000 ++ wire 4 5 ++ zeros 3
                                    ++ wire 4 65536 ++ bytes_of "abc")%list).
Proof. exact c23_encode_ex. Qed.
Example C24_roundtrip_ex :
  d_header ex_data < 2 ^ 32 /\ d_session ex_data < 2 ^ 32 /\
  descriptor_width (hd_descriptor (d_header ex_data)) = Some 4%nat /\ d_offset ex_data < 2 ^ (8 * N.of_nat 4) /\
  proper_stamp (d_tstamp ex_data) /\ hd_reqtstamp (d_header ex_data) = 1 /\
  forall f, data_encode ex_data = Ret (Frame f) -> data_decode zero_data f = Ret (ex_data, None).
Proof. exact c24_roundtrip_ex. Qed.

(** a 10-byte frame that announces a timestamp panics; so does one that announces
    a 64-bit offset; type 9 kills; a complete frame is accepted *)
Example C25_verdict_ex :
  data_verdict (wire 4 0x23080000 ++ zeros 6) = Crash /\
  data_verdict (wire 4 0x23800000 ++ zeros 6) = Crash /\
  data_verdict (wire 4 0x23080000 ++ zeros 4 ++ wire 1 9 ++ zeros 20) = Kill /\
  data_verdict (wire 4 0x23080000 ++ zeros 4 ++ wire 1 1 ++ zeros 17) = Reject /\
  data_verdict (wire 4 0x23080000 ++ zeros 4 ++ wire 1 1 ++ zeros 18) = Accept.
Proof. exact c25_verdict_ex. Qed.
Example C26_result_ex :
  let items := [("descriptor", "d32"); ("transfer", "file"); ("reqtstamp", "posix64_32"); ("eod", "yes")] in
  good_now ex_now /\ map (data_item_verdict sar) items = [Accept; Accept; Accept; Accept] /\
  flat_map data_stamp items = ["posix64_32"] /\
  data_new ex_now zero_data (flag_list items) {| di_session := 7; di_offset := 65536; di_payload := bytes_of "abc" |} =
    Ret ({| d_header := 0x23488000; d_session := 7; d_tstamp := ex_stamp; d_offset := 65536; d_payload := bytes_of "abc" |}, None).
Proof. exact c26_result_ex. Qed.
Example C26_verdict_ex :
  map (data_item_verdict sar) [("transfer", "bundle"); ("colour", "red"); ("eod", "maybe"); ("reqtstamp", "sundial")]
  = [Reject; Reject; Kill; Reject].
Proof. exact c26_verdict_ex. Qed.
Example C26_make_ex : (0xFFFFFFFF : N) < 2 ^ 32 /\ hd_reqtstamp 0xFFFFFFFF = 1 /\ hd_reqtstamp 0x00000001 = 0.
Proof. exact c26_make_ex. Qed.
