(** * Request: the properties

    Statements only; the proofs are in RequestMain.v. *)
From Verif Require Import GoBase GoFacts Flags SpecFlags FlagsFacts Config Shipped ConfigFacts SpecWire SarFacts TimeMain Data Request SpecFrames FrameFacts FlagStrFacts BuildFacts SpecRequest RequestMain.
Local Open Scope string_scope.
Local Open Scope N_scope.

(** C32: encoding a request gives header, session, name, zero byte and
    authentication bytes, for every request. *)
Theorem C32_encode : forall r, request_encode r =
  Ret (Frame (request_wire (r_header r) (r_session r) (r_fname r) (r_auth r))).
Proof. exact c32_encode. Qed.
Print Assumptions C32_encode.

(** C33: a request with an ASCII name survives, into any receiver with an empty name. *)
Theorem C33_roundtrip : forall r r0, r_header r < 2 ^ 32 -> r_session r < 2 ^ 32 -> ascii_name (r_fname r) -> r_fname r0 = "" ->
  exists f, request_encode r = Ret (Frame f) /\ request_decode r0 f = Ret (r, None).
Proof. exact c33_roundtrip. Qed.
Print Assumptions C33_roundtrip.

(** C34: with bytes of 0x80 and above in the name (and no zero byte) the frame
    either panics the decoder, exactly when there are more of them than
    authentication bytes, or comes out with a longer name and that many
    authentication bytes cut off. *)
Theorem C34_non_ascii : forall r, r_header r < 2 ^ 32 -> r_session r < 2 ^ 32 -> no_zero (r_fname r) ->
  let n := high_count (bytes_of (r_fname r)) in
  exists f, request_encode r = Ret (Frame f) /\
    if Nat.leb n (length (r_auth r))
    then request_decode zero_request f =
           Ret ({| r_header := r_header r; r_session := r_session r;
                   r_fname := string_of (latin1_utf8 (bytes_of (r_fname r)));
                   r_auth := skipn n (r_auth r) |}, None)
         /\ slen (string_of (latin1_utf8 (bytes_of (r_fname r)))) = (slen (r_fname r) + n)%nat
    else request_decode zero_request f = Panic.
Proof. exact c34_non_ascii. Qed.
Print Assumptions C34_non_ascii.

(** C34: so a name with such a byte is never received as it was sent. *)
Theorem C34_never_survives : forall r r' f, r_header r < 2 ^ 32 -> r_session r < 2 ^ 32 -> no_zero (r_fname r) ->
  ~ ascii_name (r_fname r) ->
  request_encode r = Ret (Frame f) -> request_decode zero_request f = Ret (r', None) -> r_fname r' <> r_fname r.
Proof. exact c34_never_survives. Qed.
Print Assumptions C34_never_survives.

(** C35: the verdict on arbitrary bytes, for a receiver that holds any name. *)
Theorem C35_verdict : forall r f, verdict_of (request_decode r f) = request_verdict (slen (r_fname r)) f.
Proof. exact c35_verdict. Qed.
Print Assumptions C35_verdict.

(** C35: for a fresh receiver: a panic exactly for a name without terminator or
    with more bytes of 0x80 and above than bytes follow the terminator; the
    process is never terminated. *)
Theorem C35_panics_iff : forall f,
  (request_decode zero_request f = Panic <->
    (9 <= length f)%nat /\
    (~ has_zero (skipn 8 f) \/
     (length (after_zero (skipn 8 f)) < high_count (before_zero (skipn 8 f)))%nat)) /\
  request_decode zero_request f <> Fatal.
Proof. exact c35_panics_iff. Qed.
Print Assumptions C35_panics_iff.

(** C36: decoding into a receiver that already holds a name: the new name is
    appended to the old one, and the old length is cut from the authentication bytes. *)
Theorem C36_concatenates : forall r f, request_verdict (slen (r_fname r)) f = Accept ->
  let name := before_zero (skipn 8 f) in
  request_decode r f =
    Ret ({| r_header := number_at f 0 4; r_session := number_at f 4 4;
            r_fname := r_fname r ++ string_of (latin1_utf8 name);
            r_auth := skipn (9 + slen (r_fname r) + length name + high_count name) f |}, None).
Proof. exact c36_concatenates. Qed.
Print Assumptions C36_concatenates.

(** C36: hence a reused receiver never holds the name that the frame carries
    unless the old name was empty. *)
Theorem C36_reused : forall r r' f, r_fname r <> "" -> request_decode r f = Ret (r', None) ->
  r_fname r' <> string_of (latin1_utf8 (before_zero (skipn 8 f))) /\
  exists k, r_fname r' = r_fname r ++ k.
Proof. exact c36_reused. Qed.
Print Assumptions C36_reused.

(** C70: what becomes of building a request; trailing commas are allowed. *)
Theorem C70_verdict : forall r items n info,
  items <> [] -> (forall p, In p items -> clean (fst p) /\ clean (snd p)) ->
  verdict_of (request_new r (flag_list items ++ commas n) info) = first_bad (map (request_item_verdict sar) items).
Proof. exact c70_verdict. Qed.
Print Assumptions C70_verdict.

(** C70: an accepted construction: version 1, request frame, exactly the requested
    flags, the caller's session and name. *)
Theorem C70_result : forall r items n info,
  items <> [] -> (forall p, In p items -> clean (fst p) /\ clean (snd p)) ->
  (forall p, In p items -> request_item_verdict sar p = Accept) ->
  r_header r < 2 ^ 32 ->
  let settings := ("version", "v1") :: ("frametype", "request") :: items in
  exists r', request_new r (flag_list items ++ commas n) info = Ret (r', None) /\
    set_exactly sar (r_header r) (r_header r') settings /\
    r_session r' = ri_session info mod 2 ^ 32 /\ r_fname r' = ri_fname info /\
    length (r_auth r') = length (r_auth r).
Proof. exact c70_result. Qed.
Print Assumptions C70_result.

(** C70: an empty flag string panics (the error message reads a missing value). *)
Theorem C70_empty : forall r n info, request_new r (commas n) info = Panic.
Proof. exact c70_empty. Qed.
Print Assumptions C70_empty.

(** C37: whatever the flags, a request built on a receiver without authentication
    bytes has none, whatever authentication bytes the caller supplies. *)
Theorem C37_auth_lost : forall r flags info r', r_auth r = [] ->
  request_new r flags info = Ret (r', None) -> r_auth r' = [].
Proof. exact c37_auth_lost. Qed.
Print Assumptions C37_auth_lost.

(** C37: the header-based constructor panics, whatever it is given. *)
Theorem C37_make_panics : forall r header info, request_make r header info = Panic.
Proof. exact c37_make_panics. Qed.
Print Assumptions C37_make_panics.
Example C32_encode_ex : request_encode ex_request =
  Ret (Frame (wire 4 0x21000001 ++ wire 4 5 ++ bytes_of "fred.txt" ++ zeros 1 ++ bytes_of "key")%list).
Proof. exact c32_encode_ex. Qed.
Example C33_roundtrip_ex : ascii_name (r_fname ex_request) /\ r_header ex_request < 2 ^ 32.
Proof. exact c33_roundtrip_ex. Qed.
Example C34_non_ascii_ex : no_zero ex_latin /\ ~ ascii_name ex_latin /\
  (forall f, request_encode {| r_header := 0x21000001; r_session := 5; r_fname := ex_latin; r_auth := [] |} = Ret (Frame f) ->
     request_decode zero_request f = Panic) /\
  (forall f, request_encode {| r_header := 0x21000001; r_session := 5; r_fname := ex_latin; r_auth := bytes_of "key" |} = Ret (Frame f) ->
     exists r', request_decode zero_request f = Ret (r', None) /\ slen (r_fname r') = 3%nat /\ r_auth r' = bytes_of "ey").
Proof. exact c34_non_ascii_ex. Qed.
Example C35_panics_iff_ex :
  request_verdict 0 (wire 4 0x21000001 ++ wire 4 5 ++ bytes_of "abc")%list = Crash /\
  request_verdict 0 (wire 4 0x21000001 ++ wire 4 5 ++ bytes_of "abc" ++ zeros 1)%list = Accept /\
  request_verdict 0 (zeros 8) = Reject.
Proof. exact c35_panics_iff_ex. Qed.
Example C36_concatenates_ex : exists r',
  request_decode {| r_header := 0; r_session := 0; r_fname := "ab"; r_auth := [] |}
    (wire 4 0x21000001 ++ wire 4 5 ++ bytes_of "c" ++ zeros 1 ++ bytes_of "xyz")%list = Ret (r', None) /\
  r_fname r' = "abc" /\ r_auth r' = bytes_of "z".
Proof. exact c36_concatenates_ex. Qed.
Example C37_auth_lost_ex : exists r',
  request_new zero_request "reqtype=get" {| ri_session := 5; ri_fname := "f"; ri_auth := bytes_of "key" |} = Ret (r', None) /\ r_auth r' = [].
Proof. exact c37_auth_lost_ex. Qed.
Example C70_result_ex :
  let items := [("descriptor", "d32"); ("stream", "no"); ("txwilling", "yes"); ("rxwilling", "yes"); ("reqtype", "getdir")] in
  map (request_item_verdict sar) items = [Accept; Accept; Accept; Accept; Accept] /\
  exists r', request_new zero_request (flag_list items ++ commas 2) {| ri_session := 5; ri_fname := "f"; ri_auth := [] |} = Ret (r', None) /\
    r_header r' = 0x214F0006.
Proof. exact c70_result_ex. Qed.
Example C70_verdict_ex : map (request_item_verdict sar) [("fileordir", "file"); ("reqtype", "fetch"); ("reqstatus", "yes")] = [Kill; Kill; Reject].
Proof. exact c70_verdict_ex. Qed.
