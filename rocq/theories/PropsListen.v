(** * Listen: the properties

    Statements only; the proofs are in ListenMain.v. *)
From Verif Require Import GoBase GoFacts Flags Config Shipped SpecFlags FlagsFacts ConfigFacts FlagsMain SpecWire SarFacts Timestamp SpecTime TimeMain Holes Data SpecFrames FrameFacts BuildFacts DataMain Status SpecStatus StatusMain Request SpecRequest RequestMain Beacon SpecBeacon BeaconMain Peers SpecPeers PeersMain Fileio Dirent SpecDirent DirentMain Metadata SpecMetadata MetadataMain Trans Listen SpecListen ListenMain.
Local Open Scope string_scope.
Local Open Scope N_scope.

(** C55: a frame that is handed on is the one held by the whole datagram, which has at
    least 8 bytes and at most 60 less than the MTU; it comes with the sender's address. *)
Theorem C55_whole : forall now mtu f from p, listen_one now mtu f from = Ret (ToRx p) ->
  (8 <= length f)%nat /\ (Z.of_nat (length f) <= mtu - 60)%Z /\ pk_addr p = from /\ frame_in f = Some (pk_info p).
Proof. exact c55_whole. Qed.
Print Assumptions C55_whole.

(** C55: every other datagram is dropped, whatever it holds. *)
Theorem C55_others : forall now mtu f from, ((length f < 8)%nat \/ (mtu - 60 < Z.of_nat (length f))%Z) ->
  listen_one now mtu f from = Ret Dropped.
Proof. exact c55_others. Qed.
Print Assumptions C55_others.

(** C56: what becomes of each datagram. *)
Theorem C56_fate : forall now mtu f from, fate_of (listen_one now mtu f from) = datagram_fate mtu f.
Proof. exact c56_fate. Qed.
Print Assumptions C56_fate.

(** C56: the error status that answers a version 0 frame, and the one that answers a
    metadata, data or status frame that does not decode. *)
Theorem C56_answers : forall now mtu f from p, listen_one now mtu f from = Ret (ToTx p) ->
  pk_addr p = from /\ exists st, pk_info p = FStatus st /\
  ((hd_version (number_at f 0 4) = 0 /\ error_status st [("errcode", "badpacket")] 0 0) \/
   (hd_version (number_at f 0 4) = 1 /\
    exists d, reads sar (number_at f 0 4) "descriptor" d /\
              error_status st (bad_settings d) (fst (quoted f)) (snd (quoted f)))).
Proof. exact c56_answers. Qed.
Print Assumptions C56_answers.

(** C56: the process dies exactly for these datagrams. *)
Theorem C56_dies_iff : forall now mtu f from,
  let h := number_at f 0 4 in
  let n := length f in
  let announced w := descriptor_width (hd_descriptor h) = Some w in
  let rest := skipn (8 + csum_bytes h) f in
  let stamp_ok := hd_reqtstamp h = 0 \/ (24 <= n)%nat /\ 1 <= number_at f 8 1 <= 5 in
  (listen_one now mtu f from = Panic \/ listen_one now mtu f from = Fatal) <->
  fits_mtu mtu f /\
  (2 <= hd_version h \/
   hd_version h = 1 /\
   (5 <= hd_frametype h \/
    (* a beacon without room for its free space *)
    hd_frametype h = 0 /\ hd_freespace h = 1 /\ (exists w, descriptor_width (hd_freespaced h) = Some w /\ (n < 4 + w)%nat) \/
    (* a request whose name does not end, or has more bytes of 0x80 and above than follow it *)
    hd_frametype h = 1 /\ (9 <= n)%nat /\ (~ has_zero (skipn 8 f) \/ (length (after_zero (skipn 8 f)) < high_count (before_zero (skipn 8 f)))%nat) \/
    (* metadata without room for the checksum, or for size and times *)
    hd_frametype h = 2 /\ ((n < 8 + csum_bytes h)%nat \/
       (12 <= length rest)%nat /\ exists w, descriptor_width (dh_descriptor (number_at rest 0 2)) = Some w /\ (length rest < 10 + w)%nat) \/
    (* data without room for the timestamp or the offset, or with an undefined timestamp type *)
    hd_frametype h = 3 /\ (10 <= n)%nat /\
      (hd_reqtstamp h = 1 /\ ((n < 24)%nat \/ 6 <= number_at f 8 1) \/ stamp_ok /\ exists w, announced w /\ (n < after_ts h + w)%nat) \/
    (* a status likewise, or with an undefined error code *)
    hd_frametype h = 4 /\ (12 <= n)%nat /\
      (hd_reqtstamp h = 1 /\ ((n < 24)%nat \/ 6 <= number_at f 8 1) \/ stamp_ok /\
       exists w, announced w /\ ((n < after_ts h + 2 * w)%nat \/ 19 <= hd_errcode h)))).
Proof. exact c56_dies_iff. Qed.
Print Assumptions C56_dies_iff.
Example C55_whole_ex : exists p, listen_one ex_now 1500 ex_beacon_dgram ex_from = Ret (ToRx p) /\
  pk_info p = FBeacon {| b_header := 0x20000000; b_freespace := 0; b_eid := "eid!" |}.
Proof. exact c55_whole_ex. Qed.
Example C55_others_ex : listen_one ex_now 67 ex_beacon_dgram ex_from = Ret Dropped /\
  exists p, listen_one ex_now 68 ex_beacon_dgram ex_from = Ret (ToRx p).
Proof. exact c55_others_ex. Qed.
Example C56_fate_ex : map (datagram_fate 1500)
  [ bytes_of "short";
    ex_beacon_dgram;
    (wire 4 0x00000000 ++ bytes_of "eid!")%list;             (* version 0 *)
    (wire 4 0x40000000 ++ bytes_of "eid!")%list;             (* version 2 *)
    (wire 4 0x25000000 ++ bytes_of "eid!")%list;             (* frame type 5 *)
    (wire 4 0x20006000 ++ bytes_of "eid!")%list;             (* 64-bit free space in a 4-byte field *)
    (wire 4 0x21000001 ++ wire 4 5 ++ bytes_of "fred")%list; (* name without terminator *)
    (wire 4 0x23000000 ++ wire 4 5 ++ bytes_of "z")%list;    (* 9 bytes of data *)
    (wire 4 0x23C00000 ++ wire 4 5 ++ bytes_of "zz")%list;   (* 128-bit descriptor *)
    (wire 4 0x24000012 ++ wire 4 5 ++ zeros 4)%list;         (* error code 18 *)
    (wire 4 0x24000013 ++ wire 4 5 ++ zeros 4)%list ]        (* error code 19 *)
  = [Ignored; HandedOn; Answered; Died; Died; Died; Died; Answered; Answered; HandedOn; Died].
Proof. exact c56_fate_ex. Qed.
Example C56_answers_ex : exists st, listen_one ex_now 1500 (wire 4 0x23C00000 ++ wire 4 5 ++ bytes_of "zz")%list ex_from =
  Ret (ToTx {| pk_addr := ex_from; pk_info := FStatus st |}) /\ s_session st = 5 /\ hd_errcode (s_header st) = 10.
Proof. exact c56_answers_ex. Qed.
Example C56_dies_iff_ex : fits_mtu 1500 (wire 4 0x24000013 ++ wire 4 5 ++ zeros 4)%list /\
  listen_one ex_now 1500 (wire 4 0x24000013 ++ wire 4 5 ++ zeros 4)%list ex_from = Fatal.
Proof. exact c56_dies_iff_ex. Qed.
