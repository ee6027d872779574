From Verif Require Import GoBase GoFacts Flags Config Shipped SpecFlags FlagsFacts ConfigFacts FlagsMain SpecWire SarFacts Timestamp SpecTime TimeMain Holes Data SpecFrames FrameFacts BuildFacts DataMain Status SpecStatus StatusMain Request SpecRequest RequestMain Beacon SpecBeacon BeaconMain Peers SpecPeers PeersMain Fileio Dirent SpecDirent DirentMain Metadata SpecMetadata MetadataMain Trans Listen SpecListen ListenMain Sarnet Transmit SpecTransmit.
Local Open Scope string_scope.
Local Open Scope N_scope.

Lemma send_encoded_spec : forall what shown sk to enc,
  match enc with
  | Ret (EncErr e) => send_encoded what shown sk to enc = Ret {| sd_wire := []; sd_err := Some e |}
  | Ret (Frame buf) => exists e, send_encoded what shown sk to enc = Ret {| sd_wire := [(to, buf)]; sd_err := e |} /\
      (e = None <-> took_all sk to buf) /\ (forall x, sk_write sk to buf = Refused x -> e = Some x)
  | Panic => send_encoded what shown sk to enc = Panic
  | Fatal => send_encoded what shown sk to enc = Fatal
  end.
Proof.
  intros what shown sk to [[buf|e]| |]; try reflexivity. unfold send_encoded, took_all. cbn [obind].
  destruct (sk_write sk to buf) as [n|x].
  - destruct (Nat.eqb_spec n (List.length buf)) as [->|N]; cbn [negb]; eexists; (split; [reflexivity|]); (split; [|discriminate]).
    + split; reflexivity.
    + split; [discriminate|]. intros [= X]. contradiction.
  - eexists. split; [reflexivity|]. split; [split; discriminate|]. intros y [= ->]. reflexivity.
Qed.

(** C115: Send writes the encoded frame, whole, once, to the address given (a beacon:
    along the connection), and nothing if there is none; it returns nil exactly when
    the system took all of it, and the encoder's or the system's error as it is. *)
Lemma c115_send : forall f sk to,
  match frame_encode f with
  | Ret (Frame buf) => exists e, frame_send f sk to = Ret {| sd_wire := [(goes_to f to, buf)]; sd_err := e |} /\
      (e = None <-> took_all sk (goes_to f to) buf) /\ (forall x, sk_write sk (goes_to f to) buf = Refused x -> e = Some x)
  | Ret (EncErr e) => frame_send f sk to = Ret {| sd_wire := []; sd_err := Some e |}
  | Panic => frame_send f sk to = Panic
  | Fatal => frame_send f sk to = Fatal
  end.
Proof.
  intros [b|r|m|d|s] sk to; cbn [frame_encode frame_send goes_to];
    [unfold beacon_send|unfold request_send|unfold meta_send|unfold data_send|unfold status_send]; apply send_encoded_spec.
Qed.

(** C115: when only part of a frame is taken the error says how much, where to and out
    of how much. *)
Lemma c115_short : forall f sk to buf n, frame_encode f = Ret (Frame buf) ->
  sk_write sk (goes_to f to) buf = Took n -> n <> List.length buf ->
  exists kind, frame_send f sk to = Ret {| sd_wire := [(goes_to f to, buf)];
    sd_err := Some (kind ++ " sent (" ++ itoa (N.of_nat n) ++ ") to " ++
                    udpaddr_string (match f with FBeacon _ => sk_remote sk | _ => to end) ++
                    " != frame size (" ++ itoa (N.of_nat (List.length buf)) ++ ")") |} /\
    kind = match f with FBeacon _ => "Beacon" | FRequest _ => "Request" | FMetadata _ => "MetaData" | FData _ => "Data" | FStatus _ => "status" end.
Proof.
  intros f sk to buf n E T N. eexists. split; [|reflexivity].
  destruct f; cbn [frame_encode frame_send goes_to] in *;
    [unfold beacon_send|unfold request_send|unfold meta_send|unfold data_send|unfold status_send];
    unfold send_encoded; rewrite E; cbn [obind]; rewrite T;
    (destruct (Nat.eqb_spec n (List.length buf)) as [X|X]; [contradiction|reflexivity]).
Qed.

(** ** What arrives *)
Lemma header_at_front : forall k v rest, v < 2 ^ 32 -> k = 4%nat -> number_at (wire k v ++ rest) 0 4 = v.
Proof. intros k v rest B ->. rewrite number_at_wire0. apply u32_pow; auto. Qed.

(** The listener, given a datagram that fits, starts with a v1 header of type [k] *)
Lemma listen_fits : forall now mtu f from, fits_mtu mtu f -> SpecListen.hd_version (number_at f 0 4) = 1 ->
  listen_one now mtu f from =
  (do frametype <- sf_getstr sar (number_at f 0 4) "frametype";
   if String.eqb frametype "beacon" then
     do ' (b, e) <- beacon_decode zero_beacon f;
     match e with Some _ => Ret Dropped | None => Ret (ToRx (beacon_val b from)) end
   else if String.eqb frametype "request" then
     do ' (r, e) <- request_decode zero_request f;
     match e with Some _ => Ret Dropped | None => Ret (ToRx (request_val r from)) end
   else if String.eqb frametype "data" then
     do ' (d, e) <- data_decode zero_data f;
     match e with Some _ => bad_frame now (number_at f 0 4) (d_session d) (d_offset d) from | None => Ret (ToRx (data_val d from)) end
   else if String.eqb frametype "metadata" then
     do ' (m, e) <- meta_decode zero_metadata f;
     match e with
     | Some _ => do session <- get_uint 4 f 4 8; bad_frame now (number_at f 0 4) session 0 from
     | None => Ret (ToRx (meta_val m from))
     end
   else if String.eqb frametype "status" then
     do ' (s, e) <- status_decode zero_status f;
     match e with
     | Some _ => do session <- get_uint 4 f 4 8; bad_frame now (number_at f 0 4) session 0 from
     | None => do _ <- status_shortprint_ok s; do _ <- status_print_ok s; Ret (ToRx (status_val s from))
     end
   else Ret Dropped).
Proof.
  intros now mtu f from [L8 LZ] HV. unfold listen_one. rewrite firstn_fit by lia.
  destruct (Nat.ltb_spec (length f) 8); [lia|]. destruct (Z.ltb_spec (mtu - 60) (Z.of_nat (length f))); [lia|].
  cbv zeta. rewrite get_uint_number by lia. cbn [obind]. rewrite version_name, HV. cbn [obind].
  eval_eqbs. cbn [negb]. reflexivity.
Qed.

Lemma wire_of_beacon : forall b f, beacon_encode b = Ret (Frame f) -> frame_wire (FBeacon b) = Some f.
Proof.
  intros b f E. pose proof (c39_encode b) as X. cbn [frame_wire]. destruct (space_width (b_header b)) as [w|].
  - rewrite E in X. apply frame_inj in X. subst f. reflexivity.
  - destruct X as [e X]. congruence.
Qed.
Lemma wire_of_request : forall r f, request_encode r = Ret (Frame f) -> frame_wire (FRequest r) = Some f.
Proof. intros r f E. rewrite c32_encode in E. apply frame_inj in E. subst f. reflexivity. Qed.
Lemma wire_of_data : forall d f, t_header (d_tstamp d) < 256 -> data_encode d = Ret (Frame f) -> frame_wire (FData d) = Some f.
Proof.
  intros d f T E. pose proof (c23_encode d T) as X. cbn [frame_wire].
  destruct (descriptor_width (hd_descriptor (d_header d))) as [w|]; [|destruct X as [e X]; congruence].
  destruct (hd_reqtstamp (d_header d) =? 0).
  - rewrite E in X. apply frame_inj in X. subst f. reflexivity.
  - destruct (ts_bytes (d_tstamp d)) as [ts|]; [|congruence]. destruct X as [X _]. rewrite E in X. apply frame_inj in X. subst f. reflexivity.
Qed.
Lemma wire_of_status : forall s f, hd_reqtstamp (s_header s) = 0 -> status_encode s = Ret (Frame f) -> frame_wire (FStatus s) = Some f.
Proof.
  intros s f R E. pose proof (c27_encode s R) as X. cbn [frame_wire].
  destruct (descriptor_width (hd_descriptor (s_header s))) as [w|]; [|destruct X as [e X]; congruence].
  rewrite E in X. apply frame_inj in X. subst f. reflexivity.
Qed.
Lemma wire_of_meta : forall m, entry_sendable (m_dir m) -> exists f b, meta_encode m = Ret (Frame f) /\
  dirent_encode (m_dir m) = Ret (Frame b) /\ frame_wire (FMetadata m) = Some f.
Proof.
  intros m ES. destruct (c44_iff (m_dir m)) as [I _]. destruct (proj2 I ES) as [b DB].
  pose proof (meta_encode_any m) as ME. rewrite DB in ME. eexists. exists b. split; [exact ME|]. split; [exact DB|].
  pose proof (c44_encode (m_dir m)) as X. cbn [frame_wire]. destruct (descriptor_width (dh_descriptor (de_header (m_dir m)))) as [w|];
    [|destruct X as [e X]; congruence].
  destruct (Nat.leb _ _ && _); [|destruct X as [e X]; congruence]. rewrite DB in X. apply frame_inj in X. subst b. reflexivity.
Qed.
Lemma wire_starts : forall f buf, frame_wire f = Some buf ->
  exists rest, buf = (wire 4 (match f with FBeacon b => b_header b | FRequest r => r_header r | FMetadata m => m_header m | FData d => d_header d | FStatus s => s_header s end) ++ rest)%list.
Proof.
  intros f buf E. destruct f; cbn [frame_wire] in E;
    repeat match type of E with context[match ?x with _ => _ end] => destruct x; try discriminate end;
    injection E as <-; eexists; reflexivity.
Qed.

(** C116: every well-formed frame has a wire form; Send writes exactly that, and a
    listener whose MTU it fits hands on the very frame, with the address it came from. *)
Lemma c116_arrives : forall f, well_formed f -> exists buf, frame_wire f = Some buf /\
  (forall sk to, exists e, frame_send f sk to = Ret {| sd_wire := [(goes_to f to, buf)]; sd_err := e |} /\
                           (e = None <-> took_all sk (goes_to f to) buf)) /\
  (forall now mtu from, fits_mtu mtu buf -> listen_one now mtu buf from = Ret (ToRx {| pk_addr := from; pk_info := f |})).
Proof.
  intros f WF.
  assert (K : exists buf, frame_encode f = Ret (Frame buf) /\ frame_wire f = Some buf /\
    forall now mtu from, fits_mtu mtu buf -> listen_one now mtu buf from = Ret (ToRx {| pk_addr := from; pk_info := f |})).
  { destruct f as [b|r|m|d|s]; cbn [well_formed] in WF.
    - destruct WF as ((Bh & HV & HF) & w & W & Bn).
      destruct (c39_roundtrip b zero_beacon w Bh W Bn) as (buf & E & D). exists buf. split; [exact E|].
      pose proof (wire_of_beacon b buf E) as WR. split; [exact WR|]. intros now mtu from FM.
      destruct (wire_starts _ _ WR) as [rest Q]. cbv beta iota in Q.
      assert (N0 : number_at buf 0 4 = b_header b) by (rewrite Q; apply header_at_front; auto).
      rewrite listen_fits by (rewrite ?N0; auto). rewrite N0, frametype_name, HF. cbn [obind]. eval_eqbs. cbv iota.
      rewrite D. cbn [obind]. destruct b; reflexivity.
    - destruct WF as ((Bh & HV & HF) & Bs & AN).
      destruct (c33_roundtrip r zero_request Bh Bs AN eq_refl) as (buf & E & D). exists buf. split; [exact E|].
      pose proof (wire_of_request r buf E) as WR. split; [exact WR|]. intros now mtu from FM.
      destruct (wire_starts _ _ WR) as [rest Q]. cbv beta iota in Q.
      assert (N0 : number_at buf 0 4 = r_header r) by (rewrite Q; apply header_at_front; auto).
      rewrite listen_fits by (rewrite ?N0; auto). rewrite N0, frametype_name, HF. cbn [obind]. eval_eqbs. cbv iota.
      rewrite D. cbn [obind]. destruct r; reflexivity.
    - destruct WF as ((Bh & HV & HF) & Bs & LC & ES & Bd & AN & (t & Mt & Bt) & (c & Ct & Bc)).
      destruct (wire_of_meta m ES) as (buf & b & E & DB & WR). exists buf. split; [exact E|]. split; [exact WR|]. intros now mtu from FM.
      destruct (wire_starts _ _ WR) as [rest Q]. cbv beta iota in Q.
      assert (N0 : number_at buf 0 4 = m_header m) by (rewrite Q; apply header_at_front; auto).
      rewrite listen_fits by (rewrite ?N0; auto). rewrite N0, frametype_name, HF. cbn [obind]. eval_eqbs. cbv iota.
      rewrite (c46_roundtrip m zero_metadata buf t c b) by auto. cbn [obind]. rewrite meta_val_same. reflexivity.
    - destruct WF as ((Bh & HV & HF) & Bs & TS & w & W & Bo & NE).
      assert (TH : t_header (d_tstamp d) < 256).
      { destruct (hd_reqtstamp (d_header d) =? 1); [destruct TS as (L & _ & X & _); exact X|rewrite TS; reflexivity]. }
      assert (PS : hd_reqtstamp (d_header d) = 1 -> proper_stamp (d_tstamp d)).
      { intros R. rewrite R in TS. exact TS. }
      destruct (c24_roundtrip d zero_data w Bh Bs W Bo PS TH) as (buf & E & D). exists buf. split; [exact E|].
      pose proof (wire_of_data d buf TH E) as WR. split; [exact WR|]. intros now mtu from FM.
      destruct (wire_starts _ _ WR) as [rest Q]. cbv beta iota in Q.
      assert (N0 : number_at buf 0 4 = d_header d) by (rewrite Q; apply header_at_front; auto).
      rewrite listen_fits by (rewrite ?N0; auto). rewrite N0, frametype_name, HF. cbn [obind]. eval_eqbs. cbv iota.
      replace ((hd_reqtstamp (d_header d) =? 1) && Nat.eqb w 2 && Nat.eqb (length (d_payload d)) 0) with false in D.
      2:{ symmetry. apply not_true_is_false. intros X. apply andb_true_iff in X. destruct X as [X X3]. apply andb_true_iff in X. destruct X as [X1 X2].
          apply N.eqb_eq in X1. apply Nat.eqb_eq in X2, X3. apply NE. split; [exact X1|]. split; [exact X2|]. destruct (d_payload d); [reflexivity|discriminate]. }
      rewrite D. cbn [obind]. unfold data_val. cbn [d_header d_session d_tstamp d_offset d_payload zero_data].
      destruct (hd_reqtstamp (d_header d) =? 1); [|rewrite <- TS]; destruct d; reflexivity.
    - destruct WF as ((Bh & HV & HF) & Bs & R & EC & ZT & w & W & Bp & Bi & HO).
      destruct (c28_roundtrip s zero_status w Bh Bs R W Bp Bi HO) as (buf & E & D). exists buf. split; [exact E|].
      pose proof (wire_of_status s buf R E) as WR. split; [exact WR|]. intros now mtu from FM.
      destruct (wire_starts _ _ WR) as [rest Q]. cbv beta iota in Q.
      assert (N0 : number_at buf 0 4 = s_header s) by (rewrite Q; apply header_at_front; auto).
      rewrite listen_fits by (rewrite ?N0; auto). rewrite N0, frametype_name, HF. cbn [obind]. eval_eqbs. cbv iota.
      rewrite D. cbn [obind].
      match goal with |- context[status_shortprint_ok ?s'] => destruct (status_prints s' buf) as [P1 P2]; auto end.
      { cbn [s_tstamp]. unfold ts_read. rewrite N0, R. reflexivity. }
      { unfold ts_verdict. rewrite N0, R. reflexivity. }
      rewrite P1, P2. cbn [s_header].
      replace (SpecListen.hd_errcode (s_header s) <? 19) with true by (symmetry; apply N.ltb_lt; lia). cbn [obind].
      unfold status_val. cbn [s_header s_session s_tstamp s_progress s_inrespto s_holes zero_status app].
      change (s_tstamp zero_status) with zero_timestamp. rewrite <- ZT. destruct s; reflexivity. }
  destruct K as (buf & E & WR & LI). exists buf. split; [exact WR|]. split; [|exact LI].
  intros sk to. pose proof (c115_send f sk to) as X. rewrite E in X. destruct X as (e & X1 & X2 & _). eauto.
Qed.

(** C116: two different frames never have the same wire form. *)
Lemma c116_distinct : forall f g buf, well_formed f -> well_formed g ->
  frame_wire f = Some buf -> frame_wire g = Some buf -> (8 <= List.length buf)%nat -> f = g.
Proof.
  intros f g buf WF WG F G L.
  destruct (c116_arrives f WF) as (b1 & F1 & _ & A1). destruct (c116_arrives g WG) as (b2 & G1 & _ & A2).
  rewrite F in F1. injection F1 as <-. rewrite G in G1. injection G1 as <-.
  set (mtu := (Z.of_nat (length buf) + 60)%Z). assert (FM : fits_mtu mtu buf) by (split; unfold mtu; lia).
  set (a := {| ua_ip := ""; ua_port := 0; ua_zone := "" |}).
  specialize (A1 ex_now mtu a FM). specialize (A2 ex_now mtu a FM). rewrite A1 in A2. congruence.
Qed.

(** ** What is sent in vain *)

(** C117 (defect): Send knows nothing of the listener's limit: a frame of more than the
    MTU less 60 bytes is written and reported as sent, and every listener drops it. *)
Lemma c117_too_long : forall f buf sk to now mtu from, frame_encode f = Ret (Frame buf) -> took_all sk (goes_to f to) buf ->
  (mtu - 60 < Z.of_nat (List.length buf))%Z ->
  frame_send f sk to = Ret {| sd_wire := [(goes_to f to, buf)]; sd_err := None |} /\ listen_one now mtu buf from = Ret Dropped.
Proof.
  intros f buf sk to now mtu from E T L. split.
  - pose proof (c115_send f sk to) as X. rewrite E in X. destruct X as (e & X1 & X2 & _). rewrite (proj2 X2 T) in X1. exact X1.
  - apply listen_small. unfold fits_mtu_b. apply andb_false_iff. right. apply Z.leb_gt. lia.
Qed.

(** C117 (defect): metadata whose entry has no wire form (a file of 4 GiB or more, a path of
    more than 1024 bytes) is sent without it, and reported as sent; a listener answers
    that the packet is bad. *)
Lemma c117_entry : forall m sk to, header_of 2 (m_header m) -> m_session m < 2 ^ 32 ->
  List.length (m_checksum m) = csum_bytes (m_header m) -> ~ entry_sendable (m_dir m) ->
  exists buf, buf = (wire 4 (m_header m) ++ wire 4 (m_session m) ++ m_checksum m)%list /\
    (took_all sk (Some to) buf -> frame_send (FMetadata m) sk to = Ret {| sd_wire := [(Some to, buf)]; sd_err := None |}) /\
    forall now mtu from, fits_mtu mtu buf -> exists st,
      listen_one now mtu buf from = Ret (ToTx {| pk_addr := from; pk_info := FStatus st |}) /\
      error_status st (bad_settings (desc_name (hd_descriptor (m_header m)))) (m_session m) 0.
Proof.
  intros m sk to (Bh & HV & HF) Bs LC NE. eexists. split; [reflexivity|].
  destruct (c44_iff (m_dir m)) as [I [[b DB]|[e DB]]]; [exfalso; apply NE, I; eauto|].
  pose proof (c47_silent m e DB) as E. split.
  - intros T. pose proof (c115_send (FMetadata m) sk to) as X. cbn [frame_encode] in X. rewrite E in X.
    destruct X as (x & X1 & X2 & _). rewrite (proj2 X2 T) in X1. exact X1.
  - set (buf := (wire 4 (m_header m) ++ wire 4 (m_session m) ++ m_checksum m)%list) in *.
    assert (N0 : number_at buf 0 4 = m_header m) by (unfold buf; apply header_at_front; auto).
    assert (N4 : number_at buf 4 4 = m_session m).
    { unfold buf. rewrite number_at_wire by (rewrite wire_length; auto). apply u32_pow; auto. }
    intros now mtu from FM. rewrite listen_fits by (rewrite ?N0; auto). rewrite N0, frametype_name, HF. cbn [obind]. eval_eqbs. cbv iota.
    pose proof (c47_rejected m zero_metadata e buf DB Bh LC E) as V. apply verdict_reject in V. destruct V as (b & x & D). rewrite D. cbn [obind].
    rewrite get_uint_number by (destruct FM; lia). cbn [obind]. rewrite N4.
    destruct (bad_frame_spec now (m_header m) (m_session m) 0 from Bs) as (st & B1 & B2). rewrite B1. exists st. split; [destruct st; reflexivity|exact B2].
Qed.

(** C117 (defect): a data frame with a timestamp, a 16-bit offset and no payload is sent, and a
    listener answers that the packet is bad. *)
Lemma c117_empty : forall d sk to, header_of 3 (d_header d) -> d_session d < 2 ^ 32 ->
  hd_reqtstamp (d_header d) = 1 -> proper_stamp (d_tstamp d) -> hd_descriptor (d_header d) = 0 -> d_offset d < 2 ^ 16 -> d_payload d = [] ->
  exists buf, frame_wire (FData d) = Some buf /\
    (took_all sk (Some to) buf -> frame_send (FData d) sk to = Ret {| sd_wire := [(Some to, buf)]; sd_err := None |}) /\
    forall now mtu from, fits_mtu mtu buf -> exists st,
      listen_one now mtu buf from = Ret (ToTx {| pk_addr := from; pk_info := FStatus st |}) /\
      error_status st (bad_settings "d16") (d_session d) (d_offset d).
Proof.
  intros d sk to (Bh & HV & HF) Bs R PS D0 Bo PL.
  assert (TH : t_header (d_tstamp d) < 256) by (destruct PS as (L & _ & X & _); exact X).
  assert (W : descriptor_width (hd_descriptor (d_header d)) = Some 2%nat) by (rewrite D0; reflexivity).
  destruct (c24_roundtrip d zero_data 2 Bh Bs W Bo (fun _ => PS) TH) as (buf & E & D).
  pose proof (wire_of_data d buf TH E) as WR. exists buf. split; [exact WR|]. split.
  - intros T. pose proof (c115_send (FData d) sk to) as X. cbn [frame_encode] in X. rewrite E in X.
    destruct X as (x & X1 & X2 & _). rewrite (proj2 X2 T) in X1. exact X1.
  - rewrite R, PL in D. cbn [N.eqb Pos.eqb Nat.eqb length andb] in D. destruct D as (d' & e & D).
    destruct (wire_starts _ _ WR) as [rest Q]. cbv beta iota in Q.
    assert (N0 : number_at buf 0 4 = d_header d) by (rewrite Q; apply header_at_front; auto).
    intros now mtu from FM. rewrite listen_fits by (rewrite ?N0; auto).
    pose proof (data_rejected buf d' e D) as QU. rewrite N0 in QU. specialize (QU HF).
    rewrite N0, frametype_name, HF. cbn [obind]. eval_eqbs. cbv iota. rewrite D. cbn [obind].
    assert (QV : quoted buf = (d_session d, d_offset d)).
    { unfold quoted. rewrite N0, HF. change (3 =? 3) with true. cbv iota.
      pose proof (c23_encode d TH) as X. rewrite W, R in X. change (1 =? 0) with false in X. cbv iota in X.
      destruct (ts_bytes (d_tstamp d)) as [ts|] eqn:TB; [|congruence]. destruct X as [X LT]. rewrite E in X. apply frame_inj in X.
      rewrite D0. cbn [descriptor_width].
      assert (LB : length buf = 26%nat) by (rewrite X; unfold data_wire; rewrite PL, !app_length, !wire_length, LT; reflexivity).
      rewrite LB. cbn [Nat.ltb Nat.leb].
      assert (N4 : number_at buf 4 4 = d_session d).
      { rewrite X. unfold data_wire. rewrite number_at_wire by (rewrite wire_length; auto). apply u32_pow; auto. }
      rewrite N4. f_equal.
      assert (TV : ts_verdict buf = Accept).
      { assert (L24 : (24 <= length buf)%nat) by lia.
        assert (R1 : hd_reqtstamp (number_at buf 0 4) = 1) by (rewrite N0; exact R).
        pose proof (ts_verdict_spec buf L24 R1) as VS.
        destruct PS as (L & T1 & T2 & _). unfold ts_at in VS.
        assert (N8 : number_at buf 8 1 = t_header (d_tstamp d)).
        { rewrite X. unfold data_wire. unfold ts_bytes in TB. rewrite T1 in TB. injection TB as <-. unfold ts_wire.
          rewrite app_assoc, <- !app_assoc. rewrite (app_assoc (wire 4 _)). rewrite number_at_wire by (rewrite app_length, !wire_length; reflexivity).
          apply N.mod_small. exact T2. }
        rewrite N8, T1 in VS. exact VS. }
      rewrite TV, X. unfold data_wire. rewrite !app_assoc. rewrite <- (app_assoc _ (wire 2 _)).
      rewrite number_at_wire by (rewrite !app_length, !wire_length, LT; reflexivity). apply N.mod_small. exact Bo. }
    rewrite QV in QU. injection QU as -> ->.
    destruct (bad_frame_spec now (d_header d) (d_session d) (d_offset d) from Bs) as (st & B1 & B2). rewrite D0 in B2.
    rewrite B1. exists st. split; [destruct st; reflexivity|exact B2].
Qed.

(** C117 (defect): a status that announces a timestamp is sent, and whatever a listener
    makes of it, it is never a status with the same progress, in-response-to and holes. *)
Lemma c117_status : forall s sk to buf, header_of 4 (s_header s) -> hd_reqtstamp (s_header s) = 1 ->
  status_encode s = Ret (Frame buf) ->
  (took_all sk (Some to) buf -> frame_send (FStatus s) sk to = Ret {| sd_wire := [(Some to, buf)]; sd_err := None |}) /\
  forall now mtu from s', listen_one now mtu buf from = Ret (ToRx {| pk_addr := from; pk_info := FStatus s' |}) ->
    ~ (s_progress s' = s_progress s /\ s_inrespto s' = s_inrespto s /\ s_holes s' = s_holes s).
Proof.
  intros s sk to buf (Bh & HV & HF) R E. split.
  - intros T. pose proof (c115_send (FStatus s) sk to) as X. cbn [frame_encode] in X. rewrite E in X.
    destruct X as (x & X1 & X2 & _). rewrite (proj2 X2 T) in X1. exact X1.
  - intros now mtu from s' LI.
    assert (FM : fits_mtu mtu buf).
    { apply fits_mtu_iff. destruct (fits_mtu_b mtu buf) eqn:X; [reflexivity|]. rewrite (listen_small now mtu buf from X) in LI. discriminate. }
    assert (N0 : number_at buf 0 4 = s_header s).
    { pose proof (c29_encode s R) as X. destruct (descriptor_width (hd_descriptor (s_header s))) as [w|]; [|destruct X as [e X]; congruence].
      rewrite E in X. apply frame_inj in X. rewrite X. unfold status_wire. rewrite <- app_assoc. apply header_at_front; auto. }
    rewrite listen_fits in LI by (rewrite ?N0; auto). rewrite N0, frametype_name, HF in LI. cbn [obind] in LI. revert LI. eval_eqbs. cbv iota. intros LI.
    destruct (status_decode zero_status buf) as [[s1 [e|]]| |] eqn:D; try discriminate; cbn [obind] in LI.
    + rewrite get_uint_number in LI by (destruct FM; lia). cbn [obind] in LI.
      destruct (bad_frame_spec now (s_header s) (number_at buf 4 4) 0 from (number4_bound buf 4)) as (st & B1 & _). rewrite B1 in LI. discriminate.
    + destruct (status_shortprint_ok s1); try discriminate. cbn [obind] in LI. destruct (status_print_ok s1); try discriminate. cbn [obind] in LI.
      assert (Q : s' = s1) by (destruct s1; unfold status_val in LI; cbn in LI; injection LI as <-; reflexivity). subst s'.
      exact (c29_never_survives s zero_status s1 buf R Bh eq_refl E D).
Qed.

(** ** Examples *)
Definition ex_sock : socket := {| sk_write := fun _ b => Took (List.length b); sk_remote := {| ua_ip := "10.0.0.1"; ua_port := 7542; ua_zone := "" |} |}.
Definition ex_to : udpaddr := {| ua_ip := "10.0.0.2"; ua_port := 7542; ua_zone := "" |}.
Definition ex_req : frame := FRequest {| r_header := 0x210F0001; r_session := 7; r_fname := "a.txt"; r_auth := ["k"%char] |}.
Example c115_send_ex : exists sd, frame_send ex_req ex_sock ex_to = Ret sd /\ sd_err sd = None /\ List.length (sd_wire sd) = 1%nat.
Proof. eexists. split; [vm_compute; reflexivity|]. split; reflexivity. Qed.
Example c115_short_ex : frame_send ex_req {| sk_write := fun _ b => Took 3; sk_remote := ex_to |} ex_to =
  Ret {| sd_wire := [(Some ex_to, request_wire 0x210F0001 7 "a.txt" ["k"%char])]; sd_err := Some "Request sent (3) to 10.0.0.2:7542 != frame size (15)" |}.
Proof. vm_compute. reflexivity. Qed.
Example c116_arrives_ex : well_formed ex_req /\ exists buf, frame_wire ex_req = Some buf /\
  listen_one ex_now 1500 buf ex_to = Ret (ToRx {| pk_addr := ex_to; pk_info := ex_req |}).
Proof.
  split.
  - split; [split; [reflexivity|split; vm_compute; reflexivity]|]. split; [reflexivity|].
    intros b H. repeat (destruct H as [<-|H]; [split; reflexivity|]). destruct H.
  - eexists. split; [reflexivity|]. vm_compute. reflexivity.
Qed.
(* a directory entry for a file of 4 GiB *)
Definition ex_huge : metadata :=
  {| m_header := 0x22000000; m_session := 9; m_checksum := [];
     m_dir := {| de_header := 0x8080; de_size := 2 ^ 32; de_mtime := y2k 0; de_ctime := y2k 0; de_path := "big" |} |}.
Example c117_entry_ex : header_of 2 (m_header ex_huge) /\ List.length (m_checksum ex_huge) = csum_bytes (m_header ex_huge) /\
  ~ entry_sendable (m_dir ex_huge) /\
  (exists sd, frame_send (FMetadata ex_huge) ex_sock ex_to = Ret sd /\ sd_err sd = None) /\
  (exists st, listen_one ex_now 1500 (wire 4 0x22000000 ++ wire 4 9)%list ex_to = Ret (ToTx {| pk_addr := ex_to; pk_info := FStatus st |})).
Proof.
  split; [split; [reflexivity|split; vm_compute; reflexivity]|]. split; [vm_compute; reflexivity|]. split.
  { intros [_ [[_ X]|[_ X]]]; vm_compute in X; discriminate. }
  split; [eexists; split; [vm_compute; reflexivity|reflexivity]|]. eexists. vm_compute. reflexivity.
Qed.
Definition ex_dot : data :=
  {| d_header := 0x23080000; d_session := 9; d_offset := 1000; d_payload := [];
     d_tstamp := {| t_header := 1; t_secs := 77; t_nsecs := 0; t_local := ""; t_ttype := "posix32" |} |}.
Example c117_empty_ex : header_of 3 (d_header ex_dot) /\ hd_reqtstamp (d_header ex_dot) = 1 /\ proper_stamp (d_tstamp ex_dot) /\
  hd_descriptor (d_header ex_dot) = 0 /\ (exists sd, frame_send (FData ex_dot) ex_sock ex_to = Ret sd /\ sd_err sd = None).
Proof.
  split; [split; [reflexivity|split; vm_compute; reflexivity]|]. split; [vm_compute; reflexivity|]. split.
  { eexists. split; [reflexivity|]. repeat split; reflexivity. }
  split; [vm_compute; reflexivity|]. eexists; split; [vm_compute; reflexivity|reflexivity].
Qed.
Definition ex_stamped : status :=
  {| s_header := 0x24080000; s_session := 9; s_tstamp := zero_timestamp; s_progress := 10; s_inrespto := 20; s_holes := [] |}.
Example c117_status_ex : header_of 4 (s_header ex_stamped) /\ hd_reqtstamp (s_header ex_stamped) = 1 /\
  (exists sd, frame_send (FStatus ex_stamped) ex_sock ex_to = Ret sd /\ sd_err sd = None).
Proof.
  split; [split; [reflexivity|split; vm_compute; reflexivity]|]. split; [vm_compute; reflexivity|].
  eexists; split; [vm_compute; reflexivity|reflexivity].
Qed.
Example c117_too_long_ex : exists f buf, frame_encode f = Ret (Frame buf) /\ took_all ex_sock (goes_to f ex_to) buf /\ (100 - 60 < Z.of_nat (List.length buf))%Z.
Proof.
  exists (FRequest {| r_header := 0x210F0001; r_session := 7; r_fname := "a/rather/long/name/of/some/file.txt"; r_auth := [] |}).
  eexists. split; [vm_compute; reflexivity|]. split; reflexivity.
Qed.
