From Verif Require Import GoBase GoFacts Flags Config Shipped SpecFlags FlagsFacts ConfigFacts FlagsMain SpecWire SarFacts Timestamp SpecTime TimeMain Holes Data SpecFrames FrameFacts BuildFacts DataMain Status SpecStatus StatusMain Request SpecRequest RequestMain Beacon SpecBeacon BeaconMain Peers SpecPeers PeersMain Fileio SpecFileio FileioFacts FileioMain Dirent SpecDirent DirentMain Metadata SpecMetadata MetadataMain Trans Listen SpecListen ListenMain.
Local Open Scope string_scope.
Local Open Scope N_scope.

(** ** C57 *)

(** C57: handling a received request always terminates the process, whatever the
    request asks and whatever files exist. *)
Lemma c57_handler : forall now cwd sardir fs trs r from, add_rx_tran now cwd sardir fs trs r from = Fatal.
Proof. reflexivity. Qed.

(** C57: every version 1 request with an ASCII name, encoded and sent as one datagram that
    fits, is handed on by the listener, and main terminates the process when it takes it. *)
Lemma c57_end_to_end : forall r f now now' mtu from cwd sardir w,
  r_header r < 2 ^ 32 -> r_session r < 2 ^ 32 -> ascii_name (r_fname r) ->
  hd_version (r_header r) = 1 -> hd_frametype (r_header r) = 1 ->
  request_encode r = Ret (Frame f) -> fits_mtu mtu f ->
  exists r', listen_one now mtu f from = Ret (ToRx {| pk_addr := from; pk_info := FRequest r' |}) /\
    r_header r' = r_header r /\ r_session r' = r_session r /\ r_fname r' = r_fname r /\
    main_rx now' cwd sardir w {| pk_addr := from; pk_info := FRequest r' |} = Fatal.
Proof.
  intros r f now now' mtu from cwd sardir w Bh Bs AN HV HF E M.
  destruct (c33_roundtrip r zero_request Bh Bs AN eq_refl) as (f' & E' & D). assert (f' = f) by congruence. subst f'.
  exists r. split; [|repeat split; auto].
  assert (V : request_verdict 0 f = Accept).
  { pose proof (c35_verdict zero_request f) as V. rewrite D in V. symmetry. exact V. }
  assert (H0 : number_at f 0 4 = r_header r).
  { pose proof (c36_concatenates zero_request f V) as C. cbv zeta in C. rewrite D in C. apply ret_inj in C. rewrite C. reflexivity. }
  unfold listen_one. destruct M as [L8 LZ]. rewrite firstn_fit by lia.
  destruct (Nat.ltb_spec (length f) 8); [lia|]. destruct (Z.ltb_spec (mtu - 60) (Z.of_nat (length f))); [lia|].
  cbv zeta. rewrite get_uint_number by lia. cbn [obind]. rewrite H0, version_name, HV. cbn [obind]. eval_eqbs. cbn [negb].
  rewrite frametype_name, HF. cbn [obind]. eval_eqbs. cbv iota. rewrite D. cbn [obind]. destruct r; reflexivity.
Qed.

(** ** C58 *)
Lemma reqtype_name : forall h, sf_getstr sar h "reqtype" =
  match assoc (hd_reqtype h) request_types with Some t => Ret t | None => Fatal end.
Proof.
  intros h. erewrite getstr_field by (vm_compute; reflexivity). cbn [f_opts f_msb f_len].
  unfold hd_reqtype. set (v := bit_field 32 24 8 h).
  cbn [opt_name assoc request_types]. rewrite !(N.eqb_sym v). repeat (match goal with |- context[?a =? v] => destruct (a =? v); [reflexivity|] end). reflexivity.
Qed.
Definition willing_name (n : N) : string := match n with 0 => "no" | 1 => "invalid" | 2 => "capable" | _ => "yes" end.
Lemma txwilling_name : forall h, sf_getstr sar h "txwilling" = Ret (willing_name (hd_txwilling h)).
Proof.
  intros h. erewrite getstr_field by (vm_compute; reflexivity). cbn [f_opts f_msb f_len].
  unfold hd_txwilling. bf2 (bit_field 32 12 2 h). destruct H as [E|[E|[E|E]]]; rewrite E; reflexivity.
Qed.
Lemma rxwilling_name : forall h, sf_getstr sar h "rxwilling" = Ret (willing_name (hd_rxwilling h)).
Proof.
  intros h. erewrite getstr_field by (vm_compute; reflexivity). cbn [f_opts f_msb f_len].
  unfold hd_rxwilling. bf2 (bit_field 32 14 2 h). destruct H as [E|[E|[E|E]]]; rewrite E; reflexivity.
Qed.
Lemma udplite_name : forall h, sf_getstr sar h "udplite" = Ret (if hd_udplite h =? 1 then "yes" else "no").
Proof.
  intros h. erewrite getstr_field by (vm_compute; reflexivity). cbn [f_opts f_msb f_len].
  unfold hd_udplite. bf1 (bit_field 32 16 1 h). destruct H as [E|E]; rewrite E; reflexivity.
Qed.
Lemma stream_name : forall h, sf_getstr sar h "stream" = Ret (if hd_stream h =? 1 then "yes" else "no").
Proof.
  intros h. erewrite getstr_field by (vm_compute; reflexivity). cbn [f_opts f_msb f_len].
  unfold hd_stream. bf1 (bit_field 32 11 1 h). destruct H as [E|E]; rewrite E; reflexivity.
Qed.

(** The handler's answers *)
Lemma answer_ok : forall now code from fs trs ret, In code error_codes -> exists st,
  answer now code from fs trs ret =
    Ret {| rp_answer := Some (from, st); rp_fs := fs; rp_transfers := trs; rp_ret := ret |} /\
  error_status st [("errcode", code)] 0 0.
Proof.
  intros now code from fs trs ret I. unfold answer. destruct (error_status_code now code I) as (st & E & S).
  rewrite E. cbn [obind]. eauto.
Qed.

(** C58: were the request type read from the flag that holds it, this is what
    would happen, for every request and file system. *)
Lemma c58_table : forall timetype now cwd sardir fs trs r from,
  let there := file_exists fs cwd sardir (r_fname r) in
  let removable := match file_rm fs cwd sardir (r_fname r) with inl _ => true | inr _ => false end in
  let result := add_rx_tran_gen "reqtype" timetype now cwd sardir fs trs r from in
  match decide (r_header r) there removable with
  | Kills => result = Fatal
  | Refuse code => exists st, error_status st [("errcode", code)] 0 0 /\
      result = Ret {| rp_answer := Some (from, st); rp_fs := fs; rp_transfers := trs; rp_ret := false |}
  | Remove_file => exists st fs', error_status st [("errcode", "success")] 0 0 /\ file_rm fs cwd sardir (r_fname r) = inl fs' /\
      result = Ret {| rp_answer := Some (from, st); rp_fs := fs'; rp_transfers := trs; rp_ret := true |}
  | Take_on t =>
      match ts_now now zero_timestamp timetype with
      | Ret (ts, _) => exists st, error_status st [("errcode", "success")] 0 0 /\
          result = Ret {| rp_answer := Some (from, st); rp_fs := fs;
                          rp_transfers := (trs ++ [{| rt_peer := from; rt_session := r_session r; rt_ttype := t; rt_fname := r_fname r;
                             rt_timetype := timetype; rt_tstamp := ts; rt_csumtype := "none" |}])%list; rp_ret := true |}
      | Panic => result = Panic
      | Fatal => result = Fatal
      end
  end.
Proof.
  intros timetype now cwd sardir fs trs r from there removable result. subst result. unfold add_rx_tran_gen, decide.
  set (h := r_header r). rewrite reqtype_name. destruct (assoc (hd_reqtype h) request_types) as [t|] eqn:T; cbn [obind]; [|reflexivity].
  rewrite version_name.
  assert (RF : forall code, In code error_codes -> exists st, error_status st [("errcode", code)] 0 0 /\
     answer now code from fs trs false = Ret {| rp_answer := Some (from, st); rp_fs := fs; rp_transfers := trs; rp_ret := false |}).
  { intros code I. destruct (answer_ok now code from fs trs false I) as (st & E & S). eauto. }
  destruct (hd_version h) as [|[q|q|]]; cbn [obind];
    [ | replace (2 <=? N.pos q~1) with true by (symmetry; apply N.leb_le; lia); reflexivity
    | replace (2 <=? N.pos q~0) with true by (symmetry; apply N.leb_le; lia); reflexivity | ].
  { eval_eqbs. cbn [negb]. change (2 <=? 0) with false. change (0 =? 0) with true. cbv iota. apply RF. cbn; tauto. }
  eval_eqbs. cbn [negb]. change (2 <=? 1) with false. change (1 =? 0) with false. cbv iota.
  rewrite udplite_name. cbn [obind]. destruct (hd_udplite h =? 1); eval_eqbs; cbn [negb]; [apply RF; cbn; tauto|].
  rewrite stream_name. cbn [obind]. destruct (hd_stream h =? 1); eval_eqbs; cbn [negb]; [apply RF; cbn; tauto|].
  rewrite rxwilling_name. cbn [obind].
  assert (WI : forall n, n < 4 -> String.eqb (willing_name n) "invalid" = (n =? 1) /\ String.eqb (willing_name n) "yes" = (n =? 3)).
  { intros n B. apply lt4 in B. destruct B as [->|[->|[->| ->]]]; split; reflexivity. }
  assert (BR : hd_rxwilling h < 4) by apply (bit_field_bound 32 14 2 h).
  assert (BT : hd_txwilling h < 4) by apply (bit_field_bound 32 12 2 h).
  destruct (WI _ BR) as [R1 R2]. destruct (WI _ BT) as [T1 T2]. rewrite R1.
  destruct (hd_rxwilling h =? 1); [apply RF; cbn; tauto|].
  rewrite txwilling_name. cbn [obind]. rewrite T1. destruct (hd_txwilling h =? 1); [apply RF; cbn; tauto|].
  rewrite R2, T2. fold there.
  assert (AC : forall t, match ts_now now zero_timestamp timetype with
      | Ret (ts, _) => exists st, error_status st [("errcode", "success")] 0 0 /\
          (do ' (ts, _) <- ts_now now zero_timestamp timetype;
           let tr := {| rt_peer := from; rt_session := r_session r; rt_ttype := t; rt_fname := r_fname r;
                          rt_timetype := timetype; rt_tstamp := ts; rt_csumtype := "none" |} in
           answer now "success" from fs (trs ++ [tr])%list true) =
           Ret {| rp_answer := Some (from, st); rp_fs := fs;
                  rp_transfers := (trs ++ [{| rt_peer := from; rt_session := r_session r; rt_ttype := t; rt_fname := r_fname r;
                             rt_timetype := timetype; rt_tstamp := ts; rt_csumtype := "none" |}])%list; rp_ret := true |}
      | Panic => (do ' (ts, _) <- ts_now now zero_timestamp timetype;
           let tr := {| rt_peer := from; rt_session := r_session r; rt_ttype := t; rt_fname := r_fname r;
                          rt_timetype := timetype; rt_tstamp := ts; rt_csumtype := "none" |} in
           answer now "success" from fs (trs ++ [tr])%list true) = Panic
      | Fatal => (do ' (ts, _) <- ts_now now zero_timestamp timetype;
           let tr := {| rt_peer := from; rt_session := r_session r; rt_ttype := t; rt_fname := r_fname r;
                          rt_timetype := timetype; rt_tstamp := ts; rt_csumtype := "none" |} in
           answer now "success" from fs (trs ++ [tr])%list true) = Fatal
      end).
  { intros t'. destruct (ts_now now zero_timestamp timetype) as [[ts e]| |]; cbn [obind]; auto.
    match goal with |- context[answer now "success" from fs ?l true] => destruct (answer_ok now "success" from fs l true) as (st & E & S); [cbn; tauto|] end.
    exists st. split; [exact S|]. exact E. }
  assert (TC : In t ["noaction"; "get"; "put"; "take"; "give"; "delete"; "getdir"]).
  { clear - T. cbn [assoc request_types] in T.
    repeat (match goal with H : (if ?c then _ else _) = _ |- _ => destruct c; [inversion H; cbn; tauto|] end). discriminate. }
  cbn [In] in TC.
  decompose [or] TC; try contradiction; subst t; unfold one_of; cbn [existsb]; eval_eqbs; cbn [orb].
  - apply RF; cbn; tauto.
  - destruct (hd_rxwilling h =? 3); cbn [negb]; [|apply RF; cbn; tauto]. destruct there; cbn [negb]; [apply AC|apply RF; cbn; tauto].
  - destruct (hd_txwilling h =? 3); cbn [negb]; [|apply RF; cbn; tauto]. destruct there; cbn [negb]; [apply RF; cbn; tauto|apply AC].
  - destruct (hd_rxwilling h =? 3); cbn [negb]; [|apply RF; cbn; tauto]. destruct there; cbn [negb]; [apply AC|apply RF; cbn; tauto].
  - destruct (hd_txwilling h =? 3); cbn [negb]; [|apply RF; cbn; tauto]. destruct there; cbn [negb]; [apply RF; cbn; tauto|apply AC].
  - destruct there; cbn [negb]; [|apply RF; cbn; tauto]. unfold removable.
    destruct (file_rm fs cwd sardir (r_fname r)) as [fs'|e]; [|apply RF; cbn; tauto].
    destruct (answer_ok now "success" from fs' trs true) as (st & E & S); [cbn; tauto|]. exists st, fs'. auto.
  - destruct (hd_rxwilling h =? 3); cbn [negb]; [|apply RF; cbn; tauto]. destruct there; cbn [negb]; [apply AC|apply RF; cbn; tauto].
Qed.

(** C58: even then, with the timestamp type name that the code uses, every request
    that would be taken on terminates the process. *)
Lemma c58_accepted_dies : forall now cwd sardir fs trs r from t,
  decide (r_header r) (file_exists fs cwd sardir (r_fname r))
         (match file_rm fs cwd sardir (r_fname r) with inl _ => true | inr _ => false end) = Take_on t ->
  add_rx_tran_gen "reqtype" "epoch_2000_32" now cwd sardir fs trs r from = Fatal.
Proof.
  intros now cwd sardir fs trs r from t D.
  pose proof (c58_table "epoch_2000_32" now cwd sardir fs trs r from) as T. cbv zeta in T. rewrite D in T. exact T.
Qed.

(** ** C75: what main does with the frames that the listeners hand on *)
Lemma y2k_prints : forall n, ts_print_ok (y2k n) = Ret tt.
Proof. reflexivity. Qed.

(** C75: main survives a frame from a listener exactly if it is not a request, nor metadata
    with an undefined checksum type.  Then it sends nothing, and only a beacon
    changes anything: the peer table, as registering that beacon does. *)
Lemma c75_survives : forall now mtu f from p now' cwd sardir w,
  listen_one now mtu f from = Ret (ToRx p) -> good_now now' ->
  match pk_info p with
  | FBeacon b => exists ps rep, new_peer now' (w_peers w) b (Some (ua_ip from)) = Ret (ps, rep) /\
      main_rx now' cwd sardir w p = Ret ({| w_fs := w_fs w; w_transfers := w_transfers w; w_peers := ps |}, None)
  | FRequest _ => main_rx now' cwd sardir w p = Fatal
  | FMetadata m => main_rx now' cwd sardir w p = if hd_csumtype (m_header m) <=? 3 then Ret (w, None) else Fatal
  | _ => main_rx now' cwd sardir w p = Ret (w, None)
  end.
Proof.
  intros now mtu f from p now' cwd sardir w H G.
  destruct (c55_whole now mtu f from p H) as (L8 & LZ & A & FI).
  pose proof (c56_fate now mtu f from) as FT. rewrite H in FT. cbn [fate_of] in FT. symmetry in FT.
  unfold datagram_fate in FT. destruct (fits_mtu_b mtu f); [|discriminate]. cbv zeta in FT.
  destruct (hd_version (number_at f 0 4)) as [|[q|q|]] eqn:HV; try discriminate.
  destruct p as [a x]. cbn [pk_addr pk_info] in *. subst a.
  unfold frame_in in FI. cbv zeta in FI. set (h := number_at f 0 4) in *.
  destruct (hd_frametype h) as [|[[p|p|]|[p|[p|p|]|]|]] eqn:HF; try discriminate.
  - (* beacon *)
    destruct (space_width h) as [k|]; [|discriminate]. inversion FI; subst x. unfold main_rx, main_rx_gen. cbn [pk_info pk_addr].
    unfold beacon_shortprint_ok. rewrite getstr_freespace. cbn [obind].
    match goal with |- context[new_peer now' (w_peers w) ?b ?a] =>
      destruct (c41_one_call now' (w_peers w) b (ua_ip from) G) as (ps & p' & rep & E & _) end.
    rewrite E. cbn [obind]. eauto.
  - (* data *)
    destruct (descriptor_width (hd_descriptor h)) as [k|] eqn:W; [|discriminate]. inversion FI; subst x. unfold main_rx, main_rx_gen. cbn [pk_info].
    assert (TV : ts_verdict f = Accept).
    { destruct (data_verdict f) eqn:V; try discriminate. unfold data_verdict in V. destruct (Nat.ltb _ _); [discriminate|].
      destruct (ts_verdict f); auto; discriminate. }
    unfold data_shortprint_ok. cbn [d_header d_tstamp]. rewrite getstr_reqtstamp. cbn [obind].
    destruct (hd_reqtstamp_cases h) as [R|R]; rewrite R; unfold yes_no;
    [change (0 =? 0) with true | change (1 =? 0) with false]; cbv iota; eval_eqbs; cbv iota; [reflexivity|].
    rewrite stamp_prints by auto. reflexivity.
  - (* status *)
    destruct (descriptor_width (hd_descriptor h)) as [k|] eqn:W; [|discriminate]. inversion FI; subst x. unfold main_rx, main_rx_gen. cbn [pk_info].
    destruct (status_verdict f) eqn:V; try discriminate. cbn [fate_by] in FT.
    assert (TV : ts_verdict f = Accept).
    { unfold status_verdict in V. destruct (Nat.ltb _ _); [discriminate|]. destruct (ts_verdict f); auto; discriminate. }
    match goal with |- context[status_shortprint_ok ?s] => destruct (status_prints s f) as [P1 P2]; auto end.
    rewrite P1. cbn [s_header].
    destruct (N.leb_spec (hd_errcode h) 18); [|discriminate]. destruct (N.ltb_spec (hd_errcode h) 19); [reflexivity|lia].
  - (* metadata *)
    destruct (descriptor_width _) as [k|] eqn:W; [|discriminate]. inversion FI; subst x. unfold main_rx, main_rx_gen. cbn [pk_info].
    unfold meta_shortprint_ok, dirent_shortprint_ok. cbn [m_header m_dir dirent_at de_mtime de_ctime].
    rewrite !y2k_prints. cbn [obind]. pose proof (csumtype_name h) as C.
    replace (hd_csumtype h <=? 3) with (hd_csumtype h <? 4)
      by (destruct (N.ltb_spec (hd_csumtype h) 4), (N.leb_spec (hd_csumtype h) 3); lia).
    destruct (hd_csumtype h <? 4); [destruct C as [s C]|]; rewrite C; reflexivity.
  - (* request *) inversion FI; subst x. reflexivity.
Qed.

(** C75: a status on a transmit channel is printed without harm: those that the
    listeners and the request handler make. *)
Lemma c75_answers_print : forall now mtu f from p, listen_one now mtu f from = Ret (ToTx p) -> main_tx p = Ret tt.
Proof.
  intros now mtu f from p H. destruct (c56_answers now mtu f from p H) as (_ & st & E & X). unfold main_tx. rewrite E.
  assert (EC : exists settings s g, error_status st settings s g /\ last_setting (("version", "v1") :: ("frametype", "status") :: settings) "errcode" = Some "badpacket"
    /\ (forall v, ~ In ("reqtstamp", v) settings)).
  { destruct X as [(_ & X)|(_ & d & _ & X)]; do 3 eexists; (split; [exact X|]); split; try reflexivity;
    intros v Z; cbn in Z; intuition discriminate. }
  clear X. destruct EC as (settings & s & g & ((B & RD & OT) & S1 & S2 & S3 & S4 & S5) & LE & NR).
  unfold status_shortprint_ok. rewrite getstr_reqtstamp. cbn [obind].
  assert (PE : exists x, sf_getstr sar (s_header st) "errcode" = Ret x).
  { destruct (RD _ _ LE) as (fl & n & L1 & L2 & L3). rewrite (getstr_field _ _ (s_header st) L1).
    vm_compute in L1. inversion L1; subst fl. cbn [f_msb f_len f_opts] in *. rewrite L3.
    vm_compute in L2. inversion L2; subst n. eexists; reflexivity. }
  destruct PE as [x PE]. 
  destruct (hd_reqtstamp_cases (s_header st)) as [R|R]; rewrite R; unfold yes_no;
    [change (0 =? 0) with true | change (1 =? 0) with false]; cbv iota; eval_eqbs; cbv iota.
  - cbn [obind]. rewrite PE. reflexivity.
  - rewrite S5. cbn [obind]. rewrite PE. reflexivity.
Qed.

(** ** Examples *)
Example c57_end_to_end_ex : exists f, request_encode ex_request = Ret (Frame f) /\ fits_mtu 1500 f /\
  hd_version (r_header ex_request) = 1 /\ hd_frametype (r_header ex_request) = 1 /\ ascii_name (r_fname ex_request).
Proof.
  eexists. split; [vm_compute; reflexivity|]. split; [split; [apply Nat.leb_le|apply Z.leb_le]; reflexivity|].
  split; [reflexivity|]. split; [reflexivity|]. apply c33_roundtrip_ex.
Qed.
(** version 1, request, willing to receive and to send, of each type *)
Definition ex_req (ty : N) (name : string) : request := {| r_header := 0x210F0000 + ty; r_session := 5; r_fname := name; r_auth := [] |}.
Definition ex_decide (ty : N) (name : string) : decision :=
  decide (r_header (ex_req ty name)) (file_exists ex_tree [] "/Users/chas/sardir" name)
    (match file_rm ex_tree [] "/Users/chas/sardir" name with inl _ => true | inr _ => false end).
Example c58_table_ex :
  map (fun t => (ex_decide t "f", ex_decide t "g")) [0; 1; 2; 3; 4; 5; 6; 7] =
  [(Refuse "badrequest", Refuse "badrequest"); (Take_on "get", Refuse "filenotfound"); (Refuse "fileinuse", Take_on "put");
   (Take_on "take", Refuse "filenotfound"); (Refuse "fileinuse", Take_on "give"); (Remove_file, Refuse "filenotfound");
   (Take_on "getdir", Refuse "filenotfound"); (Kills, Kills)] /\
  ex_decide 5 "." = Refuse "didnotdelete".
Proof. split; vm_compute; reflexivity. Qed.
Example c58_accepted_ex : exists st ts, add_rx_tran_gen "reqtype" "epoch2000_32" ex_now [] "/Users/chas/sardir" ex_tree [] (ex_req 1 "f") ex_from =
  Ret {| rp_answer := Some (ex_from, st); rp_fs := ex_tree;
         rp_transfers := [{| rt_peer := ex_from; rt_session := 5; rt_ttype := "get"; rt_fname := "f"; rt_timetype := "epoch2000_32";
                             rt_tstamp := ts; rt_csumtype := "none" |}]; rp_ret := true |}.
Proof. eexists. eexists. vm_compute. reflexivity. Qed.
Definition ex_world : world := {| w_fs := ex_tree; w_transfers := []; w_peers := [] |}.
Definition ex_meta_dgram (h : N) : list byte := (wire 4 h ++ wire 4 5 ++ wire 2 0x8000 ++ wire 2 5 ++ wire 4 1 ++ wire 4 2 ++ bytes_of "f" ++ [ascii_of_N 0])%list.
Example c75_survives_ex :
  (exists p w, listen_one ex_now 1500 ex_beacon_dgram ex_from = Ret (ToRx p) /\ main_rx ex_now [] "" ex_world p = Ret (w, None) /\
     map p_addr (w_peers w) = ["10.0.0.1"]) /\
  (exists p, listen_one ex_now 1500 (ex_meta_dgram 0x22000003) ex_from = Ret (ToRx p) /\ main_rx ex_now [] "" ex_world p = Ret (ex_world, None)) /\
  (exists p, listen_one ex_now 1500 (ex_meta_dgram 0x22000004) ex_from = Ret (ToRx p) /\ main_rx ex_now [] "" ex_world p = Fatal).
Proof.
  split; [eexists; eexists; repeat split; vm_compute; reflexivity|].
  split; (eexists; split; vm_compute; reflexivity).
Qed.
Example c75_answers_print_ex : exists p, listen_one ex_now 1500 (wire 4 0 ++ wire 4 0)%list ex_from = Ret (ToTx p).
Proof. eexists. vm_compute. reflexivity. Qed.

(** C58: a deletion that succeeds removes the named file or empty directory and nothing else. *)
Lemma c58_deletes_only : forall fs cwd sardir name fs', file_rm fs cwd sardir name = inl fs' ->
  exists p, resolve fs cwd (sardir ++ "/" ++ name) = inl p /\ fs_get p fs <> None /\ fs_get p fs' = None /\
    forall q, q <> p -> fs_get q fs' = fs_get q fs.
Proof.
  intros fs cwd sardir name fs' H. unfold file_rm, os_remove, full in H.
  destruct (resolve fs cwd (sardir ++ "/" ++ name)) as [p|] eqn:R; [|discriminate]. exists p. split; [reflexivity|].
  destruct (fs_get p fs) as [n|] eqn:G; [|discriminate].
  destruct (is_dir n && has_child p fs); [discriminate|]. inversion H; subst fs'. split; [discriminate|].
  split; [apply fs_get_del_same|]. intros; apply fs_get_del_other; auto.
Qed.
Example c58_deletes_only_ex : exists fs', file_rm ex_tree [] "/Users/chas/sardir" "f" = inl fs'.
Proof. eexists. vm_compute. reflexivity. Qed.
