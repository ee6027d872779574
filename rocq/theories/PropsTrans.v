(** * Trans: the properties

    Statements only; the proofs are in TransMain.v. *)
From Verif Require Import GoBase GoFacts Flags Config Shipped SpecFlags FlagsFacts ConfigFacts FlagsMain SpecWire SarFacts Timestamp SpecTime TimeMain Holes Data SpecFrames FrameFacts BuildFacts DataMain Status SpecStatus StatusMain Request SpecRequest RequestMain Beacon SpecBeacon BeaconMain Peers SpecPeers PeersMain Fileio SpecFileio FileioFacts FileioMain Dirent SpecDirent DirentMain Metadata SpecMetadata MetadataMain Trans Listen SpecListen ListenMain TransMain.
Local Open Scope string_scope.
Local Open Scope N_scope.

(** C57: handling a received request always terminates the process, whatever the
    request asks and whatever files exist. *)
Theorem C57_handler : forall now cwd sardir fs trs r from, add_rx_tran now cwd sardir fs trs r from = Fatal.
Proof. exact c57_handler. Qed.
Print Assumptions C57_handler.

(** C57: every version 1 request with an ASCII name, encoded and sent as one datagram that
    fits, is handed on by the listener, and main terminates the process when it takes it. *)
Theorem C57_end_to_end : forall r f now now' mtu from cwd sardir w,
  r_header r < 2 ^ 32 -> r_session r < 2 ^ 32 -> ascii_name (r_fname r) ->
  hd_version (r_header r) = 1 -> hd_frametype (r_header r) = 1 ->
  request_encode r = Ret (Frame f) -> fits_mtu mtu f ->
  exists r', listen_one now mtu f from = Ret (ToRx {| pk_addr := from; pk_info := FRequest r' |}) /\
    r_header r' = r_header r /\ r_session r' = r_session r /\ r_fname r' = r_fname r /\
    main_rx now' cwd sardir w {| pk_addr := from; pk_info := FRequest r' |} = Fatal.
Proof. exact c57_end_to_end. Qed.
Print Assumptions C57_end_to_end.

(** C58: were the request type read from the flag that holds it, this is what
    would happen, for every request and file system. *)
Theorem C58_table : forall timetype now cwd sardir fs trs r from,
  let there := file_exists fs cwd sardir (r_fname r) in
  let removable := match file_rm fs cwd sardir (r_fname r) with inl _ => true | inr _ => false end in
  let result := add_rx_tran_gen "reqtype" timetype now cwd sardir fs trs r from in
  match decide (r_header r) there removable with
  | Kills => result = Fatal
  | Refuse code => exists st, error_status st [("errcode", code)] 0 0 /\
      result = Ret {| rp_answer := Some (from, st); rp_fs := fs; rp_transfers := trs; rp_ret := false |}
  | Remove_file => exists st fs', error_status st [("errcode", "success")] 0 0 /\ file_rm fs cwd sardir (r_fname r) = inl fs' /\
      result = Ret {| rp_answer := Some (from, st); rp_fs := fs'; rp_transfers := trs; rp_ret := true |}
  | Take_on t =>
      match ts_now now zero_timestamp timetype with
      | Ret (ts, _) => exists st, error_status st [("errcode", "success")] 0 0 /\
          result = Ret {| rp_answer := Some (from, st); rp_fs := fs;
                          rp_transfers := (trs ++ [{| rt_peer := from; rt_session := r_session r; rt_ttype := t; rt_fname := r_fname r;
                             rt_timetype := timetype; rt_tstamp := ts; rt_csumtype := "none" |}])%list; rp_ret := true |}
      | Panic => result = Panic
      | Fatal => result = Fatal
      end
  end.
Proof. exact c58_table. Qed.
Print Assumptions C58_table.

(** C58: even then, with the timestamp type name that the code uses, every request
    that would be taken on terminates the process. *)
Theorem C58_accepted_dies : forall now cwd sardir fs trs r from t,
  decide (r_header r) (file_exists fs cwd sardir (r_fname r))
         (match file_rm fs cwd sardir (r_fname r) with inl _ => true | inr _ => false end) = Take_on t ->
  add_rx_tran_gen "reqtype" "epoch_2000_32" now cwd sardir fs trs r from = Fatal.
Proof. exact c58_accepted_dies. Qed.
Print Assumptions C58_accepted_dies.

(** C75: main survives a frame from a listener exactly if it is not a request, nor metadata
    with an undefined checksum type.  Then it sends nothing, and only a beacon
    changes anything: the peer table, as registering that beacon does. *)
Theorem C75_survives : forall now mtu f from p now' cwd sardir w,
  listen_one now mtu f from = Ret (ToRx p) -> good_now now' ->
  match pk_info p with
  | FBeacon b => exists ps rep, new_peer now' (w_peers w) b (Some (ua_ip from)) = Ret (ps, rep) /\
      main_rx now' cwd sardir w p = Ret ({| w_fs := w_fs w; w_transfers := w_transfers w; w_peers := ps |}, None)
  | FRequest _ => main_rx now' cwd sardir w p = Fatal
  | FMetadata m => main_rx now' cwd sardir w p = if hd_csumtype (m_header m) <=? 3 then Ret (w, None) else Fatal
  | _ => main_rx now' cwd sardir w p = Ret (w, None)
  end.
Proof. exact c75_survives. Qed.
Print Assumptions C75_survives.

(** C75: a status on a transmit channel is printed without harm: those that the
    listeners and the request handler make. *)
Theorem C75_answers_print : forall now mtu f from p, listen_one now mtu f from = Ret (ToTx p) -> main_tx p = Ret tt.
Proof. exact c75_answers_print. Qed.
Print Assumptions C75_answers_print.

(** ** Examples *)
Example C57_end_to_end_ex : exists f, request_encode ex_request = Ret (Frame f) /\ fits_mtu 1500 f /\
  hd_version (r_header ex_request) = 1 /\ hd_frametype (r_header ex_request) = 1 /\ ascii_name (r_fname ex_request).
Proof. exact c57_end_to_end_ex. Qed.
Example C58_table_ex :
  map (fun t => (ex_decide t "f", ex_decide t "g")) [0; 1; 2; 3; 4; 5; 6; 7] =
  [(Refuse "badrequest", Refuse "badrequest"); (Take_on "get", Refuse "filenotfound"); (Refuse "fileinuse", Take_on "put");
   (Take_on "take", Refuse "filenotfound"); (Refuse "fileinuse", Take_on "give"); (Remove_file, Refuse "filenotfound");
   (Take_on "getdir", Refuse "filenotfound"); (Kills, Kills)] /\
  ex_decide 5 "." = Refuse "didnotdelete".
Proof. exact c58_table_ex. Qed.
Example C58_accepted_ex : exists st ts, add_rx_tran_gen "reqtype" "epoch2000_32" ex_now [] "/Users/chas/sardir" ex_tree [] (ex_req 1 "f") ex_from =
  Ret {| rp_answer := Some (ex_from, st); rp_fs := ex_tree;
         rp_transfers := [{| rt_peer := ex_from; rt_session := 5; rt_ttype := "get"; rt_fname := "f"; rt_timetype := "epoch2000_32";
                             rt_tstamp := ts; rt_csumtype := "none" |}]; rp_ret := true |}.
Proof. exact c58_accepted_ex. Qed.
Example C75_survives_ex :
  (exists p w, listen_one ex_now 1500 ex_beacon_dgram ex_from = Ret (ToRx p) /\ main_rx ex_now [] "" ex_world p = Ret (w, None) /\
     map p_addr (w_peers w) = ["10.0.0.1"]) /\
  (exists p, listen_one ex_now 1500 (ex_meta_dgram 0x22000003) ex_from = Ret (ToRx p) /\ main_rx ex_now [] "" ex_world p = Ret (ex_world, None)) /\
  (exists p, listen_one ex_now 1500 (ex_meta_dgram 0x22000004) ex_from = Ret (ToRx p) /\ main_rx ex_now [] "" ex_world p = Fatal).
Proof. exact c75_survives_ex. Qed.
Example C75_answers_print_ex : exists p, listen_one ex_now 1500 (wire 4 0 ++ wire 4 0)%list ex_from = Ret (ToTx p).
Proof. exact c75_answers_print_ex. Qed.

(** C58: a deletion that succeeds removes the named file or empty directory and nothing else. *)
Theorem C58_deletes_only : forall fs cwd sardir name fs', file_rm fs cwd sardir name = inl fs' ->
  exists p, resolve fs cwd (sardir ++ "/" ++ name) = inl p /\ fs_get p fs <> None /\ fs_get p fs' = None /\
    forall q, q <> p -> fs_get q fs' = fs_get q fs.
Proof. exact c58_deletes_only. Qed.
Print Assumptions C58_deletes_only.
Example C58_deletes_only_ex : exists fs', file_rm ex_tree [] "/Users/chas/sardir" "f" = inl fs'.
Proof. exact c58_deletes_only_ex. Qed.
