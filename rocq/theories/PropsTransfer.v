(** * Transfer: the properties

    Statements only; the proofs are in TransferMain.v. *)
From Verif Require Import GoBase GoFacts Flags SpecFlags FlagsFacts FlagStrFacts Config Shipped ConfigFacts FlagsMain SpecWire SarFacts Timestamp SpecTime TimeMain SpecFrames FrameFacts BuildFacts Holes Data Status SpecStatus StatusMain Request Fileio SpecFileio FileioFacts Dirent Metadata Trans Sarnet Transfer SpecTransfer TransferMain.
Local Open Scope string_scope.
Local Open Scope N_scope.

(** C61: the ids count up from the process id, through 0, and start again. *)
Theorem C61_sequence : forall pid k, pid < 2 ^ 32 ->
  session_id pid k = (pid + 1 + N.of_nat k mod (2 ^ 32 - pid)) mod 2 ^ 32.
Proof. exact c61_sequence. Qed.
Print Assumptions C61_sequence.

(** C61: two calls get the same id exactly when they are a multiple of 2^32 - pid calls
    apart; so the first 2^32 - pid ids are distinct. *)
Theorem C61_equal_iff : forall pid i j, pid < 2 ^ 32 ->
  (session_id pid i = session_id pid j <-> N.of_nat i mod (2 ^ 32 - pid) = N.of_nat j mod (2 ^ 32 - pid)) /\
  (N.of_nat i < 2 ^ 32 - pid -> N.of_nat j < 2 ^ 32 - pid -> session_id pid i = session_id pid j -> i = j).
Proof. exact c61_equal_iff. Qed.
Print Assumptions C61_equal_iff.
Example C61_ex : session_id 4321 0 = 4322 /\ session_id 4321 1 = 4323 /\
  session_id 4294967294 0 = 4294967295 /\ session_id 4294967294 1 = 0 /\ session_id 4294967294 2 = 4294967295.
Proof. exact c61_ex. Qed.

(** C62: removing a transfer of the table removes the last one. *)
Theorem C62_removes_last : forall l t, (exists u, In u l /\ same_key t u) -> tremove l t = (removelast l, None).
Proof. exact c62_removes_last. Qed.
Print Assumptions C62_removes_last.

(** C62: one that is not in the table removes none, and says which one it was. *)
Theorem C62_reported : forall l t, (forall u, In u l -> ~ same_key t u) ->
  tremove l t = (l, Some ("Cannot remove " ++ (if tr_direction t then "Initiator" else "Responder") ++ " Transfer for session " ++ itoa (tr_session t) ++
                          " to " ++ udpaddr_string (tr_peer t))).
Proof. exact c62_reported. Qed.
Print Assumptions C62_reported.

(** C62: and one that is not in the table none. *)
Theorem C62_absent : forall l t, (forall u, In u l -> ~ same_key t u) -> exists e, tremove l t = (l, Some e).
Proof. exact c62_absent. Qed.
Print Assumptions C62_absent.

(** C62: so the requested one is gone exactly when it was the last. *)
Theorem C62_right_iff_last : forall l i t, nth_error l i = Some t ->
  (forall j u, nth_error l j = Some u -> same_key t u -> j = i) ->
  ((forall u, In u (fst (tremove l t)) -> ~ same_key t u) <-> Datatypes.S i = length l).
Proof. exact c62_right_iff_last. Qed.
Print Assumptions C62_right_iff_last.

(** C63: looking up: the first transfer with that key, or nothing. *)
Theorem C63_lookup : forall m d s p, let (m', r) := tlookup m d s p in
  tm_table m' = tm_table m /\
  match r with
  | None => forall t, In t (tm_table m) -> ~ key_is d s p t
  | Some q => exists i t, nth_error (tm_table m) i = Some t /\ key_is d s p t /\
                (forall j u, (j < i)%nat -> nth_error (tm_table m) j = Some u -> ~ key_is d s p u) /\
                tread m' q = Some t
  end.
Proof. exact c63_lookup. Qed.
Print Assumptions C63_lookup.

(** C63: what is changed through the result never shows in the table. *)
Theorem C63_copy : forall m d s p m' q t, tlookup m d s p = (m', Some q) ->
  tm_table (twrite m' q t) = tm_table m /\ tread (twrite m' q t) q = Some t.
Proof. exact c63_copy. Qed.
Print Assumptions C63_copy.

(** C63: matching by address and session finds the last such transfer, in the table itself,
    and panics exactly when it meets a transfer without a connection first. *)
Theorem C63_match : forall l addr session,
  let here t := connected_to addr t /\ tr_session t = session in
  let not_after i := forall j u, (i < j)%nat -> nth_error l j = Some u -> connected u /\ ~ here u in
  (forall q, tmatch l addr session = Ret (Some q) <-> exists i t, q = PSlot i /\ nth_error l i = Some t /\ here t /\ not_after i) /\
  (tmatch l addr session = Ret None <-> forall u, In u l -> connected u /\ ~ here u) /\
  (tmatch l addr session = Panic <-> exists i t, nth_error l i = Some t /\ ~ connected t /\ not_after i) /\
  tmatch l addr session <> Fatal.
Proof. exact c63_match. Qed.
Print Assumptions C63_match.

(** C63: what is changed through that result shows in the table, and only there. *)
Theorem C63_match_in_place : forall m addr session i t, tmatch (tm_table m) addr session = Ret (Some (PSlot i)) ->
  tread (twrite m (PSlot i) t) (PSlot i) = Some t /\
  forall j, j <> i -> nth_error (tm_table (twrite m (PSlot i) t)) j = nth_error (tm_table m) j.
Proof. exact c63_match_in_place. Qed.
Print Assumptions C63_match_in_place.
Example C62_ex :
  (exists u, In u ex_table /\ same_key (ex_transfer 7 ex_peer "a") u) /\
  tremove ex_table (ex_transfer 7 ex_peer "a") = ([ex_transfer 7 ex_peer "a"; ex_transfer 8 ex_peer2 "b"], None) /\
  snd (tremove ex_table (ex_transfer 6 ex_peer "a")) <> None.
Proof. exact c62_ex. Qed.
Example C63_ex :
  (exists m' q, tlookup {| tm_table := ex_table; tm_cells := [] |} initiator 8 "[fe80::1%eth0]:7542" = (m', Some q) /\
                tread m' q = Some (ex_transfer 8 ex_peer2 "b")) /\
  tmatch ex_table "10.0.0.1:7542" 9 = Ret (Some (PSlot 2)) /\ tmatch ex_table "10.0.0.1:7542" 8 = Ret None /\
  tmatch [] "" 1 = Ret None.
Proof. exact c63_ex. Qed.

(** C64: what metadata does to a transfer. *)
Theorem C64_change : forall memory t m, memory < 2 ^ 63 -> N.of_nat (length (tr_data t)) < 2 ^ 63 -> de_size (m_dir m) < 2 ^ 64 ->
  let size := de_size (m_dir m) in
  ((exists ty, reads sar (m_header m) "csumtype" ty) ->
    if Nat.eqb (length (tr_data t)) 0 then
      if size <=? memory
      then exists t', tchange memory t m = Ret (t', None) /\ same_otherwise t t' /\ describes m t' /\
             tr_data t' = zeros (N.to_nat size) /\ tr_havemeta t' = true
      else tchange memory t m = Panic
    else if N.of_nat (length (tr_data t)) =? size
      then exists t', tchange memory t m = Ret (t', None) /\ same_otherwise t t' /\ describes m t' /\
             tr_data t' = tr_data t /\ tr_havemeta t' = true
      else exists t', tchange memory t m =
               Ret (t', Some ("Size of File Differs - Old=" ++ itoa (N.of_nat (length (tr_data t))) ++ " New=" ++ itoa size)) /\ same_otherwise t t' /\ describes m t' /\
             tr_data t' = tr_data t /\ tr_havemeta t' = tr_havemeta t) /\
  ((forall ty, ~ reads sar (m_header m) "csumtype" ty) -> tchange memory t m = Fatal).
Proof. exact c64_change. Qed.
Print Assumptions C64_change.
Example C64_ex :
  let m := {| m_header := 0x22000001; m_session := 7; m_checksum := bytes_of "abcd";
              m_dir := {| de_header := 0; de_size := 3; de_mtime := zero_timestamp; de_ctime := zero_timestamp; de_path := "new" |} |} in
  let t := ex_transfer 7 ex_peer "a" in
  reads sar (m_header m) "csumtype" "crc32" /\ tr_data t = [] /\
  exists t1, tchange 1000 t m = Ret (t1, None) /\ tr_data t1 = zeros 3 /\
  exists t2 e, tchange 1000 t1 {| m_header := 0x22000000; m_session := 7; m_checksum := [];
              m_dir := {| de_header := 0; de_size := 4; de_mtime := zero_timestamp; de_ctime := zero_timestamp; de_path := "other" |} |} = Ret (t2, Some e) /\
    tr_checksum t2 = [] /\ tr_csumtype t2 = "none" /\ tr_data t2 = zeros 3.
Proof. exact c64_ex. Qed.

(** C65: on a connection that can send, a report takes one frame if the holes fit (or
    the code is not success), otherwise holes/max + 1; every frame is the same and lists all holes. *)
Theorem C65_frames : forall now mtu oks t c items d w n,
  good_now now -> NoDup (map fst items) ->
  (forall p, In p items -> valid_setting sar p /\ In (fst p) flags_allowed) ->
  lookup "descriptor" items = Some d -> descriptor_bytes d = Some w ->
  tr_conn t = Some c -> uc_remote c = None -> (forall i, oks i = true) -> tr_session t < 2 ^ 32 ->
  let stamp := is_yes (lookup "reqtstamp" items) in
  let hs := hl_getholes (tr_curfills t) in
  let many := (match lookup "errcode" items with Some e => String.eqb e "success" | None => false end) && Nat.ltb n (length hs) in
  most_holes mtu stamp w n -> (0 < n)%nat ->
  exists h, set_exactly sar 0 h (report_settings items (if many then "no" else "yes")) /\
    write_status now mtu oks t (flag_list items) =
      Ret ("success", repeat (status_wire h (tr_session t) w (tr_progress t) (tr_inrespto t) hs ++ (if stamp then zeros 16 else []))%list
                             (if many then length hs / n + 1 else 1)%nat).
Proof. exact c65_frames. Qed.
Print Assumptions C65_frames.

(** C65: so a frame of such a report fits exactly when all the holes fit into one frame;
    when several frames are sent none of them fits. *)
Theorem C65_size : forall now mtu oks t c items d w n bufs b,
  good_now now -> NoDup (map fst items) ->
  (forall p, In p items -> valid_setting sar p /\ In (fst p) flags_allowed) ->
  lookup "descriptor" items = Some d -> descriptor_bytes d = Some w ->
  tr_conn t = Some c -> uc_remote c = None -> (forall i, oks i = true) -> tr_session t < 2 ^ 32 ->
  most_holes mtu (is_yes (lookup "reqtstamp" items)) w n -> (0 < n)%nat ->
  write_status now mtu oks t (flag_list items) = Ret ("success", bufs) -> In b bufs ->
  ((Z.of_nat (length b) <= udp_room mtu)%Z <-> (length (hl_getholes (tr_curfills t)) <= n)%nat) /\
  ((1 < length bufs)%nat -> (udp_room mtu < Z.of_nat (length b))%Z).
Proof. exact c65_size. Qed.
Print Assumptions C65_size.
Example C65_ex :
  most_holes 108 true 2 3 /\ length (hl_getholes ex_holes) = 7%nat /\
  exists b, write_status ex_now 108 (fun _ => true) ex_reporting "descriptor=d16,errcode=success,reqtstamp=yes" = Ret ("success", [b; b; b]) /\
    length b = 56%nat.
Proof. exact c65_ex. Qed.

(** C79: on a dialled connection no report is ever sent. *)
Theorem C79_dialled : forall now mtu oks t c a flags r bufs, tr_conn t = Some c -> uc_remote c = Some a ->
  write_status now mtu oks t flags = Ret (r, bufs) ->
  bufs = [] /\ (r = "badstatus" \/ exists k, stpaylen mtu flags = Ret k /\ (k < 0)%Z).
Proof. exact c79_dialled. Qed.
Print Assumptions C79_dialled.

(** C80: when a transfer can be started: the first transfer of the table that is in the
    way makes the call fail; if that one has no connection the last one of the table goes. *)
Theorem C80_refused : forall E sardir c s ttype peer fname i,
  find (in_the_way (overwrites (is_fs s) (is_cwd s) sardir ttype fname) fname peer) (is_table s) = Some i ->
  new_initiator E sardir c s ttype peer fname =
    Ret ({| is_table := if without_connection i then removelast (is_table s) else is_table s;
            is_session := is_session s; is_fs := is_fs s; is_cwd := is_cwd s |}, None).
Proof. exact c80_refused. Qed.
Print Assumptions C80_refused.

(** C80: otherwise it is started (unless looking at the file or copying the settings
    panics): the table grows by it, at the end. *)
Theorem C80_started : forall E sardir c s ttype peer fname, NoDup (keys (cl_global c)) ->
  find (in_the_way (overwrites (is_fs s) (is_cwd s) sardir ttype fname) fname peer) (is_table s) = None ->
  let o := file_open (ie_now E) (ie_chdir E) (is_fs s) (is_cwd s) sardir fname ttype in
  match file_meta (or_fs o) (or_cwd o) sardir fname with
  | Ret fm =>
      if Nat.eqb (length (cl_global c)) 0 then new_initiator E sardir c s ttype peer fname = Panic
      else exists t, new_initiator E sardir c s ttype peer fname =
             Ret ({| is_table := (is_table s ++ [t])%list; is_session := newsession (ie_pid E) (is_session s);
                     is_fs := or_fs o; is_cwd := or_cwd o |}, Some t) /\
           tr_direction t = initiator /\ tr_session t = newsession (ie_pid E) (is_session s) /\ tr_peer t = peer /\
           tr_ttype t = ttype /\ tr_filename t = fname /\ tr_fp t = or_fp o /\ tr_filemeta t = fm /\
           tr_conn t = (if ie_dial E peer then Some {| uc_remote := Some peer |} else None) /\
           tr_tstamptype t = cl_timestamp c /\ tr_cliflags t = fst (copy_cliflags c) /\
           tr_data t = [] /\ tr_curfills t = [] /\ tr_havemeta t = false /\ tr_progress t = 0 /\ tr_inrespto t = 0
  | _ => new_initiator E sardir c s ttype peer fname = Panic
  end.
Proof. exact c80_started. Qed.
Print Assumptions C80_started.

(** C80: an empty table never objects, so the first get overwrites. *)
Theorem C80_unguarded : forall E sardir c s ttype peer fname s' r, is_table s = [] ->
  new_initiator E sardir c s ttype peer fname = Ret (s', r) -> r <> None.
Proof. exact c80_unguarded. Qed.
Print Assumptions C80_unguarded.

(** C82: a request is refused, or it terminates the process; none is ever accepted. *)
Theorem C82_responder : forall E H sardir c fs cwd table r peer,
  let duplicate := exists t, In t table /\ key_is responder (r_session r) peer t in
  let reachable := exists a, ie_resolve E peer = Some a /\ ie_dial E a = true in
  (duplicate -> new_responder E H sardir c fs cwd table r peer =
     Ret (table, Some ("Transfer Responder for session " ++ itoa (r_session r) ++ " to " ++ peer ++
                       " is currently in progress, cannnot duplicate transfer"))) /\
  (~ reachable -> exists e, new_responder E H sardir c fs cwd table r peer = Ret (table, Some e)) /\
  (~ duplicate -> reachable -> new_responder E H sardir c fs cwd table r peer = Fatal).
Proof. exact c82_responder. Qed.
Print Assumptions C82_responder.

(** C82: this is not only due to the flag that does not exist: with any other name in its
    place no request is accepted either. *)
Theorem C82_still_never : forall field E H sardir c fs cwd table r peer table' e,
  new_responder_gen field E H sardir c fs cwd table r peer = Ret (table', e) -> table' = table /\ e <> None.
Proof. exact c82_still_never. Qed.
Print Assumptions C82_still_never.

(** C61: in every history the transfers in the table have different session ids, as long
    as the ids have not wrapped. *)
Theorem C61_table : forall pid n s, history pid n s -> pid < 2 ^ 32 -> N.of_nat n <= 2 ^ 32 - pid -> NoDup (map tr_session (is_table s)).
Proof. exact c61_table. Qed.
Print Assumptions C61_table.

(** C79: every transfer of every history that has a connection has one that was dialled,
    so no status report about any of them is ever sent. *)
Theorem C79_never_sent : forall pid n s t now mtu oks flags r bufs, history pid n s -> In t (is_table s) ->
  write_status now mtu oks t flags = Ret (r, bufs) -> bufs = [].
Proof. exact c79_never_sent. Qed.
Print Assumptions C79_never_sent.

(** C81: in every history in which calls do not overlap, no two transfers of the table are
    of the same file with the same peer. *)
Theorem C81_no_duplicates : forall pid n s i j t u, history pid n s ->
  nth_error (is_table s) i = Some t -> nth_error (is_table s) j = Some u ->
  tr_filename t = tr_filename u -> udpaddr_string (tr_peer t) = udpaddr_string (tr_peer u) -> i = j.
Proof. exact c81_no_duplicates. Qed.
Print Assumptions C81_no_duplicates.

(** C81: two overlapping calls for the same file and peer, in every interleaving: two
    transfers exactly when both look before either adds. *)
Theorem C81_two_callers : forall c1 c2 s s' sched,
  ic_fname c1 = ic_fname c2 -> ic_peer c1 = ic_peer c2 ->
  ie_dial (ic_env c1) (ic_peer c1) = true -> ie_dial (ic_env c2) (ic_peer c2) = true ->
  initiator_check (is_fs s) (is_cwd s) (ic_sardir c1) (is_table s) (ic_ttype c1) (ic_peer c1) (ic_fname c1) = None ->
  initiator_check (is_fs s) (is_cwd s) (ic_sardir c2) (is_table s) (ic_ttype c2) (ic_peer c2) (ic_fname c2) = None ->
  Permutation sched [true; true; false; false] ->
  run_two sched c1 c2 IStart IStart s = Ret s' ->
  jobs (ic_fname c1) (ic_peer c1) (is_table s') = (if Bool.eqb (hd true sched) (hd true (tl sched)) then 1 else 2)%nat.
Proof. exact c81_two_callers. Qed.
Print Assumptions C81_two_callers.
Example C80_ex :
  view exi_s1 = [(4294967294, "10.0.0.1", "a", false)] /\
  new_initiator exi_env "/s" sar_cli exi_s1 "put" ex_peer "a" = Ret (exi_s1, None) /\
  view exi_s2 = [(4294967294, "10.0.0.1", "a", false); (4294967295, "fe80::1", "a", false)] /\
  new_initiator exi_env "/s" sar_cli exi_s2 "get" exi_down "a" = Ret (exi_s2, None) /\
  (exists t, new_initiator exi_env "/s" sar_cli exi_start "get" exi_down "a" = Ret (exi_do exi_start "get" exi_down "a", Some t)) /\
  view exi_s3 = [(4294967294, "10.0.0.1", "a", false); (4294967295, "fe80::1", "a", false); (0, "10.0.0.9", "a", true)] /\
  view exi_s4 = [(4294967294, "10.0.0.1", "a", false); (4294967295, "fe80::1", "a", false)].
Proof. exact c80_ex. Qed.
Example C81_history_ex : history 4294967293 2 exi_s2.
Proof. exact c81_history_ex. Qed.
Example C81_two_ex :
  initiator_check (is_fs exi_start) (is_cwd exi_start) "/s" (is_table exi_start) "put" ex_peer "a" = None /\
  (exists s, run_two [true; true; false; false] exi_call exi_call IStart IStart exi_start = Ret s /\ view s = [(4294967294, "10.0.0.1", "a", false)]) /\
  (exists s, run_two [true; false; false; true] exi_call exi_call IStart IStart exi_start = Ret s /\
             view s = [(4294967294, "10.0.0.1", "a", false); (4294967295, "10.0.0.1", "a", false)]).
Proof. exact c81_two_ex. Qed.
Example C79_ex : exists t, In t (is_table exi_s2) /\ tr_peer t = ex_peer2 /\
  write_status exi_time 1500 (fun _ => true) t "descriptor=d16,errcode=success,reqtstamp=no" = Ret ("badstatus", []).
Proof. exact c79_ex. Qed.
Example C82_ex :
  let r := {| r_header := 0x21000001; r_session := 5; r_fname := "a"; r_auth := [] |} in
  let H := {| hx_crc32 := fun _ => zeros 4; hx_md5 := fun _ => zeros 16; hx_sha1 := fun _ => zeros 20 |} in
  new_responder exi_env H "/s" sar_cli exi_fs [] (is_table exi_s2) r "10.0.0.1:7542" = Fatal /\
  exists e, new_responder {| ie_now := exi_time; ie_pid := 1; ie_dial := fun _ => false; ie_resolve := fun _ => Some ex_peer; ie_chdir := true |}
              H "/s" sar_cli exi_fs [] (is_table exi_s2) r "10.0.0.1:7542" = Ret (is_table exi_s2, Some e).
Proof. exact c82_ex. Qed.
