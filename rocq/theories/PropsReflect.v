(** * Reflect: the properties

    Statements only; the proofs are in ReflectMain.v. *)
From Verif Require Import GoBase GoFacts Flags SpecFlags FlagsFacts Config Shipped ConfigFacts SpecWire SarFacts Timestamp SpecTime TimeMain Data SpecFrames FrameFacts FlagStrFacts BuildFacts Holes Status Request Beacon SpecBeacon Fileio Dirent SpecDirent Metadata SpecMetadata MetadataMain Reflect SpecReflect ReflectFacts ReflectMain.
Local Open Scope string_scope.
Local Open Scope N_scope.

(** C152: given a pointer to a structure with the members Session, Offset and Payload, whatever else it has and whatever its type,
    New and Make make the data frame with those values *)
Theorem C152_data : forall now d flags header info i, data_info info i ->
  data_new_of now d flags info = data_new now d flags i /\ data_make_of now d header info = data_make now d header i.
Proof. exact c152_data. Qed.
Print Assumptions C152_data.

(** C152: given anything else they panic, unless the flags are refused before *)
Theorem C152_data_panics : forall now d flags header info, (forall i, ~ data_info info i) -> forall j,
  data_new_of now d flags info = panics_instead (data_new now d flags j) /\
  data_make_of now d header info = panics_instead (data_make now d header j).
Proof. exact c152_data_panics. Qed.
Print Assumptions C152_data_panics.

(** C152: the same of status frames *)
Theorem C152_status : forall now s flags header info i, status_info info i ->
  status_new_of now s flags info = status_new now s flags i /\ status_make_of s header info = status_make s header i.
Proof. exact c152_status. Qed.
Print Assumptions C152_status.

(** C152: anything else makes them panic *)
Theorem C152_status_panics : forall now s flags header info, (forall i, ~ status_info info i) -> forall j,
  status_new_of now s flags info = panics_instead (status_new now s flags j) /\ status_make_of s header info = Panic.
Proof. exact c152_status_panics. Qed.
Print Assumptions C152_status_panics.

(** C152: New of requests takes any member, or none, for the file name; Make panics whatever it is given *)
Theorem C152_request : forall r flags info i, request_info info i -> request_new_of r flags info = request_new r flags i.
Proof. exact c152_request. Qed.
Print Assumptions C152_request.

(** C152: anything else makes New panic *)
Theorem C152_request_panics : forall r flags info, (forall i, ~ request_info info i) -> forall j,
  request_new_of r flags info = panics_instead (request_new r flags j).
Proof. exact c152_request_panics. Qed.
Print Assumptions C152_request_panics.

(** C152: no value at all can be given to Make of requests *)
Theorem C152_request_make : forall r header info, request_make_of r header info = Panic.
Proof. exact c152_request_make. Qed.
Print Assumptions C152_request_make.

(** C152: beacons: given a structure with an unsigned Freespace *)
Theorem C152_beacon : forall env b flags header info i, beacon_info info i ->
  beacon_new_of env b flags info = beacon_new env b flags i /\ beacon_make_of env b header info = beacon_make env b header i.
Proof. exact c152_beacon. Qed.
Print Assumptions C152_beacon.

(** C152: given a structure without one they panic exactly if the free space is to be told: if with one kilobyte free, and a working
    directory, the beacon would say so.  Otherwise the beacon is made. *)
Theorem C152_beacon_name_only : forall env env0 b flags header info e, se_getwd env0 = None -> beacon_eid info e ->
  (forall i, ~ beacon_info info i) ->
  let told o := match o with Ret (b', None) => if b_freespace b' =? 1 then Panic else Ret (b', None) | _ => o end in
  beacon_new_of env b flags info = told (beacon_new env0 b flags {| bi_freespace := 1; bi_eid := e |}) /\
  beacon_make_of env b header info = told (beacon_make env0 b header {| bi_freespace := 1; bi_eid := e |}).
Proof. exact c152_beacon_name_only. Qed.
Print Assumptions C152_beacon_name_only.

(** C152: given anything else they panic, unless the flags are refused before *)
Theorem C152_beacon_panics : forall env env0 b flags header info, se_getwd env0 = None -> (forall e, ~ beacon_eid info e) ->
  beacon_new_of env b flags info = panics_instead (beacon_new env0 b flags {| bi_freespace := 1; bi_eid := "" |}) /\
  beacon_make_of env b header info = Panic.
Proof. exact c152_beacon_panics. Qed.
Print Assumptions C152_beacon_panics.

(** C152: metadata: New wants an unsigned Session and takes any member, or none, for the file name *)
Theorem C152_meta : forall E m flags info i, meta_info info i -> meta_new_of E m flags info = meta_new E m flags i.
Proof. exact c152_meta. Qed.
Print Assumptions C152_meta.

(** C152: given anything else it panics, unless the flags are refused before, whatever is given: if they are not, then the frame
    takes the session it is given *)
Theorem C152_meta_panics : forall E m flags info, (forall i, ~ meta_info info i) ->
  (forall j, meta_new_of E m flags info = meta_new E m flags j) \/
  (meta_new_of E m flags info = Panic /\ forall j m' e, meta_new E m flags j = Ret (m', e) -> m_session m' = u32 (mi_session j)).
Proof. exact c152_meta_panics. Qed.
Print Assumptions C152_meta_panics.

(** C152: Make takes the type of the session for the file name *)
Theorem C152_meta_make : forall E m header info s t, meta_session info s t ->
  (t = "uint32" -> forall f, meta_make_of E m header info = meta_make E m header {| mi_session := s; mi_fname := f |}) /\
  (forall e, here E ("<" ++ t ++ " Value>") = inr e -> verdict_of (meta_make_of E m header info) = Reject).
Proof. exact c152_meta_make. Qed.
Print Assumptions C152_meta_make.

(** C152: and panics without one *)
Theorem C152_meta_make_panics : forall E m header info, (forall s t, ~ meta_session info s t) -> meta_make_of E m header info = Panic.
Proof. exact c152_meta_make_panics. Qed.
Print Assumptions C152_meta_make_panics.

(** C152: the pointers that are meant, which the program itself passes, are accepted: New and Make, without that of requests, then do
    what the other properties say *)
Theorem C152_own : forall di si ri bi mi,
  data_info (to_dinfo di) di /\ status_info (to_sinfo si) si /\ request_info (to_rinfo ri) ri /\ beacon_info (to_binfo bi) bi /\
  meta_info (to_minfo mi) mi /\ meta_session (to_minfo mi) (mi_session mi) "uint32".
Proof. exact c152_own. Qed.
Print Assumptions C152_own.

(** C152: a value says one thing only: what New reads from it is determined *)
Theorem C152_one : forall info,
  (forall i j, data_info info i -> data_info info j -> i = j) /\ (forall i j, status_info info i -> status_info info j -> i = j) /\
  (forall i j, request_info info i -> request_info info j -> i = j) /\ (forall i j, beacon_info info i -> beacon_info info j -> i = j) /\
  (forall i j, meta_info info i -> meta_info info j -> i = j).
Proof. exact c152_one. Qed.
Print Assumptions C152_one.

(** C152: without a pointer, for a structure passed as it is, for nil and for a nil pointer, nothing can be made *)
Theorem C152_no_pointer : forall info, info = None \/ (exists t fs, info = Some (GStruct t fs)) \/ (exists t, info = Some (GPtr t None)) ->
  (forall i, ~ data_info info i) /\ (forall i, ~ status_info info i) /\ (forall i, ~ request_info info i) /\ (forall e, ~ beacon_eid info e) /\
  (forall i, ~ meta_info info i) /\ (forall s t, ~ meta_session info s t).
Proof. exact c152_no_pointer. Qed.
Print Assumptions C152_no_pointer.

(** C152: the structure meant for one type of frame is no use for another, save that metadata can be made of whatever has a session;
    the file name is then that of a request, and "<invalid Value>" of data and status *)
Theorem C152_others : forall di si ri bi mi,
  (forall i, ~ data_info (to_sinfo si) i) /\ (forall i, ~ data_info (to_rinfo ri) i) /\ (forall i, ~ data_info (to_binfo bi) i) /\ (forall i, ~ data_info (to_minfo mi) i) /\
  (forall i, ~ status_info (to_dinfo di) i) /\ (forall i, ~ status_info (to_rinfo ri) i) /\ (forall i, ~ status_info (to_binfo bi) i) /\ (forall i, ~ status_info (to_minfo mi) i) /\
  (forall i, ~ request_info (to_dinfo di) i) /\ (forall i, ~ request_info (to_sinfo si) i) /\ (forall i, ~ request_info (to_binfo bi) i) /\ (forall i, ~ request_info (to_minfo mi) i) /\
  (forall info, In info [to_dinfo di; to_sinfo si; to_rinfo ri; to_minfo mi] -> (forall i, ~ beacon_info info i) /\ beacon_eid info "<invalid Value>") /\
  meta_info (to_dinfo di) {| mi_session := di_session di; mi_fname := "<invalid Value>" |} /\
  meta_info (to_sinfo si) {| mi_session := si_session si; mi_fname := "<invalid Value>" |} /\
  meta_info (to_rinfo ri) {| mi_session := ri_session ri; mi_fname := ri_fname ri |} /\
  (forall i, ~ meta_info (to_binfo bi) i).
Proof. exact c152_others. Qed.
Print Assumptions C152_others.

(** C152: a session number that does not fit 32 bits is cut without an error (defect): New makes the frame of its remainder *)
Theorem C152_session_cut : forall now d flags i, data_new now d flags i =
  data_new now d flags {| di_session := di_session i mod 2 ^ 32; di_offset := di_offset i; di_payload := di_payload i |}.
Proof. exact c152_session_cut. Qed.
Print Assumptions C152_session_cut.
Example C152_data_ex : data_info ex_own {| di_session := 4294967303; di_offset := 7; di_payload := bytes_of "abc" |} /\
  exists d, data_new_of {| unix_secs := 0; unix_nanos := 0 |} zero_data "descriptor=d16" ex_own = Ret (d, None) /\ d_session d = 7 /\ d_offset d = 7.
Proof. exact c152_data_ex. Qed.
Example C152_panics_ex : (forall i, ~ status_info ex_own i) /\ status_new_of {| unix_secs := 0; unix_nanos := 0 |} zero_status "descriptor=d16" ex_own = Panic /\
  (exists s e, status_new_of {| unix_secs := 0; unix_nanos := 0 |} zero_status "colour=red" ex_own = Ret (s, Some e)) /\
  (forall i, ~ beacon_info ex_own i) /\ beacon_eid ex_own "<int Value>" /\
  beacon_new_of {| se_getwd := None; se_statfs := None |} zero_beacon "freespace=yes" ex_own = Panic /\
  (exists b, beacon_new_of {| se_getwd := None; se_statfs := None |} zero_beacon "freespace=no" ex_own = Ret (b, None) /\ b_eid b = "<int Value>").
Proof. exact c152_panics_ex. Qed.
