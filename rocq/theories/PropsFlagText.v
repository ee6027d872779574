(** * FlagText: the properties

    Statements only; the proofs are in FlagTextMain.v. *)
From Verif Require Import GoBase GoFacts Flags SpecFlags FlagsFacts Config Shipped ConfigFacts SpecWire SarFacts Timestamp SpecTime TimeMain Data Request SpecFrames FrameFacts FlagStrFacts BuildFacts DataMain SpecRequest RequestMain Holes Status SpecStatus StatusMain Beacon SpecBeacon BeaconMain Fileio Dirent SpecDirent DirentMain Metadata SpecMetadata MetadataMain SpecFlagText FlagTextFacts FlagTextMain.
Local Open Scope string_scope.
Local Open Scope N_scope.

(** C133: every text says something, and only one thing. *)
Theorem C133_reading : forall s,
  (exists l, text_says s l) /\ (forall l l', text_says s l -> text_says s l' -> l = l') /\
  (exists l, blank_text_says s l) /\ (forall l l', blank_text_says s l -> blank_text_says s l' -> l = l').
Proof. exact c133_reading. Qed.
Print Assumptions C133_reading.

(** C133: asking any text for a flag: the value in the first item of that name; the
    program crashes when that item is a name alone. *)
Theorem C133_value : forall s l f, blank_text_says s l ->
  sf_flagvalue s f = match lookup f l with
                     | Some (Some v) => Ret v
                     | Some None => Panic
                     | None => Ret ""
                     end.
Proof. exact c133_value. Qed.
Print Assumptions C133_value.

(** C133: replacing a flag in any text.  When every item is a setting that exists
    (those of the flag itself being given the new value), the result is those settings,
    and the new one at the end if it was not among them.  Otherwise the first item at
    fault decides: a name alone crashes the program, a setting that does not exist
    ends it. *)
Theorem C133_replace : forall T s l f v, text_says s l ->
  (forall items, map (after_replacing f v) l = map Some items -> (forall p, In p items -> valid_setting T p) ->
     (In f (map fst l) -> sf_replaceflag T s f v = Ret (flag_list items)) /\
     (~ In f (map fst l) -> valid_setting T (f, v) -> sf_replaceflag T s f v = Ret (flag_list (items ++ [(f, v)])%list)) /\
     (~ In f (map fst l) -> ~ valid_setting T (f, v) -> sf_replaceflag T s f v = Fatal)) /\
  (forall l1 p l2 items, l = (l1 ++ p :: l2)%list -> map (after_replacing f v) l1 = map Some items ->
     (forall p, In p items -> valid_setting T p) ->
     (after_replacing f v p = None -> sf_replaceflag T s f v = Panic) /\
     (forall q, after_replacing f v p = Some q -> ~ valid_setting T q -> sf_replaceflag T s f v = Fatal)).
Proof. exact c133_replace. Qed.
Print Assumptions C133_replace.

(** C133: the same for the flags of directory entries. *)
Theorem C133_replace_dirent : forall T s l f v, text_says s l ->
  (forall items, map (after_replacing f v) l = map Some items -> (forall p, In p items -> valid_dsetting T p) ->
     (In f (map fst l) -> sd_replaceflag T s f v = Ret (flag_list items)) /\
     (~ In f (map fst l) -> valid_dsetting T (f, v) -> sd_replaceflag T s f v = Ret (flag_list (items ++ [(f, v)])%list)) /\
     (~ In f (map fst l) -> ~ valid_dsetting T (f, v) -> sd_replaceflag T s f v = Fatal)) /\
  (forall l1 p l2 items, l = (l1 ++ p :: l2)%list -> map (after_replacing f v) l1 = map Some items ->
     (forall p, In p items -> valid_dsetting T p) ->
     (after_replacing f v p = None -> sd_replaceflag T s f v = Panic) /\
     (forall q, after_replacing f v p = Some q -> ~ valid_dsetting T q -> sd_replaceflag T s f v = Fatal)).
Proof. exact c133_replace_dirent. Qed.
Print Assumptions C133_replace_dirent.

(** C133: building a data frame from any text of flags.  Only what the text says
    counts: blanks do not, nor what follows a second equals sign.  The first item at
    fault decides, a name alone crashing the program unless it is not the name of a flag. *)
Theorem C133_data : forall now d s l info, good_now now -> blank_text_says s l ->
  let fate := first_bad (map (said_verdict (data_item_verdict sar) data_bare) l) in
  verdict_of (data_new now d s info) = fate /\
  (fate = Accept -> data_new now d s info = data_new now d (flag_list (settings_in l)) info).
Proof. exact c133_data. Qed.
Print Assumptions C133_data.

(** C133: the same for status frames, for which the name of a kind of timestamp is an
    item by itself. *)
Theorem C133_status : forall now d s l info, good_now now -> blank_text_says s l ->
  let fate := first_bad (map (said_verdict (status_item_verdict sar) status_bare) l) in
  verdict_of (status_new now d s info) = fate /\
  (fate = Accept -> status_new now d s info = status_new now d (flag_list (settings_in l)) info).
Proof. exact c133_status. Qed.
Print Assumptions C133_status.

(** C133: the same for directory entries; an acceptable text may still meet a file
    that cannot be described (C72). *)
Theorem C133_dirent : forall E d s l path, blank_text_says s l ->
  let fate := first_bad (map (said_verdict (dirent_item_verdict sar) dirent_bare) l) in
  (fate <> Accept -> verdict_of (dirent_new E d s path) = fate) /\
  (fate = Accept -> dirent_new E d s path = dirent_new E d (flag_list (settings_in l)) path).
Proof. exact c133_dirent. Qed.
Print Assumptions C133_dirent.

(** C133: the same for metadata. *)
Theorem C133_metadata : forall E m s l info, blank_text_says s l ->
  let fate := first_bad (map (said_verdict (meta_item_verdict sar) meta_bare) l) in
  (fate <> Accept -> verdict_of (meta_new E m s info) = fate) /\
  (fate = Accept -> meta_new E m s info = meta_new E m (flag_list (settings_in l)) info).
Proof. exact c133_metadata. Qed.
Print Assumptions C133_metadata.

(** C133: the same for beacons: a name alone always crashes the program. *)
Theorem C133_beacon : forall env b s l info, blank_text_says s l ->
  let fate := first_bad (map (said_verdict (beacon_item_verdict sar) bare_crash) l) in
  (fate <> Accept -> verdict_of (beacon_new env b s info) = fate) /\
  (fate = Accept -> beacon_new env b s info = beacon_new env b (flag_list (settings_in l)) info).
Proof. exact c133_beacon. Qed.
Print Assumptions C133_beacon.

(** C133: the same for requests, for which empty items at the end do not count. *)
Theorem C133_request : forall r s l n info, blank_text_says s (l ++ repeat ("", None) n)%list -> full_at_end l ->
  let fate := first_bad (map (said_verdict (request_item_verdict sar) bare_crash) l) in
  verdict_of (request_new r s info) = fate /\
  (fate = Accept -> request_new r s info = request_new r (flag_list (settings_in l)) info).
Proof. exact c133_request. Qed.
Print Assumptions C133_request.

(** C133: every text says something of that form. *)
Theorem C133_request_any : forall s, exists l n, blank_text_says s (l ++ repeat ("", None) n)%list /\ full_at_end l.
Proof. exact c133_request_any. Qed.
Print Assumptions C133_request_any.
Example C133_value_ex :
  blank_text_says " eod = yes, descriptor=d32=x ,reqstatus" said_ex /\
  sf_flagvalue " eod = yes, descriptor=d32=x ,reqstatus" "descriptor" = Ret "d32" /\
  sf_flagvalue " eod = yes, descriptor=d32=x ,reqstatus" "reqstatus" = Panic /\
  sf_flagvalue " eod = yes, descriptor=d32=x ,reqstatus" "stream" = Ret "".
Proof. exact c133_value_ex. Qed.
Example C133_replace_ex :
  sf_replaceflag sar "eod,descriptor=d32=x" "eod" "yes" = Ret "eod=yes,descriptor=d32" /\
  sf_replaceflag sar "eod,descriptor=d32=x" "reqstatus" "yes" = Panic /\
  sf_replaceflag sar "eod= yes" "reqstatus" "yes" = Fatal.
Proof. exact c133_replace_ex. Qed.
Example C133_data_ex :
  good_now ex_now /\
  first_bad (map (said_verdict (data_item_verdict sar) data_bare) said_ex) = Crash /\
  (forall d info, verdict_of (data_new ex_now d " eod = yes, descriptor=d32=x ,reqstatus" info) = Crash) /\
  (forall d info, data_new ex_now d " eod = yes,, descriptor=d32=x" info <> data_new ex_now d "eod=yes,descriptor=d32" info) /\
  (forall d info, data_new ex_now d " eod = yes, descriptor=d32=x" info = data_new ex_now d "eod=yes,descriptor=d32" info).
Proof. exact c133_data_ex. Qed.
Example C133_request_ex : forall r info,
  verdict_of (request_new r "descriptor=d32,,," info) = Accept /\ verdict_of (request_new r "descriptor,,," info) = Crash /\
  verdict_of (request_new r ",,," info) = Crash /\ verdict_of (request_new r "colour=red" info) = Reject /\
  verdict_of (request_new r "descriptor=d99" info) = Kill.
Proof. exact c133_request_ex. Qed.
