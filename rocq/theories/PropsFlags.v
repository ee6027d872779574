(** * Flags: the properties

    Statements only; the proofs are in FlagsMain.v. *)
From Verif Require Import GoBase GoFacts Flags SpecFlags FlagsFacts FlagStrFacts Config Shipped ConfigFacts FlagsMain.
Local Open Scope string_scope.
Local Open Scope N_scope.

(** C01: reading a flag returns the bits of its field and depends on nothing else
    of the header. *)
Theorem C01_get_is_field : forall T field f h h',
  lookup field (t_flags T) = Some f -> f_msb f + f_len f <= 32 ->
  sf_get T h field = bit_field 32 (f_msb f) (f_len f) h /\
  ((forall i, in_field 32 (f_msb f) (f_len f) i -> N.testbit h' i = N.testbit h i) ->
   sf_get T h' field = sf_get T h field).
Proof. exact c01_get_is_field. Qed.
Print Assumptions C01_get_is_field.
Example C01_get_is_field_ex :
  exists f, lookup "errcode" (t_flags sar) = Some f /\ f_msb f + f_len f <= 32 /\ sf_get sar 0x24000011 "errcode" = 17.
Proof. exact c01_get_is_field_ex. Qed.

(** C01: with the shipped tables every flag is where the protocol puts it. *)
Theorem C01_shipped_positions : forall name msb len h,
  In (name, msb, len) documented_fields -> sf_get sar h name = bit_field 32 msb len h.
Proof. exact c01_shipped_positions. Qed.
Print Assumptions C01_shipped_positions.
Example C01_shipped_positions_ex : In ("csumlen", 24, 4) documented_fields /\ sf_get sar 0x24000051 "csumlen" = 5.
Proof. exact c01_shipped_positions_ex. Qed.

(** C02: setting a flag to one of its options replaces exactly its field; it reads
    back, is idempotent, and flags with other bits keep their value. *)
Theorem C02_set_spec : forall T field f name v h,
  wf_tables T -> h < 2 ^ 32 -> lookup field (t_flags T) = Some f -> lookup name (f_opts f) = Some v ->
  exists h', sf_set T h field name = Ret h' /\ h' < 2 ^ 32 /\
    field_replaced 32 (f_msb f) (f_len f) h v h' /\
    sf_get T h' field = v /\ sf_getstr T h' field = Ret name /\
    sf_set T h' field name = Ret h' /\
    forall other g, lookup other (t_flags T) = Some g ->
      disjoint_fields (f_msb f) (f_len f) (f_msb g) (f_len g) -> sf_get T h' other = sf_get T h other.
Proof. exact c02_set_spec. Qed.
Print Assumptions C02_set_spec.
Example C02_set_spec_ex :
  wf_tables sar /\ sf_set sar 0x24000011 "errcode" "badpacket" = Ret 0x2400000a.
Proof. exact c02_set_spec_ex. Qed.

(** C02: setting an unknown flag or option terminates the process; no header results. *)
Theorem C02_set_unknown : forall T h field name,
  (~ exists v, option_value T field name v) -> sf_set T h field name = Fatal.
Proof. exact c02_set_unknown. Qed.
Print Assumptions C02_set_unknown.
Example C02_set_unknown_ex : sf_set sar 0x24000011 "errcode" "nosuchcode" = Fatal /\ sf_set sar 0 "request" "get" = Fatal.
Proof. exact c02_set_unknown_ex. Qed.

(** C02: Test compares the field with the option; an unknown name terminates the process. *)
Theorem C02_test_spec : forall T h field u name, wf_tables T ->
  (forall f v, lookup field (t_flags T) = Some f -> lookup name (f_opts f) = Some v ->
     sf_test T h field u name = Ret (bit_field 32 (f_msb f) (f_len f) h =? v)) /\
  ((~ exists v, option_value T field name v) -> sf_test T h field u name = Fatal).
Proof. exact c02_test_spec. Qed.
Print Assumptions C02_test_spec.
Example C02_test_spec_ex : sf_test sar 0x24000011 "errcode" "" "badstatus" = Ret true.
Proof. exact c02_test_spec_ex. Qed.

(** C03: setting distinct flags of a frame type gives the same outcome in every
    order (the shipped tables). *)
Theorem C03_setflags_order : forall ft settings settings' h,
  In ft frame_type_names -> h < 2 ^ 32 ->
  (forall p, In p settings -> In (fst p) (sf_values sar ft)) ->
  same_map settings settings' ->
  sf_setflags sar h settings' = sf_setflags sar h settings.
Proof. exact c03_setflags_order. Qed.
Print Assumptions C03_setflags_order.
Example C03_setflags_order_ex :
  sf_setflags sar 0x23000000 [("eod", "yes"); ("descriptor", "d64"); ("reqtstamp", "no")] = Ret 0x23808000 /\
  sf_setflags sar 0x23000000 [("reqtstamp", "no"); ("eod", "yes"); ("descriptor", "d64")] = Ret 0x23808000 /\
  forallb (fun f => one_of f (sf_values sar "data")) ["eod"; "descriptor"; "reqtstamp"] = true.
Proof. exact c03_setflags_order_ex. Qed.

(** C03: and the result has exactly those settings, every other bit unchanged. *)
Theorem C03_setflags_result : forall ft settings h,
  In ft frame_type_names -> h < 2 ^ 32 -> NoDup (map fst settings) ->
  (forall p, In p settings -> In (fst p) (sf_values sar ft) /\ valid_setting sar p) ->
  exists h', sf_setflags sar h settings = Ret h' /\ h' < 2 ^ 32 /\
    (forall field name, In (field, name) settings -> sf_getstr sar h' field = Ret name) /\
    (forall i, (forall p f, In p settings -> lookup (fst p) (t_flags sar) = Some f -> ~ in_field 32 (f_msb f) (f_len f) i) ->
       N.testbit h' i = N.testbit h i).
Proof. exact c03_setflags_result. Qed.
Print Assumptions C03_setflags_result.
Example C03_setflags_result_ex : sf_setflags sar 0 [("eod", "yes"); ("descriptor", "d64")] = Ret 0x808000.
Proof. exact c03_setflags_result_ex. Qed.

(** C04: the name of a field's value: the option with that value, the process
    terminates exactly when there is none, and the order of the map is irrelevant. *)
Theorem C04_getstr_spec : forall T field f h, wf_tables T -> lookup field (t_flags T) = Some f ->
  (forall name, sf_getstr T h field = Ret name <-> In (name, bit_field 32 (f_msb f) (f_len f) h) (f_opts f)) /\
  (sf_getstr T h field = Fatal <-> ~ In (bit_field 32 (f_msb f) (f_len f) h) (map snd (f_opts f))) /\
  sf_getstr T h field <> Panic /\
  sf_name T h field = sf_getstr T h field /\
  (forall T' f', lookup field (t_flags T') = Some f' -> same_flag f f' -> sf_getstr T' h field = sf_getstr T h field).
Proof. exact c04_getstr_spec. Qed.
Print Assumptions C04_getstr_spec.
Example C04_getstr_spec_ex :
  sf_getstr sar 0x24000011 "errcode" = Ret "badstatus" /\ sf_getstr sar 0x24000013 "errcode" = Fatal.
Proof. exact c04_getstr_spec_ex. Qed.

(** C04: reading a flag the table does not have terminates the process. *)
Theorem C04_getstr_unknown : forall T field h, lookup field (t_flags T) = None -> sf_getstr T h field = Fatal.
Proof. exact c04_getstr_unknown. Qed.
Print Assumptions C04_getstr_unknown.
Example C04_getstr_unknown_ex : lookup "request" (t_flags sar) = None.
Proof. exact c04_getstr_unknown_ex. Qed.

(** C05: the same laws for the 16-bit directory entry flags. *)
Theorem C05_dirent_flags : forall T field f h, wf_tables T -> h < 2 ^ 16 ->
  lookup field (t_dirent T) = Some f ->
  sd_get T h field = bit_field 16 (f_msb f) (f_len f) h /\
  (forall name, sd_getstr T h field = Ret name <-> In (name, bit_field 16 (f_msb f) (f_len f) h) (f_opts f)) /\
  (sd_getstr T h field = Fatal <-> ~ In (bit_field 16 (f_msb f) (f_len f) h) (map snd (f_opts f))) /\
  sd_name T h field = sd_getstr T h field /\
  (forall T' f', lookup field (t_dirent T') = Some f' -> same_flag f f' -> sd_getstr T' h field = sd_getstr T h field) /\
  (forall name v, lookup name (f_opts f) = Some v ->
     sd_test T h field name = Ret (bit_field 16 (f_msb f) (f_len f) h =? v) /\
     exists h', sd_set T h field name = Ret h' /\ h' < 2 ^ 16 /\
       field_replaced 16 (f_msb f) (f_len f) h v h' /\
       sd_get T h' field = v /\ sd_getstr T h' field = Ret name /\ sd_set T h' field name = Ret h' /\
       forall other g, lookup other (t_dirent T) = Some g ->
         disjoint_fields (f_msb f) (f_len f) (f_msb g) (f_len g) -> sd_get T h' other = sd_get T h other) /\
  (forall name, lookup name (f_opts f) = None -> sd_set T h field name = Fatal).
Proof. exact c05_dirent_flags. Qed.
Print Assumptions C05_dirent_flags.
Example C05_dirent_flags_ex :
  wf_tables sar /\ sd_set sar 0x8000 "property" "specialfile" = Ret 0x8200 /\ sd_getstr sar 0x8200 "sod" = Ret "sod"
  /\ sd_getstr sar 0x0200 "sod" = Fatal.
Proof. exact c05_dirent_flags_ex. Qed.

(** C05: and for the 8-bit timestamp type. *)
Theorem C05_timestamp_type : forall T h, wf_tables T -> h < 2 ^ 8 ->
  let f := t_tstamps T in
  st_get T h = bit_field 8 (f_msb f) (f_len f) h /\
  (forall name, st_getstr T h = Ret name <-> In (name, bit_field 8 (f_msb f) (f_len f) h) (f_opts f)) /\
  (st_getstr T h = Fatal <-> ~ In (bit_field 8 (f_msb f) (f_len f) h) (map snd (f_opts f))) /\
  st_name T h = st_getstr T h /\
  (forall T', same_flag f (t_tstamps T') -> st_getstr T' h = st_getstr T h) /\
  (forall name v, lookup name (f_opts f) = Some v ->
     exists h', st_set T h name = Ret h' /\ h' < 2 ^ 8 /\ field_replaced 8 (f_msb f) (f_len f) h v h' /\
       st_getstr T h' = Ret name /\ st_set T h' name = Ret h') /\
  (forall name, lookup name (f_opts f) = None -> st_set T h name = Fatal).
Proof. exact c05_timestamp_type. Qed.
Print Assumptions C05_timestamp_type.
Example C05_timestamp_type_ex :
  wf_tables sar /\ st_set sar 0 "epoch2000_32" = Ret 5 /\ st_getstr sar 5 = Ret "epoch2000_32" /\ st_getstr sar 6 = Fatal.
Proof. exact c05_timestamp_type_ex. Qed.

(** C06: reading a configuration does not depend on the order of its top-level entries. *)
Theorem C06_readconfig_order : forall env obj obj' r,
  same_map obj obj' -> readconfig env obj = Ret r -> readconfig env obj' = Ret r.
Proof. exact c06_readconfig_order. Qed.
Print Assumptions C06_readconfig_order.

(** C06: the shipped file loads, in every order, without error. *)
Theorem C06_shipped_loads :
  NoDup (keys saratoga_json) /\
  forall obj, Permutation saratoga_json obj -> readconfig "" obj = Ret (sar_cli, sar, sar_commands, None).
Proof. exact c06_shipped_loads. Qed.
Print Assumptions C06_shipped_loads.

(** C06: the shipped tables are consistent and the defaults valid. *)
Theorem C06_shipped_consistent :
  wf_tables sar /\
  (forall ft a b f g, In ft frame_type_names -> In a (sf_values sar ft) -> In b (sf_values sar ft) -> a <> b ->
     lookup a (t_flags sar) = Some f -> lookup b (t_flags sar) = Some g ->
     disjoint_fields (f_msb f) (f_len f) (f_msb g) (f_len g)) /\
  (forall p, In p (cl_global sar_cli) -> valid_setting sar p) /\
  length (cl_global sar_cli) = 9%nat.
Proof. exact c06_shipped_consistent. Qed.
Print Assumptions C06_shipped_consistent.
Example C06_order_ex :
  exists obj, Permutation saratoga_json obj /\ obj <> saratoga_json.
Proof. exact c06_order_ex. Qed.

(** C07: a configuration is rejected exactly when a default flag is invalid. *)
Theorem C07_invalid_default_rejected : forall env obj cli T cmds e,
  readconfig env obj = Ret (cli, T, cmds, e) ->
  (e = None <-> forall p, In p (cl_global cli) -> valid_setting T p).
Proof. exact c07_invalid_default_rejected. Qed.
Print Assumptions C07_invalid_default_rejected.
Example C07_ex :
  exists e, readconfig "" (map (fun p => if String.eqb (fst p) "txwilling" then ("txwilling", JStr "on") else p) saratoga_json)
            = Ret e /\ snd e = Some "Invalid Flag:txwilling=on".
Proof. exact c07_ex. Qed.

(** C08: replacing and adding in a flag list act as on a map. *)
Theorem C08_flag_strings : forall T items f v, clean_names T ->
  (forall p, In p items -> valid_setting T p) -> valid_setting T (f, v) ->
  (items <> [] ->
   exists s, sf_replaceflag T (flag_list items) f v = Ret s /\
     sf_flagvalue s f = Ret v /\
     forall g, g <> f -> sf_flagvalue s g = Ret (match setting_of items g with Some w => w | None => "" end)) /\
  (exists s, sf_addflag T (flag_list items) f v = Ret s /\
     sf_flagvalue s f = Ret (match setting_of items f with Some old => old | None => v end) /\
     forall g, g <> f -> sf_flagvalue s g = Ret (match setting_of items g with Some w => w | None => "" end)) /\
  (items <> [] -> forall g, sf_flagvalue (flag_list items) g = Ret (match setting_of items g with Some w => w | None => "" end)).
Proof. exact c08_flag_strings. Qed.
Print Assumptions C08_flag_strings.

(** C08: an invalid setting terminates the process. *)
Theorem C08_flag_strings_invalid : forall T items f v, clean_names T ->
  (forall p, In p items -> valid_setting T p) -> ~ valid_setting T (f, v) ->
  (items <> [] -> sf_replaceflag T (flag_list items) f v = Fatal) /\ sf_addflag T (flag_list items) f v = Fatal.
Proof. exact c08_flag_strings_invalid. Qed.
Print Assumptions C08_flag_strings_invalid.

(** C08: the same for directory entry flag lists. *)
Theorem C08_dirent_flag_strings : forall T items f v, clean_names T ->
  (forall p, In p items -> valid_dsetting T p) -> items <> [] ->
  (valid_dsetting T (f, v) ->
   exists s, sd_replaceflag T (flag_list items) f v = Ret s /\
     sf_flagvalue s f = Ret v /\
     forall g, g <> f -> sf_flagvalue s g = Ret (match setting_of items g with Some w => w | None => "" end)) /\
  (~ valid_dsetting T (f, v) -> sd_replaceflag T (flag_list items) f v = Fatal).
Proof. exact c08_dirent_flag_strings. Qed.
Print Assumptions C08_dirent_flag_strings.

(** C08: replacing in the empty flag list panics (defect). *)
Theorem C08_replace_in_empty_list_panics : forall T f v, f <> "" -> sf_replaceflag T (flag_list []) f v = Panic.
Proof. exact c08_replace_in_empty_list_panics. Qed.
Print Assumptions C08_replace_in_empty_list_panics.
Example C08_ex :
  clean_names sar /\ valid_setting sar ("descriptor", "d64") /\
  flag_list [("descriptor", "d32"); ("eod", "no")] = "descriptor=d32,eod=no" /\
  sf_replaceflag sar "descriptor=d32,eod=no" "eod" "yes" = Ret "descriptor=d32,eod=yes" /\
  sf_replaceflag sar "descriptor=d32,eod=no" "reqtstamp" "yes" = Ret "descriptor=d32,eod=no,reqtstamp=yes" /\
  sd_replaceflag sar "descriptor=d32,property=normalfile" "descriptor" "d16" = Ret "descriptor=d16,property=normalfile".
Proof. exact c08_ex. Qed.

(** C09: the flag string of a frame type lists exactly the global flags that apply to it. *)
Theorem C09_setglobal : forall T ft cli,
  NoDup (keys (cl_global cli)) -> NoDup (sf_values T ft) ->
  (forall p, In p (cl_global cli) -> clean (fst p) /\ clean (snd p)) ->
  exists settings, sf_setglobal T ft cli = flag_list settings /\
    (forall f v, In (f, v) settings <-> In f (sf_values T ft) /\ lookup f (cl_global cli) = Some v) /\
    map fst settings = filter (fun f => has_key f (cl_global cli)) (sf_values T ft).
Proof. exact c09_setglobal. Qed.
Print Assumptions C09_setglobal.

(** C09: and does not depend on the iteration order of the global flags. *)
Theorem C09_setglobal_order : forall T ft cli cli',
  (forall p, In p (cl_global cli) -> clean (fst p) /\ clean (snd p)) ->
  same_map (cl_global cli) (cl_global cli') -> sf_setglobal T ft cli' = sf_setglobal T ft cli.
Proof. exact c09_setglobal_order. Qed.
Print Assumptions C09_setglobal_order.
Example C09_ex :
  sf_setglobal sar "beacon" sar_cli = "descriptor=d64,stream=no,txwilling=yes,rxwilling=yes,udplite=no,freespace=yes" /\
  NoDup (keys (cl_global sar_cli)) /\ NoDup (sf_values sar "beacon").
Proof. exact c09_ex. Qed.

(** C10: what the copy of the CLI settings is: everything equal but the IPv6 group
    and the beacon count. *)
Theorem C10_copy_cliflags : forall c, NoDup (keys (cl_global c)) ->
  (cl_global c = [] -> fst (copy_cliflags c) = None /\ snd (copy_cliflags c) <> None) /\
  (cl_global c <> [] ->
   copy_cliflags c =
     (Some {| cl_global := cl_global c; cl_v4 := cl_v4 c; cl_v6 := cl_v4 c; cl_port := cl_port c;
              cl_timestamp := cl_timestamp c; cl_timeout := cl_timeout c; cl_timezone := cl_timezone c;
              cl_prompt := cl_prompt c; cl_ppad := cl_ppad c; cl_sardir := cl_sardir c;
              cl_buffersize := cl_buffersize c; cl_bcount := 0 |}, None)).
Proof. exact c10_copy_cliflags. Qed.
Print Assumptions C10_copy_cliflags.

(** C10: so the copy is faithful only for equal groups and no beacon count. *)
Theorem C10_copy_faithful_iff : forall c c', NoDup (keys (cl_global c)) -> cl_global c <> [] ->
  copy_cliflags c = (Some c', None) -> (c' = c <-> cl_v6 c = cl_v4 c /\ cl_bcount c = 0).
Proof. exact c10_copy_faithful_iff. Qed.
Print Assumptions C10_copy_faithful_iff.
Example C10_ex : cl_v6 sar_cli <> cl_v4 sar_cli /\ exists c', copy_cliflags sar_cli = (Some c', None) /\ c' <> sar_cli.
Proof. exact c10_ex. Qed.
