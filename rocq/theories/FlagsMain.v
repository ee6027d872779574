(** * Flags and configuration: the properties (proofs) *)

From Verif Require Import GoBase GoFacts Flags SpecFlags FlagsFacts FlagStrFacts Config Shipped ConfigFacts.
Local Open Scope string_scope.
Local Open Scope N_scope.

(** C01: reading a flag returns the bits of its field and depends on nothing else
    of the header. *)
Lemma c01_get_is_field : forall T field f h h',
  lookup field (t_flags T) = Some f -> f_msb f + f_len f <= 32 ->
  sf_get T h field = bit_field 32 (f_msb f) (f_len f) h /\
  ((forall i, in_field 32 (f_msb f) (f_len f) i -> N.testbit h' i = N.testbit h i) ->
   sf_get T h' field = sf_get T h field).
Proof.
  intros T field f h h' L W. unfold sf_get. rewrite (flag_of_lookup _ _ _ L).
  rewrite !get_bits_field by auto. split; auto. intros E.
  apply N.bits_inj; intro i. rewrite !bit_field_testbit. destruct (N.ltb_spec i (f_len f)); auto.
  apply E. unfold in_field; lia.
Qed.
Example c01_get_is_field_ex :
  exists f, lookup "errcode" (t_flags sar) = Some f /\ f_msb f + f_len f <= 32 /\ sf_get sar 0x24000011 "errcode" = 17.
Proof. eexists; split; [vm_compute; reflexivity | split; [vm_compute; discriminate | vm_compute; reflexivity]]. Qed.

(** C01: with the shipped tables every flag is where the protocol puts it. *)
Lemma c01_shipped_positions : forall name msb len h,
  In (name, msb, len) documented_fields -> sf_get sar h name = bit_field 32 msb len h.
Proof.
  intros name msb len h H.
  assert (K : forallb (fun e => match e with (n, m, l) =>
               match lookup n (t_flags sar) with Some f => (f_msb f =? m) && (f_len f =? l) && (m + l <=? 32) | None => false end end)
               documented_fields = true) by (vm_compute; reflexivity).
  rewrite forallb_forall in K. specialize (K _ H). cbv beta iota in K.
  destruct (lookup name (t_flags sar)) as [f|] eqn:L; [|discriminate].
  apply andb_true_iff in K; destruct K as [K K3]. apply andb_true_iff in K; destruct K as [K1 K2].
  apply N.eqb_eq in K1, K2. apply N.leb_le in K3. subst.
  apply (c01_get_is_field sar name f h h); auto.
Qed.
Example c01_shipped_positions_ex : In ("csumlen", 24, 4) documented_fields /\ sf_get sar 0x24000051 "csumlen" = 5.
Proof. split; [vm_compute; intuition | vm_compute; reflexivity]. Qed.

(** C02: setting a flag to one of its options replaces exactly its field; it reads
    back, is idempotent, and flags with other bits keep their value. *)
Lemma c02_set_spec : forall T field f name v h,
  wf_tables T -> h < 2 ^ 32 -> lookup field (t_flags T) = Some f -> lookup name (f_opts f) = Some v ->
  exists h', sf_set T h field name = Ret h' /\ h' < 2 ^ 32 /\
    field_replaced 32 (f_msb f) (f_len f) h v h' /\
    sf_get T h' field = v /\ sf_getstr T h' field = Ret name /\
    sf_set T h' field name = Ret h' /\
    forall other g, lookup other (t_flags T) = Some g ->
      disjoint_fields (f_msb f) (f_len f) (f_msb g) (f_len g) -> sf_get T h' other = sf_get T h other.
Proof.
  intros T field f name v h W Hh L O.
  destruct (wf_lookup _ _ _ W L) as (W1 & W2 & W3 & W4).
  assert (Hv : v < 2 ^ f_len f) by (eapply W2; apply lookup_In; eauto).
  exists (set_bits 32 f h v). rewrite !sf_set_eq, L, O. split; [reflexivity|].
  split; [apply set_bits_bound; auto|]. split; [apply set_bits_replaced; auto|].
  assert (G : sf_get T (set_bits 32 f h v) field = v).
  { unfold sf_get. rewrite (flag_of_lookup _ _ _ L), get_bits_field by auto. apply set_bits_field_same; auto. }
  split; [exact G|]. split; [|split].
  - unfold sf_getstr. rewrite G, (flag_of_lookup _ _ _ L). apply opt_name_found; auto. apply lookup_In; auto.
  - rewrite set_bits_idem by auto. reflexivity.
  - intros other g Lo D. destruct (wf_lookup _ _ _ W Lo) as (Wg & _).
    unfold sf_get. rewrite !(flag_of_lookup _ _ _ Lo), !get_bits_field by auto.
    apply set_bits_other_field; auto.
Qed.
Example c02_set_spec_ex :
  wf_tables sar /\ sf_set sar 0x24000011 "errcode" "badpacket" = Ret 0x2400000a.
Proof. split; [exact sar_wf | vm_compute; reflexivity]. Qed.

(** C02: setting an unknown flag or option terminates the process; no header results. *)
Lemma c02_set_unknown : forall T h field name,
  (~ exists v, option_value T field name v) -> sf_set T h field name = Fatal.
Proof.
  intros T h field name H. rewrite sf_set_eq.
  destruct (lookup field (t_flags T)) as [f|] eqn:L; auto.
  destruct (lookup name (f_opts f)) as [v|] eqn:O; auto.
  exfalso; apply H. exists v, f; auto.
Qed.
Example c02_set_unknown_ex : sf_set sar 0x24000011 "errcode" "nosuchcode" = Fatal /\ sf_set sar 0 "request" "get" = Fatal.
Proof. split; vm_compute; reflexivity. Qed.

(** C02: Test compares the field with the option; an unknown name terminates the process. *)
Lemma c02_test_spec : forall T h field u name, wf_tables T ->
  (forall f v, lookup field (t_flags T) = Some f -> lookup name (f_opts f) = Some v ->
     sf_test T h field u name = Ret (bit_field 32 (f_msb f) (f_len f) h =? v)) /\
  ((~ exists v, option_value T field name v) -> sf_test T h field u name = Fatal).
Proof.
  intros T h field u name W. split.
  - intros f v L O. destruct (c02_set_spec T field f name v 0 W) as (h' & E & _ & _ & G & _); auto; [reflexivity|].
    unfold sf_test. rewrite E; cbn [obind]. rewrite G. unfold sf_get. rewrite (flag_of_lookup _ _ _ L).
    rewrite get_bits_field; [reflexivity|]. apply (wf_lookup _ _ _ W L).
  - intros N. unfold sf_test. rewrite c02_set_unknown by auto. reflexivity.
Qed.
Example c02_test_spec_ex : sf_test sar 0x24000011 "errcode" "" "badstatus" = Ret true.
Proof. vm_compute; reflexivity. Qed.

(** C03: setting distinct flags of a frame type gives the same outcome in every
    order (the shipped tables). *)
Lemma c03_setflags_order : forall ft settings settings' h,
  In ft frame_type_names -> h < 2 ^ 32 ->
  (forall p, In p settings -> In (fst p) (sf_values sar ft)) ->
  same_map settings settings' ->
  sf_setflags sar h settings' = sf_setflags sar h settings.
Proof.
  intros ft l l' h Hft Hh Hin [ND P]. apply setflags_perm; auto using sar_wf.
  intros a b f g Ia Ib N La Lb. eapply sar_disjoint; eauto; unfold keys in *;
    apply in_map_iff in Ia; apply in_map_iff in Ib;
    destruct Ia as (pa & Ea & Ia), Ib as (pb & Eb & Ib); subst; auto.
Qed.
Example c03_setflags_order_ex :
  sf_setflags sar 0x23000000 [("eod", "yes"); ("descriptor", "d64"); ("reqtstamp", "no")] = Ret 0x23808000 /\
  sf_setflags sar 0x23000000 [("reqtstamp", "no"); ("eod", "yes"); ("descriptor", "d64")] = Ret 0x23808000 /\
  forallb (fun f => one_of f (sf_values sar "data")) ["eod"; "descriptor"; "reqtstamp"] = true.
Proof. repeat split; vm_compute; reflexivity. Qed.

(** C03: and the result has exactly those settings, every other bit unchanged. *)
Lemma c03_setflags_result : forall ft settings h,
  In ft frame_type_names -> h < 2 ^ 32 -> NoDup (map fst settings) ->
  (forall p, In p settings -> In (fst p) (sf_values sar ft) /\ valid_setting sar p) ->
  exists h', sf_setflags sar h settings = Ret h' /\ h' < 2 ^ 32 /\
    (forall field name, In (field, name) settings -> sf_getstr sar h' field = Ret name) /\
    (forall i, (forall p f, In p settings -> lookup (fst p) (t_flags sar) = Some f -> ~ in_field 32 (f_msb f) (f_len f) i) ->
       N.testbit h' i = N.testbit h i).
Proof.
  intros ft l h Hft Hh ND V.
  destruct (setflags_result sar l sar_wf ND) with (h := h) as (h' & E & B & F & U); auto.
  - intros a b f g Ia Ib N La Lb. eapply sar_disjoint; eauto; unfold keys in *;
      apply in_map_iff in Ia; apply in_map_iff in Ib;
      destruct Ia as (pa & Ea & Ia), Ib as (pb & Eb & Ib); subst; apply V; auto.
  - intros p Ip. apply V; auto.
  - exists h'. split; [exact E|]. split; [exact B|]. split; [|exact U].
    intros field name I. destruct (V _ I) as [_ (n & f & L & O)]; cbn [fst snd] in L, O.
    unfold sf_getstr, sf_get. rewrite (flag_of_lookup _ _ _ L).
    destruct (wf_lookup _ _ _ sar_wf L) as (W1 & W2 & W3 & W4). rewrite get_bits_field by auto.
    rewrite (F (field, name) f n I L O). apply opt_name_found; auto. apply lookup_In; auto.
Qed.
Example c03_setflags_result_ex : sf_setflags sar 0 [("eod", "yes"); ("descriptor", "d64")] = Ret 0x808000.
Proof. vm_compute; reflexivity. Qed.

(** C04: the name of a field's value: the option with that value, the process
    terminates exactly when there is none, and the order of the map is irrelevant. *)
Lemma c04_getstr_spec : forall T field f h, wf_tables T -> lookup field (t_flags T) = Some f ->
  (forall name, sf_getstr T h field = Ret name <-> In (name, bit_field 32 (f_msb f) (f_len f) h) (f_opts f)) /\
  (sf_getstr T h field = Fatal <-> ~ In (bit_field 32 (f_msb f) (f_len f) h) (map snd (f_opts f))) /\
  sf_getstr T h field <> Panic /\
  sf_name T h field = sf_getstr T h field /\
  (forall T' f', lookup field (t_flags T') = Some f' -> same_flag f f' -> sf_getstr T' h field = sf_getstr T h field).
Proof.
  intros T field f h W L. destruct (wf_lookup _ _ _ W L) as (W1 & W2 & W3 & W4).
  unfold sf_name, sf_getstr, sf_get. rewrite (flag_of_lookup _ _ _ L). rewrite get_bits_field by auto.
  split; [|split; [|split; [|split]]].
  - intros name; split; [apply opt_name_Ret | apply opt_name_found; auto].
  - apply opt_name_Fatal.
  - apply opt_name_not_Panic.
  - reflexivity.
  - intros T' f' L' (E1 & E2 & P). rewrite (flag_of_lookup _ _ _ L').
    rewrite get_bits_field by lia. rewrite E1, E2. apply opt_name_perm; auto.
Qed.
Example c04_getstr_spec_ex :
  sf_getstr sar 0x24000011 "errcode" = Ret "badstatus" /\ sf_getstr sar 0x24000013 "errcode" = Fatal.
Proof. split; vm_compute; reflexivity. Qed.

(** C04: reading a flag the table does not have terminates the process. *)
Lemma c04_getstr_unknown : forall T field h, lookup field (t_flags T) = None -> sf_getstr T h field = Fatal.
Proof. intros; unfold sf_getstr, flag_of. rewrite H. reflexivity. Qed.
Example c04_getstr_unknown_ex : lookup "request" (t_flags sar) = None.
Proof. vm_compute; reflexivity. Qed.

(** C05: the same laws for the 16-bit directory entry flags. *)
Lemma c05_dirent_flags : forall T field f h, wf_tables T -> h < 2 ^ 16 ->
  lookup field (t_dirent T) = Some f ->
  sd_get T h field = bit_field 16 (f_msb f) (f_len f) h /\
  (forall name, sd_getstr T h field = Ret name <-> In (name, bit_field 16 (f_msb f) (f_len f) h) (f_opts f)) /\
  (sd_getstr T h field = Fatal <-> ~ In (bit_field 16 (f_msb f) (f_len f) h) (map snd (f_opts f))) /\
  sd_name T h field = sd_getstr T h field /\
  (forall T' f', lookup field (t_dirent T') = Some f' -> same_flag f f' -> sd_getstr T' h field = sd_getstr T h field) /\
  (forall name v, lookup name (f_opts f) = Some v ->
     sd_test T h field name = Ret (bit_field 16 (f_msb f) (f_len f) h =? v) /\
     exists h', sd_set T h field name = Ret h' /\ h' < 2 ^ 16 /\
       field_replaced 16 (f_msb f) (f_len f) h v h' /\
       sd_get T h' field = v /\ sd_getstr T h' field = Ret name /\ sd_set T h' field name = Ret h' /\
       forall other g, lookup other (t_dirent T) = Some g ->
         disjoint_fields (f_msb f) (f_len f) (f_msb g) (f_len g) -> sd_get T h' other = sd_get T h other) /\
  (forall name, lookup name (f_opts f) = None -> sd_set T h field name = Fatal).
Proof.
  intros T field f h W Hh L.
  assert (WF : forall n g, lookup n (t_dirent T) = Some g -> wf_flag 16 g).
  { intros n g Lg. destruct W as (_ & W & _). apply W with n. apply lookup_In; auto. }
  destruct (WF _ _ L) as (W1 & W2 & W3 & W4).
  unfold sd_name, sd_getstr, sd_get. rewrite (dflag_of_lookup _ _ _ L). rewrite get_bits_field by auto.
  split; [reflexivity|]. split; [|split; [|split; [|split; [|split]]]].
  - intros name; split; [apply opt_name_Ret | apply opt_name_found; auto].
  - apply opt_name_Fatal.
  - reflexivity.
  - intros T' f' L' (E1 & E2 & P). rewrite (dflag_of_lookup _ _ _ L').
    rewrite get_bits_field by lia. rewrite E1, E2. apply opt_name_perm; auto.
  - intros name v O. assert (Hv : v < 2 ^ f_len f) by (eapply W2; apply lookup_In; eauto).
    split.
    + unfold sd_test, sd_get. rewrite sd_set_eq, L, O; cbn [obind]. rewrite (dflag_of_lookup _ _ _ L).
      rewrite !get_bits_field by auto. rewrite set_bits_field_same by (auto; reflexivity). reflexivity.
    + exists (set_bits 16 f h v). rewrite !sd_set_eq, L, O. split; [reflexivity|].
      split; [apply set_bits_bound; auto|]. split; [apply set_bits_replaced; auto|].
      rewrite get_bits_field by auto. rewrite set_bits_field_same by auto. split; [reflexivity|].
      split; [apply opt_name_found; auto; apply lookup_In; auto|].
      split; [rewrite set_bits_idem by auto; reflexivity|].
      intros other g Lo D. destruct (WF _ _ Lo) as (Wg & _).
      rewrite !(dflag_of_lookup _ _ _ Lo), !get_bits_field by auto. apply set_bits_other_field; auto.
  - intros name O. rewrite sd_set_eq, L, O. reflexivity.
Qed.
Example c05_dirent_flags_ex :
  wf_tables sar /\ sd_set sar 0x8000 "property" "specialfile" = Ret 0x8200 /\ sd_getstr sar 0x8200 "sod" = Ret "sod"
  /\ sd_getstr sar 0x0200 "sod" = Fatal.
Proof. split; [exact sar_wf | repeat split; vm_compute; reflexivity]. Qed.

(** C05: and for the 8-bit timestamp type. *)
Lemma c05_timestamp_type : forall T h, wf_tables T -> h < 2 ^ 8 ->
  let f := t_tstamps T in
  st_get T h = bit_field 8 (f_msb f) (f_len f) h /\
  (forall name, st_getstr T h = Ret name <-> In (name, bit_field 8 (f_msb f) (f_len f) h) (f_opts f)) /\
  (st_getstr T h = Fatal <-> ~ In (bit_field 8 (f_msb f) (f_len f) h) (map snd (f_opts f))) /\
  st_name T h = st_getstr T h /\
  (forall T', same_flag f (t_tstamps T') -> st_getstr T' h = st_getstr T h) /\
  (forall name v, lookup name (f_opts f) = Some v ->
     exists h', st_set T h name = Ret h' /\ h' < 2 ^ 8 /\ field_replaced 8 (f_msb f) (f_len f) h v h' /\
       st_getstr T h' = Ret name /\ st_set T h' name = Ret h') /\
  (forall name, lookup name (f_opts f) = None -> st_set T h name = Fatal).
Proof.
  intros T h W Hh f. destruct W as (_ & _ & W). change (t_tstamps T) with f in W. destruct W as (W1 & W2 & W3 & W4).
  unfold st_name, st_getstr, st_get, st_set. fold f. rewrite get_bits_field by auto.
  split; [reflexivity|]. split; [|split; [|split; [|split; [|split]]]].
  - intros name; split; [apply opt_name_Ret | apply opt_name_found; auto].
  - apply opt_name_Fatal.
  - reflexivity.
  - intros T' (E1 & E2 & P). rewrite get_bits_field by lia. rewrite E1, E2. apply opt_name_perm; auto.
  - intros name v O. assert (Hv : v < 2 ^ f_len f) by (eapply W2; apply lookup_In; eauto).
    exists (set_bits 8 f h v). rewrite O. split; [reflexivity|].
    split; [apply set_bits_bound; auto|]. split; [apply set_bits_replaced; auto|].
    rewrite get_bits_field by auto. rewrite set_bits_field_same by auto.
    split; [apply opt_name_found; auto; apply lookup_In; auto|].
    rewrite set_bits_idem by auto. reflexivity.
  - intros name O. rewrite O. reflexivity.
Qed.
Example c05_timestamp_type_ex :
  wf_tables sar /\ st_set sar 0 "epoch2000_32" = Ret 5 /\ st_getstr sar 5 = Ret "epoch2000_32" /\ st_getstr sar 6 = Fatal.
Proof. split; [exact sar_wf | repeat split; vm_compute; reflexivity]. Qed.

(** C06: reading a configuration does not depend on the order of its top-level entries. *)
Lemma c06_readconfig_order : forall env obj obj' r,
  same_map obj obj' -> readconfig env obj = Ret r -> readconfig env obj' = Ret r.
Proof. intros env obj obj' r [ND P]. apply readconfig_perm; auto. Qed.
(** C06: the shipped file loads, in every order, without error. *)
Lemma c06_shipped_loads :
  NoDup (keys saratoga_json) /\
  forall obj, Permutation saratoga_json obj -> readconfig "" obj = Ret (sar_cli, sar, sar_commands, None).
Proof.
  split; [exact saratoga_json_keys|]. intros obj P.
  apply (readconfig_perm "" saratoga_json obj _ saratoga_json_keys P shipped_reads).
Qed.
(** C06: the shipped tables are consistent and the defaults valid. *)
Lemma c06_shipped_consistent :
  wf_tables sar /\
  (forall ft a b f g, In ft frame_type_names -> In a (sf_values sar ft) -> In b (sf_values sar ft) -> a <> b ->
     lookup a (t_flags sar) = Some f -> lookup b (t_flags sar) = Some g ->
     disjoint_fields (f_msb f) (f_len f) (f_msb g) (f_len g)) /\
  (forall p, In p (cl_global sar_cli) -> valid_setting sar p) /\
  length (cl_global sar_cli) = 9%nat.
Proof.
  split; [exact sar_wf|]. split; [exact sar_disjoint|]. split; [exact sar_cli_valid | vm_compute; reflexivity].
Qed.
Example c06_order_ex :
  exists obj, Permutation saratoga_json obj /\ obj <> saratoga_json.
Proof.
  exists (rev saratoga_json). split; [apply Permutation_rev | intro H; apply (f_equal keys) in H; vm_compute in H; discriminate].
Qed.

(** C07: a configuration is rejected exactly when a default flag is invalid. *)
Lemma c07_invalid_default_rejected : forall env obj cli T cmds e,
  readconfig env obj = Ret (cli, T, cmds, e) ->
  (e = None <-> forall p, In p (cl_global cli) -> valid_setting T p).
Proof.
  intros env obj cli T cmds e H. unfold readconfig in H.
  destruct (ofold read_key init_confst obj); cbn [obind] in H; try discriminate.
  assert (E : e = check_globals T (cl_global cli)) by congruence. rewrite E. apply check_globals_None.
Qed.
Example c07_ex :
  exists e, readconfig "" (map (fun p => if String.eqb (fst p) "txwilling" then ("txwilling", JStr "on") else p) saratoga_json)
            = Ret e /\ snd e = Some "Invalid Flag:txwilling=on".
Proof. eexists; split; [vm_compute; reflexivity | vm_compute; reflexivity]. Qed.

(** C08: replacing and adding in a flag list act as on a map. *)
Lemma c08_flag_strings : forall T items f v, clean_names T ->
  (forall p, In p items -> valid_setting T p) -> valid_setting T (f, v) ->
  (items <> [] ->
   exists s, sf_replaceflag T (flag_list items) f v = Ret s /\
     sf_flagvalue s f = Ret v /\
     forall g, g <> f -> sf_flagvalue s g = Ret (match setting_of items g with Some w => w | None => "" end)) /\
  (exists s, sf_addflag T (flag_list items) f v = Ret s /\
     sf_flagvalue s f = Ret (match setting_of items f with Some old => old | None => v end) /\
     forall g, g <> f -> sf_flagvalue s g = Ret (match setting_of items g with Some w => w | None => "" end)) /\
  (items <> [] -> forall g, sf_flagvalue (flag_list items) g = Ret (match setting_of items g with Some w => w | None => "" end)).
Proof.
  intros T items f v C V Vf. destruct (flag_strings_map T items f v C V Vf) as [A B].
  split; [exact A|]. split; [exact B|]. intros NE g. apply (flag_strings_lookup T); auto.
Qed.
(** C08: an invalid setting terminates the process. *)
Lemma c08_flag_strings_invalid : forall T items f v, clean_names T ->
  (forall p, In p items -> valid_setting T p) -> ~ valid_setting T (f, v) ->
  (items <> [] -> sf_replaceflag T (flag_list items) f v = Fatal) /\ sf_addflag T (flag_list items) f v = Fatal.
Proof.
  intros T items f v C V N. destruct (flag_strings_invalid T items f v C V N) as [A B]. split; auto.
Qed.
(** C08: the same for directory entry flag lists. *)
Lemma c08_dirent_flag_strings : forall T items f v, clean_names T ->
  (forall p, In p items -> valid_dsetting T p) -> items <> [] ->
  (valid_dsetting T (f, v) ->
   exists s, sd_replaceflag T (flag_list items) f v = Ret s /\
     sf_flagvalue s f = Ret v /\
     forall g, g <> f -> sf_flagvalue s g = Ret (match setting_of items g with Some w => w | None => "" end)) /\
  (~ valid_dsetting T (f, v) -> sd_replaceflag T (flag_list items) f v = Fatal).
Proof. exact dflag_strings_map. Qed.
(** C08: replacing in the empty flag list panics (defect). *)
Lemma c08_replace_in_empty_list_panics : forall T f v, f <> "" -> sf_replaceflag T (flag_list []) f v = Panic.
Proof. exact replace_empty_panics. Qed.
Example c08_ex :
  clean_names sar /\ valid_setting sar ("descriptor", "d64") /\
  flag_list [("descriptor", "d32"); ("eod", "no")] = "descriptor=d32,eod=no" /\
  sf_replaceflag sar "descriptor=d32,eod=no" "eod" "yes" = Ret "descriptor=d32,eod=yes" /\
  sf_replaceflag sar "descriptor=d32,eod=no" "reqtstamp" "yes" = Ret "descriptor=d32,eod=no,reqtstamp=yes" /\
  sd_replaceflag sar "descriptor=d32,property=normalfile" "descriptor" "d16" = Ret "descriptor=d16,property=normalfile".
Proof.
  split; [exact sar_clean|]. split; [apply sf_valid_iff; vm_compute; reflexivity|].
  repeat split; vm_compute; reflexivity.
Qed.

(** C09: the flag string of a frame type lists exactly the global flags that apply to it. *)
Lemma c09_setglobal : forall T ft cli,
  NoDup (keys (cl_global cli)) -> NoDup (sf_values T ft) ->
  (forall p, In p (cl_global cli) -> clean (fst p) /\ clean (snd p)) ->
  exists settings, sf_setglobal T ft cli = flag_list settings /\
    (forall f v, In (f, v) settings <-> In f (sf_values T ft) /\ lookup f (cl_global cli) = Some v) /\
    map fst settings = filter (fun f => has_key f (cl_global cli)) (sf_values T ft).
Proof.
  intros T ft cli ND NDf C. exists (projection (sf_values T ft) (cl_global cli)).
  split; [apply setglobal_spec; auto|]. split.
  - intros f v.
    assert (NDp : forall fields, NoDup fields -> NoDup (keys (projection fields (cl_global cli)))
                   /\ forall p, In p (projection fields (cl_global cli)) -> In (fst p) fields).
    { induction fields as [|h r IH]; intros N; [split; [constructor | intros p []]|].
      inversion N; subst. destruct (IH H2) as [I1 I2]. cbn [projection].
      destruct (lookup h (cl_global cli)); [|split; [auto | intros p Hp; right; auto]].
      split; [constructor; auto; intro F; apply in_map_iff in F; destruct F as (q & Eq & Iq); apply I2 in Iq; cbn [fst] in Eq; congruence|].
      intros p [Hp|Hp]; [subst; left; auto | right; auto]. }
    destruct (NDp _ NDf) as [N1 N2].
    pose proof (projection_lookup (sf_values T ft) (cl_global cli) f NDf) as PL.
    split.
    + intros I. apply (In_lookup f) in I; auto. rewrite I in PL.
      destruct (in_dec String.string_dec f (sf_values T ft)); [|discriminate]. auto.
    + intros [I L]. apply lookup_In. rewrite PL. destruct (in_dec String.string_dec f (sf_values T ft)); [auto|contradiction].
  - induction (sf_values T ft) as [|h r IH]; [reflexivity|].
    inversion NDf; subst. cbn [projection filter]. unfold has_key at 1. destruct (lookup h (cl_global cli)); cbn [map fst]; rewrite IH; auto.
Qed.
(** C09: and does not depend on the iteration order of the global flags. *)
Lemma c09_setglobal_order : forall T ft cli cli',
  (forall p, In p (cl_global cli) -> clean (fst p) /\ clean (snd p)) ->
  same_map (cl_global cli) (cl_global cli') -> sf_setglobal T ft cli' = sf_setglobal T ft cli.
Proof.
  intros T ft cli cli' C SM. destruct SM as [ND P].
  rewrite !setglobal_spec; auto.
  - f_equal. apply projection_perm. split; auto.
  - eapply Permutation_NoDup; [apply Permutation_map, P | auto].
  - intros p I. apply C. eapply Permutation_in; [apply Permutation_sym, P | auto].
Qed.
Example c09_ex :
  sf_setglobal sar "beacon" sar_cli = "descriptor=d64,stream=no,txwilling=yes,rxwilling=yes,udplite=no,freespace=yes" /\
  NoDup (keys (cl_global sar_cli)) /\ NoDup (sf_values sar "beacon").
Proof.
  split; [vm_compute; reflexivity|]. split; [eapply nodupb_NoDup; [apply String.eqb_eq|]; vm_compute; reflexivity|].
  apply sar_fields_nodup. vm_compute; auto.
Qed.

(** C10: what the copy of the CLI settings is: everything equal but the IPv6 group
    and the beacon count. *)
Lemma c10_copy_cliflags : forall c, NoDup (keys (cl_global c)) ->
  (cl_global c = [] -> fst (copy_cliflags c) = None /\ snd (copy_cliflags c) <> None) /\
  (cl_global c <> [] ->
   copy_cliflags c =
     (Some {| cl_global := cl_global c; cl_v4 := cl_v4 c; cl_v6 := cl_v4 c; cl_port := cl_port c;
              cl_timestamp := cl_timestamp c; cl_timeout := cl_timeout c; cl_timezone := cl_timezone c;
              cl_prompt := cl_prompt c; cl_ppad := cl_ppad c; cl_sardir := cl_sardir c;
              cl_buffersize := cl_buffersize c; cl_bcount := 0 |}, None)).
Proof.
  intros c ND. split.
  - intros E. unfold copy_cliflags. rewrite E. split; [reflexivity | discriminate].
  - intros NE. unfold copy_cliflags.
    assert (F : forall g acc, NoDup (keys (acc ++ g)%list) ->
       fold_left (fun m (e : string * string) => update (fst e) (snd e) m) g acc = (acc ++ g)%list).
    { induction g as [|[k v] g IH]; intros acc N; [simpl; rewrite app_nil_r; reflexivity|].
      cbn [fold_left fst snd].
      assert (U : update k v acc = (acc ++ [(k, v)])%list).
      { assert (NI : ~ In k (keys acc)).
        { unfold keys in N. rewrite map_app in N. cbn [map fst] in N.
          apply NoDup_remove_2 in N. intro F; apply N. apply in_or_app; left; auto. }
        clear - NI. induction acc as [|[k' v'] acc IH]; [reflexivity|].
        cbn [update app]. destruct (String.eqb_spec k k'); [subst; exfalso; apply NI; left; auto|].
        rewrite IH; [reflexivity|]. intro F; apply NI; right; auto. }
      rewrite U, IH; rewrite <- app_assoc; [reflexivity | exact N]. }
    rewrite (F (cl_global c) [] ND). destruct (cl_global c); [congruence | reflexivity].
Qed.
(** C10: so the copy is faithful only for equal groups and no beacon count. *)
Lemma c10_copy_faithful_iff : forall c c', NoDup (keys (cl_global c)) -> cl_global c <> [] ->
  copy_cliflags c = (Some c', None) -> (c' = c <-> cl_v6 c = cl_v4 c /\ cl_bcount c = 0).
Proof.
  intros c c' ND NE H. destruct (c10_copy_cliflags c ND) as [_ E]. rewrite (E NE) in H. inversion H; subst; clear H.
  destruct c; cbn. split.
  - intros H. injection H. intros. subst. auto.
  - intros [A B]. subst. reflexivity.
Qed.
Example c10_ex : cl_v6 sar_cli <> cl_v4 sar_cli /\ exists c', copy_cliflags sar_cli = (Some c', None) /\ c' <> sar_cli.
Proof.
  split; [vm_compute; discriminate|]. eexists; split; [vm_compute; reflexivity | vm_compute; discriminate].
Qed.
