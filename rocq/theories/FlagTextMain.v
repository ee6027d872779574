(** * What a text of flags says: theorems about arbitrary texts *)

From Verif Require Import GoBase GoFacts Flags SpecFlags FlagsFacts Config Shipped ConfigFacts SpecWire SarFacts Timestamp SpecTime TimeMain Data Request SpecFrames FrameFacts FlagStrFacts BuildFacts DataMain SpecRequest RequestMain Holes Status SpecStatus StatusMain Beacon SpecBeacon BeaconMain Fileio Dirent SpecDirent DirentMain Metadata SpecMetadata MetadataMain SpecFlagText FlagTextFacts.
Local Open Scope string_scope.
Local Open Scope N_scope.

(** C133: every text says something, and only one thing. *)
Lemma c133_reading : forall s,
  (exists l, text_says s l) /\ (forall l l', text_says s l -> text_says s l' -> l = l') /\
  (exists l, blank_text_says s l) /\ (forall l l', blank_text_says s l -> blank_text_says s l' -> l = l').
Proof.
  intros s. repeat split.
  - eexists. apply text_says_iff. reflexivity.
  - intros l l' A B. apply text_says_iff in A, B. congruence.
  - eexists. apply blank_text_iff. reflexivity.
  - intros l l' A B. apply blank_text_iff in A, B. congruence.
Qed.

(** C133: asking any text for a flag: the value in the first item of that name; the
    program crashes when that item is a name alone. *)
Lemma c133_value : forall s l f, blank_text_says s l ->
  sf_flagvalue s f = match lookup f l with
                     | Some (Some v) => Ret v
                     | Some None => Panic
                     | None => Ret ""
                     end.
Proof.
  intros s l f H. apply blank_text_iff in H. subst l. unfold sf_flagvalue.
  induction (split_on "," (remove_spaces s)) as [|it r IH]; [reflexivity|].
  cbn [flagvalue_loop map lookup]. destruct (read_item it) as [n ov] eqn:R. symmetry in R.
  destruct (read_item_split it n ov R) as (x & E). rewrite E. cbn [index nth_error obind].
  rewrite (String.eqb_sym f n). destruct (String.eqb n f); [|exact IH]. destruct ov; reflexivity.
Qed.

Lemma add_shape : forall T, sf_addflag T = add_spec (sf_valid T).
Proof. reflexivity. Qed.
Lemma addd_shape : forall T, sd_addflag T = add_spec (sd_valid T).
Proof. reflexivity. Qed.

Lemma replace_good : forall valid f v its items acc rep,
  map (after_replacing f v) (map read_item its) = map Some items ->
  (forall p, In p items -> valid (fst p) (snd p) = true) ->
  replace_loop (add_spec valid) its (flag_list acc) rep f v =
    Ret (flag_list (acc ++ items)%list, rep || existsb (fun p => String.eqb (fst p) f) (map read_item its)).
Proof.
  intros valid f v. induction its as [|it r IH]; intros items acc rep M V.
  - destruct items; [|discriminate M]. cbn. rewrite app_nil_r, orb_false_r. reflexivity.
  - destruct items as [|p items]; [discriminate M|]. cbn [map] in M.
    destruct (read_item it) as [n ov] eqn:R. symmetry in R.
    destruct (read_item_split it n ov R) as (x & E).
    assert (M1 : after_replacing f v (n, ov) = Some p) by congruence.
    assert (M2 : map (after_replacing f v) (map read_item r) = map Some items) by congruence.
    pose proof (V p (or_introl eq_refl)) as Vp.
    assert (V' : forall p, In p items -> valid (fst p) (snd p) = true) by (intros q Q; apply V; right; exact Q).
    cbn [replace_loop]. rewrite E. cbn [index nth_error obind map existsb]. rewrite <- R. cbn [fst].
    unfold after_replacing in M1. cbn [fst snd] in M1.
    destruct (String.eqb_spec n f) as [->|N].
    + injection M1 as <-. rewrite add_items. cbn [fst snd] in Vp. rewrite Vp. cbn [obind].
      rewrite (IH items _ _ M2 V'). rewrite <- app_assoc. cbn [app orb]. rewrite orb_true_r. reflexivity.
    + destruct ov as [w|]; [|discriminate M1]. injection M1 as <-. cbn [index nth_error obind]. rewrite add_items. cbn [fst snd] in Vp. rewrite Vp.
      cbn [obind]. rewrite (IH items _ _ M2 V'). rewrite <- app_assoc. cbn [app orb]. reflexivity.
Qed.

Lemma replace_bad : forall valid f v it its2 its1 items acc rep,
  map (after_replacing f v) (map read_item its1) = map Some items ->
  (forall p, In p items -> valid (fst p) (snd p) = true) ->
  (after_replacing f v (read_item it) = None ->
     replace_loop (add_spec valid) (its1 ++ it :: its2) (flag_list acc) rep f v = Panic) /\
  (forall q, after_replacing f v (read_item it) = Some q -> valid (fst q) (snd q) = false ->
     replace_loop (add_spec valid) (its1 ++ it :: its2) (flag_list acc) rep f v = Fatal).
Proof.
  intros valid f v it its2. induction its1 as [|a r IH]; intros items acc rep M V.
  - cbn [app replace_loop]. destruct (read_item it) as [n ov] eqn:R. symmetry in R.
    destruct (read_item_split it n ov R) as (x & E). rewrite E. cbn [index nth_error obind].
    unfold after_replacing; cbn [fst snd]. destruct (String.eqb_spec n f) as [->|N].
    + split; [discriminate|]. intros q Q F. injection Q as <-. rewrite add_items. cbn [fst snd] in F. rewrite F. reflexivity.
    + destruct ov as [w|]; (split; [try discriminate; reflexivity|]); intros q Q F; [|discriminate Q].
      injection Q as <-. cbn [index nth_error obind]. rewrite add_items. cbn [fst snd] in F. rewrite F. reflexivity.
  - destruct items as [|p items]; [discriminate M|]. cbn [map] in M. cbn [app replace_loop].
    destruct (read_item a) as [n ov] eqn:R. symmetry in R.
    destruct (read_item_split a n ov R) as (x & E).
    assert (M1 : after_replacing f v (n, ov) = Some p) by congruence.
    assert (M2 : map (after_replacing f v) (map read_item r) = map Some items) by congruence.
    pose proof (V p (or_introl eq_refl)) as Vp.
    assert (V' : forall p, In p items -> valid (fst p) (snd p) = true) by (intros q Q; apply V; right; exact Q).
    rewrite E. cbn [index nth_error obind].
    unfold after_replacing in M1. cbn [fst snd] in M1.
    destruct (String.eqb_spec n f) as [->|N].
    + injection M1 as <-. rewrite add_items. cbn [fst snd] in Vp. rewrite Vp. cbn [obind]. exact (IH items _ _ M2 V').
    + destruct ov as [w|]; [|discriminate M1]. injection M1 as <-. cbn [index nth_error obind]. rewrite add_items. cbn [fst snd] in Vp. rewrite Vp.
      cbn [obind]. exact (IH items _ _ M2 V').
Qed.

Lemma existsb_names : forall f (l : list (string * option string)),
  existsb (fun p => String.eqb (fst p) f) l = true <-> In f (map fst l).
Proof.
  intros f l. rewrite existsb_exists, in_map_iff. split.
  - intros (p & I & E). apply String.eqb_eq in E. eauto.
  - intros (p & E & I). exists p. split; [exact I|]. apply String.eqb_eq; exact E.
Qed.

Lemma replace_any : forall valid s l f v, text_says s l ->
  (forall items, map (after_replacing f v) l = map Some items -> (forall p, In p items -> valid (fst p) (snd p) = true) ->
     (In f (map fst l) -> replace_model valid s f v = Ret (flag_list items)) /\
     (~ In f (map fst l) -> valid f v = true -> replace_model valid s f v = Ret (flag_list (items ++ [(f, v)])%list)) /\
     (~ In f (map fst l) -> valid f v = false -> replace_model valid s f v = Fatal)) /\
  (forall l1 p l2 items, l = (l1 ++ p :: l2)%list -> map (after_replacing f v) l1 = map Some items ->
     (forall p, In p items -> valid (fst p) (snd p) = true) ->
     (after_replacing f v p = None -> replace_model valid s f v = Panic) /\
     (forall q, after_replacing f v p = Some q -> valid (fst q) (snd q) = false -> replace_model valid s f v = Fatal)).
Proof.
  intros valid s l f v H. apply text_says_iff in H. subst l. unfold replace_model. split.
  - intros items M V. change "" with (flag_list []).
    rewrite (replace_good valid f v _ items [] false M V). cbn [app obind orb].
    pose proof (existsb_names f (map read_item (split_on "," s))) as X.
    split; [|split].
    + intros I. apply X in I. rewrite I. reflexivity.
    + intros I Vf. destruct (existsb _ _); [exfalso; apply I, X; reflexivity|]. rewrite add_items, Vf. reflexivity.
    + intros I Vf. destruct (existsb _ _); [exfalso; apply I, X; reflexivity|]. rewrite add_items, Vf. reflexivity.
  - intros l1 p l2 items E M V. apply map_eq_app in E. destruct E as (its1 & its2 & E & E1 & E2).
    destruct its2 as [|it its2]; [discriminate E2|]. cbn [map] in E2. injection E2 as E2 E3. rewrite E. subst l1 p.
    change "" with (flag_list []).
    destruct (replace_bad valid f v it its2 its1 items [] false M V) as [A B]. split.
    + intros N. rewrite (A N). reflexivity.
    + intros q Q F. rewrite (B q Q F). reflexivity.
Qed.

Lemma valid_iff : forall T f v, sf_valid T f v = true <-> valid_setting T (f, v).
Proof.
  intros T f v. unfold sf_valid, sf_good, flag_of, valid_setting, option_value, has_key. cbn [fst snd].
  destruct (lookup f (t_flags T)) as [x|]; [|split; [discriminate|intros (n & g & G & _); discriminate]].
  destruct (lookup v (f_opts x)) as [n|] eqn:L; split; try discriminate; eauto.
  intros (n & g & G & K). injection G as <-. congruence.
Qed.
Lemma dvalid_iff : forall T f v, sd_valid T f v = true <-> valid_dsetting T (f, v).
Proof.
  intros T f v. unfold sd_valid, sd_good, dflag_of, valid_dsetting, has_key. cbn [fst snd].
  destruct (lookup f (t_dirent T)) as [x|]; [|split; [discriminate|intros (g & n & G & _); discriminate]].
  destruct (lookup v (f_opts x)) as [n|] eqn:L; split; try discriminate; eauto.
  intros (g & n & G & K). injection G as <-. congruence.
Qed.
Lemma valid_not : forall T f v, sf_valid T f v = false <-> ~ valid_setting T (f, v).
Proof. intros. rewrite <- valid_iff. destruct (sf_valid T f v); split; intros; try discriminate; try congruence. Qed.
Lemma dvalid_not : forall T f v, sd_valid T f v = false <-> ~ valid_dsetting T (f, v).
Proof. intros. rewrite <- dvalid_iff. destruct (sd_valid T f v); split; intros; try discriminate; try congruence. Qed.

(** C133: replacing a flag in any text.  When every item is a setting that exists
    (those of the flag itself being given the new value), the result is those settings,
    and the new one at the end if it was not among them.  Otherwise the first item at
    fault decides: a name alone crashes the program, a setting that does not exist
    ends it. *)
Lemma c133_replace : forall T s l f v, text_says s l ->
  (forall items, map (after_replacing f v) l = map Some items -> (forall p, In p items -> valid_setting T p) ->
     (In f (map fst l) -> sf_replaceflag T s f v = Ret (flag_list items)) /\
     (~ In f (map fst l) -> valid_setting T (f, v) -> sf_replaceflag T s f v = Ret (flag_list (items ++ [(f, v)])%list)) /\
     (~ In f (map fst l) -> ~ valid_setting T (f, v) -> sf_replaceflag T s f v = Fatal)) /\
  (forall l1 p l2 items, l = (l1 ++ p :: l2)%list -> map (after_replacing f v) l1 = map Some items ->
     (forall p, In p items -> valid_setting T p) ->
     (after_replacing f v p = None -> sf_replaceflag T s f v = Panic) /\
     (forall q, after_replacing f v p = Some q -> ~ valid_setting T q -> sf_replaceflag T s f v = Fatal)).
Proof.
  intros T s l f v H. destruct (replace_any (sf_valid T) s l f v H) as [A B].
  change (replace_model (sf_valid T) s f v) with (sf_replaceflag T s f v) in A, B. split.
  - intros items M V.
    assert (V' : forall p, In p items -> sf_valid T (fst p) (snd p) = true) by (intros [a b] P; apply valid_iff, V, P).
    destruct (A items M V') as (X & Y & Z). split; [exact X|]. split; intros I K; [apply Y|apply Z]; auto; [apply valid_iff|apply valid_not]; auto.
  - intros l1 p l2 items E M V.
    assert (V' : forall p, In p items -> sf_valid T (fst p) (snd p) = true) by (intros [a b] P; apply valid_iff, V, P).
    destruct (B l1 p l2 items E M V') as (X & Y). split; [exact X|]. intros [a b] Q K. apply (Y (a, b) Q). apply valid_not; exact K.
Qed.

(** C133: the same for the flags of directory entries. *)
Lemma c133_replace_dirent : forall T s l f v, text_says s l ->
  (forall items, map (after_replacing f v) l = map Some items -> (forall p, In p items -> valid_dsetting T p) ->
     (In f (map fst l) -> sd_replaceflag T s f v = Ret (flag_list items)) /\
     (~ In f (map fst l) -> valid_dsetting T (f, v) -> sd_replaceflag T s f v = Ret (flag_list (items ++ [(f, v)])%list)) /\
     (~ In f (map fst l) -> ~ valid_dsetting T (f, v) -> sd_replaceflag T s f v = Fatal)) /\
  (forall l1 p l2 items, l = (l1 ++ p :: l2)%list -> map (after_replacing f v) l1 = map Some items ->
     (forall p, In p items -> valid_dsetting T p) ->
     (after_replacing f v p = None -> sd_replaceflag T s f v = Panic) /\
     (forall q, after_replacing f v p = Some q -> ~ valid_dsetting T q -> sd_replaceflag T s f v = Fatal)).
Proof.
  intros T s l f v H. destruct (replace_any (sd_valid T) s l f v H) as [A B].
  change (replace_model (sd_valid T) s f v) with (sd_replaceflag T s f v) in A, B. split.
  - intros items M V.
    assert (V' : forall p, In p items -> sd_valid T (fst p) (snd p) = true) by (intros [a b] P; apply dvalid_iff, V, P).
    destruct (A items M V') as (X & Y & Z). split; [exact X|]. split; intros I K; [apply Y|apply Z]; auto; [apply dvalid_iff|apply dvalid_not]; auto.
  - intros l1 p l2 items E M V.
    assert (V' : forall p, In p items -> sd_valid T (fst p) (snd p) = true) by (intros [a b] P; apply dvalid_iff, V, P).
    destruct (B l1 p l2 items E M V') as (X & Y). split; [exact X|]. intros [a b] Q K. apply (Y (a, b) Q). apply dvalid_not; exact K.
Qed.

(** ** The constructors *)
Ltac names := rewrite <- !is_in_one_of; unfold one_of; cbn [existsb];
  repeat match goal with |- context [String.eqb ?n ?k] => destruct (String.eqb n k); cbn [orb]; try reflexivity end.
Ltac step_of R := let x := fresh in let E := fresh in
  destruct (read_item_split _ _ _ R) as (x & E); rewrite E.

Definition data_said (now : gotime) (n : string) (ov : option string) (d : data) : outcome (data * error) :=
  match ov with
  | Some v => data_body now n v d
  | None =>
      if one_of n ["version"; "descriptor"; "reqstatus"; "eod"] then Panic
      else if String.eqb n "transfer" then Panic else if String.eqb n "reqtstamp" then Panic
      else Ret (d, Some (n ++ " invalid flag in data"))
  end.
Lemma data_step : forall now it n ov rest d, (n, ov) = read_item it ->
  data_flags now (it :: rest) d = ebind (data_said now n ov d) (fun d => data_flags now rest d).
Proof.
  intros now it n ov rest d R. cbn [data_flags]. step_of R. unfold data_said. destruct ov; cbn [index nth_error obind]; [reflexivity|].
  destruct (one_of n _); [reflexivity|]. destruct (String.eqb n "transfer"); [reflexivity|]. destruct (String.eqb n "reqtstamp"); reflexivity.
Qed.

(** C133: building a data frame from any text of flags.  Only what the text says
    counts: blanks do not, nor what follows a second equals sign.  The first item at
    fault decides, a name alone crashing the program unless it is not the name of a flag. *)
Lemma c133_data : forall now d s l info, good_now now -> blank_text_says s l ->
  let fate := first_bad (map (said_verdict (data_item_verdict sar) data_bare) l) in
  verdict_of (data_new now d s info) = fate /\
  (fate = Accept -> data_new now d s info = data_new now d (flag_list (settings_in l)) info).
Proof.
  intros now d s l info G H. apply blank_text_iff in H. subst l. cbv zeta. unfold data_new.
  destruct (sf_set_known (d_header d) "version" "v1" : exists h', _) as (h1 & E1). rewrite E1. cbn [obind].
  destruct (sf_set_known h1 "frametype" "data" : exists h', _) as (h2 & E2). rewrite E2. cbn [obind].
  assert (B : forall n d, verdict_of (data_said now n None d) = data_bare n).
  { intros n d0. unfold data_said, data_bare. names. }
  assert (S : forall n d0, data_bare n = Accept -> data_said now n None d0 = data_said now n (Some "") d0).
  { intros n d0 A. unfold data_bare in A. destruct (is_in _ _); discriminate A. }
  split.
  - rewrite <- (said_loop data (data_flags now) (data_said now) (data_item_verdict sar) data_bare
      (fun _ => eq_refl) (data_step now) (fun n v d => data_body_verdict now n v d G) B _ (d_set_header d h2)).
    destruct (data_flags now _ _) as [[d' [e|]]| |]; reflexivity.
  - intros A. rewrite split_settings.
    rewrite <- (said_same data (data_flags now) (data_said now) (data_item_verdict sar) data_bare
      (data_step now) S _ (d_set_header d h2) (settings_clean s) A). reflexivity.
Qed.

Definition status_said (now : gotime) (n : string) (ov : option string) (d : status) : outcome (status * error) :=
  match ov with
  | Some v => status_body_item now n v d
  | None =>
      if one_of n ["descriptor"; "stream"; "metadatarecvd"; "allholes"; "reqholes"; "errcode"] then Panic
      else if String.eqb n "reqtstamp" then Panic
      else status_body_item now n "" d
  end.
Lemma status_step : forall now it n ov rest d, (n, ov) = read_item it ->
  status_flags now (it :: rest) d = ebind (status_said now n ov d) (fun d => status_flags now rest d).
Proof.
  intros now it n ov rest d R. cbn [status_flags]. step_of R. unfold status_said, status_body_item.
  destruct ov; cbn [index nth_error obind]; [reflexivity|].
  destruct (one_of n _); [reflexivity|]. destruct (String.eqb n "reqtstamp"); reflexivity.
Qed.
(** C133: the same for status frames, for which the name of a kind of timestamp is an
    item by itself. *)
Lemma c133_status : forall now d s l info, good_now now -> blank_text_says s l ->
  let fate := first_bad (map (said_verdict (status_item_verdict sar) status_bare) l) in
  verdict_of (status_new now d s info) = fate /\
  (fate = Accept -> status_new now d s info = status_new now d (flag_list (settings_in l)) info).
Proof.
  intros now d s l info G H. apply blank_text_iff in H. subst l. cbv zeta. unfold status_new.
  destruct (sf_set_known (s_header d) "version" "v1" : exists h', _) as (h1 & E1). rewrite E1. cbn [obind].
  destruct (sf_set_known h1 "frametype" "status" : exists h', _) as (h2 & E2). rewrite E2. cbn [obind].
  assert (N : forall n, one_of n ["descriptor"; "stream"; "metadatarecvd"; "allholes"; "reqholes"; "errcode"] = false ->
            String.eqb n "reqtstamp" = false ->
            is_in n ["descriptor"; "stream"; "metadatarecvd"; "allholes"; "reqholes"; "errcode"; "reqtstamp"] = false).
  { intros n. names; discriminate. }
  assert (B : forall n d, verdict_of (status_said now n None d) = status_bare n).
  { intros n d0. unfold status_said, status_bare. destruct (one_of n _) eqn:O.
    { revert O. names; discriminate. }
    destruct (String.eqb_spec n "reqtstamp") as [->|X]; [reflexivity|].
    rewrite status_body_verdict by exact G. unfold status_item_verdict.
    rewrite N by (auto; apply String.eqb_neq; auto). reflexivity. }
  assert (S : forall n d0, status_bare n = Accept -> status_said now n None d0 = status_said now n (Some "") d0).
  { intros n d0 A. unfold status_said. destruct (one_of n _) eqn:O.
    { exfalso. revert A. unfold status_bare. revert O. names; discriminate. }
    destruct (String.eqb_spec n "reqtstamp") as [->|X]; [discriminate A|reflexivity]. }
  split.
  - rewrite <- (said_loop status (status_flags now) (status_said now) (status_item_verdict sar) status_bare
      (fun _ => eq_refl) (status_step now) (fun n v d => status_body_verdict now n v d G) B _ (s_set_header d h2)).
    destruct (status_flags now _ _) as [[d' [e|]]| |]; reflexivity.
  - intros A. rewrite split_settings.
    rewrite <- (said_same status (status_flags now) (status_said now) (status_item_verdict sar) status_bare
      (status_step now) S _ (s_set_header d h2) (settings_clean s) A). reflexivity.
Qed.

Definition dirent_said (n : string) (ov : option string) (d : dirent) : outcome (dirent * error) :=
  match ov with
  | Some v => dirent_body n v d
  | None => if one_of n ["descriptor"; "property"] then Panic else dirent_body n "" d
  end.
Lemma dirent_step : forall it n ov rest d, (n, ov) = read_item it ->
  dirent_flags (it :: rest) d = ebind (dirent_said n ov d) (fun d => dirent_flags rest d).
Proof.
  intros it n ov rest d R. cbn [dirent_flags]. step_of R. unfold dirent_said, dirent_body.
  destruct ov; cbn [index nth_error obind]; [reflexivity|]. destruct (one_of n _); reflexivity.
Qed.
(** C133: the same for directory entries; an acceptable text may still meet a file
    that cannot be described (C72). *)
Lemma c133_dirent : forall E d s l path, blank_text_says s l ->
  let fate := first_bad (map (said_verdict (dirent_item_verdict sar) dirent_bare) l) in
  (fate <> Accept -> verdict_of (dirent_new E d s path) = fate) /\
  (fate = Accept -> dirent_new E d s path = dirent_new E d (flag_list (settings_in l)) path).
Proof.
  intros E d s l path H. apply blank_text_iff in H. subst l. cbv zeta. unfold dirent_new.
  destruct (sd_set sar (de_header d) "sod" "sod") as [h| |] eqn:ES; [|discriminate ES|discriminate ES]. cbn [obind].
  assert (B : forall n d, verdict_of (dirent_said n None d) = dirent_bare n).
  { intros n d0. unfold dirent_said, dirent_bare, dirent_body. rewrite <- is_in_one_of. destruct (one_of n _); reflexivity. }
  assert (S : forall n d0, dirent_bare n = Accept -> dirent_said n None d0 = dirent_said n (Some "") d0).
  { intros n d0 A. unfold dirent_bare in A. destruct (is_in _ _); discriminate A. }
  split.
  - rewrite <- (said_loop dirent dirent_flags dirent_said (dirent_item_verdict sar) dirent_bare
      (fun _ => eq_refl) dirent_step (fun n v d => dirent_body_verdict n v d) B _ (de_set_header d h)).
    destruct (dirent_flags _ _) as [[d' [e|]]| |]; cbn [verdict_of]; intros X; try reflexivity. congruence.
  - intros A. rewrite split_settings.
    rewrite <- (said_same dirent dirent_flags dirent_said (dirent_item_verdict sar) dirent_bare
      dirent_step S _ (de_set_header d h) (settings_clean s) A). reflexivity.
Qed.

Definition meta_said (n : string) (ov : option string) (d : metadata * string) : outcome ((metadata * string) * error) :=
  match ov with
  | Some v => meta_body n v d
  | None => if one_of n ["descriptor"; "progress"; "transfer"; "reliability"] then Panic
            else if String.eqb n "csumtype" then Panic else meta_body n "" d
  end.
Lemma meta_step : forall it n ov rest d, (n, ov) = read_item it ->
  meta_flags (it :: rest) d = ebind (meta_said n ov d) (fun d => meta_flags rest d).
Proof.
  intros it n ov rest [m c] R. cbn [meta_flags]. step_of R. unfold meta_said, meta_body.
  destruct ov; cbn [index nth_error obind]; [reflexivity|]. destruct (one_of n _); [reflexivity|].
  destruct (String.eqb n "csumtype"); reflexivity.
Qed.
(** C133: the same for metadata. *)
Lemma c133_metadata : forall E m s l info, blank_text_says s l ->
  let fate := first_bad (map (said_verdict (meta_item_verdict sar) meta_bare) l) in
  (fate <> Accept -> verdict_of (meta_new E m s info) = fate) /\
  (fate = Accept -> meta_new E m s info = meta_new E m (flag_list (settings_in l)) info).
Proof.
  intros E m s l info H. apply blank_text_iff in H. subst l. cbv zeta. unfold meta_new.
  destruct (sf_set_known (m_header m) "version" "v1" : exists h', _) as (h1 & E1). rewrite E1. cbn [obind].
  destruct (sf_set_known h1 "frametype" "metadata" : exists h', _) as (h2 & E2). rewrite E2. cbn [obind].
  assert (B : forall n d, verdict_of (meta_said n None d) = meta_bare n).
  { intros n [m0 c0]. unfold meta_said, meta_bare, meta_body. names. }
  assert (S : forall n d0, meta_bare n = Accept -> meta_said n None d0 = meta_said n (Some "") d0).
  { intros n d0 A. unfold meta_bare in A. destruct (is_in _ _); discriminate A. }
  split.
  - rewrite <- (said_loop _ meta_flags meta_said (meta_item_verdict sar) meta_bare
      (fun _ => eq_refl) meta_step (fun n v d => meta_body_verdict n v d) B _ (m_set_header m h2, "")).
    destruct (meta_flags _ _) as [[[d' c'] [e|]]| |]; cbn [verdict_of obind]; intros X; try reflexivity. congruence.
  - intros A. rewrite split_settings.
    rewrite <- (said_same _ meta_flags meta_said (meta_item_verdict sar) meta_bare
      meta_step S _ (m_set_header m h2, "") (settings_clean s) A). reflexivity.
Qed.

Definition beacon_said (n : string) (ov : option string) (d : beacon) : outcome (beacon * error) :=
  match ov with
  | Some v => beacon_body n v d
  | None => Panic
  end.
Lemma beacon_step : forall it n ov rest d, (n, ov) = read_item it ->
  beacon_flags (it :: rest) d = ebind (beacon_said n ov d) (fun d => beacon_flags rest d).
Proof.
  intros it n ov rest d R. cbn [beacon_flags]. step_of R. unfold beacon_said, beacon_body.
  destruct ov; cbn [index nth_error obind].
  - destruct (one_of n _); [reflexivity|]. destruct (String.eqb n "freespaced"); reflexivity.
  - destruct (one_of n _); [reflexivity|]. destruct (String.eqb n "freespaced"); [|reflexivity].
    destruct (sf_set_known (b_header d) "freespace" "yes" : exists h', _) as (h & Eh). rewrite Eh. reflexivity.
Qed.
(** C133: the same for beacons: a name alone always crashes the program. *)
Lemma c133_beacon : forall env b s l info, blank_text_says s l ->
  let fate := first_bad (map (said_verdict (beacon_item_verdict sar) bare_crash) l) in
  (fate <> Accept -> verdict_of (beacon_new env b s info) = fate) /\
  (fate = Accept -> beacon_new env b s info = beacon_new env b (flag_list (settings_in l)) info).
Proof.
  intros env b s l info H. apply blank_text_iff in H. subst l. cbv zeta. unfold beacon_new.
  destruct (sf_set_known (b_header b) "version" "v1" : exists h', _) as (h1 & E1). rewrite E1. cbn [obind].
  destruct (sf_set_known h1 "frametype" "beacon" : exists h', _) as (h2 & E2). rewrite E2. cbn [obind].
  assert (S : forall n d0, bare_crash n = Accept -> beacon_said n None d0 = beacon_said n (Some "") d0)
    by discriminate.
  split.
  - rewrite <- (said_loop _ beacon_flags beacon_said (beacon_item_verdict sar) bare_crash
      (fun _ => eq_refl) beacon_step (fun n v d => beacon_body_verdict n v d) (fun _ _ => eq_refl) _ (b_set_header b h2)).
    destruct (beacon_flags _ _) as [[d' [e|]]| |]; cbn [verdict_of]; intros X; try reflexivity. congruence.
  - intros A. rewrite split_settings.
    rewrite <- (said_same _ beacon_flags beacon_said (beacon_item_verdict sar) bare_crash
      beacon_step S _ (b_set_header b h2) (settings_clean s) A). reflexivity.
Qed.

Lemma read_empty : forall it, read_item it = ("", None) -> it = "".
Proof.
  intros it R. symmetry in R. destruct (read_item_split it "" None R) as (x & E).
  pose proof (concat_split "=" it) as C. rewrite E in C. cbn in C. symmetry. exact C.
Qed.
Lemma concat_empties : forall n its, its <> [] -> String.concat "," (its ++ repeat "" n)%list = String.concat "," its ++ commas n.
Proof.
  intros n. induction its as [|a its IH]; intros NE; [congruence|]. destruct its as [|b its].
  - clear. cbn [app]. change (String.concat "," [a]) with a. destruct n as [|n]; [cbn; rewrite str_app_nil; reflexivity|].
    cbn [repeat]. rewrite concat_cons. cbn [commas]. f_equal. cbn [append]. f_equal.
    induction n as [|n IH]; [reflexivity|]. cbn [repeat commas]. rewrite concat_cons, IH. reflexivity.
  - cbn [app]. rewrite !concat_cons. change (b :: its ++ repeat "" n)%list with ((b :: its) ++ repeat "" n)%list.
    rewrite IH by discriminate. rewrite <- !str_app_assoc. reflexivity.
Qed.
Lemma concat_snoc : forall l a, l <> [] -> String.concat "," (l ++ [a])%list = String.concat "," l ++ "," ++ a.
Proof.
  induction l as [|b l IH]; intros a NE; [congruence|]. destruct l as [|c l]; [reflexivity|].
  cbn [app]. rewrite !concat_cons. change (c :: l ++ [a])%list with ((c :: l) ++ [a])%list.
  rewrite IH by discriminate. rewrite <- !str_app_assoc. reflexivity.
Qed.
Lemma trim_items : forall its n, (forall it, In it its -> ~ In ","%char (bytes_of it)) ->
  full_at_end (map read_item its) ->
  trim_right "," (String.concat "," (its ++ repeat "" n)%list) = String.concat "," its.
Proof.
  intros its n P [F|(l' & p & F & NE)].
  - destruct its as [|it its]; [discriminate F|]. destruct its as [|x its]; [|discriminate F].
    cbn [map] in F. injection F as F. apply read_empty in F. subst it. rewrite concat_empties by discriminate.
    exact (trim_commas n).
  - apply map_eq_app in F. destruct F as (its1 & its2 & -> & _ & F). destruct its2 as [|it its2]; [discriminate F|].
    destruct its2; [|discriminate F]. cbn [map] in F. injection F as F.
    assert (N : it <> "") by (intros ->; apply NE; rewrite <- F; reflexivity).
    assert (T : trim_right "," (it ++ commas n) = it).
    { apply trim_right_nonempty; [exact N| |apply trim_commas]. intros x I ->. revert I. apply P.
      apply in_app_iff; right; left; reflexivity. }
    rewrite concat_empties by (destruct its1; discriminate). destruct its1 as [|a its1]; [exact T|].
    rewrite concat_snoc by discriminate. rewrite (str_app_assoc _ "," it), <- str_app_assoc.
    apply trim_right_last; auto.
Qed.

Definition request_said (all n : string) (ov : option string) (d : request) : outcome (request * error) :=
  match ov with
  | Some v => request_body_item all n v d
  | None => Panic
  end.
Lemma request_step : forall all it n ov rest d, (n, ov) = read_item it ->
  request_flags all (it :: rest) d = ebind (request_said all n ov d) (fun d => request_flags all rest d).
Proof.
  intros all it n ov rest d R. cbn [request_flags]. step_of R. unfold request_said, request_body_item.
  destruct ov; cbn [index nth_error obind]; destruct (one_of n _); reflexivity.
Qed.
(** The text is only repeated in the message of an error *)
Lemma request_all : forall all all' its d, verdict_of (request_flags all its d) = Accept ->
  request_flags all its d = request_flags all' its d.
Proof.
  intros all all'. induction its as [|it r IH]; intros d A; [reflexivity|].
  destruct (read_item it) as [n ov] eqn:R. symmetry in R.
  rewrite (request_step all it n ov r d R) in *. rewrite (request_step all' it n ov r d R).
  assert (B : verdict_of (request_said all n ov d) = Accept)
    by (destruct (request_said all n ov d) as [[x [e|]]| |]; cbn [ebind obind verdict_of] in A; auto; discriminate A).
  assert (X : request_said all n ov d = request_said all' n ov d).
  { unfold request_said, request_body_item in *. destruct ov; [|reflexivity]. destruct (one_of n _); [reflexivity|discriminate B]. }
  rewrite <- X. destruct (request_said all n ov d) as [[x [e|]]| |]; cbn [ebind obind] in *; auto.
Qed.
(** C133: the same for requests, for which empty items at the end do not count. *)
Lemma c133_request : forall r s l n info, blank_text_says s (l ++ repeat ("", None) n)%list -> full_at_end l ->
  let fate := first_bad (map (said_verdict (request_item_verdict sar) bare_crash) l) in
  verdict_of (request_new r s info) = fate /\
  (fate = Accept -> request_new r s info = request_new r (flag_list (settings_in l)) info).
Proof.
  intros r s l n info H F. apply blank_text_iff in H. cbv zeta. unfold request_new.
  destruct (sf_set_known (r_header r) "version" "v1" : exists h', _) as (h1 & E1). rewrite E1. cbn [obind].
  destruct (sf_set_known h1 "frametype" "request" : exists h', _) as (h2 & E2). rewrite E2. cbn [obind].
  symmetry in H. apply map_eq_app in H. destruct H as (its & tail & HS & Hl & Ht).
  assert (Htail : tail = repeat "" n).
  { clear - Ht. revert n Ht. induction tail as [|a t IH]; intros [|n] Ht; try discriminate Ht; [reflexivity|].
    cbn [map repeat] in *. injection Ht as A B. f_equal; [apply read_empty; exact A|apply IH; exact B]. }
  subst tail l.
  assert (P : forall it, In it its -> ~ In ","%char (bytes_of it)).
  { intros it I. apply (split_parts "," (remove_spaces s)). rewrite HS. apply in_app_iff; left; exact I. }
  assert (NE : its <> []) by (intros ->; destruct F as [F|(a & b & F & _)]; [discriminate F|destruct a; discriminate F]).
  assert (C : clean_items (settings_in (map read_item its))).
  { intros p I. apply (settings_clean s). rewrite HS. unfold settings_in in *. rewrite !map_app. apply in_app_iff; left; exact I. }
  assert (T : trim_right "," (remove_spaces s) = String.concat "," its).
  { rewrite <- (concat_split "," (remove_spaces s)), HS. apply trim_items; auto. }
  rewrite T. rewrite (split_concat "," its NE P).
  assert (S : forall n d0, bare_crash n = Accept -> request_said (String.concat "," its) n None d0 = request_said (String.concat "," its) n (Some "") d0)
    by discriminate.
  pose proof (said_loop _ (request_flags (String.concat "," its)) (request_said (String.concat "," its)) (request_item_verdict sar) bare_crash
      (fun _ => eq_refl) (request_step _) (fun n v d => request_body_verdict _ n v d) (fun _ _ => eq_refl) its (r_set_header r h2)) as V.
  split.
  - rewrite <- V. destruct (request_flags _ its _) as [[d' [e|]]| |]; reflexivity.
  - intros A. rewrite A in V.
    assert (NS : settings_in (map read_item its) <> []) by (destruct its; [congruence|discriminate]).
    rewrite remove_spaces_clean by (apply flag_list_no_space; exact C).
    pose proof (trim_flag_list (settings_in (map read_item its)) 0 NS C) as TF. cbn [commas] in TF. rewrite str_app_nil in TF. rewrite TF.
    rewrite split_flag_list by auto.
    rewrite (request_all _ (flag_list (settings_in (map read_item its))) its _ V).
    rewrite <- (said_same _ (request_flags (flag_list (settings_in (map read_item its)))) (request_said _) (request_item_verdict sar) bare_crash
      (request_step _)) with (items := its); [reflexivity|discriminate|exact C|exact A].
Qed.
(** C133: every text says something of that form. *)
Lemma c133_request_any : forall s, exists l n, blank_text_says s (l ++ repeat ("", None) n)%list /\ full_at_end l.
Proof.
  intros s.
  assert (G : forall l : list (string * option string), l <> [] -> exists l' n, l = (l' ++ repeat ("", None) n)%list /\ full_at_end l').
  { intros l. induction l as [|p l IH] using rev_ind; intros NE; [congruence|]. clear NE.
    destruct p as [[|a x] [v|]]; try (eexists (l ++ [_])%list, 0%nat; rewrite app_nil_r; split; [reflexivity|right; eexists l, _; split; [reflexivity|discriminate]]).
    destruct l as [|q l]; [exists [("", None)], 0%nat; split; [reflexivity|left; reflexivity]|].
    destruct (IH ltac:(discriminate)) as (l' & n & E & F). exists l', (S n). split; [|exact F].
    rewrite E, <- app_assoc. f_equal. clear. induction n; [reflexivity|]. cbn [repeat app] in *. f_equal. exact IHn. }
  destruct (G (map read_item (split_on "," (remove_spaces s)))) as (l & n & E & F).
  - pose proof (split_on_nil "," (remove_spaces s)). destruct (split_on "," (remove_spaces s)); [congruence|discriminate].
  - exists l, n. split; [apply blank_text_iff; symmetry; exact E|exact F].
Qed.

Definition said_ex : list (string * option string) :=
  [("eod", Some "yes"); ("descriptor", Some "d32"); ("reqstatus", None)].
Lemma said_ex_says : blank_text_says " eod = yes, descriptor=d32=x ,reqstatus" said_ex.
Proof. apply blank_text_iff. reflexivity. Qed.
Example c133_value_ex :
  blank_text_says " eod = yes, descriptor=d32=x ,reqstatus" said_ex /\
  sf_flagvalue " eod = yes, descriptor=d32=x ,reqstatus" "descriptor" = Ret "d32" /\
  sf_flagvalue " eod = yes, descriptor=d32=x ,reqstatus" "reqstatus" = Panic /\
  sf_flagvalue " eod = yes, descriptor=d32=x ,reqstatus" "stream" = Ret "".
Proof. split; [exact said_ex_says|]. repeat split; reflexivity. Qed.
Example c133_replace_ex :
  sf_replaceflag sar "eod,descriptor=d32=x" "eod" "yes" = Ret "eod=yes,descriptor=d32" /\
  sf_replaceflag sar "eod,descriptor=d32=x" "reqstatus" "yes" = Panic /\
  sf_replaceflag sar "eod= yes" "reqstatus" "yes" = Fatal.
Proof. repeat split; vm_compute; reflexivity. Qed.
Example c133_data_ex :
  good_now ex_now /\
  first_bad (map (said_verdict (data_item_verdict sar) data_bare) said_ex) = Crash /\
  (forall d info, verdict_of (data_new ex_now d " eod = yes, descriptor=d32=x ,reqstatus" info) = Crash) /\
  (forall d info, data_new ex_now d " eod = yes,, descriptor=d32=x" info <> data_new ex_now d "eod=yes,descriptor=d32" info) /\
  (forall d info, data_new ex_now d " eod = yes, descriptor=d32=x" info = data_new ex_now d "eod=yes,descriptor=d32" info).
Proof.
  assert (G : good_now ex_now) by (unfold good_now, ex_now; cbn; lia).
  split; [exact G|]. split; [vm_compute; reflexivity|]. split; [|split].
  - intros d info. exact (proj1 (c133_data ex_now d _ said_ex info G said_ex_says)).
  - intros d info E. apply (f_equal verdict_of) in E.
    rewrite (proj1 (c133_data ex_now d " eod = yes,, descriptor=d32=x" _ info G (proj2 (blank_text_iff _ _) eq_refl))) in E.
    rewrite (proj1 (c133_data ex_now d "eod=yes,descriptor=d32" _ info G (proj2 (blank_text_iff _ _) eq_refl))) in E.
    vm_compute in E. discriminate E.
  - intros d info.
    apply (proj2 (c133_data ex_now d " eod = yes, descriptor=d32=x" [("eod", Some "yes"); ("descriptor", Some "d32")] info G
                   (proj2 (blank_text_iff " eod = yes, descriptor=d32=x" [("eod", Some "yes"); ("descriptor", Some "d32")]) eq_refl))).
    vm_compute; reflexivity.
Qed.
Example c133_request_ex : forall r info,
  verdict_of (request_new r "descriptor=d32,,," info) = Accept /\ verdict_of (request_new r "descriptor,,," info) = Crash /\
  verdict_of (request_new r ",,," info) = Crash /\ verdict_of (request_new r "colour=red" info) = Reject /\
  verdict_of (request_new r "descriptor=d99" info) = Kill.
Proof. intros r info. repeat split; vm_compute; reflexivity. Qed.
