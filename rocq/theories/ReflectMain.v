(** * What New and Make do with any value they are given: the properties (proofs) *)

From Verif Require Import GoBase GoFacts Flags SpecFlags FlagsFacts Config Shipped ConfigFacts SpecWire SarFacts Timestamp SpecTime TimeMain Data SpecFrames FrameFacts FlagStrFacts BuildFacts Holes Status Request Beacon SpecBeacon Fileio Dirent SpecDirent Metadata SpecMetadata MetadataMain Reflect SpecReflect ReflectFacts.
Local Open Scope string_scope.
Local Open Scope N_scope.

Lemma read_dinfo_none : forall info, (forall i, ~ data_info info i) -> read_dinfo info = Panic.
Proof. intros info N. destruct (read_dinfo_two info) as [E|[i E]]; [exact E|]. exfalso. exact (N i (proj1 (read_dinfo_iff info i) E)). Qed.
Lemma read_rinfo_none : forall info, (forall i, ~ request_info info i) -> read_rinfo info = Panic.
Proof. intros info N. destruct (read_rinfo_two info) as [E|[i E]]; [exact E|]. exfalso. exact (N i (proj1 (read_rinfo_iff info i) E)). Qed.
Lemma read_sinfo_iff : forall info i, read_sinfo info = Ret i <-> status_info info i.
Proof.
  intros info i. destruct (read_sinfo_cases info) as [(j & J & ->)|[N ->]]; split; intros H.
  - injection H as <-. exact J.
  - rewrite (status_info_same _ _ _ H J). reflexivity.
  - discriminate H.
  - exfalso. exact (N i H).
Qed.
Lemma read_sinfo_none : forall info, (forall i, ~ status_info info i) -> read_sinfo info = Panic.
Proof. intros info N. destruct (read_sinfo_cases info) as [(i & E & _)|[_ E]]; [exfalso; exact (N i E)|exact E]. Qed.

(** C152: given a pointer to a structure with the members Session, Offset and Payload, whatever else it has and whatever its type,
    New and Make make the data frame with those values *)
Lemma c152_data : forall now d flags header info i, data_info info i ->
  data_new_of now d flags info = data_new now d flags i /\ data_make_of now d header info = data_make now d header i.
Proof.
  intros now d flags header info i H. apply read_dinfo_iff in H. unfold data_new_of, data_make_of. rewrite H. split; reflexivity.
Qed.
(** C152: given anything else they panic, unless the flags are refused before *)
Lemma c152_data_panics : forall now d flags header info, (forall i, ~ data_info info i) -> forall j,
  data_new_of now d flags info = panics_instead (data_new now d flags j) /\
  data_make_of now d header info = panics_instead (data_make now d header j).
Proof.
  intros now d flags header info N j. apply read_dinfo_none in N. unfold data_new_of, data_make_of, data_new, data_make. rewrite N.
  split.
  - destruct (sf_set sar (d_header d) "version" "v1") as [h| |]; cbn [obind]; try reflexivity.
    destruct (sf_set sar h "frametype" "data") as [h'| |]; cbn [obind]; try reflexivity.
    destruct (data_flags _ _ _) as [[x [e|]]| |]; reflexivity.
  - destruct (sf_set sar header "version" "v1") as [h| |]; cbn [obind]; try reflexivity.
    destruct (sf_set sar h "frametype" "data") as [h'| |]; cbn [obind]; try reflexivity. cbv zeta.
    destruct (sf_getstr sar h' "reqtstamp") as [t| |]; cbn [obind]; try reflexivity.
    match goal with |- ebind ?X _ = _ => destruct X as [[x [e|]]| |] end; reflexivity.
Qed.
(** C152: the same of status frames *)
Lemma c152_status : forall now s flags header info i, status_info info i ->
  status_new_of now s flags info = status_new now s flags i /\ status_make_of s header info = status_make s header i.
Proof.
  intros now s flags header info i H. apply read_sinfo_iff in H. unfold status_new_of, status_make_of. rewrite H. split; reflexivity.
Qed.
(** C152: anything else makes them panic *)
Lemma c152_status_panics : forall now s flags header info, (forall i, ~ status_info info i) -> forall j,
  status_new_of now s flags info = panics_instead (status_new now s flags j) /\ status_make_of s header info = Panic.
Proof.
  intros now s flags header info N j. apply read_sinfo_none in N. unfold status_new_of, status_make_of, status_new. rewrite N.
  split.
  - destruct (sf_set sar (s_header s) "version" "v1") as [h| |]; cbn [obind]; try reflexivity.
    destruct (sf_set sar h "frametype" "status") as [h'| |]; cbn [obind]; try reflexivity.
    destruct (status_flags _ _ _) as [[x [e|]]| |]; reflexivity.
  - destruct (sf_set_known header "version" "v1" : exists h', _) as (h1 & ->). cbn [obind].
    destruct (sf_set_known h1 "frametype" "status" : exists h', _) as (h2 & ->). reflexivity.
Qed.
(** C152: New of requests takes any member, or none, for the file name; Make panics whatever it is given *)
Lemma c152_request : forall r flags info i, request_info info i -> request_new_of r flags info = request_new r flags i.
Proof. intros r flags info i H. apply read_rinfo_iff in H. unfold request_new_of. rewrite H. reflexivity. Qed.
(** C152: anything else makes New panic *)
Lemma c152_request_panics : forall r flags info, (forall i, ~ request_info info i) -> forall j,
  request_new_of r flags info = panics_instead (request_new r flags j).
Proof.
  intros r flags info N j. apply read_rinfo_none in N. unfold request_new_of, request_new. rewrite N.
  destruct (sf_set sar (r_header r) "version" "v1") as [h| |]; cbn [obind]; try reflexivity.
  destruct (sf_set sar h "frametype" "request") as [h'| |]; cbn [obind]; try reflexivity. cbv zeta.
  destruct (request_flags _ _ _) as [[x [e|]]| |]; reflexivity.
Qed.
(** C152: no value at all can be given to Make of requests *)
Lemma c152_request_make : forall r header info, request_make_of r header info = Panic.
Proof.
  intros r header info. unfold request_make_of. rewrite read_rinfo_make_panics.
  destruct (sf_set_known header "version" "v1" : exists h', _) as (h1 & ->). cbn [obind].
  destruct (sf_set_known h1 "frametype" "request" : exists h', _) as (h2 & ->). reflexivity.
Qed.


(** Whether the header asks for the free space shows in what a beacon of one free kilobyte carries *)
Lemma space_asked : forall env b e, se_getwd env = None ->
  exists b', beacon_space env b {| bi_freespace := 1; bi_eid := e |} = Ret (b', None) /\ b_freespace b' = hd_freespace (b_header b) /\
    (hd_freespace (b_header b) = 0 -> forall env' n, beacon_space env' b {| bi_freespace := n; bi_eid := e |} = Ret (b', None)).
Proof.
  intros env b e W. unfold beacon_space. cbv zeta. cbn [b_header bi_freespace bi_eid b_freespace b_eid]. rewrite getstr_freespace. cbn [obind].
  destruct (hd_freespace_cases (b_header b)) as [R|R]; rewrite R; unfold yes_no; cbn [N.eqb].
  - change (String.eqb "no" "yes") with false. cbv iota. change (String.eqb "no" "no") with true. eexists. split; [reflexivity|].
    split; [reflexivity|]. intros _ env' n. reflexivity.
  - change (String.eqb "yes" "yes") with true. cbv iota. rewrite W. change (1 =? 0) with false. cbv iota.
    change (1 <? MaxUint16) with true. cbv iota.
    destruct (sf_set_known (b_header b) "freespaced" "d16" : exists h', _) as (h & E). rewrite E. cbn [obind]. eexists. split; [reflexivity|].
    split; [reflexivity|discriminate].
Qed.
Lemma space_of : forall env b info, let asked := N.eqb (hd_freespace (b_header b)) 1 in
  beacon_space_of env b info = do i <- read_binfo asked info; beacon_space env b i.
Proof.
  intros env b info. cbv zeta. unfold beacon_space_of. rewrite getstr_freespace. cbn [obind]. unfold yes_no.
  destruct (hd_freespace_cases (b_header b)) as [R|R]; rewrite R; change (0 =? 0) with true; change (0 =? 1) with false; change (1 =? 0) with false; change (1 =? 1) with true; cbv iota.
  - destruct (read_binfo false info); reflexivity.
  - destruct (read_binfo_cases info) as [(e & -> & T)|[-> ->]]; [|reflexivity]. cbn [obind].
    change (String.eqb "yes" "yes") with true. reflexivity.
Qed.
Lemma beacon_new_split : forall b flags, exists o, (forall env i, beacon_new env b flags i = ebind o (fun b => beacon_space env b i)) /\
  forall env info, beacon_new_of env b flags info = ebind o (fun b => beacon_space_of env b info).
Proof.
  intros b flags. unfold beacon_new, beacon_new_of.
  destruct (sf_set_known (b_header b) "version" "v1" : exists h', _) as (h1 & E1).
  destruct (sf_set_known h1 "frametype" "beacon" : exists h', _) as (h2 & E2).
  exists (beacon_flags (split_on "," (remove_spaces flags)) (b_set_header b h2)). split; intros; rewrite E1; cbn [obind]; rewrite E2; reflexivity.
Qed.
Lemma beacon_make_split : forall b header, exists b', (forall env i, beacon_make env b header i = beacon_space env b' i) /\
  forall env info, beacon_make_of env b header info = beacon_space_of env b' info.
Proof.
  intros b header. unfold beacon_make, beacon_make_of.
  destruct (sf_set_known header "version" "v1" : exists h', _) as (h1 & E1).
  destruct (sf_set_known h1 "frametype" "beacon" : exists h', _) as (h2 & E2).
  exists (b_set_header b h2). split; intros; rewrite E1; cbn [obind]; rewrite E2; reflexivity.
Qed.

Lemma read_false_of_info : forall info i, beacon_info info i -> read_binfo false info = Ret {| bi_freespace := 0; bi_eid := bi_eid i |}.
Proof. intros info i [fs t n e P M T]. apply read_binfo_false_iff. econstructor; eassumption. Qed.
Lemma space_given : forall env b info i, beacon_info info i -> beacon_space_of env b info = beacon_space env b i.
Proof.
  intros env b info i H. rewrite space_of. destruct (hd_freespace_cases (b_header b)) as [R|R]; rewrite R; change (0 =? 1) with false; change (1 =? 1) with true; cbv iota.
  - rewrite (read_false_of_info _ _ H). cbn [obind].
    destruct (space_asked {| se_getwd := None; se_statfs := None |} b (bi_eid i) eq_refl) as (b' & _ & _ & K).
    rewrite (K R). destruct i as [n e]. cbn [bi_eid] in *. rewrite (K R). reflexivity.
  - apply read_binfo_true_iff in H. rewrite H. reflexivity.
Qed.
Lemma space_nameonly : forall env env0 b info e, se_getwd env0 = None -> beacon_eid info e -> (forall i, ~ beacon_info info i) ->
  beacon_space_of env b info = match beacon_space env0 b {| bi_freespace := 1; bi_eid := e |} with
    | Ret (b', None) => if b_freespace b' =? 1 then Panic else Ret (b', None) | o => o end.
Proof.
  intros env env0 b info e W H N. rewrite space_of. destruct (space_asked env0 b e W) as (b' & -> & -> & K).
  destruct (hd_freespace_cases (b_header b)) as [R|R]; rewrite R; change (0 =? 1) with false; change (1 =? 1) with true; cbv iota.
  - apply read_binfo_false_iff in H. rewrite H. cbn [obind]. apply K, R.
  - destruct (read_binfo_cases info) as [(e' & _ & [T|(n & T)])|[_ T]]; rewrite T; try reflexivity.
    exfalso. exact (N _ (proj1 (read_binfo_true_iff _ _) T)).
Qed.
Lemma space_nothing : forall env b info, (forall e, ~ beacon_eid info e) -> beacon_space_of env b info = Panic.
Proof.
  intros env b info N. rewrite space_of. destruct (read_binfo_cases info) as [(e & F & _)|[F T]].
  - exfalso. exact (N _ (proj1 (read_binfo_false_iff _ _) F)).
  - destruct (_ =? _); [rewrite T|rewrite F]; reflexivity.
Qed.

(** C152: beacons: given a structure with an unsigned Freespace *)
Lemma c152_beacon : forall env b flags header info i, beacon_info info i ->
  beacon_new_of env b flags info = beacon_new env b flags i /\ beacon_make_of env b header info = beacon_make env b header i.
Proof.
  intros env b flags header info i H. split.
  - destruct (beacon_new_split b flags) as (o & O & P). rewrite O, P. destruct o as [[b' [e|]]| |]; cbn [ebind]; try reflexivity. apply space_given, H.
  - destruct (beacon_make_split b header) as (b' & O & P). rewrite O, P. apply space_given, H.
Qed.
(** C152: given a structure without one they panic exactly if the free space is to be told: if with one kilobyte free, and a working
    directory, the beacon would say so.  Otherwise the beacon is made. *)
Lemma c152_beacon_name_only : forall env env0 b flags header info e, se_getwd env0 = None -> beacon_eid info e ->
  (forall i, ~ beacon_info info i) ->
  let told o := match o with Ret (b', None) => if b_freespace b' =? 1 then Panic else Ret (b', None) | _ => o end in
  beacon_new_of env b flags info = told (beacon_new env0 b flags {| bi_freespace := 1; bi_eid := e |}) /\
  beacon_make_of env b header info = told (beacon_make env0 b header {| bi_freespace := 1; bi_eid := e |}).
Proof.
  intros env env0 b flags header info e W H N told. split.
  - destruct (beacon_new_split b flags) as (o & O & P). rewrite O, P. destruct o as [[b' [x|]]| |]; cbn [ebind]; try reflexivity.
    rewrite (space_nameonly env env0 b' info e W H N). unfold told. destruct (beacon_space env0 b' _) as [[? [?|]]| |]; reflexivity.
  - destruct (beacon_make_split b header) as (b' & O & P). rewrite O, P. rewrite (space_nameonly env env0 b' info e W H N). unfold told. destruct (beacon_space env0 b' _) as [[? [?|]]| |]; reflexivity.
Qed.
(** C152: given anything else they panic, unless the flags are refused before *)
Lemma c152_beacon_panics : forall env env0 b flags header info, se_getwd env0 = None -> (forall e, ~ beacon_eid info e) ->
  beacon_new_of env b flags info = panics_instead (beacon_new env0 b flags {| bi_freespace := 1; bi_eid := "" |}) /\
  beacon_make_of env b header info = Panic.
Proof.
  intros env env0 b flags header info W N. split.
  - destruct (beacon_new_split b flags) as (o & O & P). rewrite O, P. destruct o as [[b' [x|]]| |]; cbn [ebind]; try reflexivity.
    rewrite (space_nothing _ _ _ N). destruct (space_asked env0 b' "" W) as (b2 & -> & _). reflexivity.
  - destruct (beacon_make_split b header) as (b' & O & P). rewrite P. apply space_nothing, N.
Qed.

Lemma meta_new_split : forall m flags, exists o, (forall E i, meta_new E m flags i =
    do ' ((m, ct), e) <- o; match e with Some e => Ret (m, Some e) | None => meta_rest E m (mi_session i) (mi_fname i) (Ret ct) end) /\
  forall E info, meta_new_of E m flags info =
    do ' ((m, ct), e) <- o; match e with Some e => Ret (m, Some e)
      | None => do i <- read_minfo "Fname" info; meta_rest E m (mi_session i) (mi_fname i) (Ret ct) end.
Proof.
  intros m flags. unfold meta_new, meta_new_of.
  destruct (sf_set_known (m_header m) "version" "v1" : exists h', _) as (h1 & E1).
  destruct (sf_set_known h1 "frametype" "metadata" : exists h', _) as (h2 & E2).
  exists (meta_flags (split_on "," (remove_spaces flags)) (m_set_header m h2, "")). split; intros; rewrite E1; cbn [obind]; rewrite E2; reflexivity.
Qed.
Lemma meta_rest_session : forall E m s f ct m' e, meta_rest E m s f ct = Ret (m', e) -> m_session m' = u32 s.
Proof.
  intros E m s f ct m' e. unfold meta_rest. cbv zeta. cbn [m_header m_session m_checksum m_dir].
  destruct (meta_statfile _ _ _) as [[fl|er]| |]; cbn [obind]; try discriminate; [|intros H; inversion H; reflexivity].
  destruct (dirent_new _ _ _ _) as [[d [er|]]| |]; cbn [obind]; try discriminate; [intros H; inversion H; reflexivity|].
  destruct (sf_getstr _ _ _) as [tr| |]; cbn [obind]; try discriminate.
  destruct (negb _); [|intros H; inversion H; reflexivity]. destruct ct as [c| |]; cbn [obind]; try discriminate.
  destruct (checksum _ _ _ _ _ _ _); intros H; inversion H; reflexivity.
Qed.
(** C152: metadata: New wants an unsigned Session and takes any member, or none, for the file name *)
Lemma c152_meta : forall E m flags info i, meta_info info i -> meta_new_of E m flags info = meta_new E m flags i.
Proof.
  intros E m flags info i H. apply read_minfo_iff in H. destruct (meta_new_split m flags) as (o & O & P). rewrite O, P.
  destruct o as [[[m' ct] [e|]]| |]; cbn [obind]; try reflexivity. rewrite H. reflexivity.
Qed.
(** C152: given anything else it panics, unless the flags are refused before, whatever is given: if they are not, then the frame
    takes the session it is given *)
Lemma c152_meta_panics : forall E m flags info, (forall i, ~ meta_info info i) ->
  (forall j, meta_new_of E m flags info = meta_new E m flags j) \/
  (meta_new_of E m flags info = Panic /\ forall j m' e, meta_new E m flags j = Ret (m', e) -> m_session m' = u32 (mi_session j)).
Proof.
  intros E m flags info N. destruct (meta_new_split m flags) as (o & O & P). setoid_rewrite O. rewrite P.
  destruct o as [[[m' ct] [e|]]| |]; cbn [obind]; try (left; intros; reflexivity). right.
  destruct (read_minfo_cases "Fname" info) as [->|(i & F & _)]; [|exfalso; exact (N i (proj1 (read_minfo_iff _ _) F))].
  split; [reflexivity|]. intros j m2 e. apply meta_rest_session.
Qed.
(** C152: Make takes the type of the session for the file name *)
Lemma c152_meta_make : forall E m header info s t, meta_session info s t ->
  (t = "uint32" -> forall f, meta_make_of E m header info = meta_make E m header {| mi_session := s; mi_fname := f |}) /\
  (forall e, here E ("<" ++ t ++ " Value>") = inr e -> verdict_of (meta_make_of E m header info) = Reject).
Proof.
  intros E m header info s t H. apply read_minfo_session in H. unfold meta_make_of, meta_make. rewrite H. cbn [obind mi_session mi_fname]. split.
  - intros -> f. reflexivity.
  - intros e HN. destruct (sf_set_known header "version" "v1" : exists h', _) as (h1 & ->). cbn [obind].
    destruct (sf_set_known h1 "frametype" "metadata" : exists h', _) as (h2 & ->). cbn [obind].
    unfold meta_rest. cbv zeta. cbn [m_header m_set_header].
    pose proof (statfile_spec E ("<" ++ t ++ " Value>") h2) as SFS. rewrite HN in SFS. destruct SFS as [e' ->]. reflexivity.
Qed.
(** C152: and panics without one *)
Lemma c152_meta_make_panics : forall E m header info, (forall s t, ~ meta_session info s t) -> meta_make_of E m header info = Panic.
Proof.
  intros E m header info N. unfold meta_make_of.
  destruct (sf_set_known header "version" "v1" : exists h', _) as (h1 & ->). cbn [obind].
  destruct (sf_set_known h1 "frametype" "metadata" : exists h', _) as (h2 & ->). cbn [obind].
  destruct (read_minfo_cases "Session" info) as [->|(i & _ & t & S)]; [reflexivity|]. exfalso. exact (N _ _ S).
Qed.

Lemma holes_own : forall hs, Forall2 hole_of (map a_hole hs) hs.
Proof.
  induction hs as [|[a b] hs IH]; cbn [map]; constructor; [|exact IH].
  eexists _, _, _, _. split; [reflexivity|]. split; apply member_lookup; reflexivity.
Qed.
(** C152: the pointers that are meant, which the program itself passes, are accepted: New and Make, without that of requests, then do
    what the other properties say *)
Lemma c152_own : forall di si ri bi mi,
  data_info (to_dinfo di) di /\ status_info (to_sinfo si) si /\ request_info (to_rinfo ri) ri /\ beacon_info (to_binfo bi) bi /\
  meta_info (to_minfo mi) mi /\ meta_session (to_minfo mi) (mi_session mi) "uint32".
Proof.
  intros [a b c] [d e f g] [h i j] [k l] [m n].
  split; [econstructor; [constructor|apply member_lookup; reflexivity..]|].
  split; [econstructor; [constructor|apply member_lookup; reflexivity..|constructor; apply holes_own]|].
  split; [econstructor; [constructor|apply member_lookup; reflexivity|apply text_lookup; reflexivity|apply member_lookup; reflexivity]|].
  split; [econstructor; [constructor|apply member_lookup; reflexivity|apply text_lookup; reflexivity]|].
  split; [econstructor; [constructor|apply member_lookup; reflexivity|apply text_lookup; reflexivity]|].
  econstructor; [constructor|apply member_lookup; reflexivity].
Qed.
(** C152: a value says one thing only: what New reads from it is determined *)
Lemma c152_one : forall info,
  (forall i j, data_info info i -> data_info info j -> i = j) /\ (forall i j, status_info info i -> status_info info j -> i = j) /\
  (forall i j, request_info info i -> request_info info j -> i = j) /\ (forall i j, beacon_info info i -> beacon_info info j -> i = j) /\
  (forall i j, meta_info info i -> meta_info info j -> i = j).
Proof.
  intros info. split; [|split; [exact (status_info_same info)|split; [|split]]]; intros i j H J.
  - apply read_dinfo_iff in H, J. congruence.
  - apply read_rinfo_iff in H, J. congruence.
  - apply read_binfo_true_iff in H, J. congruence.
  - apply read_minfo_iff in H, J. congruence.
Qed.
(** C152: without a pointer, for a structure passed as it is, for nil and for a nil pointer, nothing can be made *)
Lemma c152_no_pointer : forall info, info = None \/ (exists t fs, info = Some (GStruct t fs)) \/ (exists t, info = Some (GPtr t None)) ->
  (forall i, ~ data_info info i) /\ (forall i, ~ status_info info i) /\ (forall i, ~ request_info info i) /\ (forall e, ~ beacon_eid info e) /\
  (forall i, ~ meta_info info i) /\ (forall s t, ~ meta_session info s t).
Proof.
  intros info H. assert (N : forall fs, ~ points_to info fs).
  { intros fs P. destruct H as [->|[(t & gs & ->)|(t & ->)]]; inversion P. }
  repeat split; intros i; [intros []|intros []|intros []|intros []|intros []|intros t []]; eapply N; eassumption.
Qed.
(** C152: the structure meant for one type of frame is no use for another, save that metadata can be made of whatever has a session;
    the file name is then that of a request, and "<invalid Value>" of data and status *)
Lemma c152_others : forall di si ri bi mi,
  (forall i, ~ data_info (to_sinfo si) i) /\ (forall i, ~ data_info (to_rinfo ri) i) /\ (forall i, ~ data_info (to_binfo bi) i) /\ (forall i, ~ data_info (to_minfo mi) i) /\
  (forall i, ~ status_info (to_dinfo di) i) /\ (forall i, ~ status_info (to_rinfo ri) i) /\ (forall i, ~ status_info (to_binfo bi) i) /\ (forall i, ~ status_info (to_minfo mi) i) /\
  (forall i, ~ request_info (to_dinfo di) i) /\ (forall i, ~ request_info (to_sinfo si) i) /\ (forall i, ~ request_info (to_binfo bi) i) /\ (forall i, ~ request_info (to_minfo mi) i) /\
  (forall info, In info [to_dinfo di; to_sinfo si; to_rinfo ri; to_minfo mi] -> (forall i, ~ beacon_info info i) /\ beacon_eid info "<invalid Value>") /\
  meta_info (to_dinfo di) {| mi_session := di_session di; mi_fname := "<invalid Value>" |} /\
  meta_info (to_sinfo si) {| mi_session := si_session si; mi_fname := "<invalid Value>" |} /\
  meta_info (to_rinfo ri) {| mi_session := ri_session ri; mi_fname := ri_fname ri |} /\
  (forall i, ~ meta_info (to_binfo bi) i).
Proof.
  intros di si ri bi mi.
  assert (D : forall info, read_dinfo info = Panic -> forall i, ~ data_info info i) by (intros info E i H; apply read_dinfo_iff in H; congruence).
  assert (R : forall info, read_rinfo info = Panic -> forall i, ~ request_info info i) by (intros info E i H; apply read_rinfo_iff in H; congruence).
  assert (S : forall info, read_sinfo info = Panic -> forall i, ~ status_info info i) by (intros info E i H; apply read_sinfo_iff in H; congruence).
  split; [apply D; reflexivity|]. split; [apply D; reflexivity|]. split; [apply D; reflexivity|]. split; [apply D; reflexivity|].
  split; [apply S; reflexivity|]. split; [apply S; reflexivity|]. split; [apply S; reflexivity|]. split; [apply S; reflexivity|].
  split; [apply R; reflexivity|]. split; [apply R; reflexivity|]. split; [apply R; reflexivity|]. split; [apply R; reflexivity|].
  split.
  { intros info I. split.
    - intros i H. apply read_binfo_true_iff in H. destruct I as [<-|[<-|[<-|[<-|[]]]]]; discriminate H.
    - apply read_binfo_false_iff. destruct I as [<-|[<-|[<-|[<-|[]]]]]; reflexivity. }
  split; [apply read_minfo_iff; reflexivity|]. split; [apply read_minfo_iff; reflexivity|]. split; [apply read_minfo_iff; reflexivity|].
  intros i H. apply read_minfo_iff in H. discriminate H.
Qed.
(** C152: a session number that does not fit 32 bits is cut without an error (defect): New makes the frame of its remainder *)
Lemma c152_session_cut : forall now d flags i, data_new now d flags i =
  data_new now d flags {| di_session := di_session i mod 2 ^ 32; di_offset := di_offset i; di_payload := di_payload i |}.
Proof.
  intros. unfold data_new. destruct (sf_set _ _ _ _) as [h| |]; cbn [obind]; try reflexivity. destruct (sf_set _ _ _ _) as [h'| |]; cbn [obind]; try reflexivity.
  destruct (data_flags _ _ _) as [[x [e|]]| |]; cbn [ebind]; try reflexivity. unfold d_fill. cbn [di_session di_offset di_payload].
  replace (u32 (di_session i mod 2 ^ 32)) with (u32 (di_session i)); [reflexivity|]. unfold u32, wrap. rewrite N.mod_mod by discriminate. reflexivity.
Qed.

(** ** Concrete cases *)
(** A structure of a caller's own, with more members and other integer types *)
Definition ex_own : rvalue :=
  Some (GPtr "*main.mine" (Some (GStruct "main.mine" [("Note", GString "string" "x"); ("Session", GUint "uint64" 4294967303); ("Eid", GInt "int" 5);
    ("Offset", GUint "uint8" 7); ("Payload", GBytes "main.chunk" (bytes_of "abc")); ("Holes", GCounted "map[int]int" 0)]))).
Example c152_data_ex : data_info ex_own {| di_session := 4294967303; di_offset := 7; di_payload := bytes_of "abc" |} /\
  exists d, data_new_of {| unix_secs := 0; unix_nanos := 0 |} zero_data "descriptor=d16" ex_own = Ret (d, None) /\ d_session d = 7 /\ d_offset d = 7.
Proof. split; [apply read_dinfo_iff; vm_compute; reflexivity|]. eexists. split; [vm_compute; reflexivity|]. split; reflexivity. Qed.
Example c152_panics_ex : (forall i, ~ status_info ex_own i) /\ status_new_of {| unix_secs := 0; unix_nanos := 0 |} zero_status "descriptor=d16" ex_own = Panic /\
  (exists s e, status_new_of {| unix_secs := 0; unix_nanos := 0 |} zero_status "colour=red" ex_own = Ret (s, Some e)) /\
  (forall i, ~ beacon_info ex_own i) /\ beacon_eid ex_own "<int Value>" /\
  beacon_new_of {| se_getwd := None; se_statfs := None |} zero_beacon "freespace=yes" ex_own = Panic /\
  (exists b, beacon_new_of {| se_getwd := None; se_statfs := None |} zero_beacon "freespace=no" ex_own = Ret (b, None) /\ b_eid b = "<int Value>").
Proof.
  split; [intros i H; apply read_sinfo_iff in H; vm_compute in H; discriminate H|]. split; [vm_compute; reflexivity|].
  split; [eexists _, _; vm_compute; reflexivity|]. split; [intros i H; apply read_binfo_true_iff in H; vm_compute in H; discriminate H|].
  split; [apply read_binfo_false_iff; reflexivity|]. split; [vm_compute; reflexivity|]. eexists. split; [vm_compute; reflexivity|reflexivity].
Qed.
