(** * Why a frame is refused, and what a refused frame leaves behind *)

From Verif Require Import GoBase GoFacts Flags SpecFlags FlagsFacts Config Shipped ConfigFacts SpecWire SarFacts Timestamp SpecTime TimeMain Holes Data SpecFrames FrameFacts FlagStrFacts BuildFacts DataMain Status SpecStatus StatusMain Request SpecRequest RequestMain Beacon SpecBeacon BeaconMain Fileio Itoa Dirent SpecDirent FlagsMain DirentMain Metadata SpecMetadata MetadataMain SpecReason.
Local Open Scope string_scope.
Local Open Scope N_scope.

(** ** Received frames *)
Lemma ts_get_zero : forall t f, (24 <= length f)%nat -> number_at f 8 1 = 0 ->
  ts_get t (firstn 16 (skipn 8 f)) = Ret (stamp_left f, Some stamp_reason).
Proof.
  intros t f L Z. unfold stamp_left.
  assert (S9 : skipn 9 f = skipn 1 (skipn 8 f)) by (destruct f as [|a1 [|a2 [|a3 [|a4 [|a5 [|a6 [|a7 [|a8 f]]]]]]]]; cbn; reflexivity).
  rewrite S9. unfold number_at in Z. assert (LL : (16 <= length (skipn 8 f))%nat) by (rewrite skipn_length; lia).
  destruct (skipn 8 f) as [|b l]; [cbn in LL; lia|].
  assert (B : N_of_ascii b = 0) by exact Z.
  assert (BZ : b = ascii_of_N 0) by (rewrite <- (ascii_N_embedding b), B; reflexivity). subst b. clear Z B S9.
  unfold ts_get. change (firstn 16 (ascii_of_N 0 :: l)) with (ascii_of_N 0 :: firstn 15 l). cbn [index nth_error obind].
  change (N_of_ascii (ascii_of_N 0)) with 0. change (st_getstr sar 0) with (Ret "localinterp"). cbn [obind]. eval_eqbs. cbv iota.
  rewrite slice_ok by (cbn [length]; rewrite firstn_length; cbn [length] in LL; lia). cbn [obind skipn].
  change (15 - 1)%nat with 14%nat. rewrite firstn_firstn. reflexivity.
Qed.
Lemma ts_at_zero : forall f, number_at f 8 1 = 0 -> ts_at f 8 = None.
Proof. intros f H. unfold ts_at. rewrite H. reflexivity. Qed.

(** C144: A data frame is refused for one of four reasons, and leaves what was read before the reason was met. *)
Lemma c144_data : forall d f, data_verdict f = Reject -> data_decode d f = Ret (data_left d f, Some (data_reason f)).
Proof.
  intros d f V. unfold data_verdict in V. unfold data_decode, data_left, data_reason.
  destruct (Nat.ltb_spec (length f) 10) as [L|L]; [reflexivity|].
  rewrite !get_uint_number by lia. cbn [obind]. cbv zeta in V. unfold ts_verdict, after_ts in V. unfold stamp_refused, too_wide, ts_read.
  set (h := number_at f 0 4) in *. rewrite getstr_reqtstamp. cbn [obind]. cbn [d_tstamp].
  destruct (hd_reqtstamp_cases h) as [R|R]; rewrite R in *; unfold yes_no;
    [change (0 =? 0) with true; change (0 =? 1) with false in * | change (1 =? 0) with false; change (1 =? 1) with true in *];
    cbv iota in *; eval_eqbs; cbv iota; cbn [andb orb] in *.
  - rewrite getstr_descriptor. cbn [obind].
    destruct (hd_descriptor_cases h) as [E|[E|[E|E]]]; rewrite E in *; cbn [descriptor_width desc_name] in *.
    4: eval_eqbs; cbv iota; reflexivity.
    all: match type of V with context[Nat.ltb ?a ?b] => destruct (Nat.ltb a b); discriminate V end.
  - destruct (Nat.ltb_spec (length f) 24) as [L24|L24]; [discriminate|].
    rewrite slice_ok by lia. cbn [obind]. change (24 - 8)%nat with 16%nat.
    destruct (N.eqb_spec (number_at f 8 1) 0) as [Z|Z].
    + rewrite ts_get_zero by auto. cbn [obind]. cbv beta iota. cbn [orb]. reflexivity.
    + pose proof (ts_get_at (d_tstamp d) f 8 ltac:(lia)) as G.
      pose proof (ts_verdict_spec f L24 R) as TV. unfold ts_verdict in TV. fold h in TV. rewrite R in TV. change (1 =? 1) with true in TV.
      cbv iota zeta in TV. replace (length f <? 24)%nat with false in TV by (symmetry; apply Nat.ltb_ge; lia).
      destruct (ts_at f 8) as [t|].
      * rewrite TV in V. rewrite G. cbn [obind]. cbv beta iota. rewrite getstr_descriptor. cbn [obind].
        destruct (hd_descriptor_cases h) as [E|[E|[E|E]]]; rewrite E in *; cbn [descriptor_width desc_name] in *;
          try (match type of V with context[Nat.ltb ?a ?b] => destruct (Nat.ltb_spec a b) as [X|X]; [discriminate V|] end);
          cbn [Nat.eqb andb] in V; [|discriminate V|discriminate V|eval_eqbs; cbv iota; reflexivity].
        destruct (Nat.eqb_spec (length f) (24 + 2)) as [Y|Y]; [|discriminate V]. eval_eqbs. cbv iota.
        unfold d_offset_payload. rewrite get_uint_number by lia. cbn [obind]. rewrite slice_from_ok by lia. cbn [obind].
        rewrite skipn_all2 by lia. reflexivity.
      * destruct (N.eqb_spec (number_at f 8 1) 0); [contradiction|]. rewrite TV in V. discriminate V.
Qed.
(** C144: A status is refused for one of three reasons; its holes and numbers are then not taken over. *)
Lemma c144_status : forall s f, status_verdict f = Reject -> status_decode s f = Ret (status_left s f, Some (status_reason f)).
Proof.
  intros s f V. unfold status_verdict in V. unfold status_decode, status_left, status_reason.
  destruct (Nat.ltb_spec (length f) 12) as [L|L]; [reflexivity|].
  rewrite !get_uint_number by lia. cbn [obind]. cbv zeta in V. unfold ts_verdict, after_ts in V. unfold stamp_refused, ts_read.
  set (h := number_at f 0 4) in *. rewrite getstr_reqtstamp. cbn [obind]. cbn [s_tstamp].
  destruct (hd_reqtstamp_cases h) as [R|R]; rewrite R in *; unfold yes_no;
    [change (0 =? 0) with true; change (0 =? 1) with false in * | change (1 =? 0) with false; change (1 =? 1) with true in *];
    cbv iota in *; eval_eqbs; cbv iota; cbn [andb orb] in *.
  - cbn [obind]. cbv beta iota. rewrite getstr_descriptor. cbn [obind].
    destruct (hd_descriptor_cases h) as [E|[E|[E|E]]]; rewrite E in *; cbn [descriptor_width desc_name] in *.
    4: eval_eqbs; cbv iota; reflexivity.
    all: match type of V with context[Nat.ltb ?a ?b] => destruct (Nat.ltb a b); discriminate V end.
  - destruct (Nat.ltb_spec (length f) 24) as [L24|L24]; [discriminate|].
    rewrite slice_ok by lia. cbn [obind]. change (24 - 8)%nat with 16%nat.
    destruct (N.eqb_spec (number_at f 8 1) 0) as [Z|Z].
    + rewrite ts_get_zero by auto. cbn [obind]. cbv beta iota. reflexivity.
    + pose proof (ts_get_at (s_tstamp s) f 8 ltac:(lia)) as G.
      pose proof (ts_verdict_spec f L24 R) as TV. unfold ts_verdict in TV. fold h in TV. rewrite R in TV. change (1 =? 1) with true in TV.
      cbv iota zeta in TV. replace (length f <? 24)%nat with false in TV by (symmetry; apply Nat.ltb_ge; lia).
      destruct (ts_at f 8) as [t|].
      * rewrite TV in V. rewrite G. cbn [obind]. cbv beta iota. rewrite getstr_descriptor. cbn [obind].
        destruct (hd_descriptor_cases h) as [E|[E|[E|E]]]; rewrite E in *; cbn [descriptor_width desc_name] in *;
          try (match type of V with context[Nat.ltb ?a ?b] => destruct (Nat.ltb_spec a b) as [X|X]; [discriminate V|discriminate V] end).
        eval_eqbs; cbv iota; reflexivity.
      * destruct (N.eqb_spec (number_at f 8 1) 0); [contradiction|]. rewrite TV in V. discriminate V.
Qed.
(** C144: A beacon is refused for one reason. *)
Lemma c144_beacon : forall b f, beacon_verdict f = Reject ->
  beacon_decode b f = Ret ({| b_header := number_at f 0 4; b_freespace := b_freespace b; b_eid := b_eid b |},
                           Some "d128 not supported invalid beacon frame").
Proof.
  intros b f V. pose proof (c40_verdict b f) as D. rewrite V in D. revert D. unfold beacon_decode.
  destruct (Nat.ltb_spec (length f) 4) as [L|L]; [rewrite get_uint_panic' by lia; discriminate|].
  rewrite get_uint_number by lia. cbn [obind]. set (h := number_at f 0 4).
  destruct (sf_getstr sar h "freespace") as [fs| |] eqn:FS; try discriminate. cbn [obind].
  destruct (String.eqb fs "yes").
  - rewrite getstr_freespaced. cbn [obind].
    destruct (hd_freespaced_cases h) as [E|[E|[E|E]]]; rewrite E; cbn [desc_name]; eval_eqbs; cbv iota.
    4: reflexivity.
    all: unfold b_space_eid; destruct (get_uint _ f _ _); try discriminate; cbn [obind]; destruct (slice_from f _); discriminate.
  - rewrite slice_from_ok by lia. discriminate.
Qed.
(** C144: A request is refused for one reason. *)
Lemma c144_request : forall r f, request_verdict (slen (r_fname r)) f = Reject ->
  request_decode r f = Ret (r, Some "request.Decode - request frame too short").
Proof.
  intros r f V. pose proof (c35_verdict r f) as D. rewrite V in D. revert D. unfold request_decode.
  destruct (Nat.ltb (length f) 9); [reflexivity|].
  destruct (get_uint 4 f 0 4); try discriminate. cbn [obind]. destruct (get_uint 4 f 4 8); try discriminate. cbn [obind].
  destruct (slice_from f 8); try discriminate. cbn [obind]. cbv zeta.
  match goal with |- context[if ?b then _ else _] => destruct b; [discriminate|] end.
  match goal with |- context[slice_from f ?n] => destruct (slice_from f n); discriminate end.
Qed.
(** C144: A directory entry is refused for one of two reasons. *)
Lemma c144_entry : forall d f, dirent_verdict f = Reject -> dirent_decode d f = Ret (entry_left d f, Some (entry_reason f)).
Proof.
  intros d f V. unfold dirent_verdict in V. unfold dirent_decode, entry_left, entry_reason.
  destruct (Nat.ltb_spec (length f) 12) as [L|L]; [reflexivity|].
  rewrite get_uint_number by lia. cbn [obind]. rewrite dgetstr_descriptor. cbn [obind].
  destruct (dh_descriptor_cases (number_at f 0 2)) as [E|[E|[E|E]]]; rewrite E in *; cbn [descriptor_width desc_name] in *.
  4: eval_eqbs; reflexivity.
  all: match type of V with context[Nat.ltb ?a ?b] => destruct (Nat.ltb a b); discriminate V end.
Qed.
(** C144: Metadata are refused for one of three reasons. *)
Lemma c144_metadata : forall m f, meta_verdict f = Reject -> meta_decode m f = Ret (meta_left m f, Some (meta_reason f)).
Proof.
  intros m f V. pose proof (c48_verdict m f) as D. rewrite V in D. revert D. unfold meta_decode, meta_left, meta_reason, entry_in.
  destruct (Nat.ltb_spec (length f) 8) as [L|L]; [reflexivity|].
  rewrite !get_uint_number by lia. cbn [obind]. cbv zeta. rewrite get_csumlen. set (h := number_at f 0 4).
  replace (N.to_nat (hd_csumlen h) * 4)%nat with (csum_bytes h) by (unfold csum_bytes; lia).
  destruct (Nat.leb_spec (8 + csum_bytes h) (length f)) as [X|X]; [|rewrite slice_panic by lia; discriminate].
  rewrite slice_ok by lia. cbn [obind]. rewrite slice_from_ok by lia. cbn [obind].
  intros D. assert (DV : dirent_verdict (skipn (8 + csum_bytes h) f) = Reject).
  { rewrite <- (c45_verdict (m_dir m)). destruct (dirent_decode (m_dir m) (skipn (8 + csum_bytes h) f)) as [[d [e|]]| |]; try discriminate D. reflexivity. }
  rewrite (c144_entry _ _ DV). cbn [obind]. cbv beta iota. replace (8 + csum_bytes h - 8)%nat with (csum_bytes h) by lia. reflexivity.
Qed.

(** ** Frames to be sent *)
(** C144: A data frame with 128-bit offsets cannot be sent. *)
Lemma c144_encode_data : forall d, hd_descriptor (d_header d) = 3 -> data_encode d = Ret (EncErr "d128d128 not supported in data").
Proof.
  intros d E. unfold data_encode. rewrite getstr_reqtstamp. cbn [obind]. rewrite getstr_descriptor. cbn [obind]. rewrite E. cbn [desc_name].
  eval_eqbs. reflexivity.
Qed.
(** C144: A status with 128-bit offsets cannot be sent. *)
Lemma c144_encode_status : forall s, hd_descriptor (s_header s) = 3 -> status_encode s = Ret (EncErr "d128 not supported in status").
Proof.
  intros s E. unfold status_encode. rewrite getstr_reqtstamp. cbn [obind]. rewrite getstr_descriptor. cbn [obind]. rewrite E. cbn [desc_name].
  eval_eqbs. reflexivity.
Qed.
(** C144: A beacon with 128-bit free space cannot be sent. *)
Lemma c144_encode_beacon : forall b, hd_freespace (b_header b) = 1 -> hd_freespaced (b_header b) = 3 ->
  beacon_encode b = Ret (EncErr "d128 not supported invalid beacon frame").
Proof.
  intros b F E. unfold beacon_encode. rewrite getstr_freespace, F. cbn [obind]. unfold yes_no. change (1 =? 0) with false. cbv iota. eval_eqbs. cbv iota.
  rewrite getstr_freespaced, E. cbn [obind desc_name]. eval_eqbs. reflexivity.
Qed.
(** C144: A directory entry that cannot be encoded is refused for its path, its size or its descriptor. *)
Lemma c144_encode_entry : forall d, (forall f, dirent_encode d <> Ret (Frame f)) -> dirent_encode d = Ret (EncErr (entry_unsendable d)).
Proof.
  intros d NF. destruct (c44_iff d) as (_ & [(f & F)|(e & F)]); [destruct (NF f F)|].
  assert (R : e = entry_unsendable d); [|congruence]. clear NF. revert F. unfold dirent_encode, entry_unsendable. rewrite dgetstr_descriptor. cbn [obind].
  destruct (dh_descriptor_cases (de_header d)) as [E|[E|[E|E]]]; rewrite E; cbn [desc_name];
    cbn [one_of existsb]; eval_eqbs; cbn [orb negb]; cbv iota zeta;
    (destruct (Nat.ltb 1024 (slen (de_path d))); [congruence|]); cbn [Nat.eqb];
    (match goal with |- context[put_uint 2 ?b 0 2 ?v] => destruct (put_uint 2 b 0 2 v) as [fr| |]; cbn [obind]; [|discriminate|discriminate] end);
    [ destruct (MaxUint16 <? de_size d); cbn [obind]; [congruence|]
    | destruct (MaxUint32 <? de_size d); cbn [obind]; [congruence|]
    | destruct (MaxUint32 <? de_size d); cbn [obind]; [congruence|]
    | congruence];
    intros F; exfalso; revert F;
    repeat (match goal with
      | |- obind (obind ?m _) _ = _ -> _ => destruct m; cbn [obind]; try discriminate
      | |- obind ?m _ = _ -> _ => destruct m; cbn [obind]; try discriminate end).
Qed.

(** ** Flag lists *)
Section Loop.
  Variables (St : Type) (loop : list string -> St -> outcome (St * error)) (body : string -> string -> St -> outcome (St * error)).
  Hypothesis loop_cons : forall f v rest d, clean f -> clean v ->
    loop (item_text (f, v) :: rest) d = ebind (body f v d) (fun d => loop rest d).
  Variables (iv : string * string -> verdict) (why : string * string -> string).
  Hypothesis body_verdict : forall f v d, verdict_of (body f v d) = iv (f, v).
  Hypothesis body_reason : forall f v d d' e, iv (f, v) = Reject -> body f v d = Ret (d', Some e) -> e = why (f, v).
  Lemma loop_reason : forall items d e, clean_items items -> first_refusal iv why items = Some e ->
    exists d', loop (map item_text items) d = Ret (d', Some e).
  Proof.
    induction items as [|[f v] r IH]; intros d e C F; [discriminate|].
    destruct (C (f, v) (or_introl eq_refl)) as [Cf Cv]; cbn [fst snd] in Cf, Cv.
    cbn [map first_refusal] in *. rewrite loop_cons by auto. pose proof (body_verdict f v d) as V. 
    destruct (iv (f, v)) eqn:I; try discriminate F;
    destruct (body f v d) as [[d' [e'|]]| |] eqn:E; cbn [verdict_of] in V; try discriminate V.
    - cbn [ebind obind]. apply IH; auto. intros p Hp; apply C; right; auto.
    - injection F as F. pose proof (body_reason _ _ _ _ _ I E) as R. cbn [ebind obind]. exists d'. congruence.
  Qed.
End Loop.

(** C144: The first item of a list of flags that a data frame does not take is named. *)
Lemma c144_new_data : forall now d items info e, good_now now -> (forall p, In p items -> clean (fst p) /\ clean (snd p)) ->
  first_refusal (data_item_verdict sar) data_item_reason items = Some e -> exists d', data_new now d (flag_list items) info = Ret (d', Some e).
Proof.
  intros now d items info e G C F. assert (NE : items <> []) by (intros ->; discriminate). unfold data_new.
  destruct (sf_set_known (d_header d) "version" "v1" : exists h', _) as (h1 & E1). rewrite E1. cbn [obind].
  destruct (sf_set_known h1 "frametype" "data" : exists h', _) as (h2 & E2). rewrite E2. cbn [obind]. rewrite split_flags by auto.
  destruct (loop_reason data (data_flags now) (data_body now) (data_flags_cons now) (data_item_verdict sar) data_item_reason
    (fun f v d => data_body_verdict now f v d G)) with (items := items) (d := d_set_header d h2) (e := e) as (d' & R); auto.
  2: rewrite R; cbn [ebind obind]; eauto.
  intros f v d0 d1 e0 V. unfold data_item_verdict in V. unfold data_body, data_item_reason. rewrite !is_in_one_of.
  destruct (is_in f _). { unfold setting_verdict in V. destruct (known_option sar f v); discriminate V. }
  destruct (String.eqb f "transfer"). { destruct (String.eqb v "bundle"); [congruence|discriminate V]. }
  destruct (String.eqb f "reqtstamp"); [|congruence].
  destruct (is_in v ("no" :: "yes" :: stamp_names)) eqn:I; [discriminate V|].
  assert (N : ~ In v ("no" :: "yes" :: stamp_names)) by (intros X; apply is_in_true in X; congruence).
  replace (String.eqb v "no") with false by (symmetry; apply String.eqb_neq; intros ->; apply N; left; auto).
  replace (is_in v tstamp_names) with false.
  2:{ symmetry. destruct (is_in v tstamp_names) eqn:J; auto. apply is_in_true in J. exfalso. apply N. right. right. exact J. }
  replace (String.eqb v "yes") with false by (symmetry; apply String.eqb_neq; intros ->; apply N; right; left; auto). congruence.
Qed.
(** C144: The first item of a list of flags that a status does not take is named. *)
Lemma c144_new_status : forall now s items info e, good_now now -> (forall p, In p items -> clean (fst p) /\ clean (snd p)) ->
  first_refusal (status_item_verdict sar) status_item_reason items = Some e -> exists s', status_new now s (flag_list items) info = Ret (s', Some e).
Proof.
  intros now d items info e G C F. assert (NE : items <> []) by (intros ->; discriminate). unfold status_new.
  destruct (sf_set_known (s_header d) "version" "v1" : exists h', _) as (h1 & E1). rewrite E1. cbn [obind].
  destruct (sf_set_known h1 "frametype" "status" : exists h', _) as (h2 & E2). rewrite E2. cbn [obind]. rewrite split_flags by auto.
  destruct (loop_reason status (status_flags now) (status_body_item now) (status_flags_cons now) (status_item_verdict sar) status_item_reason
    (fun f v d => status_body_verdict now f v d G)) with (items := items) (d := s_set_header d h2) (e := e) as (d' & R); auto.
  2: rewrite R; cbn [ebind obind]; eauto.
  intros f v d0 d1 e0 V. unfold status_item_verdict in V. unfold status_body_item, status_item_reason. rewrite !is_in_one_of.
  destruct (is_in f ["descriptor"; "stream"; "metadatarecvd"; "allholes"; "reqholes"; "errcode"; "reqtstamp"]) eqn:I.
  { unfold setting_verdict in V. destruct (known_option sar f v); discriminate V. }
  assert (N : ~ In f ["descriptor"; "stream"; "metadatarecvd"; "allholes"; "reqholes"; "errcode"; "reqtstamp"]) by (intros X; apply is_in_true in X; congruence).
  replace (is_in f ["descriptor"; "stream"; "metadatarecvd"; "allholes"; "reqholes"; "errcode"]) with false.
  2:{ symmetry. destruct (is_in f ["descriptor"; "stream"; "metadatarecvd"; "allholes"; "reqholes"; "errcode"]) eqn:J; auto. apply is_in_true in J.
      exfalso. apply N. change (In f (["descriptor"; "stream"; "metadatarecvd"; "allholes"; "reqholes"; "errcode"] ++ ["reqtstamp"])). apply in_or_app. auto. }
  replace (String.eqb f "reqtstamp") with false by (symmetry; apply String.eqb_neq; intros ->; apply N; cbn; auto 10).
  destruct (is_in f ["localinterp"; "posix32"; "posix64"; "posix32_32"; "posix64_32"]); [discriminate V|]. cbn [fst]. congruence.
Qed.
(** C144: The first item of a list of flags that a request does not take is named, with the whole list. *)
Lemma c144_new_request : forall r items n info e, (forall p, In p items -> clean (fst p) /\ clean (snd p)) ->
  first_refusal (request_item_verdict sar) (request_item_reason (flag_list items)) items = Some e ->
  exists r', request_new r (flag_list items ++ commas n) info = Ret (r', Some e).
Proof.
  intros d items n info e C F. assert (NE : items <> []) by (intros ->; discriminate). unfold request_new.
  destruct (sf_set_known (r_header d) "version" "v1" : exists h', _) as (h1 & E1). rewrite E1. cbn [obind].
  destruct (sf_set_known h1 "frametype" "request" : exists h', _) as (h2 & E2). rewrite E2. cbn [obind].
  rewrite remove_spaces_app_commas, trim_flag_list, split_flag_list by auto.
  destruct (loop_reason request (request_flags (flag_list items)) (request_body_item (flag_list items)) (request_flags_cons (flag_list items))
    (request_item_verdict sar) (request_item_reason (flag_list items)) (fun f v d => request_body_verdict _ f v d))
    with (items := items) (d := r_set_header d h2) (e := e) as (d' & R); auto.
  2: rewrite R; cbn [ebind obind]; eauto.
  intros f v d0 d1 e0 V. unfold request_item_verdict in V. unfold request_body_item, request_item_reason. rewrite !is_in_one_of.
  destruct (is_in f _). { unfold setting_verdict in V. destruct (known_option sar f v); discriminate V. }
  cbn [fst snd]. congruence.
Qed.
(** C144: The first item of a list of flags that a beacon does not take is named. *)
Lemma c144_new_beacon : forall env b items info e, (forall p, In p items -> clean (fst p) /\ clean (snd p)) ->
  first_refusal (beacon_item_verdict sar) beacon_item_reason items = Some e -> exists b', beacon_new env b (flag_list items) info = Ret (b', Some e).
Proof.
  intros env d items info e C F. assert (NE : items <> []) by (intros ->; discriminate). unfold beacon_new.
  destruct (sf_set_known (b_header d) "version" "v1" : exists h', _) as (h1 & E1). rewrite E1. cbn [obind].
  destruct (sf_set_known h1 "frametype" "beacon" : exists h', _) as (h2 & E2). rewrite E2. cbn [obind]. rewrite split_flags by auto.
  destruct (loop_reason beacon beacon_flags beacon_body beacon_flags_cons (beacon_item_verdict sar) beacon_item_reason
    beacon_body_verdict) with (items := items) (d := b_set_header d h2) (e := e) as (d' & R); auto.
  2: rewrite R; cbn [ebind obind]; eauto.
  intros f v d0 d1 e0 V. unfold beacon_item_verdict in V. unfold beacon_body, beacon_item_reason. rewrite !is_in_one_of.
  destruct (is_in f _). { unfold setting_verdict in V. destruct (known_option sar f v); discriminate V. }
  destruct (String.eqb f "freespaced"); [|congruence].
  destruct (sf_set_known (b_header d0) "freespace" "yes" : exists h', _) as (h3 & E3). rewrite E3. cbn [obind]. cbv zeta.
  destruct (is_in v _); [discriminate V|congruence].
Qed.
(** C144: The first item of a list of flags that a directory entry does not take is named. *)
Lemma c144_new_entry : forall E d items path e, (forall p, In p items -> clean (fst p) /\ clean (snd p)) ->
  first_refusal (dirent_item_verdict sar) entry_item_reason items = Some e -> exists d', dirent_new E d (flag_list items) path = Ret (d', Some e).
Proof.
  intros En d items path e C F. assert (NE : items <> []) by (intros ->; discriminate). unfold dirent_new.
  destruct (sd_set_known (de_header d) "sod" "sod" : exists h', _) as (h1 & E1). rewrite E1. cbn [obind]. rewrite split_flags by auto.
  destruct (loop_reason dirent dirent_flags dirent_body dirent_flags_cons (dirent_item_verdict sar) entry_item_reason
    dirent_body_verdict) with (items := items) (d := de_set_header d h1) (e := e) as (d' & R); auto.
  2: rewrite R; cbn [ebind obind]; eauto.
  intros f v d0 d1 e0 V. unfold dirent_item_verdict in V. unfold dirent_body, entry_item_reason. rewrite !is_in_one_of.
  destruct (is_in f _). { destruct (dknown_option sar f v); discriminate V. }
  cbn [fst]. congruence.
Qed.
(** C144: The first item of a list of flags that metadata do not take is named. *)
Lemma c144_new_metadata : forall E m items info e, (forall p, In p items -> clean (fst p) /\ clean (snd p)) ->
  first_refusal (meta_item_verdict sar) meta_item_reason items = Some e -> exists m', meta_new E m (flag_list items) info = Ret (m', Some e).
Proof.
  intros En d items info e C F. assert (NE : items <> []) by (intros ->; discriminate). unfold meta_new.
  destruct (sf_set_known (m_header d) "version" "v1" : exists h', _) as (h1 & E1). rewrite E1. cbn [obind].
  destruct (sf_set_known h1 "frametype" "metadata" : exists h', _) as (h2 & E2). rewrite E2. cbn [obind]. rewrite split_flags by auto.
  destruct (loop_reason (metadata * string) meta_flags meta_body meta_flags_cons (meta_item_verdict sar) meta_item_reason
    meta_body_verdict) with (items := items) (d := (m_set_header d h2, "")) (e := e) as ([d' c'] & R); auto.
  2: rewrite R; cbn [obind]; eauto.
  intros f v [d0 c0] d1 e0 V. unfold meta_item_verdict in V. unfold meta_body, meta_item_reason. rewrite !is_in_one_of.
  destruct (is_in f ["descriptor"; "progress"; "transfer"; "reliability"; "csumtype"]) eqn:I.
  { unfold setting_verdict in V. destruct (known_option sar f v); discriminate V. }
  assert (N : ~ In f ["descriptor"; "progress"; "transfer"; "reliability"; "csumtype"]) by (intros X; apply is_in_true in X; congruence).
  replace (is_in f ["descriptor"; "progress"; "transfer"; "reliability"]) with false.
  2:{ symmetry. destruct (is_in f ["descriptor"; "progress"; "transfer"; "reliability"]) eqn:J; auto. apply is_in_true in J.
      exfalso. apply N. change (In f (["descriptor"; "progress"; "transfer"; "reliability"] ++ ["csumtype"])). apply in_or_app. auto. }
  replace (String.eqb f "csumtype") with false by (symmetry; apply String.eqb_neq; intros ->; apply N; cbn; auto 10).
  cbn [fst]. congruence.
Qed.

(** ** Files and times *)
Lemma statfile_reason : forall E fname h n e, here E fname = inl n -> meta_statfile E fname h = Ret (inr e) -> e = node_reason h n fname.
Proof.
  intros E fname h n e H F. unfold here in H. revert F. unfold meta_statfile, node_reason. rewrite H. cbv zeta.
  set (ds := if u64 (node_size n) <? MaxUint16 then _ else _). clearbody ds.
  unfold is_regular, is_dir, is_pipe in *. destruct (n_kind n); cbn [orb negb]; try congruence;
    (match goal with |- context[sd_addflag sar "" "property" ?p] => destruct (sd_addflag sar "" "property" p) as [fl| |]; cbn [obind]; [|discriminate|discriminate] end);
    (match goal with |- context[sd_addflag sar ?x "descriptor" ds] => destruct (sd_addflag sar x "descriptor" ds) as [fl'| |]; cbn [obind]; [|discriminate|discriminate] end);
    rewrite getstr_transfer; cbn [obind];
    destruct (hd_transfer_cases h) as [T|[T|[T|T]]]; rewrite T; cbn [transfer_name]; eval_eqbs; cbv iota; cbn [negb]; try congruence.
  destruct (sf_getstr sar h "csumtype") as [ct| |]; cbn [obind]; [|discriminate|discriminate]. destruct (negb (String.eqb ct "none")); congruence.
Qed.
(** C144: What is in the working directory but is not what the flags say is refused with its name. *)
Lemma c144_node : forall E m items info n, items <> [] -> (forall p, In p items -> clean (fst p) /\ clean (snd p)) ->
  (forall p, In p items -> meta_item_verdict sar p = Accept) -> m_header m < 2 ^ 32 -> here E (mi_fname info) = inl n ->
  exists h, set_exactly sar (m_header m) h (("version", "v1") :: ("frametype", "metadata") :: flat_map meta_settings items) /\
    (node_verdict h n = Reject -> exists m', meta_new E m (flag_list items) info = Ret (m', Some (node_reason h n (mi_fname info)))).
Proof.
  intros E m items info n NE C A Bh HN. unfold meta_new.
  destruct (sf_set_known (m_header m) "version" "v1" : exists h', _) as (h1 & E1).
  destruct (sf_set_known h1 "frametype" "metadata" : exists h', _) as (h2 & E2).
  destruct (meta_loop items (m_set_header m h2, "") NE C) as [V RL].
  assert (FB : first_bad (map (meta_item_verdict sar) items) = Accept).
  { clear - A. induction items as [|p l IH]; [reflexivity|].
    cbn [map first_bad]. rewrite (A p) by (left; auto). apply IH. intros q Q; apply A; right; auto. }
  rewrite FB in V. apply verdict_accept in V. destruct V as (st' & V). destruct (RL _ V) as (h & SF & ->). cbn [fst snd] in *.
  cbn [m_set_header m_header] in SF.
  exists h. split.
  { apply set_exactly_setflags with (K := meta_fields); auto.
    - intros x [<-|[<-|I]]; [cbn; tauto|cbn; tauto|].
      revert x I. apply keys_flat_map. intros; apply meta_settings_keys; auto.
    - cbn [sf_setflags]. rewrite E1. cbn [obind]. rewrite E2. cbn [obind]. exact SF. }
  intros NV. rewrite E1. cbn [obind]. rewrite E2. cbn [obind]. rewrite V. cbn [obind]. cbv beta iota.
  unfold meta_rest. cbn [m_set_header m_header m_session m_checksum m_dir]. pose proof (statfile_spec E (mi_fname info) h) as SFS.
  rewrite HN, NV in SFS. destruct SFS as [e SFS]. rewrite <- (statfile_reason _ _ _ _ _ HN SFS). rewrite SFS. cbn [obind]. eauto.
Qed.
(** C144: A directory entry with too long a path is refused for that. *)
Lemma c144_path : forall E d items path, items <> [] -> (forall p, In p items -> clean (fst p) /\ clean (snd p)) ->
  (forall p, In p items -> dirent_item_verdict sar p = Accept) -> (1024 < slen path)%nat ->
  exists d', dirent_new E d (flag_list items) path = Ret (d', Some "path name exceeds 1024 bytes").
Proof.
  intros En d items path NE C A L. unfold dirent_new.
  destruct (sd_set_known (de_header d) "sod" "sod" : exists h', _) as (h1 & E1). rewrite E1. cbn [obind]. rewrite split_flags by auto.
  pose proof (loop_verdict dirent dirent_flags dirent_body (fun _ => eq_refl) dirent_flags_cons (fun _ => True) (dirent_item_verdict sar)
    (fun f v d _ => dirent_body_verdict f v d) (fun _ _ _ _ _ _ => I) items (de_set_header d h1) C I) as V.
  rewrite (dirent_items_verdict items A) in V. apply verdict_accept in V. destruct V as (d' & V). rewrite V. cbn [ebind obind].
  apply Nat.ltb_lt in L. rewrite L. eauto.
Qed.
(** C144: An instant that does not fit is refused by the type it was to be stored in. *)
Lemma c144_instant : forall t ty ts t' e, In ty ["posix32"; "posix64"; "posix32_32"; "posix64_32"; "epoch2000_32"] ->
  ts_new t ty ts = Ret (t', Some e) -> e = instant_reason ty.
Proof.
  intros t ty ts t' e I. unfold ts_new, instant_reason.
  destruct I as [<-|[<-|[<-|[<-|[<-|[]]]]]];
    (match goal with |- context[remove_spaces ?s] => change (remove_spaces s) with s end);
    (match goal with |- context[st_set sar 0 ?s] => destruct (st_set sar 0 s); cbn [obind]; [|discriminate|discriminate] end);
    eval_eqbs; cbv iota zeta;
    try (match goal with |- context[if ?b then Ret _ else _] => destruct b end); cbn [append]; congruence.
Qed.
(** C144: The current time that does not fit is refused with the flag. *)
Lemma c144_now : forall now t flag t' e, ts_now now t flag = Ret (t', Some e) -> e = "TimeStampNow invalid flag:" ++ flag.
Proof. intros now t flag t' e. unfold ts_now. destruct (ts_new t flag now) as [[t1 [e1|]]| |]; cbn [obind]; congruence. Qed.
(** C144: A timestamp of local text is refused, but its text is kept. *)
Lemma c144_stamp : forall t b, length b = 16%nat -> number_at b 0 1 = 0 ->
  ts_get t b = Ret ({| t_header := 0; t_secs := 0; t_nsecs := 0; t_local := string_of (firstn 14 (skipn 1 b)); t_ttype := "localinterp" |}, Some stamp_reason).
Proof.
  intros t b L Z. pose proof (ts_get_zero t (repeat zero_byte 8 ++ b)) as G. change (skipn 8 (repeat zero_byte 8 ++ b)) with b in G.
  rewrite (firstn_all2 b) in G by lia. apply G; [rewrite app_length, repeat_length; lia|exact Z].
Qed.

Example c144_ex :
  data_verdict (wire 4 0x23080000 ++ wire 4 7 ++ zeros 16) = Reject /\
  data_reason (wire 4 0x23080000 ++ wire 4 7 ++ zeros 16) = "timestamp.Get: Invalid Timestamp type:localinterp" /\
  data_reason (wire 4 0x23080000 ++ wire 4 7 ++ wire 1 1 ++ zeros 15 ++ zeros 2) = "length of data payload is 0" /\
  status_reason (wire 4 0x24C00000 ++ zeros 20) = "d128 not supported in status" /\
  first_refusal (data_item_verdict sar) data_item_reason [("descriptor", "d16"); ("reqtstamp", "posix16")] = Some "posix16 invalid timestamp type in data" /\
  first_refusal (beacon_item_verdict sar) beacon_item_reason [("freespaced", "d128")] = Some "Beacon.New: Invalid freespaced d128" /\
  entry_unsendable {| de_header := 0x8080; de_size := 2 ^ 32; de_mtime := y2k 0; de_ctime := y2k 0; de_path := "f" |} = "Descriptor d64 too small for file size 4294967296" /\
  node_reason 0 {| n_kind := KDir; n_size := 0; n_mtime := {| unix_secs := 0; unix_nanos := 0 |}; n_ctime := {| unix_secs := 0; unix_nanos := 0 |} |} "d" = "d not a file".
Proof. repeat (apply conj; [vm_compute; reflexivity|]). vm_compute. reflexivity. Qed.
