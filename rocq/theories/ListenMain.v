From Verif Require Import GoBase GoFacts Flags Config Shipped SpecFlags FlagsFacts ConfigFacts FlagsMain SpecWire SarFacts Timestamp SpecTime TimeMain Holes Data SpecFrames FrameFacts BuildFacts DataMain Status SpecStatus StatusMain Request SpecRequest RequestMain Beacon SpecBeacon BeaconMain Peers SpecPeers PeersMain Fileio Dirent SpecDirent DirentMain Metadata SpecMetadata MetadataMain Trans Listen SpecListen.
Local Open Scope string_scope.
Local Open Scope N_scope.

(** ** The error statuses *)
Definition error_codes : list string :=
  ["success"; "badrequest"; "cantreceive"; "cantsend"; "filenotfound"; "didnotdelete"; "fileinuse"; "badpacket"].
Lemma error_status_code : forall now code, In code error_codes -> exists st,
  status_new now zero_status ("errcode=" ++ code) no_info = Ret (st, None) /\ error_status st [("errcode", code)] 0 0.
Proof.
  intros now code I. unfold error_codes in I.
  repeat (destruct I as [<-|I]; [|]); [..|destruct I];
  (eexists; split; [vm_compute; reflexivity|]; split; [|repeat split];
   eapply (set_exactly_setflags ["version"; "frametype"; "errcode"]);
   [vm_compute; reflexivity | intros x X; exact X | reflexivity | vm_compute; reflexivity]).
Qed.
Lemma error_status_bad : forall now d session progress, session < 2 ^ 32 -> exists st,
  status_new now zero_status
   ("descriptor=" ++ desc_name (hd_descriptor d) ++ ",metadatarecvd=no,allholes=yes,reqholes=requested,errcode=badpacket")
   {| si_session := session; si_progress := progress; si_inrespto := 0; si_holes := [] |} = Ret (st, None) /\
  error_status st (bad_settings (desc_name (hd_descriptor d))) session progress.
Proof.
  intros now d session progress B.
  assert (X : exists h, status_new now zero_status
     ("descriptor=" ++ desc_name (hd_descriptor d) ++ ",metadatarecvd=no,allholes=yes,reqholes=requested,errcode=badpacket")
     {| si_session := session; si_progress := progress; si_inrespto := 0; si_holes := [] |} =
     Ret ({| s_header := h; s_session := u32 session; s_tstamp := zero_timestamp; s_progress := progress; s_inrespto := 0; s_holes := [] |}, None) /\
     set_exactly sar 0 h (("version", "v1") :: ("frametype", "status") :: bad_settings (desc_name (hd_descriptor d)))).
  { destruct (hd_descriptor_cases d) as [E|[E|[E|E]]]; rewrite E;
      (eexists; split; [vm_compute; reflexivity|];
       eapply (set_exactly_setflags ["version"; "frametype"; "descriptor"; "metadatarecvd"; "allholes"; "reqholes"; "errcode"]);
       [vm_compute; reflexivity | intros x X; exact X | reflexivity | vm_compute; reflexivity]). }
  destruct X as (h & E & S). eexists. split; [exact E|]. repeat split; cbn; try apply S.
  unfold u32. apply N.mod_small. exact B.
Qed.

(** ** The names of the header fields *)
Lemma version_name : forall h, sf_getstr sar h "version" =
  match hd_version h with 0 => Ret "v0" | 1 => Ret "v1" | _ => Fatal end.
Proof.
  intros h. erewrite getstr_field by (vm_compute; reflexivity). cbn [f_opts f_msb f_len].
  unfold hd_version. destruct (bit_field 32 0 3 h) as [|[p|p|]]; reflexivity.
Qed.
Lemma frametype_name : forall h, sf_getstr sar h "frametype" =
  match hd_frametype h with 0 => Ret "beacon" | 1 => Ret "request" | 2 => Ret "metadata" | 3 => Ret "data" | 4 => Ret "status" | _ => Fatal end.
Proof.
  intros h. erewrite getstr_field by (vm_compute; reflexivity). cbn [f_opts f_msb f_len].
  unfold hd_frametype. destruct (bit_field 32 3 5 h) as [|[[p|p|]|[p|[p|p|]|]|]]; reflexivity.
Qed.
Lemma opt_name_none : forall opts v, (forall k f, In (k, f) opts -> f < v) -> opt_name opts v = Fatal.
Proof.
  induction opts as [|[k f] r IH]; intros v H; [reflexivity|]. cbn [opt_name].
  destruct (N.eqb_spec f v) as [->|]; [exfalso; pose proof (H k v (or_introl eq_refl)); lia|].
  apply IH. intros; apply (H k0); right; auto.
Qed.
Fixpoint upto (n : nat) : list N := match n with O => [] | S n => upto n ++ [N.of_nat n] end%list.
Lemma in_upto : forall n v, v < N.of_nat n -> In v (upto n).
Proof.
  induction n as [|n IH]; intros v H; [lia|]. cbn [upto]. apply in_app_iff.
  destruct (N.eq_dec v (N.of_nat n)) as [->|]; [right; left; auto|left; apply IH; lia].
Qed.
Lemma opt_name_range : forall opts n v, (forall k f, In (k, f) opts -> f < N.of_nat n) ->
  Forall (fun x => exists s, opt_name opts x = Ret s) (upto n) ->
  if v <? N.of_nat n then exists s, opt_name opts v = Ret s else opt_name opts v = Fatal.
Proof.
  intros opts n v H F. destruct (N.ltb_spec v (N.of_nat n)) as [L|L].
  - rewrite Forall_forall in F. apply F. apply in_upto; auto.
  - apply opt_name_none. intros. pose proof (H k f H0). lia.
Qed.
Lemma in_flag_bound : forall (opts : list (string * N)) n, forallb (fun p => snd p <? n) opts = true -> forall k f, In (k, f) opts -> f < n.
Proof. intros opts n H k f I. rewrite forallb_forall in H. apply N.ltb_lt. apply (H (k, f) I). Qed.
Ltac name_range := erewrite getstr_field by (vm_compute; reflexivity); cbn [f_opts f_msb f_len];
  match goal with |- context[opt_name ?o ?v] =>
    match goal with |- context[v <? ?m] =>
      apply (opt_name_range o (N.to_nat m) v); [apply in_flag_bound; vm_compute; reflexivity
        | vm_compute upto; repeat constructor; eexists; vm_compute; reflexivity] end end.
Lemma errcode_name : forall h, if hd_errcode h <? 19 then exists s, sf_getstr sar h "errcode" = Ret s else sf_getstr sar h "errcode" = Fatal.
Proof. intros h. unfold hd_errcode. name_range. Qed.
Lemma csumtype_name : forall h, if hd_csumtype h <? 4 then exists s, sf_getstr sar h "csumtype" = Ret s else sf_getstr sar h "csumtype" = Fatal.
Proof. intros h. unfold hd_csumtype. name_range. Qed.

(** ** Printing a frame that has been decoded *)
Lemma getstr_small : forall h field f, lookup field (t_flags sar) = Some f ->
  (forall v, v < 2 ^ f_len f -> exists s, opt_name (f_opts f) v = Ret s) -> exists s, sf_getstr sar h field = Ret s.
Proof. intros h field f L H. rewrite (getstr_field _ _ h L). apply H. apply bit_field_bound. Qed.
Ltac small1 := eapply getstr_small; [vm_compute; reflexivity|]; cbn [f_len f_opts];
  let v := fresh "v" in let B := fresh "B" in intros v B;
  first [apply lt2 in B; destruct B as [->| ->] | apply lt4 in B; destruct B as [->|[->|[->| ->]]]]; eexists; reflexivity.
Lemma stamp_prints : forall f t0, ts_verdict f = Accept -> hd_reqtstamp (number_at f 0 4) = 1 -> ts_print_ok (ts_read t0 f) = Ret tt.
Proof.
  intros f t0 V R. unfold ts_read. rewrite R. change (1 =? 1) with true. cbv iota.
  unfold ts_verdict in V. rewrite R in V. change (1 =? 1) with true in V. cbv iota zeta in V.
  destruct (Nat.ltb_spec (length f) 24) as [|L]; [discriminate|].
  pose proof (ts_verdict_spec f L R) as S. unfold ts_verdict in S. rewrite R in S. change (1 =? 1) with true in S. cbv iota zeta in S.
  destruct (Nat.ltb_spec (length f) 24); [lia|]. rewrite V in S.
  destruct (ts_at f 8) as [t|] eqn:T; [|destruct (number_at f 8 1 =? 0); discriminate].
  unfold ts_at in T. destruct (ts_type (number_at f 8 1)) as [l|] eqn:TT; [|discriminate]. inversion T; subst t. clear T S.
  unfold ts_print_ok. cbn [t_header].
  assert (B : number_at f 8 1 < 256) by (pose proof (number_at_bound f 8 1) as Q; exact Q).
  rewrite st_getstr_eq by exact B.
  destruct (number_at f 8 1) as [|[[[p|p|]|[p|p|]|]|[[p|p|]|[p|p|]|]|]]; try discriminate; reflexivity.
Qed.
Lemma status_prints : forall s f, s_header s = number_at f 0 4 -> s_tstamp s = ts_read zero_timestamp f -> ts_verdict f = Accept ->
  hd_version (s_header s) = 1 -> hd_frametype (s_header s) = 4 ->
  (status_shortprint_ok s = if hd_errcode (s_header s) <? 19 then Ret tt else Fatal) /\
  (status_print_ok s = if hd_errcode (s_header s) <? 19 then Ret tt else Fatal).
Proof.
  intros s f H T V HV HF.
  assert (P : hd_reqtstamp (s_header s) = 1 -> ts_print_ok (s_tstamp s) = Ret tt) by (rewrite H, T; apply stamp_prints; auto).
  pose proof (errcode_name (s_header s)) as E. split.
  - unfold status_shortprint_ok. rewrite getstr_reqtstamp. cbn [obind].
    destruct (hd_reqtstamp_cases (s_header s)) as [R|R]; rewrite R; unfold yes_no;
    [change (0 =? 0) with true | change (1 =? 0) with false]; cbv iota; eval_eqbs; cbv iota.
    + cbn [obind]. destruct (hd_errcode (s_header s) <? 19); [destruct E as [x E]|]; rewrite E; reflexivity.
    + rewrite (P R). cbn [obind]. destruct (hd_errcode (s_header s) <? 19); [destruct E as [x E]|]; rewrite E; reflexivity.
  - unfold status_print_ok.
    assert (VS : sf_values sar "status" = ["version"; "frametype"; "descriptor"; "reqtstamp"; "metadatarecvd"; "allholes"; "reqholes"; "errcode"]) by reflexivity.
    rewrite VS. cbn [ofold]. rewrite version_name, frametype_name, HV, HF. cbn [obind].
    assert (Z : forall g, In g ["metadatarecvd"; "allholes"; "reqholes"] -> exists x, sf_getstr sar (s_header s) g = Ret x).
    { intros g [<-|[<-|[<-|[]]]]; small1. }
    rewrite getstr_descriptor, getstr_reqtstamp. cbn [obind].
    destruct (Z "metadatarecvd") as [x1 ->]; [cbn; auto|]. destruct (Z "allholes") as [x2 ->]; [cbn; auto|].
    destruct (Z "reqholes") as [x3 ->]; [cbn; auto|]. cbn [obind].
    destruct (hd_errcode (s_header s) <? 19); [destruct E as [x E]|]; rewrite E; cbn [obind]; auto.
    destruct (hd_reqtstamp_cases (s_header s)) as [R|R]; rewrite R; unfold yes_no;
    [change (0 =? 0) with true | change (1 =? 0) with false]; cbv iota; eval_eqbs; cbv iota; auto.
Qed.

(** ** The answer to a rejected frame *)
Lemma bad_frame_spec : forall now h session progress from, session < 2 ^ 32 -> exists st,
  bad_frame now h session progress from = Ret (ToTx (status_val st from)) /\
  error_status st (bad_settings (desc_name (hd_descriptor h))) session progress.
Proof.
  intros now h session progress from B. unfold bad_frame. rewrite getstr_descriptor. cbn [obind].
  destruct (error_status_bad now h session progress B) as (st & E & S). rewrite E. cbn [obind]. eauto.
Qed.

Lemma data_rejected : forall f d e, data_decode zero_data f = Ret (d, Some e) -> hd_frametype (number_at f 0 4) = 3 ->
  (d_session d, d_offset d) = quoted f.
Proof.
  intros f d e D F. unfold quoted. rewrite F. change (3 =? 3) with true. cbv iota.
  pose proof (c25_verdict zero_data f) as V. rewrite D in V. cbn [verdict_of] in V. symmetry in V.
  unfold data_decode in D. destruct (Nat.ltb_spec (length f) 10) as [L|L].
  { inversion D; subst. reflexivity. }
  rewrite !get_uint_number in D by lia. cbn [obind] in D.
  cbn [d_tstamp d_offset d_payload zero_data] in D.
  unfold data_verdict in V. destruct (Nat.ltb_spec (length f) 10); [lia|]. cbv zeta in V.
  set (h := number_at f 0 4) in *. rewrite getstr_reqtstamp in D. cbn [obind] in D.
  rewrite getstr_descriptor in D.
  destruct (hd_reqtstamp_cases h) as [R|R]; rewrite R in D, V; unfold yes_no in D.
  - change (0 =? 0) with true in D. cbv iota in D. revert D; eval_eqbs; cbv iota; intros D. cbn [obind] in D.
    change (0 =? 1) with false in V. cbn [andb] in V.
    unfold ts_verdict in *. fold h in V |- *. rewrite R in *. change (0 =? 1) with false in *. cbv iota zeta in *.
    destruct (hd_descriptor_cases h) as [E|[E|[E|E]]]; rewrite E in *; cbn [descriptor_width] in *;
      try (destruct (Nat.ltb _ _); discriminate).
    revert D; cbn [desc_name]; eval_eqbs; cbv iota; intros D. inversion D; subst. reflexivity.
  - change (1 =? 0) with false in D. cbv iota in D. revert D; eval_eqbs; cbv iota; intros D.
    destruct (Nat.ltb_spec (length f) 24) as [L24|L24].
    { rewrite slice_panic in D by lia. discriminate. }
    rewrite slice_ok in D by lia. cbn [obind] in D. change (24 - 8)%nat with 16%nat in D.
    pose proof (ts_get_at zero_timestamp f 8 ltac:(lia)) as G.
    pose proof (ts_verdict_spec f L24 R) as VS.
    change (d_tstamp zero_data) with zero_timestamp in D.
    destruct (ts_at f 8) as [t|].
    + rewrite VS in *. rewrite G in D. cbn [obind] in D.
      destruct (hd_descriptor_cases h) as [E|[E|[E|E]]]; rewrite E in *; cbn [descriptor_width desc_name] in *;
        change (1 =? 1) with true in V; cbn [andb Nat.eqb] in V;
        try (destruct (Nat.ltb _ _); discriminate).
      * revert D; eval_eqbs; cbv iota; intros D. unfold d_offset_payload in D.
        unfold get_uint in D. inv_bind D. inv_bind D. cbn [d_set_tstamp d_header d_session d_tstamp] in D.
        destruct (Nat.ltb_spec (length f) (after_ts h + 2)) as [|L26]; [discriminate|].
        unfold after_ts in L26. rewrite R in L26. change (1 =? 1) with true in L26. cbv iota in L26.
        pose proof (get_uint_number 2 f 24 26 eq_refl ltac:(lia)) as GN. unfold get_uint in GN.
        change (24 + 2)%nat with 26%nat in *. rewrite GN in E0. inversion E0; subst a.
        destruct (true && Nat.eqb (length a0) 0); [|discriminate]. inversion D; subst. reflexivity.
      * revert D; eval_eqbs; cbv iota; intros D. inversion D; subst. reflexivity.
    + rewrite VS in *. destruct (number_at f 8 1 =? 0); [|discriminate].
      destruct G as (t' & e' & G). rewrite G in D. cbn [obind] in D. inversion D; subst. reflexivity.
Qed.

(** ** One datagram *)
Lemma fits_mtu_iff : forall mtu f, fits_mtu_b mtu f = true <-> fits_mtu mtu f.
Proof. intros. unfold fits_mtu_b, fits_mtu. rewrite andb_true_iff, Nat.leb_le, Z.leb_le. tauto. Qed.

Lemma firstn_fit : forall (mtu : Z) (f : list byte), (Z.of_nat (length f) <= mtu + 40)%Z -> firstn (Z.to_nat (mtu - 60 + 100)) f = f.
Proof. intros mtu f H. apply firstn_all2. lia. Qed.

Lemma listen_small : forall now mtu f from, fits_mtu_b mtu f = false -> listen_one now mtu f from = Ret Dropped.
Proof.
  intros now mtu f from F. unfold listen_one. set (buf := firstn _ f).
  assert (L : length buf = Nat.min (Z.to_nat (mtu - 60 + 100)) (length f)) by apply firstn_length.
  destruct (Nat.ltb_spec (length buf) 8) as [|L8]; [reflexivity|].
  destruct (Z.ltb_spec (mtu - 60) (Z.of_nat (length buf))) as [|LZ]; [reflexivity|].
  exfalso. unfold fits_mtu_b in F. apply andb_false_iff in F. destruct F as [F|F]; [apply Nat.leb_gt in F | apply Z.leb_gt in F]; lia.
Qed.

Lemma meta_val_same : forall m a, meta_val m a = {| pk_addr := a; pk_info := FMetadata m |}.
Proof. intros [h s c [dh ds dm dc dp]] a. reflexivity. Qed.
Lemma number4_bound : forall f i, number_at f i 4 < 2 ^ 32.
Proof. intros; apply (number_at_bound f i 4). Qed.

Lemma listen_spec : forall now mtu f from,
  match datagram_fate mtu f with
  | Ignored => listen_one now mtu f from = Ret Dropped
  | HandedOn => exists x, listen_one now mtu f from = Ret (ToRx {| pk_addr := from; pk_info := x |}) /\ frame_in f = Some x
  | Answered => exists st, listen_one now mtu f from = Ret (ToTx {| pk_addr := from; pk_info := FStatus st |}) /\
      if hd_version (number_at f 0 4) =? 0 then error_status st [("errcode", "badpacket")] 0 0
      else error_status st (bad_settings (desc_name (hd_descriptor (number_at f 0 4)))) (fst (quoted f)) (snd (quoted f))
  | Died => listen_one now mtu f from = Panic \/ listen_one now mtu f from = Fatal
  end.
Proof.
  intros now mtu f from. unfold datagram_fate. destruct (fits_mtu_b mtu f) eqn:F; [|apply listen_small; auto].
  apply fits_mtu_iff in F. destruct F as [L8 LZ]. unfold listen_one. rewrite firstn_fit by lia.
  destruct (Nat.ltb_spec (length f) 8); [lia|]. destruct (Z.ltb_spec (mtu - 60) (Z.of_nat (length f))); [lia|].
  cbv zeta. rewrite get_uint_number by lia. cbn [obind]. set (h := number_at f 0 4).
  rewrite version_name. destruct (hd_version h) as [|[pv|pv|]] eqn:HV; cbn [obind]; auto.
  { (* version 0 *)
    destruct (error_status_code now "badpacket") as (st & E & S); [cbn; tauto|].
    change ("errcode=" ++ "badpacket") with "errcode=badpacket" in E.
    eval_eqbs. cbn [negb]. rewrite E. cbn [obind]. exists st. split; [destruct st; reflexivity|]. exact S. }
  eval_eqbs. cbn [negb]. rewrite frametype_name. change (1 =? 0) with false. cbv iota.
  assert (X : hd_frametype h = 0 \/ hd_frametype h = 1 \/ hd_frametype h = 2 \/ hd_frametype h = 3 \/ hd_frametype h = 4 \/ 5 <= hd_frametype h) by lia.
  destruct X as [HF|[HF|[HF|[HF|[HF|HF]]]]]; [rewrite HF; cbn [obind]; eval_eqbs; cbv iota ..|].
  - (* beacon *)
    pose proof (c40_verdict zero_beacon f) as V. destruct (beacon_verdict f) eqn:B; cbn [fate_by].
    + destruct (c40_value zero_beacon f B) as (w & W & D). rewrite D. cbn [obind]. eexists. split; [reflexivity|].
      unfold frame_in. fold h. rewrite HF. fold h in W. rewrite W. reflexivity.
    + apply verdict_reject in V. destruct V as (b & e & D). rewrite D. reflexivity.
    + apply verdict_panic in V. rewrite V. auto.
    + apply verdict_fatal in V. rewrite V. auto.
  - (* request *)
    pose proof (c35_verdict zero_request f) as V. change (slen (r_fname zero_request)) with 0%nat in V.
    destruct (request_verdict 0 f) eqn:B; cbn [fate_by].
    + pose proof (c36_concatenates zero_request f B) as D. cbv zeta in D. rewrite D. cbn [obind]. eexists. split; [reflexivity|].
      unfold frame_in. fold h. rewrite HF. reflexivity.
    + apply verdict_reject in V. destruct V as (b & e & D). rewrite D. reflexivity.
    + apply verdict_panic in V. rewrite V. auto.
    + apply verdict_fatal in V. rewrite V. auto.
  - (* metadata *)
    pose proof (c48_verdict zero_metadata f) as V. destruct (meta_verdict f) eqn:B; cbn [fate_by].
    + destruct (c48_value zero_metadata f B) as (w & W & D). rewrite D. cbn [obind]. rewrite meta_val_same. eexists. split; [reflexivity|].
      unfold frame_in. fold h. rewrite HF. fold h in W. rewrite W. reflexivity.
    + apply verdict_reject in V. destruct V as (b & e & D). rewrite D. cbn [obind]. rewrite get_uint_number by lia. cbn [obind].
      destruct (bad_frame_spec now h (number_at f 4 4) 0 from (number4_bound f 4)) as (st & E & S). rewrite E.
      exists st. split; [destruct st; reflexivity|]. unfold quoted. fold h. rewrite HF. exact S.
    + apply verdict_panic in V. rewrite V. auto.
    + apply verdict_fatal in V. rewrite V. auto.
  - (* data *)
    pose proof (c25_verdict zero_data f) as V. destruct (data_verdict f) eqn:B; cbn [fate_by].
    + destruct (c25_value zero_data f B) as (w & W & D). rewrite D. cbn [obind]. eexists. split; [reflexivity|].
      unfold frame_in. fold h. rewrite HF. fold h in W. rewrite W. reflexivity.
    + apply verdict_reject in V. destruct V as (d & e & D). rewrite D. cbn [obind].
      pose proof (data_rejected f d e D HF) as Q.
      assert (Bs : d_session d < 2 ^ 32).
      { apply (f_equal fst) in Q. cbn [fst] in Q. rewrite Q. unfold quoted. fold h. rewrite HF.
        change (3 =? 3) with true. cbv iota. destruct (Nat.ltb _ _); [reflexivity|apply (number4_bound f 4)]. }
      destruct (bad_frame_spec now h (d_session d) (d_offset d) from Bs) as (st & E & S). rewrite E.
      exists st. split; [destruct st; reflexivity|]. rewrite <- Q. exact S.
    + apply verdict_panic in V. rewrite V. auto.
    + apply verdict_fatal in V. rewrite V. auto.
  - (* status *)
    pose proof (c30_verdict zero_status f) as V. destruct (status_verdict f) eqn:B; cbn [fate_by].
    + destruct (c31_value zero_status f B) as (w & W & D). cbv zeta in D. rewrite D. cbn [obind].
      match goal with |- context[status_shortprint_ok ?s] => destruct (status_prints s f) as [P1 P2]; auto end.
      { unfold status_verdict in B. destruct (Nat.ltb _ _); [discriminate|]. destruct (ts_verdict f); auto; discriminate. }
      rewrite P1, P2. cbn [s_header]. fold h.
      replace (hd_errcode h <=? 18) with (hd_errcode h <? 19)
        by (destruct (N.ltb_spec (hd_errcode h) 19), (N.leb_spec (hd_errcode h) 18); lia).
      destruct (hd_errcode h <? 19); cbn [obind]; auto. eexists. split; [reflexivity|].
      unfold frame_in. fold h. rewrite HF. fold h in W. rewrite W. reflexivity.
    + apply verdict_reject in V. destruct V as (b & e & D). rewrite D. cbn [obind]. rewrite get_uint_number by lia. cbn [obind].
      destruct (bad_frame_spec now h (number_at f 4 4) 0 from (number4_bound f 4)) as (st & E & S). rewrite E.
      exists st. split; [destruct st; reflexivity|]. unfold quoted. fold h. rewrite HF. exact S.
    + apply verdict_panic in V. rewrite V. auto.
    + apply verdict_fatal in V. rewrite V. auto.
  - destruct (hd_frametype h) as [|[[p|p|]|[p|[p|p|]|]|]]; try lia; cbn [obind]; auto.
Qed.

(** C55: a frame that is handed on is the one held by the whole datagram, which has at
    least 8 bytes and at most 60 less than the MTU; it comes with the sender's address. *)
Lemma c55_whole : forall now mtu f from p, listen_one now mtu f from = Ret (ToRx p) ->
  (8 <= length f)%nat /\ (Z.of_nat (length f) <= mtu - 60)%Z /\ pk_addr p = from /\ frame_in f = Some (pk_info p).
Proof.
  intros now mtu f from p H. pose proof (listen_spec now mtu f from) as S.
  destruct (datagram_fate mtu f) eqn:D; rewrite H in S.
  - discriminate.
  - destruct S as (x & E & F). inversion E; subst p. unfold datagram_fate in D.
    destruct (fits_mtu_b mtu f) eqn:M; [|discriminate]. apply fits_mtu_iff in M. destruct M. auto.
  - destruct S as (st & E & _). discriminate.
  - destruct S; discriminate.
Qed.
(** C55: every other datagram is dropped, whatever it holds. *)
Lemma c55_others : forall now mtu f from, ((length f < 8)%nat \/ (mtu - 60 < Z.of_nat (length f))%Z) ->
  listen_one now mtu f from = Ret Dropped.
Proof.
  intros now mtu f from H. apply listen_small. destruct (fits_mtu_b mtu f) eqn:E; auto.
  apply fits_mtu_iff in E. destruct E. lia.
Qed.

(** C56: what becomes of each datagram. *)
Lemma c56_fate : forall now mtu f from, fate_of (listen_one now mtu f from) = datagram_fate mtu f.
Proof.
  intros. pose proof (listen_spec now mtu f from) as S. destruct (datagram_fate mtu f).
  - rewrite S. reflexivity.
  - destruct S as (x & -> & _). reflexivity.
  - destruct S as (x & -> & _). reflexivity.
  - destruct S as [-> | ->]; reflexivity.
Qed.
(** C56: the error status that answers a version 0 frame, and the one that answers a
    metadata, data or status frame that does not decode. *)
Lemma c56_answers : forall now mtu f from p, listen_one now mtu f from = Ret (ToTx p) ->
  pk_addr p = from /\ exists st, pk_info p = FStatus st /\
  ((hd_version (number_at f 0 4) = 0 /\ error_status st [("errcode", "badpacket")] 0 0) \/
   (hd_version (number_at f 0 4) = 1 /\
    exists d, reads sar (number_at f 0 4) "descriptor" d /\
              error_status st (bad_settings d) (fst (quoted f)) (snd (quoted f)))).
Proof.
  intros now mtu f from p H. pose proof (listen_spec now mtu f from) as S.
  destruct (datagram_fate mtu f) eqn:D; rewrite H in S.
  - discriminate.
  - destruct S as (x & E & _). discriminate.
  - destruct S as (st & E & X). inversion E; subst p. split; [reflexivity|]. exists st. split; [reflexivity|].
    unfold datagram_fate in D. destruct (fits_mtu_b mtu f); [|discriminate]. cbv zeta in D.
    destruct (hd_version (number_at f 0 4)) as [|[q|q|]]; try discriminate; [left; auto|right]. split; auto.
    eexists. split; [|exact X]. unfold reads.
    destruct (lookup "descriptor" (t_flags sar)) as [fl|] eqn:L; [|discriminate].
    exists fl. destruct (hd_descriptor_cases (number_at f 0 4)) as [E1|[E1|[E1|E1]]];
      (exists (hd_descriptor (number_at f 0 4)); split; [reflexivity|]; vm_compute in L; inversion L; subst fl;
       split; [rewrite E1; reflexivity|reflexivity]).
  - destruct S; discriminate.
Qed.

(** C56: the process dies exactly for these datagrams. *)
Lemma c56_dies_iff : forall now mtu f from,
  let h := number_at f 0 4 in
  let n := length f in
  let announced w := descriptor_width (hd_descriptor h) = Some w in
  let rest := skipn (8 + csum_bytes h) f in
  let stamp_ok := hd_reqtstamp h = 0 \/ (24 <= n)%nat /\ 1 <= number_at f 8 1 <= 5 in
  (listen_one now mtu f from = Panic \/ listen_one now mtu f from = Fatal) <->
  fits_mtu mtu f /\
  (2 <= hd_version h \/
   hd_version h = 1 /\
   (5 <= hd_frametype h \/
    (* a beacon without room for its free space *)
    hd_frametype h = 0 /\ hd_freespace h = 1 /\ (exists w, descriptor_width (hd_freespaced h) = Some w /\ (n < 4 + w)%nat) \/
    (* a request whose name does not end, or has more bytes of 0x80 and above than follow it *)
    hd_frametype h = 1 /\ (9 <= n)%nat /\ (~ has_zero (skipn 8 f) \/ (length (after_zero (skipn 8 f)) < high_count (before_zero (skipn 8 f)))%nat) \/
    (* metadata without room for the checksum, or for size and times *)
    hd_frametype h = 2 /\ ((n < 8 + csum_bytes h)%nat \/
       (12 <= length rest)%nat /\ exists w, descriptor_width (dh_descriptor (number_at rest 0 2)) = Some w /\ (length rest < 10 + w)%nat) \/
    (* data without room for the timestamp or the offset, or with an undefined timestamp type *)
    hd_frametype h = 3 /\ (10 <= n)%nat /\
      (hd_reqtstamp h = 1 /\ ((n < 24)%nat \/ 6 <= number_at f 8 1) \/ stamp_ok /\ exists w, announced w /\ (n < after_ts h + w)%nat) \/
    (* a status likewise, or with an undefined error code *)
    hd_frametype h = 4 /\ (12 <= n)%nat /\
      (hd_reqtstamp h = 1 /\ ((n < 24)%nat \/ 6 <= number_at f 8 1) \/ stamp_ok /\
       exists w, announced w /\ ((n < after_ts h + 2 * w)%nat \/ 19 <= hd_errcode h)))).
Proof.
  intros now mtu f from h n announced rest stamp_ok.
  assert (FD : (listen_one now mtu f from = Panic \/ listen_one now mtu f from = Fatal) <-> datagram_fate mtu f = Died).
  { rewrite <- (c56_fate now mtu f from). destruct (listen_one now mtu f from) as [[]| |]; cbn; intuition discriminate. }
  rewrite FD. unfold datagram_fate. rewrite <- fits_mtu_iff.
  destruct (fits_mtu_b mtu f) eqn:M; [|split; [discriminate|intros [? _]; discriminate]].
  apply fits_mtu_iff in M. destruct M as [L8 _]. fold h. fold n in L8.
  assert (XV : hd_version h = 0 \/ hd_version h = 1 \/ 2 <= hd_version h) by lia.
  destruct XV as [HV|[HV|HV]]; [rewrite HV; split; [discriminate|intros (_ & [?|[? _]]); [lia|discriminate]]| |
    split; [auto|intros _; destruct (hd_version h) as [|[q|q|]]; auto; lia]].
  rewrite HV.
  assert (X : hd_frametype h = 0 \/ hd_frametype h = 1 \/ hd_frametype h = 2 \/ hd_frametype h = 3 \/ hd_frametype h = 4 \/ 5 <= hd_frametype h) by lia.
  (* reduce to the one case *)
  destruct X as [HF|[HF|[HF|[HF|[HF|HF]]]]].
  6:{ split; [auto|]. intros _. destruct (hd_frametype h) as [|[[p|p|]|[p|[p|p|]|]|]]; auto; lia. }
  all: rewrite HF.
  - transitivity (beacon_decode zero_beacon f = Panic \/ beacon_decode zero_beacon f = Fatal).
    { rewrite <- verdict_panic, <- verdict_fatal, c40_verdict. destruct (beacon_verdict f); cbn; intuition discriminate. }
    destruct (c40_iff zero_beacon f) as (P & _ & K). rewrite P. fold h n.
    split; [intros [[?|?]|?]; [lia| |contradiction]; split; [auto|]; right; split; [auto|]; right; left; tauto|].
    intros (_ & [?|(_ & Z)]); [lia|]. left. right. intuition (try discriminate; try lia).
  - transitivity (request_decode zero_request f = Panic \/ request_decode zero_request f = Fatal).
    { rewrite <- verdict_panic, <- verdict_fatal, c35_verdict. change (slen (r_fname zero_request)) with 0%nat.
      destruct (request_verdict 0 f); cbn; intuition discriminate. }
    destruct (c35_panics_iff f) as (P & K). rewrite P. fold n.
    split; [intros [?|?]; [|contradiction]; split; [auto|]; right; split; [auto|]; right; right; left; tauto|].
    intros (_ & [?|(_ & Z)]); [lia|]. left. intuition (try discriminate; try lia).
  - transitivity (meta_decode zero_metadata f = Panic \/ meta_decode zero_metadata f = Fatal).
    { rewrite <- verdict_panic, <- verdict_fatal, c48_verdict. destruct (meta_verdict f); cbn; intuition discriminate. }
    destruct (c48_iff zero_metadata f) as (P & K). cbv zeta in P. rewrite P. fold h n rest.
    split; [intros [?|?]; [|contradiction]; split; [auto|]; right; split; [auto|]; right; right; right; left; tauto|].
    intros (_ & [?|(_ & Z)]); [lia|]. left. split; [lia|]. intuition (try discriminate; try lia).
  - transitivity (data_decode zero_data f = Panic \/ data_decode zero_data f = Fatal).
    { rewrite <- verdict_panic, <- verdict_fatal, c25_verdict. destruct (data_verdict f); cbn; intuition discriminate. }
    pose proof (c25_panics_iff zero_data f) as P. pose proof (c25_fatal_iff zero_data f) as K. cbv zeta in P. rewrite P, K. fold h n.
    split.
    + intros Y. split; [auto|]. right. split; [auto|]. do 4 right. left. unfold stamp_ok, announced in *. intuition lia.
    + intros (_ & [?|(_ & Z)]); [lia|].
      destruct Z as [Z|[Z|[Z|[Z|[Z|Z]]]]]; try (exfalso; destruct Z; lia); [exfalso; lia|].
      destruct Z as (_ & L10 & Z). unfold stamp_ok, announced in Z.
      destruct Z as [(R & [Z|Z])|Z].
      * left. split; auto.
      * destruct (Nat.lt_ge_cases n 24); [left; split; auto|right; auto].
      * left. split; auto.
  - assert (SV : fate_by (status_verdict f) Answered (if hd_errcode h <=? 18 then HandedOn else Died) = Died <->
        (status_decode zero_status f = Panic \/ status_decode zero_status f = Fatal \/ (status_verdict f = Accept /\ 19 <= hd_errcode h))).
    { rewrite <- verdict_panic, <- verdict_fatal, c30_verdict.
      destruct (status_verdict f); cbn [fate_by]; destruct (N.leb_spec (hd_errcode h) 18) as [Q|Q]; try (intuition (try discriminate; try lia); fail).
    }
    rewrite SV. clear SV.
    pose proof (c30_panics_iff zero_status f) as P. pose proof (c30_fatal_iff zero_status f) as K. cbv zeta in P. rewrite P, K. fold h n.
    assert (AC : status_verdict f = Accept <-> (12 <= n)%nat /\ stamp_ok /\ exists w, announced w /\ (after_ts h + 2 * w <= n)%nat).
    { unfold status_verdict. fold h n. destruct (Nat.ltb_spec n 12) as [Q|Q]; [split; [discriminate|intros [? _]; lia]|]. cbv zeta.
      unfold announced, stamp_ok. unfold ts_verdict. fold h n.
      assert (DW : forall k, (exists w, descriptor_width (hd_descriptor h) = Some w /\ (after_ts h + 2 * w <= n)%nat) <->
         match descriptor_width (hd_descriptor h) with Some w => if Nat.ltb n (after_ts h + 2 * w) then Crash else k | None => Reject end = k /\
         (exists w, descriptor_width (hd_descriptor h) = Some w /\ (after_ts h + 2 * w <= n)%nat)) by (intros; split; [|tauto];
         intros (w & W & Z); rewrite W; destruct (Nat.ltb_spec n (after_ts h + 2 * w)); [lia|]; split; eauto).
      assert (DW2 : match descriptor_width (hd_descriptor h) with Some w => if Nat.ltb n (after_ts h + 2 * w) then Crash else Accept | None => Reject end = Accept <->
         (exists w, descriptor_width (hd_descriptor h) = Some w /\ (after_ts h + 2 * w <= n)%nat)).
      { destruct (descriptor_width (hd_descriptor h)) as [w|]; [|split; [discriminate|intros (w & ? & _); discriminate]].
        destruct (Nat.ltb_spec n (after_ts h + 2 * w)) as [Y|Y]; split; try discriminate; eauto.
        intros (w' & W' & Z'). inversion W'; subst w'. lia. }
      destruct (hd_reqtstamp_cases h) as [R|R]; rewrite R.
      - change (0 =? 1) with false. cbv iota. rewrite DW2. tauto.
      - change (1 =? 1) with true. cbv iota. destruct (Nat.ltb_spec n 24) as [Y|Y].
        + split; [discriminate|]. intros (_ & [?|[? _]] & _); [discriminate|lia].
        + assert (NN : number_at f 8 1 = 0 \/ 1 <= number_at f 8 1 <= 5 \/ 6 <= number_at f 8 1) by lia.
          destruct NN as [NN|[NN|NN]].
          * rewrite NN. split; [discriminate|]. intros (_ & [?|[_ ?]] & _); [discriminate|lia].
          * assert (M : match number_at f 8 1 with 0 => Reject | 1 | 2 | 3 | 4 | 5 => Accept | _ => Kill end = Accept).
            { destruct (number_at f 8 1) as [|[[[p|p|]|[p|p|]|]|[[p|p|]|[p|p|]|]|]]; auto; lia. }
            rewrite M, DW2. split; [|tauto]. intros. split; auto.
          * assert (M : match number_at f 8 1 with 0 => Reject | 1 | 2 | 3 | 4 | 5 => Accept | _ => Kill end = Kill).
            { destruct (number_at f 8 1) as [|[[[p|p|]|[p|p|]|]|[[p|p|]|[p|p|]|]|]]; auto; lia. }
            rewrite M. split; [discriminate|]. intros (_ & [?|[_ ?]] & _); [discriminate|lia]. }
    rewrite AC. split.
    + intros Y. split; [auto|]. right. split; [auto|]. do 5 right.
      assert (n12 : (24 <= n -> 12 <= n)%nat) by lia.
      unfold stamp_ok, announced in *. split; [auto|].
      destruct Y as [(A & [(R & Y)|(R & w & W & Y)])|[(A & R & Y)|((A & R & w & W & Y) & Z)]].
      * split; auto.
      * split; auto. right. split; auto. exists w. auto.
      * split; auto.
      * split; auto. right. split; auto. exists w. auto.
    + intros (_ & [?|(_ & Z)]); [lia|].
      destruct Z as [Z|[Z|[Z|[Z|[Z|Z]]]]]; try (exfalso; destruct Z; lia); [exfalso; lia|].
      destruct Z as (_ & L10 & Z). unfold announced in *.
      destruct Z as [(R & [Z|Z])|(O & w & W & Z)].
      * left. split; auto.
      * destruct (Nat.lt_ge_cases n 24); [left; split; auto|right; left; auto].
      * destruct (Nat.lt_ge_cases n (after_ts h + 2 * w)) as [Q|Q].
        -- left. split; auto. right. split; [exact O|]. eauto.
        -- right. right. destruct Z; [lia|]. split; auto. split; auto. split; auto. eauto.
Qed.

(** ** Examples *)
Definition ex_from : udpaddr := {| ua_ip := "10.0.0.1"; ua_port := 7542; ua_zone := "" |}.
Definition ex_beacon_dgram : list byte := (wire 4 0x20000000 ++ bytes_of "eid!")%list.
Example c55_whole_ex : exists p, listen_one ex_now 1500 ex_beacon_dgram ex_from = Ret (ToRx p) /\
  pk_info p = FBeacon {| b_header := 0x20000000; b_freespace := 0; b_eid := "eid!" |}.
Proof. eexists. split; vm_compute; reflexivity. Qed.
Example c55_others_ex : listen_one ex_now 67 ex_beacon_dgram ex_from = Ret Dropped /\
  exists p, listen_one ex_now 68 ex_beacon_dgram ex_from = Ret (ToRx p).
Proof. split; [|eexists]; vm_compute; reflexivity. Qed.
Example c56_fate_ex : map (datagram_fate 1500)
  [ bytes_of "short";
    ex_beacon_dgram;
    (wire 4 0x00000000 ++ bytes_of "eid!")%list;             (* version 0 *)
    (wire 4 0x40000000 ++ bytes_of "eid!")%list;             (* version 2 *)
    (wire 4 0x25000000 ++ bytes_of "eid!")%list;             (* frame type 5 *)
    (wire 4 0x20006000 ++ bytes_of "eid!")%list;             (* 64-bit free space in a 4-byte field *)
    (wire 4 0x21000001 ++ wire 4 5 ++ bytes_of "fred")%list; (* name without terminator *)
    (wire 4 0x23000000 ++ wire 4 5 ++ bytes_of "z")%list;    (* 9 bytes of data *)
    (wire 4 0x23C00000 ++ wire 4 5 ++ bytes_of "zz")%list;   (* 128-bit descriptor *)
    (wire 4 0x24000012 ++ wire 4 5 ++ zeros 4)%list;         (* error code 18 *)
    (wire 4 0x24000013 ++ wire 4 5 ++ zeros 4)%list ]        (* error code 19 *)
  = [Ignored; HandedOn; Answered; Died; Died; Died; Died; Answered; Answered; HandedOn; Died].
Proof. vm_compute. reflexivity. Qed.
Example c56_answers_ex : exists st, listen_one ex_now 1500 (wire 4 0x23C00000 ++ wire 4 5 ++ bytes_of "zz")%list ex_from =
  Ret (ToTx {| pk_addr := ex_from; pk_info := FStatus st |}) /\ s_session st = 5 /\ hd_errcode (s_header st) = 10.
Proof. eexists. split; [vm_compute; reflexivity|]. split; vm_compute; reflexivity. Qed.
Example c56_dies_iff_ex : fits_mtu 1500 (wire 4 0x24000013 ++ wire 4 5 ++ zeros 4)%list /\
  listen_one ex_now 1500 (wire 4 0x24000013 ++ wire 4 5 ++ zeros 4)%list ex_from = Fatal.
Proof. split; [split; [apply Nat.leb_le|apply Z.leb_le]; reflexivity|vm_compute; reflexivity]. Qed.
