(** * Sending a file: the flags and frames *)

From Verif Require Import GoBase GoFacts Flags SpecFlags FlagsFacts Config Shipped ConfigFacts SpecWire SarFacts Timestamp SpecTime TimeMain FlagStrFacts Holes SpecHoles Data SpecFrames FrameFacts BuildFacts DataMain Status TransferMain Client SpecClient.
Local Open Scope string_scope.
Local Open Scope N_scope.

Definition header_names : list string := ["version"; "frametype"; "descriptor"; "reqtstamp"; "reqstatus"; "eod"].
Lemma header_disjoint : all_disjointb header_names = true.
Proof. vm_compute. reflexivity. Qed.

Lemma set_exactly_extend : forall h l1 l2, set_exactly sar 0 h l1 ->
  incl (keys l1) (keys l2) -> incl (keys l2) header_names ->
  (forall f v, last_setting l2 f = Some v -> last_setting l1 f = Some v \/ ~ In f (keys l1) /\ option_value sar f v 0) ->
  set_exactly sar 0 h l2.
Proof.
  intros h l1 l2 (B & R & U) I1 I2 L. split; [exact B|]. split.
  - intros f v E. destruct (L f v E) as [E1|(NI & fl & LF & LV)]; [apply R; exact E1|].
    exists fl, 0. split; [exact LF|]. split; [exact LV|]. apply N.bits_inj; intro i. rewrite bit_field_testbit, N.bits_0.
    destruct (N.ltb_spec i (f_len fl)) as [Li|Li]; [|reflexivity]. rewrite U; [apply N.bits_0|].
    intros g w gl Ig Lg [G1 G2].
    assert (Kg : In g (keys l1)) by (apply in_map_iff; exists (g, w); auto).
    assert (Kf : In f (keys l2)). { unfold last_setting in E. apply lookup_In in E. apply in_rev in E. apply in_map_iff. exists (f, v). auto. }
    assert (D : disjoint_fields (f_msb gl) (f_len gl) (f_msb fl) (f_len fl)).
    { apply (all_disjoint_spec _ header_disjoint g f gl fl); auto. intros ->; auto. }
    destruct (wf_lookup _ _ _ sar_wf Lg) as (W3 & _). destruct (wf_lookup _ _ _ sar_wf LF) as (W4 & _). unfold disjoint_fields in D. lia.
  - intros i Hi. apply U. intros f v fl If Lf.
    assert (Kf : In f (keys l2)) by (apply I1; apply in_map_iff; exists (f, v); auto).
    apply in_map_iff in Kf. destruct Kf as ([g w] & E & Ig). cbn [fst] in E. subst g. exact (Hi f w fl Ig Lf).
Qed.

(** ** Usable flags *)
Definition okay (p : string * string) : Prop :=
  In (fst p) ["version"; "descriptor"; "transfer"; "reqtstamp"; "reqstatus"; "eod"] /\ valid_setting sar p /\ p <> ("transfer", "bundle").
Lemma usable_iff : forall items, usable items <-> items <> [] /\ NoDup (keys items) /\ Forall okay items.
Proof.
  intros items. unfold usable. rewrite Forall_forall. split; intros (A & B & C); split; auto; split; auto.
  - intros [f v] I. exact (C f v I).
  - intros f v I. exact (C (f, v) I).
Qed.
Lemma reqtstamp_options : forall v, valid_setting sar ("reqtstamp", v) -> v = "no" \/ v = "yes".
Proof.
  intros v (n & fl & LF & LV). cbn [fst snd] in LF, LV. vm_compute in LF. injection LF as <-. cbn [f_opts] in LV. apply lookup_In in LV.
  cbn [In] in LV. intuition congruence.
Qed.
Lemma okay_accept : forall p, okay p -> data_item_verdict sar p = Accept.
Proof.
  intros [f v] (I & V & N). cbn [fst] in I. pose proof V as V'. apply known_valid in V'. unfold data_item_verdict.
  cbn [In] in I. destruct I as [<-|[<-|[<-|[<-|[<-|[<-|[]]]]]]]; try (unfold setting_verdict; rewrite V'; reflexivity).
  - destruct (String.eqb_spec v "bundle") as [->|]; [congruence|]. reflexivity.
  - destruct (reqtstamp_options v V) as [-> | ->]; reflexivity.
Qed.
Lemma okay_clean : forall l, Forall okay l -> clean_items l.
Proof. intros l F p I. rewrite Forall_forall in F. apply (proj1 sar_clean). apply F, I. Qed.
Lemma okay_valid : forall l, Forall okay l -> forall p, In p l -> sf_valid sar (fst p) (snd p) = true.
Proof. intros l F [f v] I. rewrite Forall_forall in F. apply sf_valid_iff. apply (F _ I). Qed.
Lemma okay_yes_no : forall f v, f = "eod" \/ f = "reqstatus" \/ f = "reqtstamp" -> v = "yes" \/ v = "no" -> okay (f, v).
Proof.
  intros f v Hf Hv. split; [cbn [fst In]; intuition|]. split; [|intro X; injection X as X1 X2; subst; intuition discriminate].
  apply known_valid. destruct Hf as [->|[->| ->]], Hv as [-> | ->]; vm_compute; reflexivity.
Qed.

Lemma replaceflag_items : forall l f v, l <> [] -> Forall okay l -> okay (f, v) ->
  sf_replaceflag sar (flag_list l) f v = Ret (flag_list (replace_items l f v)).
Proof.
  intros l f v NE F O. pose proof (replace_spec (sf_valid sar) l f v NE (okay_clean l F) (okay_valid l F)) as R.
  assert (V : sf_valid sar f v = true) by (apply sf_valid_iff; apply O). rewrite V in R. exact R.
Qed.
Lemma existsb_key : forall (l : list (string * string)) f, existsb (fun p => String.eqb (fst p) f) l = true <-> In f (keys l).
Proof.
  intros l f. rewrite existsb_exists. unfold keys. rewrite in_map_iff. split; intros (p & A & B); exists p; [apply String.eqb_eq in B|subst; rewrite String.eqb_refl]; auto.
Qed.
Lemma replace_items_okay : forall l f v, Forall okay l -> okay (f, v) -> Forall okay (replace_items l f v).
Proof.
  intros l f v F O. rewrite Forall_forall in *. intros p I. unfold replace_items in I. destruct (existsb _ l).
  - unfold replaced in I. apply in_map_iff in I. destruct I as (q & E & I). destruct (String.eqb (fst q) f); subst; auto.
  - apply in_app_iff in I. destruct I as [I|[<-|[]]]; auto.
Qed.
Lemma replace_items_nodup : forall l f v, NoDup (keys l) -> NoDup (keys (replace_items l f v)).
Proof.
  intros l f v ND. unfold replace_items. destruct (existsb (fun p => String.eqb (fst p) f) l) eqn:E.
  - assert (K : keys (replaced f v l) = keys l).
    { clear. unfold replaced, keys. rewrite map_map. apply map_ext. intros [g w]. cbn [fst]. destruct (String.eqb_spec g f); subst; reflexivity. }
    rewrite K. exact ND.
  - unfold keys. rewrite map_app. cbn [map fst]. apply NoDup_rev in ND. rewrite <- (rev_involutive (map fst l ++ [f])%list). apply NoDup_rev. rewrite rev_app_distr. cbn [rev app].
    constructor; [|exact ND]. intro I. apply in_rev in I. apply existsb_key in I. congruence.
Qed.

Lemma settings_filter : forall l, Forall okay l -> flat_map data_settings l = filter (fun p => negb (String.eqb (fst p) "transfer")) l.
Proof.
  induction l as [|[f v] l IH]; intros F; [reflexivity|]. inversion F as [|x y O F']; subst. cbn [flat_map filter fst]. rewrite (IH F').
  unfold data_settings at 1. destruct (String.eqb_spec f "transfer"); [reflexivity|]. cbn [negb].
  destruct (String.eqb_spec f "reqtstamp") as [->|]; [|reflexivity].
  destruct O as (_ & V & _). destruct (reqtstamp_options v V) as [-> | ->]; reflexivity.
Qed.
Lemma lookup_filter : forall f (l : list (string * string)), f <> "transfer" -> lookup f (filter (fun p => negb (String.eqb (fst p) "transfer")) l) = lookup f l.
Proof.
  intros f l N. induction l as [|[g w] l IH]; [reflexivity|]. cbn [filter fst lookup]. destruct (String.eqb_spec g "transfer") as [->|Ng]; cbn [negb].
  - destruct (String.eqb_spec f "transfer"); [congruence|]. exact IH.
  - cbn [lookup]. destruct (String.eqb f g); auto.
Qed.
Lemma keys_filter_nodup : forall (l : list (string * string)) q, NoDup (keys l) -> NoDup (keys (filter q l)).
Proof.
  induction l as [|[g w] l IH]; intros q ND; [constructor|]. inversion ND as [|x y N ND']; subst. cbn [filter]. destruct (q (g, w)); [|apply IH, ND'].
  cbn [keys map fst]. constructor; [|apply IH, ND']. intro I. apply N. apply in_map_iff in I. destruct I as (p & E & I). apply filter_In in I.
  apply in_map_iff. exists p. tauto.
Qed.
Lemma stamp_list : forall l, Forall okay l -> NoDup (keys l) -> flat_map data_stamp l = if String.eqb (asked l "reqtstamp" "no") "yes" then ["posix32"] else [].
Proof.
  induction l as [|[f v] l IH]; intros F ND; [reflexivity|]. inversion F as [|x y O F']; subst. inversion ND as [|x y N ND']; subst. cbn [fst] in N.
  cbn [flat_map]. unfold asked, setting_of in *. cbn [lookup]. unfold data_stamp at 1. rewrite (String.eqb_sym "reqtstamp" f).
  destruct (String.eqb_spec f "reqtstamp") as [->|NE].
  - rewrite (IH F' ND'). replace (lookup "reqtstamp" l) with (@None string).
    + destruct O as (_ & V & _). destruct (reqtstamp_options v V) as [-> | ->]; reflexivity.
    + symmetry. destruct (lookup "reqtstamp" l) as [w|] eqn:L; [|reflexivity]. exfalso. apply N. apply lookup_In in L. apply in_map_iff. exists ("reqtstamp", w). auto.
  - cbn [app]. exact (IH F' ND').
Qed.

(** The frame built from usable flags *)
Lemma new_frame : forall now l info, good_now now -> l <> [] -> NoDup (keys l) -> Forall okay l ->
  exists d, data_new now zero_data (flag_list l) info = Ret (d, None) /\
    d_session d = di_session info mod 2 ^ 32 /\ d_offset d = di_offset info /\ d_payload d = di_payload info /\
    set_exactly sar 0 (d_header d)
      [("version", asked l "version" "v1"); ("frametype", "data"); ("descriptor", asked l "descriptor" "d16");
       ("reqtstamp", asked l "reqtstamp" "no"); ("reqstatus", asked l "reqstatus" "no"); ("eod", asked l "eod" "no")] /\
    stamped now zero_timestamp (if stamps l then ["posix32"] else []) (d_tstamp d).
Proof.
  intros now l info GN NE ND F.
  destruct (c26_result now zero_data l info GN NE) as (d & E & SE & S1 & S2 & S3 & ST).
  { exact (okay_clean l F). }
  { intros p I. apply okay_accept. rewrite Forall_forall in F. auto. }
  { reflexivity. }
  exists d. split; [exact E|]. split; [exact S1|]. split; [exact S2|]. split; [exact S3|]. split.
  - set (l1 := ("version", "v1") :: ("frametype", "data") :: flat_map data_settings l) in *.
    assert (FM : flat_map data_settings l = filter (fun p => negb (String.eqb (fst p) "transfer")) l) by (apply settings_filter, F).
    assert (LK : forall f, f <> "transfer" -> last_setting l1 f = match lookup f l with Some v => Some v | None => lookup f [("frametype", "data"); ("version", "v1")] end).
    { intros f N. unfold l1, last_setting. rewrite !lookup_rev_cons, FM, lookup_rev_nodup by (apply keys_filter_nodup, ND).
      rewrite lookup_filter by exact N. destruct (lookup f l); [reflexivity|]. cbn [lookup].
      destruct (String.eqb f "frametype"); reflexivity. }
    assert (FT : lookup "frametype" l = None).
    { destruct (lookup "frametype" l) as [v|] eqn:L; [|reflexivity]. apply lookup_In in L. rewrite Forall_forall in F. destruct (F _ L) as (I & _). cbn [fst In] in I. intuition discriminate. }
    apply (set_exactly_extend (d_header d) l1); [exact SE| | |].
    + intros f I. unfold l1 in I. cbn [keys map fst] in I. destruct I as [<-|[<-|I]]; [cbn; auto|cbn; auto|].
      fold (keys (flat_map data_settings l)) in I. rewrite FM in I. apply in_map_iff in I. destruct I as (p & <- & I). apply filter_In in I. destruct I as [I T].
      rewrite Forall_forall in F. destruct (F p I) as (J & _). cbn [In] in J. cbn [keys map fst In].
      destruct J as [J|[J|[J|[J|[J|[J|[]]]]]]]; rewrite <- J in *; try tauto. discriminate.
    + intros f I. exact I.
    + intros f v LS.
      assert (NT : f <> "transfer"). { intros ->. discriminate LS. }
      assert (D0 : forall g dv, g <> "transfer" -> g <> "frametype" -> g <> "version" -> option_value sar g dv 0 -> f = g -> Some v = Some (asked l g dv) ->
                  last_setting l1 f = Some v \/ ~ In f (keys l1) /\ option_value sar f v 0).
      { intros g dv N1 N2 N3 OV -> E1. injection E1 as ->. rewrite LK by exact N1. unfold asked, setting_of. destruct (lookup g l) as [w|] eqn:L; [left; reflexivity|right].
        split; [|exact OV]. intro I. unfold l1 in I. cbn [keys map fst] in I. destruct I as [I|[I|I]]; [congruence|congruence|].
        fold (keys (flat_map data_settings l)) in I. rewrite FM in I. apply in_map_iff in I. destruct I as ([a b] & E2 & I). apply filter_In in I. cbn [fst] in E2. subst a. destruct I as [I _].
        rewrite (In_lookup g l b ND I) in L. discriminate. }
      unfold last_setting in LS. cbn [rev app] in LS. cbn [lookup] in LS.
      destruct (String.eqb_spec f "eod") as [Ef|_]; [apply (D0 "eod" "no"); try discriminate; auto; eexists; split; vm_compute; reflexivity|].
      destruct (String.eqb_spec f "reqstatus") as [Ef|_]; [apply (D0 "reqstatus" "no"); try discriminate; auto; eexists; split; vm_compute; reflexivity|].
      destruct (String.eqb_spec f "reqtstamp") as [Ef|_]; [apply (D0 "reqtstamp" "no"); try discriminate; auto; eexists; split; vm_compute; reflexivity|].
      destruct (String.eqb_spec f "descriptor") as [Ef|_]; [apply (D0 "descriptor" "d16"); try discriminate; auto; eexists; split; vm_compute; reflexivity|].
      destruct (String.eqb_spec f "frametype") as [->|_]; [left; rewrite LK, FT by discriminate; exact LS|].
      destruct (String.eqb_spec f "version") as [->|_]; [left; rewrite LK by discriminate|discriminate]. injection LS as <-. unfold asked, setting_of.
      destruct (lookup "version" l); reflexivity.
  - rewrite (stamp_list l F ND) in ST. exact ST.
Qed.

(** ** The room *)
Lemma paylen_items : forall l p, Forall okay l -> NoDup (keys l) ->
  paylen_loop (map item_text l) p =
    Ret (p - (match setting_of l "descriptor" with Some "d16" => 2 | Some "d32" => 4 | Some "d64" => 8 | Some "d128" => 16 | _ => 0 end)
           - (if stamps l then 16 else 0))%Z.
Proof.
  induction l as [|[f v] l IH]; intros p F ND; [cbn [map paylen_loop]; f_equal; unfold setting_of, stamps, asked, setting_of; cbn [lookup String.eqb]; cbn; lia|].
  inversion F as [|x y O F']; subst. inversion ND as [|x y N ND']; subst. cbn [fst] in N.
  assert (C := okay_clean _ F (f, v) (or_introl eq_refl)). cbn [fst snd] in C. destruct C as [Cf Cv].
  assert (AB : forall g, f = g -> lookup g l = None).
  { intros g ->. destruct (lookup g l) as [w|] eqn:L; [|reflexivity]. exfalso. apply N. apply lookup_In in L. apply in_map_iff. exists (g, w). auto. }
  cbn [map paylen_loop]. rewrite split_item by auto. cbn [index nth_error obind].
  unfold stamps, asked, setting_of in *. cbn [lookup].
  rewrite (String.eqb_sym "descriptor" f), (String.eqb_sym "reqtstamp" f).
  destruct (String.eqb_spec f "descriptor") as [Ef|Nf].
  - assert (AD := AB _ Ef). rewrite Ef in *. destruct (String.eqb_spec "descriptor" "reqtstamp") as [X|_]; [discriminate|].
    assert (V : v = "d16" \/ v = "d32" \/ v = "d64" \/ v = "d128").
    { destruct O as (_ & (n & fl & LF & LV) & _). cbn [fst snd] in LF, LV. vm_compute in LF. injection LF as <-. cbn [f_opts] in LV. apply lookup_In in LV. cbn [In] in LV. intuition congruence. }
    destruct V as [->|[->|[-> | ->]]]; cbn [String.eqb Ascii.eqb Bool.eqb]; rewrite (IH _ F' ND'), AD; f_equal; lia.
  - destruct (String.eqb_spec f "reqtstamp") as [Er|Nr].
    + assert (AD := AB _ Er). rewrite Er in *. destruct O as (_ & V & _).
      destruct (reqtstamp_options v V) as [-> | ->]; rewrite (IH _ F' ND'), AD; f_equal; cbn [String.eqb Ascii.eqb Bool.eqb]; lia.
    + apply IH; assumption.
Qed.
Lemma maxpaylen_room : forall mtu l, l <> [] -> NoDup (keys l) -> Forall okay l -> maxpaylen mtu (flag_list l) = Ret (room mtu l).
Proof.
  intros mtu l NE ND F. unfold maxpaylen. rewrite remove_spaces_clean by (apply flag_list_no_space, okay_clean, F).
  rewrite split_flag_list by (auto using okay_clean). rewrite paylen_items by assumption. reflexivity.
Qed.

(** ** What the header of a frame says *)
Lemma reads_reqtstamp : forall h v, reads sar h "reqtstamp" v -> v = "no" /\ hd_reqtstamp h = 0 \/ v = "yes" /\ hd_reqtstamp h = 1.
Proof.
  intros h v (fl & n & LF & LV & B). vm_compute in LF. injection LF as <-. cbn [f_opts f_msb f_len] in LV, B. apply lookup_In in LV. cbn [In] in LV.
  unfold hd_reqtstamp. destruct LV as [LV|[LV|[]]]; injection LV as <- <-; rewrite B; auto.
Qed.
Lemma reads_descriptor : forall h v, reads sar h "descriptor" v ->
  v = "d16" /\ hd_descriptor h = 0 \/ v = "d32" /\ hd_descriptor h = 1 \/ v = "d64" /\ hd_descriptor h = 2 \/ v = "d128" /\ hd_descriptor h = 3.
Proof.
  intros h v (fl & n & LF & LV & B). vm_compute in LF. injection LF as <-. cbn [f_opts f_msb f_len] in LV, B. apply lookup_In in LV. cbn [In] in LV.
  unfold hd_descriptor. destruct LV as [LV|[LV|[LV|[LV|[]]]]]; injection LV as <- <-; rewrite B; auto.
Qed.
Lemma stamped_posix32 : forall now t, good_now now -> stamped now zero_timestamp ["posix32"] t -> proper_stamp t /\ t_header t = 1.
Proof.
  intros now t [G1 G2] (t1 & E & ->). assert (RT : real_time now) by (split; lia).
  rewrite (proj1 (c12_posix32 zero_timestamp now RT)) in E by lia. injection E as <-. split; [|reflexivity].
  eexists. split; [reflexivity|]. cbn [stamp t_header t_secs t_nsecs t_local t_ttype tl_name tl_secs tl_nanos]. split; [reflexivity|].
  split; [change (2 ^ (8 * N.of_nat 4)) with (2 ^ 32); lia|]. split; [reflexivity|]. split; reflexivity.
Qed.
(** what a frame says about its width and stamp *)
Lemma frame_reads : forall h items r e,
  set_exactly sar 0 h
      [("version", asked items "version" "v1"); ("frametype", "data"); ("descriptor", asked items "descriptor" "d16");
       ("reqtstamp", asked items "reqtstamp" "no"); ("reqstatus", r); ("eod", e)] ->
  h < 2 ^ 32 /\ hd_reqtstamp h = (if stamps items then 1 else 0) /\ descriptor_width (hd_descriptor h) = offset_bytes items.
Proof.
  intros h items r e (B & R & _). split; [exact B|]. split.
  - assert (X := R "reqtstamp" (asked items "reqtstamp" "no") eq_refl). unfold stamps. destruct (reads_reqtstamp _ _ X) as [[-> ->]|[-> ->]]; reflexivity.
  - assert (X := R "descriptor" (asked items "descriptor" "d16") eq_refl). unfold offset_bytes.
    destruct (reads_descriptor _ _ X) as [[-> ->]|[[-> ->]|[[-> ->]|[-> ->]]]]; reflexivity.
Qed.
Lemma frame_prints : forall now h t items, good_now now -> hd_reqtstamp h = (if stamps items then 1 else 0) ->
  stamped now zero_timestamp (if stamps items then ["posix32"] else []) t ->
  forall d, d_header d = h -> d_tstamp d = t -> data_shortprint_ok d = Ret tt.
Proof.
  intros now h t items G R ST d <- <-. unfold data_shortprint_ok. rewrite getstr_reqtstamp. cbn [obind]. rewrite R.
  destruct (stamps items); [|reflexivity]. exact (stamped_prints now _ G ST).
Qed.

(** ** The loop *)
Definition inv (items l : list (string * string)) : Prop :=
  l <> [] /\ NoDup (keys l) /\ Forall okay l /\ lookup "eod" l = Some "no" /\
  forall f, f <> "eod" -> f <> "reqstatus" -> lookup f l = lookup f items.
Lemma inv_next : forall items l (eof ask : bool), inv items l ->
  exists l', obind (if eof then sf_replaceflag sar (flag_list l) "eod" "yes" else Ret (flag_list l))
               (fun flags => sf_replaceflag sar flags "reqstatus" (yes_if ask)) = Ret (flag_list l') /\
    l' <> [] /\ NoDup (keys l') /\ Forall okay l' /\ lookup "eod" l' = Some (yes_if eof) /\ lookup "reqstatus" l' = Some (yes_if ask) /\
    forall f, f <> "eod" -> f <> "reqstatus" -> lookup f l' = lookup f items.
Proof.
  intros items l eof ask (NE & ND & F & E & OT).
  assert (OE : okay ("eod", "yes")) by (apply okay_yes_no; auto).
  assert (OR : okay ("reqstatus", yes_if ask)) by (apply okay_yes_no; [auto|destruct ask; auto]).
  set (l1 := if eof then replace_items l "eod" "yes" else l).
  assert (E1 : (if eof then sf_replaceflag sar (flag_list l) "eod" "yes" else Ret (flag_list l)) = Ret (flag_list l1)).
  { unfold l1. destruct eof; [|reflexivity]. apply replaceflag_items; assumption. }
  assert (F1 : Forall okay l1) by (unfold l1; destruct eof; [apply replace_items_okay|]; assumption).
  assert (N1 : l1 <> []) by (unfold l1; destruct eof; [apply replace_items_nonempty|]; assumption).
  assert (D1 : NoDup (keys l1)) by (unfold l1; destruct eof; [apply replace_items_nodup|]; assumption).
  assert (L1 : lookup "eod" l1 = Some (yes_if eof)) by (unfold l1; destruct eof; [apply replace_items_same|exact E]).
  exists (replace_items l1 "reqstatus" (yes_if ask)). rewrite E1. cbn [obind]. split; [apply replaceflag_items; assumption|].
  split; [apply replace_items_nonempty|]. split; [apply replace_items_nodup; assumption|]. split; [apply replace_items_okay; assumption|].
  split; [rewrite replace_items_other by discriminate; exact L1|]. split; [apply replace_items_same|].
  intros f N2 N3. rewrite replace_items_other by assumption. unfold l1. destruct eof; [rewrite replace_items_other by assumption|]; apply OT; assumption.
Qed.
Lemma asked_same : forall items l f dv, lookup f l = lookup f items -> asked l f dv = asked items f dv.
Proof. intros items l f dv E. unfold asked, setting_of. rewrite E. reflexivity. Qed.
Lemma stamps_same : forall items l, lookup "reqtstamp" l = lookup "reqtstamp" items -> stamps l = stamps items.
Proof. intros items l E. unfold stamps. rewrite (asked_same items l) by exact E. reflexivity. Qed.

Lemma part_length : forall file plen i, (i * plen <= List.length file)%nat ->
  List.length (part file plen i) = Nat.min plen (List.length file - i * plen).
Proof. intros file plen i L. unfold part. rewrite firstn_length, skipn_length. reflexivity. Qed.
Lemma at_end : forall file plen i, (0 < plen)%nat -> (i <= last_part file plen)%nat ->
  (i * plen <= List.length file)%nat /\ Nat.ltb (List.length (part file plen i)) plen = Nat.eqb i (last_part file plen).
Proof.
  intros file plen i P L. unfold last_part in *.
  pose proof (Nat.div_mod_eq (List.length file) plen) as DM. pose proof (Nat.mod_upper_bound (List.length file) plen) as MB.
  set (q := (List.length file / plen)%nat) in *. set (r := (List.length file mod plen)%nat) in *.
  assert (LE : (i * plen <= List.length file)%nat) by nia. split; [exact LE|]. rewrite part_length by exact LE.
  destruct (Nat.eqb_spec i q) as [->|NE]; [apply Nat.ltb_lt; nia|apply Nat.ltb_ge; nia].
Qed.

Lemma send_step : forall s session items plen n l, (0 < plen)%nat -> inv items l -> good_now (c_now s n) -> c_readerr s n = false ->
  (n <= last_part (c_file s) plen)%nat ->
  exists d, frame_for s session items plen n d /\
    (n = last_part (c_file s) plen -> forall fuel,
     send_loop (S fuel) s session plen n (n * plen) (n mod 100) (flag_list l) = Ret (handing s n [d] ++ [CSay "success"], true)%list) /\
    (n <> last_part (c_file s) plen -> exists l', inv items l' /\ forall fuel,
     send_loop (S fuel) s session plen n (n * plen) (n mod 100) (flag_list l) =
       obind (send_loop fuel s session plen (S n) (S n * plen) (S n mod 100) (flag_list l')) (fun '(rest, fin) => Ret (handing s n [d] ++ rest, fin)%list)).
Proof.
  intros s session items plen n l P IV G RE NL.
  destruct (at_end (c_file s) plen n P NL) as [LE EO].
  set (last := last_part (c_file s) plen) in *.
  set (eof := Nat.eqb n last) in *. set (ask := Nat.eqb (S (n mod 100)) 100 || eof).
  assert (AK : ask = wants_status last n).
  { unfold ask, wants_status. f_equal. pose proof (Nat.mod_upper_bound n 100). pose proof (Nat.div_mod_eq n 100).
    destruct (Nat.eqb_spec (S (n mod 100)) 100) as [X|X]; symmetry.
    - apply Nat.eqb_eq. replace (S n) with ((S (n / 100)) * 100)%nat by lia. apply Nat.mod_mul. discriminate.
    - apply Nat.eqb_neq. rewrite <- (Nat.mod_unique (S n) 100 (n / 100) (S (n mod 100))); lia. }
  destruct (inv_next items l eof ask IV) as (l' & EF & N1 & N2 & N3 & N4 & N5 & N6).
  set (info := {| di_session := session; di_offset := N.of_nat (n * plen); di_payload := part (c_file s) plen n |}).
  destruct (new_frame (c_now s n) l' info G N1 N2 N3) as (d & ED & D1 & D2 & D3 & D4 & D5).
  cbn [info di_session di_offset di_payload] in D1, D2, D3.
  rewrite (asked_same items l' "version"), (asked_same items l' "descriptor"), (asked_same items l' "reqtstamp") in D4 by (apply N6; discriminate).
  assert (SS : stamps l' = stamps items) by (apply stamps_same, N6; discriminate). rewrite SS in D5.
  unfold asked at 4 5, setting_of in D4. rewrite N4, N5 in D4.
  exists d. assert (FF : frame_for s session items plen n d).
  { unfold frame_for. fold last. rewrite <- AK. fold eof. auto 10. }
  split; [exact FF|].
  destruct (frame_reads _ _ _ _ D4) as (_ & HR & _).
  assert (PR : data_shortprint_ok d = Ret tt) by (apply (frame_prints (c_now s n) (d_header d) (d_tstamp d) items G HR D5 d); reflexivity).
  assert (STEP : forall fuel, send_loop (S fuel) s session plen n (n * plen) (n mod 100) (flag_list l) =
    if eof then Ret (handing s n [d] ++ [CSay "success"], true)%list
    else obind (send_loop fuel s session plen (S n) (n * plen + List.length (part (c_file s) plen n)) (if ask then 0%nat else S (n mod 100)) (flag_list l'))
           (fun '(rest, fin) => Ret (handing s n [d] ++ rest, fin)%list)).
  { intros fuel. cbn [send_loop]. rewrite RE. unfold read_at. fold (part (c_file s) plen n). rewrite EO. fold ask. change (if ask then "yes" else "no") with (yes_if ask).
    destruct (if eof then sf_replaceflag sar (flag_list l) "eod" "yes" else Ret (flag_list l)) as [fl1| |]; cbn [obind] in EF |- *; try discriminate EF.
    rewrite EF. cbn [obind]. fold info. rewrite ED. cbn [obind]. rewrite PR. cbn [obind handing]. rewrite app_nil_r. destruct eof; [reflexivity|].
    destruct (send_loop fuel _ _ _ _ _ _ _) as [[rest fin]| |]; reflexivity. }
  split.
  - intros EL fuel. rewrite STEP. unfold eof. rewrite EL, Nat.eqb_refl. reflexivity.
  - intros NE. assert (EF' : eof = false) by (apply Nat.eqb_neq; exact NE). exists l'. split.
    + split; [exact N1|]. split; [exact N2|]. split; [exact N3|]. split; [rewrite N4, EF'; reflexivity|exact N6].
    + intros fuel. rewrite STEP, EF'. assert (PL : List.length (part (c_file s) plen n) = plen).
      { rewrite <- EO in EF'. unfold part in *. rewrite firstn_length, skipn_length in *. apply Nat.ltb_ge in EF'. lia. }
      rewrite PL. replace (n * plen + plen)%nat with (S n * plen)%nat by lia.
      replace (S n mod 100)%nat with (if ask then 0%nat else S (n mod 100)); [reflexivity|].
      unfold ask. rewrite EF', orb_false_r. pose proof (Nat.mod_upper_bound n 100). pose proof (Nat.div_mod_eq n 100).
      destruct (Nat.eqb_spec (S (n mod 100)) 100) as [X|X].
      * replace (S n) with ((S (n / 100)) * 100)%nat by lia. symmetry. apply Nat.mod_mul. discriminate.
      * apply (Nat.mod_unique (S n) 100 (n / 100) (S (n mod 100))); lia.
Qed.

Lemma handing_app : forall s a b n, (handing s n (a ++ b) = handing s n a ++ handing s (n + List.length a) b)%list.
Proof.
  intros s a. induction a as [|d a IH]; intros b n; cbn [app handing List.length]; [rewrite Nat.add_0_r; reflexivity|].
  rewrite IH, <- app_assoc. replace (S n + List.length a)%nat with (n + S (List.length a))%nat by lia. reflexivity.
Qed.
(** [k] frames from number [n] on *)
Lemma send_run : forall s session items plen k n l, (0 < plen)%nat -> inv items l ->
  (forall i, (n <= i < n + k)%nat -> good_now (c_now s i) /\ c_readerr s i = false) -> (n + k <= last_part (c_file s) plen)%nat ->
  exists ds l', List.length ds = k /\ (forall i d, nth_error ds i = Some d -> frame_for s session items plen (n + i) d) /\ inv items l' /\
    forall fuel, send_loop (k + fuel) s session plen n (n * plen) (n mod 100) (flag_list l) =
      obind (send_loop fuel s session plen (n + k) ((n + k) * plen) ((n + k) mod 100) (flag_list l')) (fun '(rest, fin) => Ret (handing s n ds ++ rest, fin)%list).
Proof.
  intros s session items plen k. induction k as [|k IH]; intros n l P IV GR NL.
  - exists [], l. split; [reflexivity|]. split; [intros [|i] d E; discriminate|]. split; [exact IV|]. intros fuel. rewrite Nat.add_0_r. cbn [Nat.add handing app].
    destruct (send_loop fuel _ _ _ _ _ _ _) as [[rest fin]| |]; reflexivity.
  - destruct (GR n ltac:(lia)) as [G0 R0].
    destruct (send_step s session items plen n l P IV G0 R0 ltac:(lia)) as (d & FF & _ & ST). destruct (ST ltac:(lia)) as (l1 & IV1 & E1).
    destruct (IH (S n) l1 P IV1) as (ds & l' & LD & FD & IV' & ED); [intros i Hi; apply GR; lia|lia|].
    exists (d :: ds), l'. split; [cbn [List.length]; rewrite LD; reflexivity|]. split.
    { intros [|i] d' E; cbn [nth_error] in E; [injection E as <-; rewrite Nat.add_0_r; exact FF|]. replace (n + S i)%nat with (S n + i)%nat by lia. apply FD, E. }
    split; [exact IV'|]. intros fuel. cbn [Nat.add]. rewrite E1, ED. replace (n + S k)%nat with (S n + k)%nat by lia.
    destruct (send_loop fuel _ _ _ _ _ _ _) as [[rest fin]| |]; cbn [obind]; try reflexivity.
    change (d :: ds) with ([d] ++ ds)%list. rewrite handing_app. cbn [List.length]. replace (n + 1)%nat with (S n) by lia. rewrite app_assoc. reflexivity.
Qed.

(** the flags senddata starts from *)
Lemma send_start : forall items, items <> [] -> NoDup (keys items) -> Forall okay items -> exists l, inv items l /\
  forall fuel s session, senddata fuel s session (flag_list items) =
    if (room (c_mtu s) items <? 0)%Z then Panic else send_loop fuel s session (Z.to_nat (room (c_mtu s) items)) 0 0 0 (flag_list l).
Proof.
  intros items NE ND F.
  assert (ON : okay ("eod", "no")) by (apply okay_yes_no; auto).
  set (l0 := replace_items items "eod" "no").
  assert (F0 : Forall okay l0) by (apply replace_items_okay; assumption).
  assert (D0 : NoDup (keys l0)) by (apply replace_items_nodup; assumption).
  assert (N0 : l0 <> []) by apply replace_items_nonempty.
  set (fv := match lookup "reqtstamp" items with Some v => v | None => "" end).
  set (l := if String.eqb fv "no" || String.eqb fv "" then l0 else replace_items l0 "reqtstamp" fv).
  assert (OF : String.eqb fv "no" || String.eqb fv "" = false -> okay ("reqtstamp", fv) /\ lookup "reqtstamp" items = Some fv).
  { intros X. unfold fv in *. destruct (lookup "reqtstamp" items) as [v|] eqn:L; [|discriminate X]. split; [|reflexivity]. apply lookup_In in L. rewrite Forall_forall in F. exact (F _ L). }
  exists l. split.
  - unfold l. destruct (String.eqb fv "no" || String.eqb fv "") eqn:X.
    + split; [exact N0|]. split; [exact D0|]. split; [exact F0|]. split; [apply replace_items_same|].
      intros f N1 _. apply replace_items_other, N1.
    + destruct (OF eq_refl) as [O LF]. split; [apply replace_items_nonempty|]. split; [apply replace_items_nodup; assumption|]. split; [apply replace_items_okay; assumption|].
      split; [rewrite replace_items_other by discriminate; apply replace_items_same|].
      intros f N1 _. destruct (String.string_dec f "reqtstamp") as [->|N2]; [rewrite replace_items_same; symmetry; exact LF|].
      rewrite replace_items_other by assumption. unfold l0. apply replace_items_other, N1.
  - intros fuel s session. unfold senddata. rewrite replaceflag_items by assumption. cbn [obind].
    rewrite flagvalue_spec by (auto using okay_clean). fold fv. cbn [obind].
    assert (E : (if String.eqb fv "no" || String.eqb fv "" then Ret (flag_list l0) else sf_replaceflag sar (flag_list l0) "reqtstamp" fv) = Ret (flag_list l)).
    { unfold l. destruct (String.eqb fv "no" || String.eqb fv "") eqn:X; [reflexivity|]. apply replaceflag_items; [exact N0|exact F0|apply OF; reflexivity]. }
    fold l0. rewrite E. cbn [obind]. rewrite maxpaylen_room by assumption. cbn [obind]. reflexivity.
Qed.
