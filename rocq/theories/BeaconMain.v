(** * The properties of beacons *)

From Verif Require Import GoBase GoFacts Flags SpecFlags FlagsFacts Config Shipped ConfigFacts SpecWire SarFacts Timestamp SpecTime TimeMain Data SpecFrames FrameFacts FlagStrFacts BuildFacts Beacon SpecBeacon.
Local Open Scope string_scope.
Local Open Scope N_scope.

(** C39: what encoding a beacon gives, for every beacon. *)
Lemma c39_encode : forall b,
  match space_width (b_header b) with
  | None => exists e, beacon_encode b = Ret (EncErr e)
  | Some w => beacon_encode b = Ret (Frame (beacon_wire (b_header b) w (b_freespace b) (b_eid b)))
  end.
Proof.
  intros b. unfold beacon_encode, beacon_wire, space_width. rewrite getstr_freespace, getstr_freespaced. cbn [obind].
  destruct (hd_freespace_cases (b_header b)) as [R|R]; rewrite R; unfold yes_no;
    [change (0 =? 0) with true|change (1 =? 0) with false]; cbv iota; eval_eqbs; cbn [obind];
    [|destruct (hd_freespaced_cases (b_header b)) as [E|[E|[E|E]]]; rewrite E; cbn [descriptor_width desc_name];
      [| | |eexists; reflexivity]];
    eval_eqbs; cbv iota zeta; cbn [obind];
    (match goal with |- context[make_bytes ?n] => change (make_bytes n) with ([] ++ make_bytes n)%list end);
    rewrite <- ?(bytes_of_length (b_eid b)); repeat fstep;
    (match goal with |- context[make_bytes ?n] => replace n with 0%nat by lia end);
    change (make_bytes 0) with (@nil byte); rewrite ?app_nil_r, ?app_nil_l, <- ?app_assoc, ?be_bytes_wrap, <- ?wire_be; reflexivity.
Qed.

Lemma b_space_eid_spec : forall b f k, (4 <= length f)%nat ->
  if Nat.ltb (length f) (4 + k) then b_space_eid b f k = Panic
  else b_space_eid b f k = Ret ({| b_header := b_header b; b_freespace := number_at f 4 k; b_eid := string_of (skipn (4 + k) f) |}, None).
Proof.
  intros b f k L. unfold b_space_eid. destruct (Nat.ltb_spec (length f) (4 + k)).
  - rewrite get_uint_panic' by auto. reflexivity.
  - rewrite get_uint_number by lia. cbn [obind]. rewrite slice_from_ok by lia. reflexivity.
Qed.

Lemma beacon_decode_spec : forall b f,
  verdict_of (beacon_decode b f) = beacon_verdict f /\
  (beacon_verdict f = Accept -> exists w,
     space_width (number_at f 0 4) = Some w /\
     beacon_decode b f =
       Ret ({| b_header := number_at f 0 4; b_freespace := number_at f 4 w; b_eid := string_of (skipn (4 + w) f) |}, None)).
Proof.
  intros b f. unfold beacon_decode, beacon_verdict. destruct (Nat.ltb_spec (length f) 4) as [L|L].
  { rewrite get_uint_panic' by auto. split; [reflexivity|discriminate]. }
  rewrite get_uint_number by lia. cbn [obind]. cbv zeta. set (h := number_at f 0 4).
  unfold space_width. rewrite getstr_freespace, getstr_freespaced. cbn [obind].
  destruct (hd_freespace_cases h) as [R|R]; rewrite R; unfold yes_no;
    [change (0 =? 0) with true|change (1 =? 0) with false]; cbv iota; eval_eqbs; cbn [obind].
  - replace (length f <? 4 + 0)%nat with false by (symmetry; apply Nat.ltb_ge; lia).
    rewrite slice_from_ok by lia. cbn [obind]. split; [reflexivity|]. intros _. exists 0%nat. split; reflexivity.
  - destruct (hd_freespaced_cases h) as [E|[E|[E|E]]]; rewrite E; cbn [descriptor_width desc_name]; eval_eqbs; cbv iota;
      [| | |split; [reflexivity|discriminate]];
      (match goal with |- context[b_space_eid ?b f ?k] =>
         pose proof (b_space_eid_spec b f k L) as S; destruct (Nat.ltb (length f) (4 + k)); rewrite S;
         [split; [reflexivity|discriminate]|split; [reflexivity|intros _; exists k; split; reflexivity]] end).
Qed.

(** C39: a beacon whose free space fits the announced width survives, whatever
    the receiver held before. *)
Lemma c39_roundtrip : forall b b0 w, b_header b < 2 ^ 32 -> space_width (b_header b) = Some w ->
  b_freespace b < 2 ^ (8 * N.of_nat w) ->
  exists f, beacon_encode b = Ret (Frame f) /\ beacon_decode b0 f = Ret (b, None).
Proof.
  intros b b0 w Bh W Bf. pose proof (c39_encode b) as E. rewrite W in E. eexists; split; [exact E|].
  set (f := beacon_wire (b_header b) w (b_freespace b) (b_eid b)).
  assert (N0 : number_at f 0 4 = b_header b) by (unfold f, beacon_wire; rewrite number_at_wire0; apply u32_pow; auto).
  assert (N4 : number_at f 4 w = b_freespace b).
  { unfold f, beacon_wire. rewrite number_at_wire by (rewrite wire_length; auto). apply mod_pow_small; auto. }
  assert (SK : skipn (4 + w) f = bytes_of (b_eid b)).
  { unfold f, beacon_wire. rewrite app_assoc. apply skipn_app_exact. rewrite app_length, !wire_length. reflexivity. }
  assert (LF : length f = (4 + w + slen (b_eid b))%nat).
  { unfold f, beacon_wire. rewrite !app_length, !wire_length, bytes_of_length. lia. }
  destruct (beacon_decode_spec b0 f) as [_ D].
  destruct D as (w' & W' & D).
  { unfold beacon_verdict. rewrite N0, W.
    replace (length f <? 4)%nat with false by (symmetry; apply Nat.ltb_ge; lia).
    replace (length f <? 4 + w)%nat with false by (symmetry; apply Nat.ltb_ge; lia). reflexivity. }
  rewrite N0, W in W'. inversion W'; subst w'.
  rewrite D, N0, N4, SK, string_of_bytes_of. destruct b; reflexivity.
Qed.

(** C40: the verdict on arbitrary bytes, whatever the receiver holds. *)
Lemma c40_verdict : forall b f, verdict_of (beacon_decode b f) = beacon_verdict f.
Proof. intros; apply beacon_decode_spec. Qed.

(** C40: a panic exactly when the bytes are shorter than the header, or than the
    announced free space field; an error exactly for 128 bits; never process exit. *)
Lemma c40_iff : forall b f,
  (beacon_decode b f = Panic <->
     (length f < 4)%nat \/
     (hd_freespace (number_at f 0 4) = 1 /\
      exists w, descriptor_width (hd_freespaced (number_at f 0 4)) = Some w /\ (length f < 4 + w)%nat)) /\
  ((exists b' e, beacon_decode b f = Ret (b', Some e)) <->
     (4 <= length f)%nat /\ hd_freespace (number_at f 0 4) = 1 /\ hd_freespaced (number_at f 0 4) = 3) /\
  beacon_decode b f <> Fatal.
Proof.
  intros b f. rewrite <- verdict_panic, <- verdict_reject, <- verdict_fatal, c40_verdict. unfold beacon_verdict, space_width.
  destruct (Nat.ltb_spec (length f) 4) as [L|L].
  { split; [tauto|]. split; [|discriminate]. split; [discriminate|lia]. }
  destruct (hd_freespace_cases (number_at f 0 4)) as [R|R]; rewrite R;
    [change (0 =? 0) with true|change (1 =? 0) with false]; cbv iota.
  - replace (length f <? 4 + 0)%nat with false by (symmetry; apply Nat.ltb_ge; lia).
    split; [|split; [|discriminate]]; (split; [discriminate|]).
    + intros [?|[? _]]; [lia|discriminate].
    + intros (_ & ? & _); discriminate.
  - destruct (hd_freespaced_cases (number_at f 0 4)) as [E|[E|[E|E]]]; rewrite E; cbn [descriptor_width];
      [| | |split; [split; [discriminate|intros [?|(_ & w & ? & _)]; [lia|discriminate]]|split; [tauto|discriminate]]];
      (split; [|split; [split; [destruct (Nat.ltb _ _); discriminate|intros (_ & _ & ?); discriminate]|destruct (Nat.ltb _ _); discriminate]]);
      (match goal with |- context[Nat.ltb ?x ?y] => destruct (Nat.ltb_spec x y) end);
      [split; [intros _; right; split; [reflexivity|eexists; split; [reflexivity|assumption]]|reflexivity]
      |split; [discriminate|intros [?|(_ & w & X & ?)]; [lia|inversion X; subst; lia]]
      |split; [intros _; right; split; [reflexivity|eexists; split; [reflexivity|assumption]]|reflexivity]
      |split; [discriminate|intros [?|(_ & w & X & ?)]; [lia|inversion X; subst; lia]]
      |split; [intros _; right; split; [reflexivity|eexists; split; [reflexivity|assumption]]|reflexivity]
      |split; [discriminate|intros [?|(_ & w & X & ?)]; [lia|inversion X; subst; lia]]].
Qed.

(** C40: what an accepted beacon decodes to. *)
Lemma c40_value : forall b f, beacon_verdict f = Accept -> exists w,
  space_width (number_at f 0 4) = Some w /\
  beacon_decode b f =
    Ret ({| b_header := number_at f 0 4; b_freespace := number_at f 4 w; b_eid := string_of (skipn (4 + w) f) |}, None).
Proof. intros; apply beacon_decode_spec; auto. Qed.

(** ** Building *)
Definition beacon_body (f v : string) (b : beacon) : outcome (beacon * error) :=
  if one_of f ["descriptor"; "stream"; "txwilling"; "rxwilling"; "udplite"; "freespace"] then
    do h <- sf_set sar (b_header b) f v; Ret (b_set_header b h, None)
  else if String.eqb f "freespaced" then
    do h <- sf_set sar (b_header b) "freespace" "yes";
    let b := b_set_header b h in
    if one_of v ["d16"; "d32"; "d64"] then
      do h <- sf_set sar (b_header b) f v; Ret (b_set_header b h, None)
    else Ret (b, Some ("Beacon.New: Invalid freespaced " ++ v))
  else Ret (b, Some ("Beacon.New: Invalid Flag " ++ f ++ "=" ++ v)).

Lemma beacon_flags_cons : forall f v rest b, clean f -> clean v ->
  beacon_flags (item_text (f, v) :: rest) b = ebind (beacon_body f v b) (fun b => beacon_flags rest b).
Proof. intros. cbn [beacon_flags]. rewrite split_item by auto. cbn [index nth_error obind]. reflexivity. Qed.

Lemma beacon_body_verdict : forall f v b, verdict_of (beacon_body f v b) = beacon_item_verdict sar (f, v).
Proof.
  intros f v b. unfold beacon_body, beacon_item_verdict. rewrite !is_in_one_of. destruct (is_in f _).
  - unfold setting_verdict. pose proof (sf_set_known (b_header b) f v) as K. destruct (known_option sar f v).
    + destruct K as (h' & ->). reflexivity.
    + rewrite K. reflexivity.
  - destruct (String.eqb_spec f "freespaced") as [->|]; [|reflexivity].
    destruct (sf_set_known (b_header b) "freespace" "yes" : exists h', _) as (h1 & E1). rewrite E1. cbn [obind]. cbv zeta.
    destruct (is_in v _) eqn:I; [|reflexivity]. apply is_in_true in I.
    pose proof (sf_set_known (b_header (b_set_header b h1)) "freespaced" v) as K.
    destruct I as [<-|[<-|[<-|[]]]]; destruct (K : exists h', _) as (h2 & ->); reflexivity.
Qed.

Definition beacon_rel (b b' : beacon) (items : list (string * string)) : Prop :=
  sf_setflags sar (b_header b) (flat_map beacon_settings items) = Ret (b_header b').
Lemma beacon_rel_nil : forall b, beacon_rel b b [].
Proof. reflexivity. Qed.
Lemma beacon_rel_cons : forall f v b b1 b2 l, beacon_body f v b = Ret (b1, None) -> beacon_rel b1 b2 l ->
  beacon_rel b b2 ((f, v) :: l).
Proof.
  intros f v b b1 b2 l H R. unfold beacon_rel in *. cbn [flat_map]. rewrite setflags_app.
  replace (sf_setflags sar (b_header b) (beacon_settings (f, v))) with (Ret (b_header b1)); [exact R|].
  unfold beacon_body in H. rewrite !is_in_one_of in H. unfold beacon_settings.
  destruct (is_in f _) eqn:I.
  - apply is_in_true in I.
    replace (String.eqb f "freespaced") with false by (symmetry; apply String.eqb_neq; intros ->; cbn in I; intuition discriminate).
    inv_bind H. inversion H; subst. cbn [sf_setflags]. rewrite E. reflexivity.
  - destruct (String.eqb f "freespaced"); [|discriminate]. inv_bind H. cbv zeta in H.
    destruct (is_in v _); [|discriminate]. inv_bind H. inversion H; subst.
    cbn [sf_setflags]. rewrite E. cbn [obind]. cbn [b_set_header b_header] in E0. rewrite E0. reflexivity.
Qed.

Definition beacon_fields : list string :=
  ["version"; "frametype"; "descriptor"; "stream"; "txwilling"; "rxwilling"; "udplite"; "freespace"; "freespaced"].

(** A header after settings: the free space bit *)
Lemma set_freespace_bit : forall h h' l, incl (keys l) beacon_fields -> h < 2 ^ 32 -> set_exactly sar h h' l ->
  String.eqb (yes_no (hd_freespace h')) "yes" = asks_space h l.
Proof.
  intros h h' l I B SE. unfold asks_space. destruct (last_setting l "freespace") as [v|] eqn:F.
  - destruct SE as (_ & R & _). destruct (R _ _ F) as (fl & n & L & O & Bf). vm_compute in L. inversion L; subst fl.
    cbn [f_msb f_len f_opts] in *. unfold hd_freespace. rewrite Bf.
    cbn [lookup] in O. destruct (String.eqb_spec v "no") as [->|]; [inversion O; reflexivity|].
    destruct (String.eqb_spec v "yes") as [->|]; [inversion O; reflexivity|discriminate].
  - replace (hd_freespace h') with (hd_freespace h).
    + destruct (hd_freespace_cases h) as [E|E]; rewrite E; reflexivity.
    + symmetry. unfold hd_freespace. eapply set_exactly_field; [exact SE| |lia|].
      * intros f v fl Hin L.
        assert (G : exists g, lookup "freespace" (t_flags sar) = Some g /\ f_msb g = 17 /\ f_len g = 1)
          by (eexists; split; [vm_compute; reflexivity|split; reflexivity]).
        destruct G as (g & G & G1 & G2). rewrite <- G1, <- G2.
        apply all_disjoint_spec with (K := beacon_fields) (a := f) (b := "freespace"); auto.
        -- apply I. apply in_map_iff. exists (f, v). auto.
        -- cbn; tauto.
        -- intros ->. apply lookup_rev_None in F. apply F. apply in_map_iff. exists ("freespace", v). auto.
      * intros f v fl Hin L. destruct (wf_lookup _ _ _ sar_wf L) as (W & _). exact W.
Qed.

Lemma beacon_space_built : forall env b info h settings, incl (keys settings) beacon_fields -> h < 2 ^ 32 ->
  sf_setflags sar h settings = Ret (b_header b) ->
  beacon_built env h settings info (beacon_space env b info).
Proof.
  intros env b info h settings I B E.
  assert (SE : forall l, incl (keys l) beacon_fields -> forall h', sf_setflags sar h l = Ret h' -> set_exactly sar h h' l).
  { intros; eapply set_exactly_setflags with (K := beacon_fields); eauto. }
  assert (SA : forall f v h', In f beacon_fields -> sf_set sar (b_header b) f v = Ret h' -> set_exactly sar h h' (settings ++ [(f, v)])).
  { intros f v h' F S. apply SE.
    - intros x X. unfold keys in X. rewrite map_app, in_app_iff in X. destruct X as [X|[<-|[]]]; auto.
    - rewrite setflags_app, E. cbn [obind sf_setflags]. rewrite S. reflexivity. }
  unfold beacon_space, beacon_built. cbn [b_header b_freespace b_eid]. rewrite getstr_freespace. cbn [obind].
  rewrite (set_freespace_bit h (b_header b) settings I B (SE _ I _ E)).
  destruct (asks_space h settings) eqn:A.
  - destruct (sf_set_known (b_header b) "freespace" "no" : exists h', _) as (hn & En). rewrite En. cbn [obind].
    destruct (se_getwd env) as [e|]; [eexists; reflexivity|].
    unfold free_space. change (2 ^ 64) with (2 ^ 64). unfold u64, wrap.
    destruct (if bi_freespace info =? 0 then _ else _) as [n|].
    + unfold space_descriptor. change (2 ^ 16 - 1) with MaxUint16. change (2 ^ 32 - 1) with MaxUint32. change (2 ^ 64 - 1) with MaxUint64.
      destruct (n <? MaxUint16); [|destruct (n <? MaxUint32); [|destruct (n <? MaxUint64); [|eexists; eexists; reflexivity]]];
        (match goal with |- context[sf_set sar ?x "freespaced" ?y] =>
           destruct (sf_set_known x "freespaced" y : exists h', _) as (hf & Ef); rewrite Ef end); cbn [obind];
        (eexists; split; [reflexivity|]; cbn [b_set_header b_header b_freespace b_eid]; split; [apply SA; [cbn; tauto|exact Ef]|auto]).
    + eexists; split; [reflexivity|]. cbn [b_set_header b_header b_freespace b_eid]. split; [apply SA; [cbn; tauto|exact En]|auto].
  - assert (X : yes_no (hd_freespace (b_header b)) = "no").
    { pose proof (set_freespace_bit h (b_header b) settings I B (SE _ I _ E)) as Y. rewrite A in Y.
      unfold yes_no in *. destruct (hd_freespace (b_header b) =? 0); [reflexivity|discriminate]. }
    rewrite X. eval_eqbs. eexists; split; [reflexivity|]. cbn [b_header b_freespace b_eid]. auto.
Qed.

Lemma beacon_settings_keys : forall p, beacon_item_verdict sar p = Accept -> incl (keys (beacon_settings p)) beacon_fields.
Proof.
  intros [f v] H x I. unfold beacon_settings in I. unfold beacon_item_verdict in H. destruct (String.eqb_spec f "freespaced") as [->|].
  - cbn in I |- *. tauto.
  - destruct (is_in f _) eqn:F; [|discriminate]. apply is_in_true in F. cbn in F, I |- *. destruct I as [<-|[]]. tauto.
Qed.

(** C38: building a beacon from a header: every flag of the header is kept, and
    the width of the free space is chosen from its value. *)
Lemma c38_make : forall env b header info, header < 2 ^ 32 ->
  beacon_built env header [("version", "v1"); ("frametype", "beacon")] info (beacon_make env b header info).
Proof.
  intros env b header info B. unfold beacon_make.
  destruct (sf_set_known header "version" "v1" : exists h', _) as (h1 & E1). rewrite E1. cbn [obind].
  destruct (sf_set_known h1 "frametype" "beacon" : exists h', _) as (h2 & E2). rewrite E2. cbn [obind].
  apply beacon_space_built; auto.
  - intros x [<-|[<-|[]]]; cbn; tauto.
  - cbn [sf_setflags]. rewrite E1. cbn [obind]. rewrite E2. reflexivity.
Qed.

(** C71: an item that is not acceptable decides what becomes of a construction. *)
Lemma c71_verdict : forall env b items info,
  items <> [] -> (forall p, In p items -> clean (fst p) /\ clean (snd p)) ->
  first_bad (map (beacon_item_verdict sar) items) <> Accept ->
  verdict_of (beacon_new env b (flag_list items) info) = first_bad (map (beacon_item_verdict sar) items).
Proof.
  intros env b items info NE C FB. unfold beacon_new.
  destruct (sf_set_known (b_header b) "version" "v1" : exists h', _) as (h1 & E1). rewrite E1. cbn [obind].
  destruct (sf_set_known h1 "frametype" "beacon" : exists h', _) as (h2 & E2). rewrite E2. cbn [obind].
  rewrite split_flags by auto.
  pose proof (loop_verdict beacon beacon_flags beacon_body (fun _ => eq_refl) beacon_flags_cons
    (fun _ => True) (beacon_item_verdict sar) (fun f v b _ => beacon_body_verdict f v b) (fun _ _ _ _ _ _ => I)
    items (b_set_header b h2) C I) as V.
  rewrite <- V in *. destruct (beacon_flags (map item_text items) (b_set_header b h2)) as [[d' [e|]]| |]; try reflexivity.
  exfalso. apply FB. reflexivity.
Qed.

(** C38: building a beacon from a flag list, all items acceptable: exactly the
    requested flags, with the width of the free space chosen from its value. *)
Lemma c38_new : forall env b items info,
  items <> [] -> (forall p, In p items -> clean (fst p) /\ clean (snd p)) ->
  (forall p, In p items -> beacon_item_verdict sar p = Accept) ->
  b_header b < 2 ^ 32 ->
  beacon_built env (b_header b) (("version", "v1") :: ("frametype", "beacon") :: flat_map beacon_settings items) info
    (beacon_new env b (flag_list items) info).
Proof.
  intros env b items info NE C A B. unfold beacon_new.
  destruct (sf_set_known (b_header b) "version" "v1" : exists h', _) as (h1 & E1). rewrite E1. cbn [obind].
  destruct (sf_set_known h1 "frametype" "beacon" : exists h', _) as (h2 & E2). rewrite E2. cbn [obind].
  rewrite split_flags by auto.
  pose proof (loop_verdict beacon beacon_flags beacon_body (fun _ => eq_refl) beacon_flags_cons
    (fun _ => True) (beacon_item_verdict sar) (fun f v b _ => beacon_body_verdict f v b) (fun _ _ _ _ _ _ => I)
    items (b_set_header b h2) C I) as V.
  replace (first_bad (map (beacon_item_verdict sar) items)) with Accept in V.
  2:{ clear - A. induction items as [|p l IH]; [reflexivity|].
      cbn [map first_bad]. rewrite (A p) by (left; auto). apply IH. intros q Q; apply A; right; auto. }
  apply verdict_accept in V. destruct V as (b1 & L). rewrite L. cbn [ebind obind].
  pose proof (loop_value beacon beacon_flags beacon_body (fun _ => eq_refl) beacon_flags_cons
     beacon_rel beacon_rel_nil beacon_rel_cons items _ _ C L) as R. unfold beacon_rel in R. cbn [b_set_header b_header] in R.
  apply beacon_space_built; auto.
  - intros x [<-|[<-|I]]; [cbn; tauto|cbn; tauto|].
    revert x I. apply keys_flat_map. intros; apply beacon_settings_keys; auto.
  - cbn [sf_setflags]. rewrite E1. cbn [obind]. rewrite E2. exact R.
Qed.

(** C71: an empty flag string panics. *)
Lemma c71_empty : forall env b info, beacon_new env b "" info = Panic.
Proof.
  intros. unfold beacon_new.
  destruct (sf_set_known (b_header b) "version" "v1" : exists h', _) as (h1 & E1). rewrite E1. cbn [obind].
  destruct (sf_set_known h1 "frametype" "beacon" : exists h', _) as (h2 & E2). rewrite E2. reflexivity.
Qed.

(** C38: the chosen width holds the value, and every narrower width either does
    not, or holds it only as its largest number. *)
Lemma c38_width : forall n d, space_descriptor n = Some d -> exists w,
  width_named d = Some w /\ n < 2 ^ (8 * N.of_nat w) - 1 /\
  forall d' w', width_named d' = Some w' -> (w' < w)%nat -> 2 ^ (8 * N.of_nat w') - 1 <= n.
Proof.
  intros n d H. unfold space_descriptor in H.
  assert (C : forall d' w', width_named d' = Some w' -> (w' = 2 \/ w' = 4 \/ w' = 8)%nat).
  { unfold width_named. cbn [lookup]. intros d' w'. destruct (String.eqb d' "d16"); [|destruct (String.eqb d' "d32"); [|destruct (String.eqb d' "d64")]];
      intros X; inversion X; auto. }
  destruct (N.ltb_spec n (2 ^ 16 - 1)); [|destruct (N.ltb_spec n (2 ^ 32 - 1)); [|destruct (N.ltb_spec n (2 ^ 64 - 1)); [|discriminate]]];
    inversion H; subst d; eexists; (split; [reflexivity|]); (split; [assumption|]);
    intros d' w' X L; destruct (C _ _ X) as [->|[->| ->]]; try lia; assumption.
Qed.
(** C38: only the largest 64-bit number has no width. *)
Lemma c38_refused : forall n, n < 2 ^ 64 -> (space_descriptor n = None <-> n = 2 ^ 64 - 1).
Proof.
  intros n B. unfold space_descriptor.
  destruct (N.ltb_spec n (2 ^ 16 - 1)); [split; [discriminate|intros ->; vm_compute in H; discriminate]|].
  destruct (N.ltb_spec n (2 ^ 32 - 1)); [split; [discriminate|intros ->; vm_compute in H0; discriminate]|].
  destruct (N.ltb_spec n (2 ^ 64 - 1)); [split; [discriminate|lia]|]. split; [lia|reflexivity].
Qed.

Lemma reads_freespaced : forall h d, reads sar h "freespaced" d -> desc_name (hd_freespaced h) = d.
Proof.
  intros h d (fl & n & L & O & B). vm_compute in L. inversion L; subst fl. cbn [f_msb f_len f_opts] in *.
  unfold hd_freespaced. rewrite B. cbn [lookup] in O.
  repeat (match type of O with (if String.eqb d ?x then _ else _) = _ => destruct (String.eqb_spec d x) as [->|] end; [inversion O; reflexivity|]).
  discriminate.
Qed.

Lemma built_fits : forall env h settings info r b', incl (keys settings) beacon_fields -> h < 2 ^ 32 ->
  beacon_built env h settings info r -> r = Ret (b', None) ->
  b_header b' < 2 ^ 32 /\ exists w, space_width (b_header b') = Some w /\ b_freespace b' < 2 ^ (8 * N.of_nat w).
Proof.
  intros env h settings info r b' I B H E. unfold beacon_built in H.
  assert (K : forall f v, In f beacon_fields -> incl (keys (settings ++ [(f, v)])) beacon_fields).
  { intros f v F x X. unfold keys in X. rewrite map_app, in_app_iff in X. destruct X as [X|[<-|[]]]; auto. }
  assert (SW0 : forall l, incl (keys l) beacon_fields -> set_exactly sar h (b_header b') l -> asks_space h l = false -> space_width (b_header b') = Some 0%nat).
  { intros l Il SE A. pose proof (set_freespace_bit h _ l Il B SE) as Y. rewrite A in Y.
    unfold space_width, yes_no in *. destruct (hd_freespace (b_header b') =? 0); [reflexivity|discriminate]. }
  destruct (asks_space h settings) eqn:A.
  - destruct (se_getwd env); [destruct H as (b1 & H); congruence|].
    destruct (free_space env (bi_freespace info)) as [n|].
    + destruct (space_descriptor n) as [d|] eqn:D; [|destruct H as (b1 & H); congruence].
      destruct H as (b1 & H & SE & Fn & _). assert (b1 = b') by congruence. subst b1.
      split; [apply SE|]. destruct (c38_width _ _ D) as (w & W & L & _). exists w. split; [|lia].
      assert (Il : incl (keys (settings ++ [("freespaced", d)])) beacon_fields) by (apply K; cbn; tauto).
      pose proof (set_freespace_bit h _ _ Il B SE) as Y.
      unfold asks_space, last_setting in Y, A. rewrite rev_app_distr in Y. cbn [rev app lookup] in Y.
      change (String.eqb "freespace" "freespaced") with false in Y. cbv iota in Y. rewrite A in Y.
      assert (Z : reads sar (b_header b') "freespaced" d).
      { apply SE. unfold last_setting. rewrite rev_app_distr. reflexivity. }
      apply reads_freespaced in Z. unfold space_width, yes_no in *.
      destruct (hd_freespace (b_header b') =? 0); [discriminate|].
      destruct (hd_freespaced_cases (b_header b')) as [Q|[Q|[Q|Q]]]; rewrite Q in *; cbn [desc_name] in Z; subst d; inversion W; reflexivity.
    + destruct H as (b1 & H & SE & Fn & _). assert (b1 = b') by congruence. subst b1.
      split; [apply SE|]. exists 0%nat. split; [|rewrite Fn; reflexivity].
      eapply SW0; [|exact SE|]; [apply K; cbn; tauto|]. unfold asks_space, last_setting. rewrite rev_app_distr. reflexivity.
  - destruct H as (b1 & H & SE & Fn & _). assert (b1 = b') by congruence. subst b1.
    split; [apply SE|]. exists 0%nat. split; [|rewrite Fn; reflexivity]. eapply SW0; eauto.
Qed.

(** C39: every beacon that the constructors build survives the wire; its free
    space is never truncated. *)
Lemma c39_built : forall env b header items info b',
  (header < 2 ^ 32 /\ beacon_make env b header info = Ret (b', None)) \/
  (items <> [] /\ (forall p, In p items -> clean (fst p) /\ clean (snd p)) /\ b_header b < 2 ^ 32 /\
   beacon_new env b (flag_list items) info = Ret (b', None)) ->
  exists f, beacon_encode b' = Ret (Frame f) /\ forall b0, beacon_decode b0 f = Ret (b', None).
Proof.
  intros env b header items info b' H.
  assert (X : b_header b' < 2 ^ 32 /\ exists w, space_width (b_header b') = Some w /\ b_freespace b' < 2 ^ (8 * N.of_nat w)).
  { destruct H as [[B E]|(NE & C & B & E)].
    - pose proof (c38_make env b header info B) as M. eapply built_fits; [|exact B|exact M|exact E].
      intros x [<-|[<-|[]]]; cbn; tauto.
    - assert (A : forall p, In p items -> beacon_item_verdict sar p = Accept).
      { destruct (first_bad (map (beacon_item_verdict sar) items)) eqn:F.
        - intros p P. eapply first_bad_all; [exact F|]. apply in_map. exact P.
        - pose proof (c71_verdict env b items info NE C) as V. rewrite F, E in V. discriminate (V ltac:(discriminate)).
        - pose proof (c71_verdict env b items info NE C) as V. rewrite F, E in V. discriminate (V ltac:(discriminate)).
        - pose proof (c71_verdict env b items info NE C) as V. rewrite F, E in V. discriminate (V ltac:(discriminate)). }
      pose proof (c38_new env b items info NE C A B) as M. eapply built_fits; [|exact B|exact M|exact E].
      intros x [<-|[<-|I]]; [cbn; tauto|cbn; tauto|].
      revert x I. apply keys_flat_map. intros; apply beacon_settings_keys; auto. }
  destruct X as (Bh & w & W & F). pose proof (c39_encode b') as E. rewrite W in E. eexists; split; [exact E|].
  intros b0. destruct (c39_roundtrip b' b0 w Bh W F) as (f & E' & D). congruence.
Qed.

(** ** Concrete cases *)
Definition ex_env : sysenv := {| se_getwd := None; se_statfs := Some (4096, 100000000) |}.
Definition ex_items := [("descriptor", "d32"); ("stream", "no"); ("txwilling", "yes"); ("rxwilling", "yes"); ("freespace", "yes"); ("freespaced", "d64")].
Example c38_new_ex :
  map (beacon_item_verdict sar) ex_items = [Accept; Accept; Accept; Accept; Accept; Accept] /\
  asks_space 0 (("version", "v1") :: ("frametype", "beacon") :: flat_map beacon_settings ex_items) = true /\
  free_space ex_env 0 = Some 400000000 /\ space_descriptor 400000000 = Some "d32" /\
  exists b', beacon_new ex_env zero_beacon (flag_list ex_items) {| bi_freespace := 0; bi_eid := "me" |} = Ret (b', None) /\
    b_freespace b' = 400000000 /\ hd_freespaced (b_header b') = 1 /\ b_eid b' = "me".
Proof. repeat split. eexists. vm_compute. auto. Qed.
Example c38_make_ex : beacon_make ex_env zero_beacon 0x4000 {| bi_freespace := 65535; bi_eid := "" |} =
  Ret ({| b_header := 0x20005000; b_freespace := 65535; b_eid := "" |}, None) /\
  space_descriptor 65534 = Some "d16" /\ space_descriptor (2 ^ 64 - 1) = None.
Proof. vm_compute. auto. Qed.
Example c39_roundtrip_ex : space_width 0x20005000 = Some 4%nat /\
  beacon_encode {| b_header := 0x20005000; b_freespace := 65535; b_eid := "ab" |} =
    Ret (Frame (wire 4 0x20005000 ++ wire 4 65535 ++ bytes_of "ab")%list).
Proof. vm_compute. auto. Qed.
Example c40_verdict_ex :
  beacon_verdict (wire 3 0) = Crash /\ beacon_verdict (wire 4 0x20005000 ++ zeros 3) = Crash /\
  beacon_verdict (wire 4 0x20005000 ++ zeros 4) = Accept /\ beacon_verdict (wire 4 0x20007000 ++ zeros 30) = Reject /\
  beacon_verdict (wire 4 0x20000000) = Accept.
Proof. vm_compute. auto. Qed.
Example c71_verdict_ex : map (beacon_item_verdict sar) [("freespaced", "d128"); ("txwilling", "on"); ("version", "v1")] = [Reject; Kill; Reject].
Proof. reflexivity. Qed.
