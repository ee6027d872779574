(** * The properties of data frames *)

From Verif Require Import GoBase GoFacts Flags SpecFlags FlagsFacts Config Shipped ConfigFacts SpecWire SarFacts Timestamp SpecTime TimeMain Data SpecFrames FrameFacts FlagStrFacts BuildFacts.
Local Open Scope string_scope.
Local Open Scope N_scope.

(** C23: what encoding a data frame gives, for every frame: the documented
    bytes; an error for the 128-bit descriptor; the process terminates for a
    timestamp of a type that does not exist.  It never panics. *)
Lemma c23_encode : forall d, t_header (d_tstamp d) < 256 ->
  match descriptor_width (hd_descriptor (d_header d)) with
  | None => exists e, data_encode d = Ret (EncErr e)
  | Some w =>
      if hd_reqtstamp (d_header d) =? 0
      then data_encode d = Ret (Frame (data_wire (d_header d) (d_session d) [] w (d_offset d) (d_payload d)))
      else match ts_bytes (d_tstamp d) with
           | Some ts => data_encode d = Ret (Frame (data_wire (d_header d) (d_session d) ts w (d_offset d) (d_payload d)))
                        /\ length ts = 16%nat
           | None => data_encode d = Fatal
           end
  end.
Proof.
  intros d B. unfold data_encode. rewrite getstr_reqtstamp, getstr_descriptor. cbn [obind].
  pose proof (ts_put_spec (d_tstamp d) B) as P.
  unfold data_wire. 
  destruct (hd_descriptor_cases (d_header d)) as [E|[E|[E|E]]]; rewrite E; cbn [descriptor_width desc_name];
    [| | |eexists; reflexivity];
    cbn [one_of existsb]; eval_eqbs; cbn [orb negb]; cbv iota zeta;
    (destruct (hd_reqtstamp_cases (d_header d)) as [R|R]; rewrite R; unfold yes_no;
     [change (0 =? 0) with true | change (1 =? 0) with false]; cbv iota; eval_eqbs; cbv iota zeta;
     [| destruct (ts_bytes (d_tstamp d)) as [ts|]; [destruct P as [P LP]; split; [|exact LP]|]; rewrite ?P ]);
    try (match goal with |- context[make_bytes ?n] => change (make_bytes n) with ([] ++ make_bytes n)%list end);
    repeat fstep; rewrite ?wire_be, ?be_bytes_u16, ?be_bytes_u32; try reflexivity;
    (match goal with |- context[make_bytes ?n] => replace n with 0%nat by (rewrite ?LP; lia) end;
     change (make_bytes 0) with (@nil byte); rewrite ?app_nil_r, ?app_nil_l, <- ?app_assoc; reflexivity).
Qed.

Lemma d_offset_payload_spec : forall d f pos k need,
  if Nat.ltb (length f) (pos + k) then d_offset_payload d f pos k need = Panic
  else exists e, d_offset_payload d f pos k need =
    Ret ({| d_header := d_header d; d_session := d_session d; d_tstamp := d_tstamp d;
            d_offset := number_at f pos k; d_payload := skipn (pos + k) f |}, e) /\
    (e = None <-> need && Nat.eqb (length f) (pos + k) = false).
Proof.
  intros. unfold d_offset_payload. destruct (Nat.ltb_spec (length f) (pos + k)).
  - rewrite get_uint_panic' by auto. reflexivity.
  - rewrite get_uint_number by lia. cbn [obind]. rewrite slice_from_ok by lia. cbn [obind].
    rewrite skipn_length.
    replace (length f - (pos + k) =? 0)%nat with (length f =? pos + k)%nat
      by (destruct (Nat.eqb_spec (length f) (pos + k)), (Nat.eqb_spec (length f - (pos + k)) 0); lia).
    destruct (need && (length f =? pos + k)%nat); eexists; split; try reflexivity; intuition discriminate.
Qed.

Lemma data_decode_spec : forall d f,
  verdict_of (data_decode d f) = data_verdict f /\
  (data_verdict f = Accept -> exists w,
     descriptor_width (hd_descriptor (number_at f 0 4)) = Some w /\
     data_decode d f =
       Ret ({| d_header := number_at f 0 4; d_session := number_at f 4 4; d_tstamp := ts_read (d_tstamp d) f;
               d_offset := number_at f (after_ts (number_at f 0 4)) w;
               d_payload := skipn (after_ts (number_at f 0 4) + w) f |}, None)).
Proof.
  intros d f. unfold data_decode, data_verdict. destruct (Nat.ltb_spec (length f) 10) as [L|L]; [split; [reflexivity|discriminate]|].
  rewrite !get_uint_number by lia. cbn [obind]. cbn [d_tstamp d_offset d_payload].
  unfold ts_verdict, ts_read. set (h := number_at f 0 4).
  rewrite getstr_reqtstamp. cbn [obind]. unfold after_ts.
  destruct (hd_reqtstamp_cases h) as [R|R]; rewrite R; unfold yes_no;
    [change (0 =? 0) with true; change (0 =? 1) with false | change (1 =? 0) with false; change (1 =? 1) with true];
    cbv iota; eval_eqbs; cbv iota zeta; cbn [andb].
  - rewrite getstr_descriptor. cbn [obind].
    destruct (hd_descriptor_cases h) as [E|[E|[E|E]]]; rewrite E; cbn [descriptor_width desc_name]; eval_eqbs; cbv iota;
      [| | |split; [reflexivity|discriminate]];
      (match goal with |- context[d_offset_payload ?d f ?p ?k ?b] =>
         pose proof (d_offset_payload_spec d f p k b) as S; destruct (Nat.ltb (length f) (p + k));
         [rewrite S; split; [reflexivity|discriminate]|
          destruct S as (e & S & I); cbn [andb d_header d_session d_tstamp] in *; destruct e; [intuition discriminate|];
          rewrite S; split; [reflexivity|intros _; eexists; split; [reflexivity|reflexivity]]] end).
  - destruct (Nat.ltb_spec (length f) 24) as [L24|L24].
    { rewrite slice_panic by lia. split; [reflexivity|discriminate]. }
    rewrite slice_ok by lia. cbn [obind]. change (24 - 8)%nat with 16%nat.
    pose proof (ts_get_at (d_tstamp d) f 8 ltac:(lia)) as G.
    pose proof (ts_verdict_spec f L24 R) as V. unfold ts_verdict in V. fold h in V. rewrite R in V. change (1 =? 1) with true in V.
    cbv iota zeta in V. replace (length f <? 24)%nat with false in V by (symmetry; apply Nat.ltb_ge; lia).
    destruct (ts_at f 8) as [t|].
    + rewrite G, V. cbn [obind]. rewrite getstr_descriptor. cbn [obind].
      destruct (hd_descriptor_cases h) as [E|[E|[E|E]]]; rewrite E; cbn [descriptor_width desc_name]; eval_eqbs; cbv iota;
      [| | |split; [reflexivity|discriminate]];
      cbn [Nat.eqb andb];
      (match goal with |- context[d_offset_payload ?d f ?p ?k ?b] =>
         pose proof (d_offset_payload_spec d f p k b) as S; destruct (Nat.ltb (length f) (p + k));
         [rewrite S; split; [reflexivity|discriminate]|
          destruct S as (e & S & I); cbn [andb d_set_tstamp d_header d_session d_tstamp] in *;
          rewrite S; try (destruct (Nat.eqb (length f) _));
          (destruct e; [destruct I as [_ I]; try (discriminate (I eq_refl)) | destruct I as [I _]; try (discriminate (I eq_refl))]);
          split; try reflexivity; try discriminate;
          intros _; eexists; split; reflexivity] end).
    + rewrite V. destruct (number_at f 8 1 =? 0).
      * destruct G as (t' & e & G). rewrite G. cbn [obind]. split; [reflexivity|discriminate].
      * rewrite G. split; [reflexivity|discriminate].
Qed.

(** C24: decoding an encoded data frame.  The receiver [d0] is arbitrary; without
    a timestamp it keeps the timestamp it had. *)
Lemma c24_roundtrip : forall d d0 w,
  d_header d < 2 ^ 32 -> d_session d < 2 ^ 32 ->
  descriptor_width (hd_descriptor (d_header d)) = Some w ->
  d_offset d < 2 ^ (8 * N.of_nat w) ->
  (hd_reqtstamp (d_header d) = 1 -> proper_stamp (d_tstamp d)) ->
  t_header (d_tstamp d) < 256 ->
  exists f, data_encode d = Ret (Frame f) /\
    if (hd_reqtstamp (d_header d) =? 1) && Nat.eqb w 2 && Nat.eqb (length (d_payload d)) 0
    then exists d' e, data_decode d0 f = Ret (d', Some e)
    else data_decode d0 f =
           Ret ({| d_header := d_header d; d_session := d_session d;
                   d_tstamp := if hd_reqtstamp (d_header d) =? 1 then d_tstamp d else d_tstamp d0;
                   d_offset := d_offset d; d_payload := d_payload d |}, None).
Proof.
  intros d d0 w Bh Bs W Bo PT BT.
  pose proof (c23_encode d BT) as E. rewrite W in E.
  assert (X : exists ts, data_encode d = Ret (Frame (data_wire (d_header d) (d_session d) ts w (d_offset d) (d_payload d))) /\
    length ts = (after_ts (d_header d) - 8)%nat /\
    (hd_reqtstamp (d_header d) = 1 -> ts_bytes (d_tstamp d) = Some ts)).
  { destruct (after_ts_cases (d_header d)) as [[R A]|[R A]]; rewrite R, A in *.
    - exists []. split; [exact E|]. split; [reflexivity|discriminate].
    - change (1 =? 0) with false in E. destruct (proper_bytes _ (PT eq_refl)) as (ts & T & LT). rewrite T in E.
      exists ts. split; [apply E|]. split; [exact LT|auto]. }
  clear E. destruct X as (ts & E & LT & T). exists (data_wire (d_header d) (d_session d) ts w (d_offset d) (d_payload d)).
  split; [exact E|]. clear E.
  set (f := data_wire (d_header d) (d_session d) ts w (d_offset d) (d_payload d)).
  assert (N0 : number_at f 0 4 = d_header d).
  { unfold f, data_wire. rewrite number_at_wire0. apply u32_pow; auto. }
  assert (N4 : number_at f 4 4 = d_session d).
  { unfold f, data_wire. rewrite number_at_wire by (rewrite wire_length; auto). apply u32_pow; auto. }
  assert (Wn : (w = 2 \/ w = 4 \/ w = 8)%nat).
  { destruct (hd_descriptor_cases (d_header d)) as [Q|[Q|[Q|Q]]]; rewrite Q in W; inversion W; auto. }
  assert (LA : after_ts (d_header d) = (8 + length ts)%nat) by (destruct (after_ts_cases (d_header d)) as [[_ A]|[_ A]]; lia).
  assert (NO : number_at f (after_ts (d_header d)) w = d_offset d).
  { unfold f, data_wire. rewrite !app_assoc. rewrite <- (app_assoc _ (wire w _)).
    rewrite number_at_wire by (rewrite !app_length, !wire_length; lia). apply mod_pow_small; auto. }
  assert (NP : skipn (after_ts (d_header d) + w) f = d_payload d).
  { unfold f, data_wire. rewrite !app_assoc. apply skipn_app_exact. rewrite !app_length, !wire_length. lia. }
  assert (LF : length f = (after_ts (d_header d) + w + length (d_payload d))%nat).
  { unfold f, data_wire. rewrite !app_length, !wire_length. lia. }
  assert (TA : hd_reqtstamp (d_header d) = 1 -> ts_at f 8 = Some (d_tstamp d)).
  { intros R. unfold f, data_wire. rewrite app_assoc.
    apply ts_at_bytes; auto. }
  assert (TV : ts_verdict f = Accept).
  { destruct (hd_reqtstamp_cases (d_header d)) as [R|R].
    - unfold ts_verdict. rewrite N0, R. reflexivity.
    - pose proof (ts_verdict_spec f) as V. rewrite N0 in V. rewrite (TA R) in V. apply V; auto.
      rewrite LF. destruct (after_ts_cases (d_header d)) as [[R' A]|[R' A]]; [congruence|lia]. }
  destruct (data_decode_spec d0 f) as [V A].
  assert (DV : data_verdict f = if (hd_reqtstamp (d_header d) =? 1) && Nat.eqb w 2 && Nat.eqb (length (d_payload d)) 0 then Reject else Accept).
  { unfold data_verdict. rewrite TV, N0, W.
    replace (length f <? 10)%nat with false by (symmetry; apply Nat.ltb_ge; lia).
    replace (length f <? after_ts (d_header d) + w)%nat with false by (symmetry; apply Nat.ltb_ge; lia).
    replace (length f =? after_ts (d_header d) + w)%nat with (length (d_payload d) =? 0)%nat; [reflexivity|].
    destruct (Nat.eqb_spec (length (d_payload d)) 0), (Nat.eqb_spec (length f) (after_ts (d_header d) + w)); lia. }
  destruct ((hd_reqtstamp (d_header d) =? 1) && Nat.eqb w 2 && Nat.eqb (length (d_payload d)) 0).
  - rewrite DV in V. apply verdict_reject in V. exact V.
  - destruct (A DV) as (w' & W' & D). rewrite N0 in W', D. rewrite W in W'. inversion W'; subst w'.
    rewrite D, N4, NO, NP. unfold ts_read. rewrite N0.
    destruct (hd_reqtstamp_cases (d_header d)) as [R|R]; rewrite R; [reflexivity|].
    rewrite (TA R). reflexivity.
Qed.

(** C25: the verdict on arbitrary bytes, whatever the receiver holds. *)
Lemma c25_verdict : forall d f, verdict_of (data_decode d f) = data_verdict f.
Proof. intros; apply data_decode_spec. Qed.

(** C25: it panics exactly when the announced timestamp, or after a readable
    timestamp the announced offset, is cut short. *)
Lemma c25_panics_iff : forall d f,
  data_decode d f = Panic <->
    (10 <= length f)%nat /\
    let h := number_at f 0 4 in
    ((hd_reqtstamp h = 1 /\ (length f < 24)%nat) \/
     ((hd_reqtstamp h = 0 \/ (24 <= length f)%nat /\ 1 <= number_at f 8 1 <= 5) /\
      exists w, descriptor_width (hd_descriptor h) = Some w /\ (length f < after_ts h + w)%nat)).
Proof.
  intros d f. rewrite <- verdict_panic, c25_verdict. unfold data_verdict. cbv zeta.
  set (h := number_at f 0 4).
  destruct (Nat.ltb_spec (length f) 10); [split; [discriminate|intros [? _]; lia]|].
  destruct (hd_reqtstamp_cases h) as [R|R].
  - unfold ts_verdict. fold h. rewrite R. change (0 =? 1) with false. cbv iota. cbn [andb].
    destruct (descriptor_width (hd_descriptor h)) as [w|]; [|split; [discriminate|intros [_ [[? _]|[_ (w & W & _)]]]; discriminate]].
    destruct (Nat.ltb_spec (length f) (after_ts h + w)).
    + split; [intros _|reflexivity]. split; [lia|]. right. split; eauto.
    + split; [discriminate|]. intros [_ [[? _]|[_ (w' & W & ?)]]]; [discriminate|]. inversion W; subst; lia.
  - destruct (Nat.ltb_spec (length f) 24) as [L|L].
    + unfold ts_verdict. fold h. rewrite R. change (1 =? 1) with true. cbv iota.
      replace (length f <? 24)%nat with true by (symmetry; apply Nat.ltb_lt; lia).
      split; auto.
    + pose proof (ts_verdict_spec f L R) as V. unfold ts_at in V. rewrite R.
      destruct (ts_type (number_at f 8 1)) eqn:T.
      * rewrite V. pose proof (ts_type_cases _ _ T).
        destruct (descriptor_width (hd_descriptor h)) as [w|]; [|split; [discriminate|intros [_ [[? ?]|[_ (w & W & _)]]]; [lia|discriminate]]].
        destruct (Nat.ltb_spec (length f) (after_ts h + w)).
        -- split; [intros _|reflexivity]. split; [lia|]. right. split; [right; lia|eauto].
        -- split; [destruct (_ && _); discriminate|]. intros [_ [[_ ?]|[_ (w' & W & ?)]]]; [lia|]. inversion W; subst; lia.
      * apply ts_type_none in T. rewrite V.
        split; [destruct (number_at f 8 1 =? 0); discriminate|]. intros [_ [[_ ?]|[[?|?] _]]]; try discriminate; lia.
Qed.

(** C25: it terminates the process exactly when a complete timestamp of an
    unknown type is announced. *)
Lemma c25_fatal_iff : forall d f,
  data_decode d f = Fatal <->
    (24 <= length f)%nat /\ hd_reqtstamp (number_at f 0 4) = 1 /\ 6 <= number_at f 8 1.
Proof.
  intros d f. rewrite <- verdict_fatal, c25_verdict. unfold data_verdict. cbv zeta.
  set (h := number_at f 0 4).
  destruct (Nat.ltb_spec (length f) 10); [split; [discriminate|intros [? _]; lia]|].
  assert (Z : forall w, (if Nat.ltb (length f) (after_ts h + w) then Crash
     else if (hd_reqtstamp h =? 1) && Nat.eqb w 2 && Nat.eqb (length f) (after_ts h + w) then Reject else Accept) <> Kill).
  { intros w. destruct (Nat.ltb _ _); [|destruct (_ && _ && _)]; discriminate. }
  destruct (hd_reqtstamp_cases h) as [R|R].
  - unfold ts_verdict. fold h. rewrite R in *. change (0 =? 1) with false in *. cbv iota.
    split; [|intros (_ & ? & _); discriminate].
    destruct (descriptor_width (hd_descriptor h)) as [w|]; [|discriminate]. intros K; destruct (Z w K).
  - destruct (Nat.ltb_spec (length f) 24) as [L|L].
    + unfold ts_verdict. fold h. rewrite R. change (1 =? 1) with true. cbv iota.
      replace (length f <? 24)%nat with true by (symmetry; apply Nat.ltb_lt; lia).
      split; [discriminate|lia].
    + pose proof (ts_verdict_spec f L R) as V. unfold ts_at in V.
      destruct (ts_type (number_at f 8 1)) eqn:T.
      * rewrite V. pose proof (ts_type_cases _ _ T). split; [|lia].
        destruct (descriptor_width (hd_descriptor h)) as [w|]; [|discriminate]. intros K; destruct (Z w K).
      * rewrite V. destruct (ts_type_none _ T) as [E|E].
        -- rewrite E. split; [discriminate|lia].
        -- replace (number_at f 8 1 =? 0) with false by (symmetry; apply N.eqb_neq; lia). tauto.
Qed.

(** C25: what an accepted frame decodes to. *)
Lemma c25_value : forall d f, data_verdict f = Accept -> exists w,
  descriptor_width (hd_descriptor (number_at f 0 4)) = Some w /\
  data_decode d f =
    Ret ({| d_header := number_at f 0 4; d_session := number_at f 4 4; d_tstamp := ts_read (d_tstamp d) f;
            d_offset := number_at f (after_ts (number_at f 0 4)) w;
            d_payload := skipn (after_ts (number_at f 0 4) + w) f |}, None).
Proof. intros; apply data_decode_spec; auto. Qed.

(** ** Building *)
Definition data_body (now : gotime) (f v : string) (d : data) : outcome (data * error) :=
  if one_of f ["version"; "descriptor"; "reqstatus"; "eod"] then
    do h <- sf_set sar (d_header d) f v; Ret (d_set_header d h, None)
  else if String.eqb f "transfer" then
    if String.eqb v "bundle" then Ret (d, Some "bundle transfers not supported") else Ret (d, None)
  else if String.eqb f "reqtstamp" then
    if String.eqb v "no" then
      do h <- sf_set sar (d_header d) f v; Ret (d_set_header d h, None)
    else if one_of v tstamp_names then
      do h <- sf_set sar (d_header d) f "yes";
      do ' (t, e) <- ts_now now (d_tstamp d) v;
      Ret (d_set_tstamp (d_set_header d h) t, e)
    else if String.eqb v "yes" then
      do h <- sf_set sar (d_header d) f "yes";
      do ' (t, e) <- ts_now now (d_tstamp d) "posix32";
      Ret (d_set_tstamp (d_set_header d h) t, e)
    else Ret (d, Some (v ++ " invalid timestamp type in data"))
  else Ret (d, Some (f ++ " invalid flag in data")).

Lemma data_flags_cons : forall now f v rest d, clean f -> clean v ->
  data_flags now (item_text (f, v) :: rest) d = ebind (data_body now f v d) (fun d => data_flags now rest d).
Proof.
  intros. cbn [data_flags]. rewrite split_item by auto. cbn [index nth_error obind]. reflexivity.
Qed.

Lemma data_body_verdict : forall now f v d, good_now now -> verdict_of (data_body now f v d) = data_item_verdict sar (f, v).
Proof.
  intros now f v d G. unfold data_body, data_item_verdict. rewrite !is_in_one_of.
  destruct (is_in f _).
  { unfold setting_verdict. pose proof (sf_set_known (d_header d) f v) as K. destruct (known_option sar f v).
    - destruct K as (h' & ->). reflexivity.
    - rewrite K. reflexivity. }
  destruct (String.eqb f "transfer"); [destruct (String.eqb v "bundle"); reflexivity|].
  destruct (String.eqb_spec f "reqtstamp") as [->|]; [|reflexivity].
  destruct (sf_set_known (d_header d) "reqtstamp" "yes" : exists h', _) as (hy & Hy).
  destruct (sf_set_known (d_header d) "reqtstamp" "no" : exists h', _) as (hn & Hn).
  destruct (String.eqb_spec v "no") as [->|Nn]; [rewrite Hn; reflexivity|].
  destruct (is_in v tstamp_names) eqn:T.
  - apply is_in_true in T. destruct (good_now_stamp now (d_tstamp d) v G T) as (t' & E & _).
    rewrite Hy, E. cbn.
    destruct (is_in v ("no" :: "yes" :: stamp_names)) eqn:I; [reflexivity|].
    apply is_in_false in I. exfalso; apply I; right; right; exact T.
  - destruct (String.eqb_spec v "yes") as [->|Ny].
    + destruct (good_now_stamp now (d_tstamp d) "posix32" G) as (t' & E & _); [cbn; tauto|].
      rewrite Hy, E. reflexivity.
    + destruct (is_in v ("no" :: "yes" :: stamp_names)) eqn:I; [|reflexivity].
      apply is_in_true in I. apply is_in_false in T. destruct I as [I|[I|I]]; try congruence. contradiction.
Qed.

(** One item's effect *)
Definition data_rel (now : gotime) (d d' : data) (items : list (string * string)) : Prop :=
  sf_setflags sar (d_header d) (flat_map data_settings items) = Ret (d_header d') /\
  d_session d' = d_session d /\ d_offset d' = d_offset d /\ d_payload d' = d_payload d /\
  stamped now (d_tstamp d) (flat_map data_stamp items) (d_tstamp d').

Lemma data_rel_nil : forall now d, data_rel now d d [].
Proof. intros; repeat split; reflexivity. Qed.

Lemma data_body_value : forall now f v d d', data_body now f v d = Ret (d', None) ->
  sf_setflags sar (d_header d) (data_settings (f, v)) = Ret (d_header d') /\
  d_session d' = d_session d /\ d_offset d' = d_offset d /\ d_payload d' = d_payload d /\
  stamped now (d_tstamp d) (data_stamp (f, v)) (d_tstamp d').
Proof.
  intros now f v d d' H. unfold data_body in H. rewrite !is_in_one_of in H. unfold data_settings, data_stamp.
  destruct (is_in f _) eqn:I.
  { apply is_in_true in I.
    replace (String.eqb f "transfer") with false by (symmetry; apply String.eqb_neq; intros ->; cbn in I; intuition discriminate).
    replace (String.eqb f "reqtstamp") with false by (symmetry; apply String.eqb_neq; intros ->; cbn in I; intuition discriminate).
    inv_bind H. inversion H; subst. cbn [sf_setflags]. rewrite E. repeat split; reflexivity. }
  destruct (String.eqb_spec f "transfer") as [->|Nt].
  { destruct (String.eqb v "bundle"); [discriminate|]. inversion H; subst. repeat split; reflexivity. }
  destruct (String.eqb_spec f "reqtstamp") as [->|]; [|discriminate].
  destruct (String.eqb_spec v "no") as [->|Nn].
  { inv_bind H. inversion H; subst. cbn [sf_setflags]. rewrite E. repeat split; reflexivity. }
  destruct (is_in v tstamp_names) eqn:T.
  - inv_bind H. inv_bind H. destruct a0 as [t e]. inversion H; subst. cbn [sf_setflags]. rewrite E.
    apply ts_now_new in E0. apply is_in_true in T.
    replace (String.eqb v "yes") with false by (symmetry; apply String.eqb_neq; intros ->; cbn in T; intuition discriminate).
    repeat split; eauto; cbn [stamped]; eauto.
  - destruct (String.eqb_spec v "yes") as [->|Ny]; [|discriminate].
    inv_bind H. inv_bind H. destruct a0 as [t e]. inversion H; subst. cbn [sf_setflags]. rewrite E.
    apply ts_now_new in E0. repeat split; eauto; cbn [stamped]; eauto.
Qed.

Lemma data_rel_cons : forall now f v d d1 d2 l, data_body now f v d = Ret (d1, None) -> data_rel now d1 d2 l ->
  data_rel now d d2 ((f, v) :: l).
Proof.
  intros now f v d d1 d2 l H (R1 & R2 & R3 & R4 & R5).
  destruct (data_body_value _ _ _ _ _ H) as (B1 & B2 & B3 & B4 & B5).
  unfold data_rel. cbn [flat_map]. rewrite setflags_app, B1. cbn [obind].
  repeat split; try congruence.
  eapply stamped_app; eauto.
Qed.

(** C26: what becomes of a construction: the first item that is not acceptable
    decides. *)
Lemma c26_verdict : forall now d items info,
  good_now now -> items <> [] -> (forall p, In p items -> clean (fst p) /\ clean (snd p)) ->
  verdict_of (data_new now d (flag_list items) info) = first_bad (map (data_item_verdict sar) items).
Proof.
  intros now d items info G NE C. unfold data_new.
  destruct (sf_set_known (d_header d) "version" "v1" : exists h', _) as (h1 & E1). rewrite E1. cbn [obind].
  destruct (sf_set_known h1 "frametype" "data" : exists h', _) as (h2 & E2). rewrite E2. cbn [obind].
  rewrite split_flags by auto.
  pose proof (loop_verdict data (data_flags now) (data_body now) (fun _ => eq_refl) (data_flags_cons now)
    (fun _ => True) (data_item_verdict sar) (fun f v d _ => data_body_verdict now f v d G) (fun _ _ _ _ _ _ => I)
    items (d_set_header d h2) C I) as V.
  rewrite <- V. destruct (data_flags now (map item_text items) (d_set_header d h2)) as [[d' [e|]]| |]; reflexivity.
Qed.

Definition data_fields : list string := ["version"; "frametype"; "descriptor"; "reqstatus"; "eod"; "reqtstamp"].

Lemma data_settings_keys : forall p, data_item_verdict sar p = Accept -> incl (keys (data_settings p)) data_fields.
Proof.
  intros [f v] H x I. unfold data_settings in I. unfold data_item_verdict in H.
  destruct (is_in f _) eqn:F.
  - apply is_in_true in F.
    replace (String.eqb f "transfer") with false in I by (symmetry; apply String.eqb_neq; intros ->; cbn in F; intuition discriminate).
    replace (String.eqb f "reqtstamp") with false in I by (symmetry; apply String.eqb_neq; intros ->; cbn in F; intuition discriminate).
    cbn in I. destruct I as [<-|[]]. cbn in F |- *. tauto.
  - destruct (String.eqb_spec f "transfer"); [destruct I|]. destruct (String.eqb_spec f "reqtstamp"); [|discriminate].
    cbn in I |- *. tauto.
Qed.

(** C26: an accepted construction: version 1, data frame, exactly the requested
    flags (the last setting of a flag counts), the caller's values, and the time stamped
    iff a timestamp is requested.  The transfer flag leaves no trace. *)
Lemma c26_result : forall now d items info,
  good_now now -> items <> [] -> (forall p, In p items -> clean (fst p) /\ clean (snd p)) ->
  (forall p, In p items -> data_item_verdict sar p = Accept) ->
  d_header d < 2 ^ 32 ->
  let settings := ("version", "v1") :: ("frametype", "data") :: flat_map data_settings items in
  exists d', data_new now d (flag_list items) info = Ret (d', None) /\
    set_exactly sar (d_header d) (d_header d') settings /\
    d_session d' = di_session info mod 2 ^ 32 /\ d_offset d' = di_offset info /\ d_payload d' = di_payload info /\
    stamped now (d_tstamp d) (flat_map data_stamp items) (d_tstamp d').
Proof.
  intros now d items info G NE C A Bh settings.
  assert (V : verdict_of (data_new now d (flag_list items) info) = Accept).
  { rewrite c26_verdict by auto. clear - A. induction items as [|p l IH]; [reflexivity|].
    cbn [map first_bad]. rewrite (A p) by (left; auto). apply IH. intros q Q; apply A; right; auto. }
  apply verdict_accept in V. destruct V as (d' & E). exists d'. split; [exact E|].
  unfold data_new in E. inv_bind E. inv_bind E. rewrite split_flags in E by auto.
  destruct (data_flags now (map item_text items) (d_set_header d a0)) as [[d1 [e|]]| |] eqn:L; cbn [ebind obind] in E; try discriminate.
  inversion E; subst d'; clear E.
  pose proof (loop_value data (data_flags now) (data_body now) (fun _ => eq_refl) (data_flags_cons now)
     (data_rel now) (data_rel_nil now) (data_rel_cons now) items _ _ C L) as (R1 & R2 & R3 & R4 & R5).
  cbn [d_fill d_header d_session d_offset d_payload d_tstamp d_set_header] in *.
  split.
  { apply set_exactly_setflags with (K := data_fields); auto.
    - intros x [<-|[<-|I]]; [cbn; tauto|cbn; tauto|].
      revert x I. apply keys_flat_map. intros; apply data_settings_keys; auto.
    - unfold settings. cbn [sf_setflags]. rewrite E0. cbn [obind]. rewrite E1. cbn [obind]. exact R1. }
  split; [reflexivity|]. split; [reflexivity|]. split; [reflexivity|].
  assumption.
Qed.

(** C26: an empty flag string is refused. *)
Lemma c26_empty : forall now d info, exists d' e, data_new now d "" info = Ret (d', Some e).
Proof.
  intros. unfold data_new.
  destruct (sf_set_known (d_header d) "version" "v1" : exists h', _) as (h1 & E1). rewrite E1. cbn [obind].
  destruct (sf_set_known h1 "frametype" "data" : exists h', _) as (h2 & E2). rewrite E2. cbn [obind].
  eexists. eexists. reflexivity.
Qed.

(** C26: the header-based constructor keeps every flag of the given header
    except version and frame type, and stamps the time iff the header asks for it. *)
Lemma c26_make : forall now d header info, good_now now -> header < 2 ^ 32 ->
  exists d', data_make now d header info = Ret (d', None) /\
    set_exactly sar header (d_header d') [("version", "v1"); ("frametype", "data")] /\
    d_session d' = di_session info mod 2 ^ 32 /\ d_offset d' = di_offset info /\ d_payload d' = di_payload info /\
    if hd_reqtstamp header =? 1 then ts_new (d_tstamp d) "posix32" now = Ret (d_tstamp d', None)
    else d_tstamp d' = d_tstamp d.
Proof.
  intros now d header info G B. unfold data_make.
  destruct (sf_set_known header "version" "v1" : exists h', _) as (h1 & E1). rewrite E1. cbn [obind].
  destruct (sf_set_known h1 "frametype" "data" : exists h', _) as (h2 & E2). rewrite E2. cbn [obind].
  assert (SE : set_exactly sar header h2 [("version", "v1"); ("frametype", "data")]).
  { apply set_exactly_setflags with (K := data_fields); auto.
    - intros x [<-|[<-|[]]]; cbn; tauto.
    - cbn [sf_setflags]. rewrite E1. cbn [obind]. rewrite E2. reflexivity. }
  assert (HR : hd_reqtstamp h2 = hd_reqtstamp header).
  { unfold hd_reqtstamp. eapply set_exactly_field; [exact SE| |lia|];
      (intros f v fl [I|[I|[]]] Lk; inversion I; subst; vm_compute in Lk; inversion Lk; subst; cbn; unfold disjoint_fields; lia). }
  rewrite getstr_reqtstamp. cbn [obind]. rewrite HR.
  destruct (hd_reqtstamp_cases header) as [R|R]; rewrite R; unfold yes_no;
    [change (0 =? 0) with true; change (0 =? 1) with false|change (1 =? 0) with false; change (1 =? 1) with true]; cbv iota; eval_eqbs.
  - eexists. split; [reflexivity|]. cbn [d_fill d_set_header d_header d_session d_offset d_payload d_tstamp]. auto.
  - destruct (good_now_stamp now (d_tstamp d) "posix32" G) as (t' & T1 & T2); [cbn; tauto|].
    rewrite is_in_one_of. replace (is_in "yes" tstamp_names) with false by reflexivity.
    cbn [d_set_header d_tstamp]. rewrite T1. cbn [obind ebind].
    eexists. split; [reflexivity|]. cbn [d_fill d_set_tstamp d_set_header d_header d_session d_offset d_payload d_tstamp]. auto.
Qed.

(** ** Concrete cases *)
Definition ex_now : gotime := {| unix_secs := 1700000000; unix_nanos := 5 |}.
Definition ex_stamp : timestamp :=
  {| t_header := 4; t_secs := 1700000000; t_nsecs := 5; t_local := ""; t_ttype := "posix64_32" |}.
(** version 1, data, 32-bit descriptor, timestamp *)
Definition ex_data : data :=
  {| d_header := 0x23480000; d_session := 7; d_tstamp := ex_stamp; d_offset := 65536; d_payload := bytes_of "abc" |}.

Example c23_encode_ex : t_header (d_tstamp ex_data) < 256 /\ descriptor_width (hd_descriptor (d_header ex_data)) = Some 4%nat /\
  data_encode ex_data = Ret (Frame (wire 4 0x23480000 ++ wire 4 7 ++ wire 1 4 ++ wire 8 1700000000 ++ wire 4 5 ++ zeros 3
                                    ++ wire 4 65536 ++ bytes_of "abc")%list).
Proof. vm_compute. auto. Qed.
Example c24_roundtrip_ex :
  d_header ex_data < 2 ^ 32 /\ d_session ex_data < 2 ^ 32 /\
  descriptor_width (hd_descriptor (d_header ex_data)) = Some 4%nat /\ d_offset ex_data < 2 ^ (8 * N.of_nat 4) /\
  proper_stamp (d_tstamp ex_data) /\ hd_reqtstamp (d_header ex_data) = 1 /\
  forall f, data_encode ex_data = Ret (Frame f) -> data_decode zero_data f = Ret (ex_data, None).
Proof.
  split; [reflexivity|]. split; [reflexivity|]. split; [reflexivity|]. split; [reflexivity|].
  split; [eexists; split; [reflexivity|]; repeat split; reflexivity|]. split; [reflexivity|].
  intros f H. vm_compute in H. inversion H; subst. vm_compute. reflexivity.
Qed.
(** a 10-byte frame that announces a timestamp panics; so does one that announces
    a 64-bit offset; type 9 kills; a complete frame is accepted *)
Example c25_verdict_ex :
  data_verdict (wire 4 0x23080000 ++ zeros 6) = Crash /\
  data_verdict (wire 4 0x23800000 ++ zeros 6) = Crash /\
  data_verdict (wire 4 0x23080000 ++ zeros 4 ++ wire 1 9 ++ zeros 20) = Kill /\
  data_verdict (wire 4 0x23080000 ++ zeros 4 ++ wire 1 1 ++ zeros 17) = Reject /\
  data_verdict (wire 4 0x23080000 ++ zeros 4 ++ wire 1 1 ++ zeros 18) = Accept.
Proof. vm_compute. auto. Qed.
Example c26_result_ex :
  let items := [("descriptor", "d32"); ("transfer", "file"); ("reqtstamp", "posix64_32"); ("eod", "yes")] in
  good_now ex_now /\ map (data_item_verdict sar) items = [Accept; Accept; Accept; Accept] /\
  flat_map data_stamp items = ["posix64_32"] /\
  data_new ex_now zero_data (flag_list items) {| di_session := 7; di_offset := 65536; di_payload := bytes_of "abc" |} =
    Ret ({| d_header := 0x23488000; d_session := 7; d_tstamp := ex_stamp; d_offset := 65536; d_payload := bytes_of "abc" |}, None).
Proof.
  split; [unfold good_now, ex_now; cbn; lia|]. split; [reflexivity|].
  split; [reflexivity|]. vm_compute. reflexivity.
Qed.
Example c26_verdict_ex :
  map (data_item_verdict sar) [("transfer", "bundle"); ("colour", "red"); ("eod", "maybe"); ("reqtstamp", "sundial")]
  = [Reject; Reject; Kill; Reject].
Proof. reflexivity. Qed.
Example c26_make_ex : (0xFFFFFFFF : N) < 2 ^ 32 /\ hd_reqtstamp 0xFFFFFFFF = 1 /\ hd_reqtstamp 0x00000001 = 0.
Proof. vm_compute. auto. Qed.
