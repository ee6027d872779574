(** * The properties of status frames *)

From Verif Require Import GoBase GoFacts Flags SpecFlags FlagsFacts Config Shipped ConfigFacts SpecWire SarFacts Timestamp SpecTime TimeMain Holes Data Status SpecFrames FrameFacts FlagStrFacts BuildFacts SpecStatus.
Local Open Scope string_scope.
Local Open Scope N_scope.

Lemma wireZ_wrap : forall k z, (k <= 8)%nat -> be_bytes k (wrap (8 * N.of_nat k) (u64_of_Z z)) = wireZ k z.
Proof.
  intros k z Hk. unfold wireZ. rewrite wire_be, be_bytes_wrap. unfold u64_of_Z.
  rewrite <- (be_bytes_mod k (Z.to_N (z mod 2 ^ 64))), <- (be_bytes_mod k (Z.to_N (z mod 2 ^ (8 * Z.of_nat k)))). f_equal.
  assert (E : 256 ^ N.of_nat k = Z.to_N (2 ^ (8 * Z.of_nat k))).
  { rewrite Z.pow_mul_r by lia. change (2 ^ 8)%Z with (Z.of_N 256). rewrite <- nat_N_Z, <- N2Z.inj_pow, N2Z.id. reflexivity. }
  assert (P : (0 < 2 ^ (8 * Z.of_nat k))%Z) by (apply Z.pow_pos_nonneg; lia).
  assert (P' : (0 <= z mod 2 ^ (8 * Z.of_nat k) < 2 ^ (8 * Z.of_nat k))%Z) by (apply Z.mod_pos_bound; auto).
  assert (P6 : (0 <= z mod 2 ^ 64 < 2 ^ 64)%Z) by (apply Z.mod_pos_bound; reflexivity).
  rewrite E, <- !Z2N.inj_mod by lia. f_equal.
  rewrite Z.mod_mod by lia.
  symmetry. apply Znumtheory.Zmod_div_mod; auto; [reflexivity|].
  exists (2 ^ (64 - 8 * Z.of_nat k))%Z. rewrite <- Z.pow_add_r by lia. f_equal; lia.
Qed.

Lemma wireZ_length : forall k z, length (wireZ k z) = k.
Proof. intros; apply wire_length. Qed.
Definition holes_wire (w : nat) (hs : holes) : list byte :=
  flat_map (fun h => wireZ w (h_start h) ++ wireZ w (h_end h))%list hs.
Lemma holes_wire_length : forall w hs, length (holes_wire w hs) = (length hs * (2 * w))%nat.
Proof. induction hs; cbn [holes_wire flat_map length] in *; auto. unfold holes_wire in *. rewrite !app_length, !wireZ_length, IHhs. lia. Qed.

Lemma enc_holes_spec : forall k hs a n pos, (k <= 8)%nat -> pos = length a -> (length hs * (2 * k) <= n)%nat ->
  enc_holes k hs (a ++ make_bytes n) pos = Ret ((a ++ holes_wire k hs) ++ make_bytes (n - length hs * (2 * k)))%list.
Proof.
  induction hs as [|h r IH]; intros a n pos Hk P L; cbn [enc_holes].
  - cbn [holes_wire flat_map length]. rewrite app_nil_r. do 2 f_equal. f_equal. lia.
  - cbn [length] in L. fstep. fstep. rewrite IH; [|lia|rewrite !app_length, !be_bytes_length; lia|lia].
    rewrite !wireZ_wrap by lia. cbn [holes_wire flat_map length]. f_equal. rewrite <- !app_assoc. do 4 f_equal.
    f_equal. lia.
Qed.

(** C27: what encoding a status frame gives when no timestamp is requested. *)
Lemma c27_encode : forall s, hd_reqtstamp (s_header s) = 0 ->
  match descriptor_width (hd_descriptor (s_header s)) with
  | None => exists e, status_encode s = Ret (EncErr e)
  | Some w => status_encode s =
      Ret (Frame (status_wire (s_header s) (s_session s) w (s_progress s) (s_inrespto s) (s_holes s)))
  end.
Proof.
  intros s R. unfold status_encode, status_wire, status_body. rewrite getstr_reqtstamp, getstr_descriptor. cbn [obind]. rewrite R. unfold yes_no.
  destruct (hd_descriptor_cases (s_header s)) as [E|[E|[E|E]]]; rewrite E; cbn [descriptor_width desc_name];
    [| | |eexists; reflexivity];
    cbn [one_of existsb]; change (0 =? 0) with true; cbv iota; eval_eqbs; cbn [orb negb]; cbv iota zeta;
    (match goal with |- context[make_bytes ?n] => change (make_bytes n) with ([] ++ make_bytes n)%list end);
    repeat fstep;
    (rewrite enc_holes_spec by (rewrite ?app_length, ?be_bytes_length; cbn [length]; lia)); cbn [obind];
    (match goal with |- context[make_bytes ?n] => replace n with 0%nat by lia end);
    change (make_bytes 0) with (@nil byte); rewrite ?app_nil_r, ?app_nil_l, <- ?app_assoc, ?be_bytes_wrap, <- ?wire_be; reflexivity.
Qed.

(** C29: a requested timestamp is not written: the fields follow the session
    directly and sixteen zero bytes trail. *)
Lemma c29_encode : forall s, hd_reqtstamp (s_header s) = 1 ->
  match descriptor_width (hd_descriptor (s_header s)) with
  | None => exists e, status_encode s = Ret (EncErr e)
  | Some w => status_encode s =
      Ret (Frame (status_wire (s_header s) (s_session s) w (s_progress s) (s_inrespto s) (s_holes s) ++ zeros 16))
  end.
Proof.
  intros s R. unfold status_encode, status_wire, status_body. rewrite getstr_reqtstamp, getstr_descriptor. cbn [obind]. rewrite R. unfold yes_no.
  destruct (hd_descriptor_cases (s_header s)) as [E|[E|[E|E]]]; rewrite E; cbn [descriptor_width desc_name];
    [| | |eexists; reflexivity];
    cbn [one_of existsb]; change (1 =? 0) with false; cbv iota; eval_eqbs; cbn [orb negb]; cbv iota zeta;
    (match goal with |- context[make_bytes ?n] => change (make_bytes n) with ([] ++ make_bytes n)%list end);
    repeat fstep;
    (rewrite enc_holes_spec by (rewrite ?app_length, ?be_bytes_length; cbn [length]; lia)); cbn [obind];
    (match goal with |- context[make_bytes ?n] => replace n with 16%nat by lia end);
    change zeros with make_bytes; rewrite ?app_nil_r, ?app_nil_l, <- ?app_assoc, ?be_bytes_wrap, <- ?wire_be; reflexivity.
Qed.

(** ** Decoding *)
Lemma signed64_eq : forall n, n < 2 ^ 64 -> i64_of_N n = signed64 n.
Proof.
  intros n B. unfold signed64. destruct (N.ltb_spec n (2 ^ 63)).
  - apply i64_of_N_small; auto.
  - apply i64_of_N_neg; auto.
Qed.
Lemma number_at_64 : forall f i k, (k <= 8)%nat -> number_at f i k < 2 ^ 64.
Proof.
  intros. eapply N.lt_le_trans; [apply number_at_bound|]. apply N.pow_le_mono_r; [discriminate|]. lia.
Qed.

Lemma dec_holes_spec : forall k n f pos, (k <= 8)%nat -> (pos + n * (2 * k) <= length f)%nat ->
  dec_holes k n f pos = Ret (map (hole_at f pos k) (seq 0 n)).
Proof.
  intros k n. induction n as [|n IH]; intros f pos Hk L; [reflexivity|].
  cbn [dec_holes]. rewrite !get_uint_number by lia. cbn [obind]. rewrite IH by lia. cbn [obind].
  cbn [seq map]. f_equal. f_equal.
  - unfold hole_at. rewrite !signed64_eq by (apply number_at_64; auto). do 2 f_equal; f_equal; lia.
  - rewrite <- seq_shift, map_map. apply map_ext. intros i. unfold hole_at. do 2 f_equal; f_equal; lia.
Qed.

Lemma s_fields_spec : forall s f pos k, (0 < k <= 8)%nat ->
  if Nat.ltb (length f) (pos + 2 * k) then s_fields s f pos k = Panic
  else s_fields s f pos k =
    Ret ({| s_header := s_header s; s_session := s_session s; s_tstamp := s_tstamp s;
            s_progress := number_at f pos k; s_inrespto := number_at f (pos + k) k;
            s_holes := (s_holes s ++ holes_from f (pos + 2 * k) k)%list |}, None).
Proof.
  intros s f pos k Hk. unfold s_fields. destruct (Nat.ltb_spec (length f) (pos + 2 * k)) as [L|L].
  - destruct (Nat.ltb_spec (length f) (pos + k)).
    + rewrite get_uint_panic' by auto. reflexivity.
    + rewrite get_uint_number by lia. cbn [obind]. rewrite get_uint_panic' by lia. reflexivity.
  - rewrite !get_uint_number by lia. cbn [obind]. rewrite slice_from_ok by lia. cbn [obind].
    rewrite skipn_length, Nat.div_div by lia. replace (pos + k + k)%nat with (pos + 2 * k)%nat by lia.
    rewrite dec_holes_spec; [reflexivity|lia|].
    pose proof (Nat.mul_div_le (length f - (pos + 2 * k)) (2 * k) ltac:(lia)). lia.
Qed.

Lemma status_decode_spec : forall s f,
  verdict_of (status_decode s f) = status_verdict f /\
  (status_verdict f = Accept -> exists w,
     descriptor_width (hd_descriptor (number_at f 0 4)) = Some w /\
     let p := after_ts (number_at f 0 4) in
     status_decode s f =
       Ret ({| s_header := number_at f 0 4; s_session := number_at f 4 4; s_tstamp := ts_read (s_tstamp s) f;
               s_progress := number_at f p w; s_inrespto := number_at f (p + w) w;
               s_holes := (s_holes s ++ holes_from f (p + 2 * w) w)%list |}, None)).
Proof.
  intros s f. unfold status_decode, status_verdict. destruct (Nat.ltb_spec (length f) 12) as [L|L]; [split; [reflexivity|discriminate]|].
  rewrite !get_uint_number by lia. cbn [obind]. cbn [s_tstamp].
  unfold ts_verdict, ts_read. set (h := number_at f 0 4).
  rewrite getstr_reqtstamp. cbn [obind]. unfold after_ts.
  assert (D : forall s0 t, s_tstamp s0 = t -> s_header s0 = h -> s_session s0 = number_at f 4 4 -> s_holes s0 = s_holes s -> forall pos,
    let r := (do ds <- sf_getstr sar h "descriptor";
        if String.eqb ds "d16" then s_fields s0 f pos 2
        else if String.eqb ds "d32" then s_fields s0 f pos 4
        else if String.eqb ds "d64" then s_fields s0 f pos 8
        else if String.eqb ds "d128" then Ret (s0, Some "d128 not supported in status")
        else Ret (s0, Some "invalid descriptor in status")) in
    let v := match descriptor_width (hd_descriptor h) with
        | None => Reject
        | Some w => if Nat.ltb (length f) (pos + 2 * w) then Crash else Accept end in
    verdict_of r = v /\
    (v = Accept -> exists w, descriptor_width (hd_descriptor h) = Some w /\
       r = Ret ({| s_header := h; s_session := number_at f 4 4; s_tstamp := t;
               s_progress := number_at f pos w; s_inrespto := number_at f (pos + w) w;
               s_holes := (s_holes s ++ holes_from f (pos + 2 * w) w)%list |}, None))).
  { intros s0 t Et Eh Es Eho pos. cbv zeta. rewrite getstr_descriptor. cbn [obind].
    destruct (hd_descriptor_cases h) as [E|[E|[E|E]]]; rewrite E; cbn [descriptor_width desc_name]; eval_eqbs; cbv iota;
      [| | |split; [reflexivity|discriminate]];
      (match goal with |- context[s_fields s0 f ?p ?k] =>
         pose proof (s_fields_spec s0 f p k ltac:(lia)) as S; destruct (Nat.ltb (length f) (p + 2 * k));
         rewrite S; split; try reflexivity; try discriminate;
         intros _; eexists; split; [reflexivity|]; rewrite Et, Eh, Es, Eho; reflexivity end). }
  destruct (hd_reqtstamp_cases h) as [R|R]; rewrite R; unfold yes_no;
    [change (0 =? 0) with true; change (0 =? 1) with false | change (1 =? 0) with false; change (1 =? 1) with true];
    cbv iota; eval_eqbs; cbv iota zeta.
  - cbn [obind]. apply D; reflexivity.
  - destruct (Nat.ltb_spec (length f) 24) as [L24|L24].
    { rewrite slice_panic by lia. split; [reflexivity|discriminate]. }
    rewrite slice_ok by lia. cbn [obind]. change (24 - 8)%nat with 16%nat.
    pose proof (ts_get_at (s_tstamp s) f 8 ltac:(lia)) as G.
    pose proof (ts_verdict_spec f L24 R) as V. unfold ts_verdict in V. fold h in V. rewrite R in V. change (1 =? 1) with true in V.
    cbv iota zeta in V. replace (length f <? 24)%nat with false in V by (symmetry; apply Nat.ltb_ge; lia).
    destruct (ts_at f 8) as [t|].
    + rewrite G, V. cbn [obind]. apply D; reflexivity.
    + rewrite V. destruct (number_at f 8 1 =? 0).
      * destruct G as (t' & e & G). rewrite G. cbn [obind]. split; [reflexivity|discriminate].
      * rewrite G. split; [reflexivity|discriminate].
Qed.

(** C30: the verdict on arbitrary bytes. *)
Lemma c30_verdict : forall s f, verdict_of (status_decode s f) = status_verdict f.
Proof. intros; apply status_decode_spec. Qed.

(** C30: it panics exactly when the announced timestamp, or after a readable
    timestamp the progress and in-response-to fields, are cut short. *)
Lemma c30_panics_iff : forall s f,
  status_decode s f = Panic <->
    (12 <= length f)%nat /\
    let h := number_at f 0 4 in
    ((hd_reqtstamp h = 1 /\ (length f < 24)%nat) \/
     ((hd_reqtstamp h = 0 \/ (24 <= length f)%nat /\ 1 <= number_at f 8 1 <= 5) /\
      exists w, descriptor_width (hd_descriptor h) = Some w /\ (length f < after_ts h + 2 * w)%nat)).
Proof.
  intros d f. rewrite <- verdict_panic, c30_verdict. unfold status_verdict. cbv zeta.
  set (h := number_at f 0 4).
  destruct (Nat.ltb_spec (length f) 12); [split; [discriminate|intros [? _]; lia]|].
  destruct (hd_reqtstamp_cases h) as [R|R].
  - unfold ts_verdict. fold h. rewrite R. change (0 =? 1) with false. cbv iota.
    destruct (descriptor_width (hd_descriptor h)) as [w|]; [|split; [discriminate|intros [_ [[? _]|[_ (w & W & _)]]]; discriminate]].
    destruct (Nat.ltb_spec (length f) (after_ts h + 2 * w)).
    + split; [intros _|reflexivity]. split; [lia|]. right. split; eauto.
    + split; [discriminate|]. intros [_ [[? _]|[_ (w' & W & ?)]]]; [discriminate|]. inversion W; subst; lia.
  - destruct (Nat.ltb_spec (length f) 24) as [L|L].
    + unfold ts_verdict. fold h. rewrite R. change (1 =? 1) with true. cbv iota.
      replace (length f <? 24)%nat with true by (symmetry; apply Nat.ltb_lt; lia).
      split; auto.
    + pose proof (ts_verdict_spec f L R) as V. unfold ts_at in V. rewrite R.
      destruct (ts_type (number_at f 8 1)) eqn:T.
      * rewrite V. pose proof (ts_type_cases _ _ T).
        destruct (descriptor_width (hd_descriptor h)) as [w|]; [|split; [discriminate|intros [_ [[? ?]|[_ (w & W & _)]]]; [lia|discriminate]]].
        destruct (Nat.ltb_spec (length f) (after_ts h + 2 * w)).
        -- split; [intros _|reflexivity]. split; [lia|]. right. split; [right; lia|eauto].
        -- split; [discriminate|]. intros [_ [[_ ?]|[_ (w' & W & ?)]]]; [lia|]. inversion W; subst; lia.
      * apply ts_type_none in T. rewrite V.
        split; [destruct (number_at f 8 1 =? 0); discriminate|]. intros [_ [[_ ?]|[[?|?] _]]]; try discriminate; lia.
Qed.

(** C30: it terminates the process exactly for a complete timestamp of an unknown type. *)
Lemma c30_fatal_iff : forall s f,
  status_decode s f = Fatal <->
    (24 <= length f)%nat /\ hd_reqtstamp (number_at f 0 4) = 1 /\ 6 <= number_at f 8 1.
Proof.
  intros d f. rewrite <- verdict_fatal, c30_verdict. unfold status_verdict. cbv zeta.
  set (h := number_at f 0 4).
  destruct (Nat.ltb_spec (length f) 12); [split; [discriminate|intros [? _]; lia]|].
  destruct (hd_reqtstamp_cases h) as [R|R].
  - unfold ts_verdict. fold h. rewrite R in *. change (0 =? 1) with false in *. cbv iota.
    split; [|intros (_ & ? & _); discriminate].
    destruct (descriptor_width (hd_descriptor h)) as [w|]; [|discriminate]. destruct (Nat.ltb _ _); discriminate.
  - destruct (Nat.ltb_spec (length f) 24) as [L|L].
    + unfold ts_verdict. fold h. rewrite R. change (1 =? 1) with true. cbv iota.
      replace (length f <? 24)%nat with true by (symmetry; apply Nat.ltb_lt; lia).
      split; [discriminate|lia].
    + pose proof (ts_verdict_spec f L R) as V. unfold ts_at in V.
      destruct (ts_type (number_at f 8 1)) eqn:T.
      * rewrite V. pose proof (ts_type_cases _ _ T). split; [|lia].
        destruct (descriptor_width (hd_descriptor h)) as [w|]; [|discriminate]. destruct (Nat.ltb _ _); discriminate.
      * rewrite V. destruct (ts_type_none _ T) as [E|E].
        -- rewrite E. split; [discriminate|lia].
        -- replace (number_at f 8 1 =? 0) with false by (symmetry; apply N.eqb_neq; lia). tauto.
Qed.

(** C31: what an accepted frame decodes to: the holes of the frame are appended
    to those of the receiver; a trailing partial pair is ignored. *)
Lemma c31_value : forall s f, status_verdict f = Accept -> exists w,
  descriptor_width (hd_descriptor (number_at f 0 4)) = Some w /\
  let p := after_ts (number_at f 0 4) in
  status_decode s f =
    Ret ({| s_header := number_at f 0 4; s_session := number_at f 4 4; s_tstamp := ts_read (s_tstamp s) f;
            s_progress := number_at f p w; s_inrespto := number_at f (p + w) w;
            s_holes := (s_holes s ++ holes_from f (p + 2 * w) w)%list |}, None).
Proof. intros; apply status_decode_spec; auto. Qed.

(** C31: the number of holes added. *)
Lemma c31_count : forall s s' f, status_decode s f = Ret (s', None) -> exists w,
  descriptor_width (hd_descriptor (number_at f 0 4)) = Some w /\
  length (s_holes s') = (length (s_holes s) + (length f - after_ts (number_at f 0 4) - 2 * w) / (2 * w))%nat /\
  firstn (length (s_holes s)) (s_holes s') = s_holes s.
Proof.
  intros s s' f H. destruct (status_decode_spec s f) as [V A].
  rewrite H in V. symmetry in V. destruct (A V) as (w & W & E). exists w. split; auto.
  rewrite H in E. inversion E; subst. cbn [s_holes]. split.
  - rewrite app_length. unfold holes_from. rewrite map_length, seq_length, Nat.sub_add_distr. reflexivity.
  - apply firstn_app_exact. reflexivity.
Qed.

(** ** Round trip *)
Lemma pow8_NZ : forall k, 2 ^ (8 * N.of_nat k) = Z.to_N (2 ^ (8 * Z.of_nat k)).
Proof.
  intros. replace (8 * Z.of_nat k)%Z with (Z.of_N (8 * N.of_nat k)) by lia.
  change 2%Z with (Z.of_N 2). rewrite <- N2Z.inj_pow, N2Z.id. reflexivity.
Qed.
Lemma pow256_8 : forall k, 256 ^ N.of_nat k = 2 ^ (8 * N.of_nat k).
Proof. intros; rewrite N.pow_mul_r; reflexivity. Qed.

Lemma wireZ_value : forall k z, (k = 2 \/ k = 4 \/ k = 8)%nat -> offset_fits k z -> i64_of_N (be_value (wireZ k z)) = z.
Proof.
  intros k z K [B F]. unfold wireZ. rewrite wire_be, be_value_be_bytes, pow256_8, pow8_NZ.
  assert (P : (0 < 2 ^ (8 * Z.of_nat k))%Z) by (apply Z.pow_pos_nonneg; lia).
  assert (P' : (0 <= z mod 2 ^ (8 * Z.of_nat k) < 2 ^ (8 * Z.of_nat k))%Z) by (apply Z.mod_pos_bound; auto).
  rewrite <- Z2N.inj_mod, Z.mod_mod by lia.
  destruct F as [->|F].
  - change (8 * Z.of_nat 8)%Z with 64%Z in *. fold (u64_of_Z z). fold (i64_of_Z z). apply i64_of_Z_small; auto.
  - rewrite Z.mod_small by auto. rewrite i64_of_N_small; [apply Z2N.id; lia|].
    change (2 ^ 63) with (Z.to_N (2 ^ 63)). lia.
Qed.

Lemma dec_holes_wire : forall k hs a c, (k = 2 \/ k = 4 \/ k = 8)%nat ->
  (forall h, In h hs -> offset_fits k (h_start h) /\ offset_fits k (h_end h)) ->
  dec_holes k (length hs) (a ++ holes_wire k hs ++ c) (length a) = Ret hs.
Proof.
  intros k hs. induction hs as [|h r IH]; intros a c K F; [reflexivity|].
  cbn [length dec_holes holes_wire flat_map]. fold (holes_wire k r). rewrite <- !app_assoc.
  rewrite get_uint_app by (rewrite ?wireZ_length; lia). cbn [obind].
  rewrite (app_assoc a). rewrite get_uint_app by (rewrite ?app_length, ?wireZ_length; lia). cbn [obind].
  rewrite app_assoc.
  replace (length a + k + k)%nat with (length ((a ++ wireZ k (h_start h)) ++ wireZ k (h_end h))%list) by (rewrite !app_length, !wireZ_length; lia).
  rewrite IH by (auto; intros x X; apply F; right; auto). cbn [obind].
  destruct (F h (or_introl eq_refl)). rewrite !wireZ_value by auto. destruct h; reflexivity.
Qed.

Lemma width_cases : forall h w, descriptor_width (hd_descriptor h) = Some w -> (w = 2 \/ w = 4 \/ w = 8)%nat.
Proof. intros h w W. destruct (hd_descriptor_cases h) as [Q|[Q|[Q|Q]]]; rewrite Q in W; inversion W; auto. Qed.

(** C28: decoding an encoded status frame without timestamp.  The receiver is
    arbitrary: its timestamp stays and its holes come first. *)
Lemma c28_roundtrip : forall s s0 w,
  s_header s < 2 ^ 32 -> s_session s < 2 ^ 32 -> hd_reqtstamp (s_header s) = 0 ->
  descriptor_width (hd_descriptor (s_header s)) = Some w ->
  s_progress s < 2 ^ (8 * N.of_nat w) -> s_inrespto s < 2 ^ (8 * N.of_nat w) ->
  (forall h, In h (s_holes s) -> offset_fits w (h_start h) /\ offset_fits w (h_end h)) ->
  exists f, status_encode s = Ret (Frame f) /\
    status_decode s0 f =
      Ret ({| s_header := s_header s; s_session := s_session s; s_tstamp := s_tstamp s0;
              s_progress := s_progress s; s_inrespto := s_inrespto s;
              s_holes := (s_holes s0 ++ s_holes s)%list |}, None).
Proof.
  intros s s0 w Bh Bs R W Bp Bi F. pose proof (c27_encode s R) as E. rewrite W in E. eexists. split; [exact E|].
  set (f := status_wire (s_header s) (s_session s) w (s_progress s) (s_inrespto s) (s_holes s)).
  pose proof (width_cases _ _ W) as Wn.
  assert (N0 : number_at f 0 4 = s_header s).
  { unfold f, status_wire. rewrite number_at_wire0. apply u32_pow; auto. }
  assert (N4 : number_at f 4 4 = s_session s).
  { unfold f, status_wire. rewrite number_at_wire by (rewrite wire_length; auto). apply u32_pow; auto. }
  assert (NP : number_at f 8 w = s_progress s).
  { unfold f, status_wire, status_body. rewrite app_assoc.
    rewrite number_at_wire by (rewrite !app_length, !wire_length; lia). apply mod_pow_small; auto. }
  assert (NI : number_at f (8 + w) w = s_inrespto s).
  { unfold f, status_wire, status_body. rewrite !app_assoc. rewrite <- (app_assoc _ (wire w (s_inrespto s))).
    rewrite number_at_wire by (rewrite !app_length, !wire_length; lia). apply mod_pow_small; auto. }
  assert (LF : length f = (8 + 2 * w + length (s_holes s) * (2 * w))%nat).
  { unfold f, status_wire, status_body. fold (holes_wire w (s_holes s)). rewrite !app_length, !wire_length, holes_wire_length. lia. }
  assert (NH : holes_from f (8 + 2 * w) w = s_holes s).
  { unfold holes_from. replace ((length f - (8 + 2 * w)) / (2 * w))%nat with (length (s_holes s)).
    2:{ rewrite LF. replace (8 + 2 * w + length (s_holes s) * (2 * w) - (8 + 2 * w))%nat with (length (s_holes s) * (2 * w))%nat by lia.
        rewrite Nat.div_mul by lia. reflexivity. }
    pose proof (dec_holes_spec w (length (s_holes s)) f (8 + 2 * w) ltac:(lia) ltac:(lia)) as D.
    pose proof (dec_holes_wire w (s_holes s) (wire 4 (s_header s) ++ wire 4 (s_session s) ++ wire w (s_progress s) ++ wire w (s_inrespto s)) [] Wn F) as D'.
    rewrite app_nil_r in D'.
    replace (length (wire 4 (s_header s) ++ wire 4 (s_session s) ++ wire w (s_progress s) ++ wire w (s_inrespto s))%list) with (8 + 2 * w)%nat in D'
      by (rewrite !app_length, !wire_length; lia).
    replace ((wire 4 (s_header s) ++ wire 4 (s_session s) ++ wire w (s_progress s) ++ wire w (s_inrespto s)) ++ holes_wire w (s_holes s))%list with f in D'
      by (unfold f, status_wire, status_body; fold (holes_wire w (s_holes s)); rewrite <- !app_assoc; reflexivity).
    congruence. }
  destruct (status_decode_spec s0 f) as [V A].
  assert (AC : status_verdict f = Accept).
  { unfold status_verdict, ts_verdict, after_ts. rewrite N0, R, W. change (0 =? 1) with false. cbv iota.
    replace (length f <? 12)%nat with false by (symmetry; apply Nat.ltb_ge; lia).
    replace (length f <? 8 + 2 * w)%nat with false by (symmetry; apply Nat.ltb_ge; lia). reflexivity. }
  destruct (A AC) as (w' & W' & D). rewrite N0, W in W'. inversion W'; subst w'.
  rewrite D. unfold ts_read, after_ts. rewrite N0, N4, R. change (0 =? 1) with false. cbv iota.
  rewrite NP, NI, NH. reflexivity.
Qed.

(** ** The fields of a frame, written again, are its bytes *)
Lemma wire_number : forall f i k, (i + k <= length f)%nat -> wire k (number_at f i k) = firstn k (skipn i f).
Proof.
  intros. rewrite wire_be, number_at_be.
  assert (LL : length (firstn k (skipn i f)) = k) by (rewrite firstn_length, skipn_length; lia).
  rewrite <- LL at 1. apply be_bytes_be_value.
Qed.
Lemma wireZ_signed : forall k n, (k <= 8)%nat -> n < 2 ^ 64 -> wireZ k (signed64 n) = wire k n.
Proof.
  intros k n Hk B. unfold wireZ. rewrite !wire_be.
  rewrite <- (be_bytes_mod k n), <- (be_bytes_mod k (Z.to_N _)), pow256_8, pow8_NZ. f_equal.
  assert (P : (0 < 2 ^ (8 * Z.of_nat k))%Z) by (apply Z.pow_pos_nonneg; lia).
  assert (P' : (0 <= signed64 n mod 2 ^ (8 * Z.of_nat k) < 2 ^ (8 * Z.of_nat k))%Z) by (apply Z.mod_pos_bound; auto).
  rewrite <- Z2N.inj_mod, Z.mod_mod by lia.
  replace (signed64 n mod 2 ^ (8 * Z.of_nat k))%Z with (Z.of_N n mod 2 ^ (8 * Z.of_nat k))%Z.
  - rewrite Z2N.inj_mod by lia. rewrite N2Z.id. reflexivity.
  - unfold signed64. destruct (n <? 2 ^ 63); [reflexivity|].
    replace (2 ^ 64)%Z with (2 ^ (64 - 8 * Z.of_nat k) * 2 ^ (8 * Z.of_nat k))%Z by (rewrite <- Z.pow_add_r by lia; f_equal; lia).
    rewrite Zminus_mod, Z.mod_mul by lia. rewrite Z.sub_0_r, Z.mod_mod by lia. reflexivity.
Qed.
Lemma skipn_add : forall {A} i j (l : list A), skipn (i + j) l = skipn j (skipn i l).
Proof. induction i; intros; [reflexivity|]. destruct l; [rewrite !skipn_nil; reflexivity|]. apply IHi. Qed.
Lemma firstn_add : forall {A} i j (l : list A), firstn (i + j) l = (firstn i l ++ firstn j (skipn i l))%list.
Proof. induction i; intros; [reflexivity|]. destruct l; [rewrite skipn_nil, !firstn_nil; reflexivity|]. cbn. f_equal. apply IHi. Qed.

Lemma holes_wire_at : forall w n f pos, (w <= 8)%nat -> (pos + n * (2 * w) <= length f)%nat ->
  holes_wire w (map (hole_at f pos w) (seq 0 n)) = firstn (n * (2 * w)) (skipn pos f).
Proof.
  intros w n. induction n as [|n IH]; intros f pos Hw L; [reflexivity|].
  cbn [seq map holes_wire flat_map]. rewrite <- seq_shift, map_map.
  replace (map (fun x => hole_at f pos w (S x)) (seq 0 n)) with (map (hole_at f (pos + 2 * w) w) (seq 0 n)).
  2:{ apply map_ext. intros i. unfold hole_at. do 2 f_equal; f_equal; lia. }
  fold (holes_wire w (map (hole_at f (pos + 2 * w) w) (seq 0 n))). rewrite IH by lia.
  replace (S n * (2 * w))%nat with (w + (w + n * (2 * w)))%nat by lia.
  rewrite !firstn_add, <- !skipn_add. unfold hole_at; cbn [h_start h_end].
  rewrite !wireZ_signed by (try apply number_at_64; lia). rewrite !wire_number by lia.
  rewrite <- app_assoc. replace (pos + 0 * (2 * w))%nat with pos by lia.
  replace (pos + w + w)%nat with (pos + 2 * w)%nat by lia. reflexivity.
Qed.

Lemma body_of_frame : forall f pos w n, (w <= 8)%nat -> length f = (pos + 2 * w + n * (2 * w))%nat -> (0 < w)%nat ->
  status_body w (number_at f pos w) (number_at f (pos + w) w) (holes_from f (pos + 2 * w) w) = skipn pos f.
Proof.
  intros f pos w n Hw L P. unfold status_body, holes_from. rewrite !wire_number by lia.
  replace ((length f - (pos + 2 * w)) / (2 * w))%nat with n.
  2:{ rewrite L. replace (pos + 2 * w + n * (2 * w) - (pos + 2 * w))%nat with (n * (2 * w))%nat by lia. rewrite Nat.div_mul by lia. reflexivity. }
  fold (holes_wire w (map (hole_at f (pos + 2 * w) w) (seq 0 n))). rewrite holes_wire_at by lia.
  transitivity (firstn (w + (w + n * (2 * w))) (skipn pos f)).
  - rewrite !firstn_add, <- !skipn_add. replace (pos + w + w)%nat with (pos + 2 * w)%nat by lia. reflexivity.
  - apply firstn_all2. rewrite skipn_length. lia.
Qed.

Lemma shifted_zeros : forall k l, (0 < k)%nat -> l = skipn k (l ++ make_bytes k) -> l = make_bytes (length l).
Proof.
  intros k l Hk. assert (G : forall n l, (length l <= n)%nat -> l = skipn k (l ++ make_bytes k) -> l = make_bytes (length l)).
  { induction n as [|n IH]; intros x L E.
    - destruct x; [reflexivity|cbn in L; lia].
    - destruct (Nat.le_gt_cases (length x) k) as [C|C].
      + rewrite skipn_app in E. rewrite (skipn_all2 x) in E by lia. cbn [app] in E.
        assert (Z : forall m j, skipn j (make_bytes m) = make_bytes (m - j)).
        { clear. induction m; intros j; destruct j; try reflexivity. apply IHm. }
        rewrite Z in E. replace (k - (k - length x))%nat with (length x) in E by lia. exact E.
      + rewrite skipn_app in E. replace (k - length x)%nat with 0%nat in E by lia. cbn [skipn] in E.
        assert (Y : skipn k x = make_bytes (length (skipn k x))).
        { apply IH; [rewrite skipn_length; lia|].
          rewrite <- E. reflexivity. }
        rewrite E at 1. rewrite Y, <- make_bytes_app. f_equal. rewrite skipn_length. lia. }
  intros E. eapply G; eauto.
Qed.

(** C29: decoding such a frame into a fresh receiver never gives back the
    progress, in-response-to and holes that were encoded. *)
Lemma c29_never_survives : forall s s0 s' f, hd_reqtstamp (s_header s) = 1 -> s_header s < 2 ^ 32 -> s_holes s0 = [] ->
  status_encode s = Ret (Frame f) -> status_decode s0 f = Ret (s', None) ->
  ~ (s_progress s' = s_progress s /\ s_inrespto s' = s_inrespto s /\ s_holes s' = s_holes s).
Proof.
  intros s s0 s' f R Bh H0 E D (Q1 & Q2 & Q3).
  pose proof (c29_encode s R) as X. destruct (descriptor_width (hd_descriptor (s_header s))) as [w|] eqn:W;
    [|destruct X as (e & X); congruence].
  rewrite X in E. inversion E as [F]; clear E X.
  pose proof (width_cases _ _ W) as Wn.
  set (body := status_body w (s_progress s) (s_inrespto s) (s_holes s)).
  assert (Fe : f = ((wire 4 (s_header s) ++ wire 4 (s_session s)) ++ body ++ make_bytes 16)%list).
  { rewrite <- F. unfold status_wire. change zeros with make_bytes. rewrite <- !app_assoc. reflexivity. }
  clear F.
  assert (N0 : number_at f 0 4 = s_header s).
  { rewrite Fe, <- app_assoc. rewrite number_at_wire0. apply u32_pow; auto. }
  assert (LB : length body = (2 * w + length (s_holes s) * (2 * w))%nat).
  { unfold body, status_body. fold (holes_wire w (s_holes s)). rewrite !app_length, !wire_length, holes_wire_length. lia. }
  assert (LF : length f = (24 + length body)%nat).
  { rewrite Fe. rewrite !app_length, !wire_length, make_bytes_length. lia. }
  destruct (status_decode_spec s0 f) as [V A]. rewrite D in V. symmetry in V. cbn [verdict_of] in V.
  destruct (A V) as (w' & W' & D'). rewrite N0, W in W'. inversion W'; subst w'. cbv zeta in D'.
  rewrite N0 in D'. unfold after_ts in D'. rewrite R in D'. change (1 =? 1) with true in D'. cbv iota in D'.
  rewrite D in D'. rewrite H0 in D'. cbn [app] in D'.
  assert (B : body = skipn 24 f).
  { rewrite <- (body_of_frame f 24 w (length (s_holes s))) by lia.
    replace s' with {| s_header := s_header s; s_session := number_at f 4 4; s_tstamp := ts_read (s_tstamp s0) f;
             s_progress := number_at f 24 w; s_inrespto := number_at f (24 + w) w; s_holes := holes_from f (24 + 2 * w) w |} in Q1, Q2, Q3
      by congruence.
    cbn [s_progress s_inrespto s_holes] in *. unfold body. rewrite <- Q1, <- Q2, <- Q3. reflexivity. }
  assert (Z : body = make_bytes (length body)).
  { apply shifted_zeros with (k := 16%nat); [lia|].
    rewrite B at 1. rewrite Fe at 1.
    change 24%nat with (8 + 16)%nat. rewrite skipn_add. f_equal. }
  assert (T : number_at f 8 1 = 0).
  { rewrite Fe, Z, <- make_bytes_app.
    replace (length body + 16)%nat with (S (length body + 15)) by lia.
    unfold number_at. rewrite skipn_app_exact by (rewrite app_length, !wire_length; reflexivity). reflexivity. }
  pose proof (ts_verdict_spec f ltac:(lia)) as TV. rewrite N0 in TV. specialize (TV R).
  unfold ts_at in TV. rewrite T in TV. cbn in TV.
  unfold status_verdict in V. rewrite TV in V. destruct (Nat.ltb (length f) 12); discriminate.
Qed.

(** ** Building *)
Definition status_body_item (now : gotime) (f0 f1 : string) (s : status) : outcome (status * error) :=
  if one_of f0 ["descriptor"; "stream"; "metadatarecvd"; "allholes"; "reqholes"; "errcode"] then
    do h <- sf_set sar (s_header s) f0 f1; Ret (s_set_header s h, None)
  else if String.eqb f0 "reqtstamp" then
    do h <- sf_set sar (s_header s) f0 f1;
    let s := s_set_header s h in
    if String.eqb f1 "yes" then
      do ' (t, e) <- ts_now now (s_tstamp s) "posix32"; Ret (s_set_tstamp s t, e)
    else Ret (s, None)
  else if one_of f0 ["localinterp"; "posix32"; "posix64"; "posix32_32"; "posix64_32"] then
    do ' (t, e) <- ts_now now (s_tstamp s) f0;
    let s := s_set_tstamp s t in
    match e with
    | Some e => Ret (s, Some e)
    | None => do h <- sf_set sar (s_header s) "reqtstamp" "yes"; Ret (s_set_header s h, None)
    end
  else Ret (s, Some ("Invalid Flag " ++ f0 ++ " for Status Frame")).

Lemma status_flags_cons : forall now f v rest d, clean f -> clean v ->
  status_flags now (item_text (f, v) :: rest) d = ebind (status_body_item now f v d) (fun d => status_flags now rest d).
Proof. intros. cbn [status_flags]. rewrite split_item by auto. cbn [index nth_error obind]. reflexivity. Qed.

Lemma stamp_name_in : forall f, In f ["localinterp"; "posix32"; "posix64"; "posix32_32"; "posix64_32"] -> In f stamp_names.
Proof. cbn. tauto. Qed.

Lemma status_body_verdict : forall now f v d, good_now now -> verdict_of (status_body_item now f v d) = status_item_verdict sar (f, v).
Proof.
  intros now f v d G. unfold status_body_item, status_item_verdict. rewrite !is_in_one_of.
  destruct (is_in f ["descriptor"; "stream"; "metadatarecvd"; "allholes"; "reqholes"; "errcode"]) eqn:I.
  { replace (is_in f ["descriptor"; "stream"; "metadatarecvd"; "allholes"; "reqholes"; "errcode"; "reqtstamp"]) with true
      by (symmetry; apply is_in_true; apply is_in_true in I; cbn in I |- *; tauto).
    unfold setting_verdict. pose proof (sf_set_known (s_header d) f v) as K. destruct (known_option sar f v).
    - destruct K as (h' & ->). reflexivity.
    - rewrite K. reflexivity. }
  apply is_in_false in I.
  destruct (String.eqb_spec f "reqtstamp") as [->|Nr].
  { replace (is_in "reqtstamp" ["descriptor"; "stream"; "metadatarecvd"; "allholes"; "reqholes"; "errcode"; "reqtstamp"]) with true by reflexivity.
    unfold setting_verdict.
    pose proof (sf_set_known (s_header d) "reqtstamp" v) as K. destruct (known_option sar "reqtstamp" v).
    - destruct K as (h' & ->). cbn [obind].
      destruct (String.eqb v "yes"); [|reflexivity].
      destruct (good_now_stamp now (s_tstamp (s_set_header d h')) "posix32" G) as (t' & E & _); [cbn; tauto|]. rewrite E. reflexivity.
    - rewrite K. reflexivity. }
  replace (is_in f ["descriptor"; "stream"; "metadatarecvd"; "allholes"; "reqholes"; "errcode"; "reqtstamp"]) with false
    by (symmetry; apply is_in_false; cbn in I |- *; intuition congruence).
  destruct (is_in f ["localinterp"; "posix32"; "posix64"; "posix32_32"; "posix64_32"]) eqn:T; [|reflexivity].
  apply is_in_true in T. destruct (good_now_stamp now (s_tstamp d) f G (stamp_name_in _ T)) as (t' & E & _). rewrite E. cbn [obind].
  destruct (sf_set_known (s_header (s_set_tstamp d t')) "reqtstamp" "yes" : exists h', _) as (hy & ->). reflexivity.
Qed.

Definition status_rel (now : gotime) (d d' : status) (items : list (string * string)) : Prop :=
  sf_setflags sar (s_header d) (flat_map status_settings items) = Ret (s_header d') /\
  s_session d' = s_session d /\ s_progress d' = s_progress d /\ s_inrespto d' = s_inrespto d /\ s_holes d' = s_holes d /\
  stamped now (s_tstamp d) (flat_map status_stamp items) (s_tstamp d').

Lemma status_rel_nil : forall now d, status_rel now d d [].
Proof. intros; repeat split; reflexivity. Qed.

Lemma status_body_value : forall now f v d d', status_body_item now f v d = Ret (d', None) ->
  sf_setflags sar (s_header d) (status_settings (f, v)) = Ret (s_header d') /\
  s_session d' = s_session d /\ s_progress d' = s_progress d /\ s_inrespto d' = s_inrespto d /\ s_holes d' = s_holes d /\
  stamped now (s_tstamp d) (status_stamp (f, v)) (s_tstamp d').
Proof.
  intros now f v d d' H. unfold status_body_item in H. rewrite !is_in_one_of in H. unfold status_settings, status_stamp.
  destruct (is_in f ["descriptor"; "stream"; "metadatarecvd"; "allholes"; "reqholes"; "errcode"]) eqn:I.
  { apply is_in_true in I.
    replace (is_in f ["localinterp"; "posix32"; "posix64"; "posix32_32"; "posix64_32"]) with false
      by (symmetry; apply is_in_false; intros J; cbn in I, J; intuition (subst; discriminate)).
    replace (String.eqb f "reqtstamp") with false by (symmetry; apply String.eqb_neq; intros ->; cbn in I; intuition discriminate).
    inv_bind H. inversion H; subst. cbn [sf_setflags]. rewrite E. repeat split; reflexivity. }
  destruct (String.eqb_spec f "reqtstamp") as [->|Nr].
  { replace (is_in "reqtstamp" ["localinterp"; "posix32"; "posix64"; "posix32_32"; "posix64_32"]) with false by reflexivity. inv_bind H. cbn [sf_setflags]. rewrite E. cbn [obind].
    destruct (String.eqb v "yes").
    - inv_bind H. destruct a0 as [t e]. inversion H; subst. apply ts_now_new in E0. repeat split; eauto; cbn [stamped]; eauto.
    - inversion H; subst. repeat split; reflexivity. }
  destruct (is_in f ["localinterp"; "posix32"; "posix64"; "posix32_32"; "posix64_32"]) eqn:T; [|discriminate].
  inv_bind H. destruct a as [t [e|]]; [discriminate|]. inv_bind H. inversion H; subst. cbn [sf_setflags].
  cbn [s_set_tstamp s_header] in E0. rewrite E0. apply ts_now_new in E. repeat split; eauto; cbn [stamped]; eauto.
Qed.

Lemma status_rel_cons : forall now f v d d1 d2 l, status_body_item now f v d = Ret (d1, None) -> status_rel now d1 d2 l ->
  status_rel now d d2 ((f, v) :: l).
Proof.
  intros now f v d d1 d2 l H (R1 & R2 & R3 & R4 & R5 & R6).
  destruct (status_body_value _ _ _ _ _ H) as (B1 & B2 & B3 & B4 & B5 & B6).
  unfold status_rel. cbn [flat_map]. rewrite setflags_app, B1. cbn [obind].
  repeat split; try congruence.
  eapply stamped_app; eauto.
Qed.

(** C69: what becomes of a construction: the first item that is not acceptable decides. *)
Lemma c69_verdict : forall now s items info,
  good_now now -> items <> [] -> (forall p, In p items -> clean (fst p) /\ clean (snd p)) ->
  verdict_of (status_new now s (flag_list items) info) = first_bad (map (status_item_verdict sar) items).
Proof.
  intros now d items info G NE C. unfold status_new.
  destruct (sf_set_known (s_header d) "version" "v1" : exists h', _) as (h1 & E1). rewrite E1. cbn [obind].
  destruct (sf_set_known h1 "frametype" "status" : exists h', _) as (h2 & E2). rewrite E2. cbn [obind].
  rewrite split_flags by auto.
  pose proof (loop_verdict status (status_flags now) (status_body_item now) (fun _ => eq_refl) (status_flags_cons now)
    (fun _ => True) (status_item_verdict sar) (fun f v d _ => status_body_verdict now f v d G) (fun _ _ _ _ _ _ => I)
    items (s_set_header d h2) C I) as V.
  rewrite <- V. destruct (status_flags now (map item_text items) (s_set_header d h2)) as [[d' [e|]]| |]; reflexivity.
Qed.

Definition status_fields : list string :=
  ["version"; "frametype"; "descriptor"; "stream"; "metadatarecvd"; "allholes"; "reqholes"; "errcode"; "reqtstamp"].

Lemma status_settings_keys : forall p, status_item_verdict sar p = Accept -> incl (keys (status_settings p)) status_fields.
Proof.
  intros [f v] H x I. unfold status_settings in I. unfold status_item_verdict in H.
  destruct (is_in f ["localinterp"; "posix32"; "posix64"; "posix32_32"; "posix64_32"]) eqn:T.
  - cbn in I |- *. tauto.
  - destruct (is_in f ["descriptor"; "stream"; "metadatarecvd"; "allholes"; "reqholes"; "errcode"; "reqtstamp"]) eqn:F; [|discriminate]. apply is_in_true in F. cbn in I. destruct I as [<-|[]]. cbn in F |- *. tauto.
Qed.

(** C69: an accepted construction: version 1, status frame, exactly the requested
    flags, the caller's values, the caller's holes after those the receiver held
    before, and the time stamped iff requested. *)
Lemma c69_result : forall now s items info,
  good_now now -> items <> [] -> (forall p, In p items -> clean (fst p) /\ clean (snd p)) ->
  (forall p, In p items -> status_item_verdict sar p = Accept) ->
  s_header s < 2 ^ 32 ->
  let settings := ("version", "v1") :: ("frametype", "status") :: flat_map status_settings items in
  exists s', status_new now s (flag_list items) info = Ret (s', None) /\
    set_exactly sar (s_header s) (s_header s') settings /\
    s_session s' = si_session info mod 2 ^ 32 /\ s_progress s' = si_progress info /\ s_inrespto s' = si_inrespto info /\
    s_holes s' = (s_holes s ++ si_holes info)%list /\
    stamped now (s_tstamp s) (flat_map status_stamp items) (s_tstamp s').
Proof.
  intros now d items info G NE C A Bh settings.
  assert (V : verdict_of (status_new now d (flag_list items) info) = Accept).
  { rewrite c69_verdict by auto. clear - A. induction items as [|p l IH]; [reflexivity|].
    cbn [map first_bad]. rewrite (A p) by (left; auto). apply IH. intros q Q; apply A; right; auto. }
  apply verdict_accept in V. destruct V as (d' & E). exists d'. split; [exact E|].
  unfold status_new in E. inv_bind E. inv_bind E. rewrite split_flags in E by auto.
  destruct (status_flags now (map item_text items) (s_set_header d a0)) as [[d1 [e|]]| |] eqn:L; cbn [ebind obind] in E; try discriminate.
  inversion E; subst d'; clear E.
  pose proof (loop_value status (status_flags now) (status_body_item now) (fun _ => eq_refl) (status_flags_cons now)
     (status_rel now) (status_rel_nil now) (status_rel_cons now) items _ _ C L) as (R1 & R2 & R3 & R4 & R5 & R6).
  cbn [s_fill s_header s_session s_progress s_inrespto s_holes s_tstamp s_set_header] in *.
  split.
  { apply set_exactly_setflags with (K := status_fields); auto.
    - intros x [<-|[<-|I]]; [cbn; tauto|cbn; tauto|].
      revert x I. apply keys_flat_map. intros; apply status_settings_keys; auto.
    - unfold settings. cbn [sf_setflags]. rewrite E0. cbn [obind]. rewrite E1. cbn [obind]. exact R1. }
  split; [reflexivity|]. split; [reflexivity|]. split; [reflexivity|]. split; [congruence|].
  assumption.
Qed.

(** C69: the header-based constructor keeps every other flag of the given header;
    it never stamps the time, even if the header asks for a timestamp. *)
Lemma c69_make : forall s header info, header < 2 ^ 32 ->
  exists s', status_make s header info = Ret (s', None) /\
    set_exactly sar header (s_header s') [("version", "v1"); ("frametype", "status")] /\
    s_session s' = si_session info mod 2 ^ 32 /\ s_progress s' = si_progress info /\ s_inrespto s' = si_inrespto info /\
    s_holes s' = (s_holes s ++ si_holes info)%list /\ s_tstamp s' = s_tstamp s.
Proof.
  intros s header info B. unfold status_make.
  destruct (sf_set_known header "version" "v1" : exists h', _) as (h1 & E1). rewrite E1. cbn [obind].
  destruct (sf_set_known h1 "frametype" "status" : exists h', _) as (h2 & E2). rewrite E2. cbn [obind].
  eexists. split; [reflexivity|]. cbn [s_fill s_header s_session s_progress s_inrespto s_holes s_tstamp s_set_header].
  split; [|repeat split; reflexivity].
  apply set_exactly_setflags with (K := status_fields); auto.
  - intros x [<-|[<-|[]]]; cbn; tauto.
  - cbn [sf_setflags]. rewrite E1. cbn [obind]. rewrite E2. reflexivity.
Qed.

(** ** Concrete cases *)
Definition ex_now : gotime := {| unix_secs := 1700000000; unix_nanos := 5 |}.
(** version 1, status, 32-bit descriptor *)
Definition ex_status : status :=
  {| s_header := 0x24400000; s_session := 9; s_tstamp := zero_timestamp; s_progress := 70000; s_inrespto := 3;
     s_holes := [ {| h_start := 10; h_end := 20 |}; {| h_start := 65536; h_end := 70000 |} ] |}.
Example c27_encode_ex : hd_reqtstamp (s_header ex_status) = 0 /\
  descriptor_width (hd_descriptor (s_header ex_status)) = Some 4%nat /\
  status_encode ex_status = Ret (Frame (wire 4 0x24400000 ++ wire 4 9 ++ wire 4 70000 ++ wire 4 3 ++
     wire 4 10 ++ wire 4 20 ++ wire 4 65536 ++ wire 4 70000)%list).
Proof. vm_compute. auto. Qed.
Example c28_roundtrip_ex :
  s_header ex_status < 2 ^ 32 /\ s_progress ex_status < 2 ^ (8 * N.of_nat 4) /\
  (forall h, In h (s_holes ex_status) -> offset_fits 4 (h_start h) /\ offset_fits 4 (h_end h)) /\
  forall f, status_encode ex_status = Ret (Frame f) -> status_decode zero_status f = Ret (ex_status, None).
Proof.
  split; [reflexivity|]. split; [reflexivity|]. split.
  - intros h [<-|[<-|[]]]; unfold offset_fits; cbn; lia.
  - intros f H. vm_compute in H. inversion H; subst. vm_compute. reflexivity.
Qed.
(** with the top byte of the progress equal to 1 the decoder accepts, and reads nonsense *)
Example c29_never_survives_ex : exists s s' f, hd_reqtstamp (s_header s) = 1 /\ status_encode s = Ret (Frame f) /\
  status_decode zero_status f = Ret (s', None) /\ s_progress s = 0x01000005 /\ s_progress s' = 0.
Proof.
  exists {| s_header := 0x24480000; s_session := 9; s_tstamp := zero_timestamp; s_progress := 0x01000005; s_inrespto := 3; s_holes := [] |}.
  eexists. eexists. split; [reflexivity|]. split; [vm_compute; reflexivity|]. split; [vm_compute; reflexivity|]. split; reflexivity.
Qed.
Example c30_verdict_ex :
  status_verdict (wire 4 0x24080000 ++ zeros 8) = Crash /\
  status_verdict (wire 4 0x24800000 ++ zeros 8) = Crash /\
  status_verdict (wire 4 0x24080000 ++ zeros 4 ++ wire 1 200 ++ zeros 15) = Kill /\
  status_verdict (wire 4 0x24080000 ++ zeros 4 ++ wire 1 3 ++ zeros 19) = Accept.
Proof. vm_compute. auto. Qed.
(** a receiver with one hole decodes a frame with two pairs and a partial one *)
Example c31_count_ex : exists s',
  status_decode {| s_header := 0; s_session := 0; s_tstamp := zero_timestamp; s_progress := 0; s_inrespto := 0;
                   s_holes := [ {| h_start := 1; h_end := 2 |} ] |}
    (wire 4 0x24000000 ++ wire 4 9 ++ wire 2 70 ++ wire 2 3 ++ wire 2 10 ++ wire 2 20 ++ wire 2 30 ++ wire 2 40 ++ zeros 3) = Ret (s', None) /\
  s_holes s' = [ {| h_start := 1; h_end := 2 |}; {| h_start := 10; h_end := 20 |}; {| h_start := 30; h_end := 40 |} ].
Proof. eexists. split; vm_compute; reflexivity. Qed.
Example c69_result_ex :
  let items := [("descriptor", "d32"); ("posix64", "x"); ("errcode", "badpacket"); ("allholes", "no")] in
  map (status_item_verdict sar) items = [Accept; Accept; Accept; Accept] /\
  flat_map status_stamp items = ["posix64"] /\
  exists s', status_new ex_now zero_status (flag_list items)
    {| si_session := 9; si_progress := 70000; si_inrespto := 3; si_holes := [ {| h_start := 1; h_end := 2 |} ] |} = Ret (s', None) /\
    t_secs (s_tstamp s') = 1700000000.
Proof.
  split; [reflexivity|].  split; [reflexivity|].
  eexists. split; vm_compute; reflexivity.
Qed.
