(** * The properties of metadata frames *)

From Verif Require Import GoBase GoFacts Flags SpecFlags FlagsFacts Config Shipped ConfigFacts SpecWire SarFacts Timestamp SpecTime TimeMain Data Request SpecFrames FrameFacts FlagStrFacts BuildFacts SpecRequest RequestMain Fileio Dirent SpecDirent FlagsMain DirentMain Metadata SpecMetadata.
Local Open Scope string_scope.
Local Open Scope N_scope.

Definition transfer_name (v : N) : string :=
  match v with 0 => "file" | 1 => "directory" | 2 => "bundle" | _ => "stream" end.
Lemma getstr_transfer : forall h, sf_getstr sar h "transfer" = Ret (transfer_name (hd_transfer h)).
Proof.
  intros h. erewrite getstr_field by (vm_compute; reflexivity). cbn [f_opts f_msb f_len].
  unfold hd_transfer. bf2 (bit_field 32 10 2 h). destruct H as [E|[E|[E|E]]]; rewrite E; reflexivity.
Qed.
Lemma hd_transfer_cases : forall h, hd_transfer h = 0 \/ hd_transfer h = 1 \/ hd_transfer h = 2 \/ hd_transfer h = 3.
Proof. intros. unfold hd_transfer. bf2 (bit_field 32 10 2 h). auto. Qed.
Lemma get_csumlen : forall h, sf_get sar h "csumlen" = hd_csumlen h.
Proof. intros. unfold hd_csumlen. apply c01_shipped_positions. cbn. tauto. Qed.

Lemma frame_inj : forall a b, Ret (Frame a) = Ret (Frame b) -> a = b.
Proof. congruence. Qed.

(** ** Encoding *)
Lemma meta_encode_any : forall m,
  meta_encode m = Ret (Frame (meta_wire (m_header m) (m_session m) (m_checksum m)
     (match dirent_encode (m_dir m) with Ret (Frame b) => b | _ => [] end))).
Proof.
  intros m. unfold meta_encode, meta_wire.
  destruct (c44_iff (m_dir m)) as [_ [[b B]|[e B]]]; rewrite B; cbn [obind];
  (match goal with |- context[make_bytes ?n] => change (make_bytes n) with ([] ++ make_bytes n)%list end);
  rewrite put_uint_make by (cbn [length]; lia); cbn [obind];
  rewrite put_uint_make by (rewrite ?app_length, ?be_bytes_length; cbn [length]; lia); cbn [obind];
  (destruct (Nat.ltb_spec 0 (length (m_checksum m))) as [L|L];
  [rewrite copy_range_make by (rewrite ?app_length, ?be_bytes_length; cbn [length]; lia); cbn [obind]
  |destruct (m_checksum m); [|cbn [length] in L; lia]; cbn [length]; cbn [obind]]);
  (rewrite copy_from_make by (rewrite ?app_length, ?be_bytes_length; cbn [length]; lia); cbn [obind]);
  (match goal with |- context[make_bytes ?n] => replace n with 0%nat by (cbn [length]; lia) end);
  change (make_bytes 0) with (@nil byte);
  rewrite ?app_nil_r, ?app_nil_l, <- ?app_assoc, ?be_bytes_u32, ?wire_be; reflexivity.
Qed.

(** ** Decoding *)
Lemma meta_decode_spec : forall m f,
  (Nat.ltb (length f) 8 = true -> verdict_of (meta_decode m f) = Reject) /\
  (Nat.ltb (length f) 8 = false ->
   let n := csum_bytes (number_at f 0 4) in
   if Nat.ltb (length f) (8 + n) then meta_decode m f = Panic
   else meta_decode m f =
     (do ' (d, e) <- dirent_decode (m_dir m) (skipn (8 + n) f);
      Ret ({| m_header := number_at f 0 4; m_session := number_at f 4 4;
              m_checksum := firstn n (skipn 8 f); m_dir := d |}, e))).
Proof.
  intros m f. unfold meta_decode, csum_bytes. split; intros H; rewrite H; [reflexivity|]. apply Nat.ltb_ge in H.
  rewrite !get_uint_number by lia. cbn [obind]. rewrite get_csumlen. cbv zeta.
  replace (N.to_nat (hd_csumlen (number_at f 0 4)) * 4)%nat with (4 * N.to_nat (hd_csumlen (number_at f 0 4)))%nat by lia.
  set (n := (4 * N.to_nat (hd_csumlen (number_at f 0 4)))%nat).
  destruct (Nat.ltb_spec (length f) (8 + n)) as [L|L].
  - rewrite slice_panic by lia. reflexivity.
  - rewrite slice_ok by lia. cbn [obind]. replace (8 + n - 8)%nat with n by lia.
    rewrite slice_from_ok by lia. cbn [obind]. reflexivity.
Qed.

(** C48: the verdict on arbitrary bytes. *)
Lemma c48_verdict : forall m f, verdict_of (meta_decode m f) = meta_verdict f.
Proof.
  intros m f. unfold meta_verdict. destruct (meta_decode_spec m f) as [A B].
  destruct (Nat.ltb (length f) 8); [auto|]. specialize (B eq_refl). cbv zeta in *.
  destruct (Nat.ltb (length f) (8 + csum_bytes (number_at f 0 4))); rewrite B; [reflexivity|].
  rewrite <- (c45_verdict (m_dir m)). destruct (dirent_decode (m_dir m) _) as [[d [e|]]| |]; reflexivity.
Qed.
(** C48: it panics exactly when the announced checksum does not fit the bytes, or
    the rest has at least 12 bytes but is shorter than its own announced size and
    two times; it never terminates the process. *)
Lemma c48_iff : forall m f,
  (meta_decode m f = Panic <->
    (8 <= length f)%nat /\
    (let rest := skipn (8 + csum_bytes (number_at f 0 4)) f in
     (length f < 8 + csum_bytes (number_at f 0 4))%nat \/
     ((12 <= length rest)%nat /\ exists w, descriptor_width (dh_descriptor (number_at rest 0 2)) = Some w /\ (length rest < 10 + w)%nat))) /\
  meta_decode m f <> Fatal.
Proof.
  intros m f. cbv zeta. rewrite <- verdict_panic, <- verdict_fatal, c48_verdict. unfold meta_verdict.
  destruct (Nat.ltb_spec (length f) 8) as [L|L]; [split; [split; [discriminate|intros [? _]; lia]|discriminate]|].
  set (n := csum_bytes (number_at f 0 4)). destruct (Nat.ltb_spec (length f) (8 + n)) as [L2|L2].
  - split; [split; [auto|reflexivity]|discriminate].
  - destruct (c45_iff (m_dir m) (skipn (8 + n) f)) as (P & Q & _).
    rewrite <- verdict_panic, c45_verdict in P. rewrite <- verdict_fatal, c45_verdict in Q.
    split; [|exact Q]. rewrite P. split; [auto|intros [_ [X|X]]; [lia|exact X]].
Qed.
(** C48: what accepted bytes decode to. *)
Lemma c48_value : forall m f, meta_verdict f = Accept ->
  let n := csum_bytes (number_at f 0 4) in
  let rest := skipn (8 + n) f in
  exists w, descriptor_width (dh_descriptor (number_at rest 0 2)) = Some w /\
    meta_decode m f = Ret ({| m_header := number_at f 0 4; m_session := number_at f 4 4;
                              m_checksum := firstn n (skipn 8 f); m_dir := dirent_at rest w |}, None).
Proof.
  intros m f V n rest. unfold meta_verdict in V. destruct (meta_decode_spec m f) as [A B].
  destruct (Nat.ltb (length f) 8); [discriminate|]. specialize (B eq_refl). cbv zeta in *. fold n in B, V.
  destruct (Nat.ltb (length f) (8 + n)); [discriminate|]. fold rest in B, V.
  destruct (c45_value (m_dir m) rest V) as (w & W & D). exists w. split; [exact W|]. rewrite B, D. reflexivity.
Qed.

(** C46: a metadata frame comes back exactly, into any receiver, when its
    checksum has the announced length and its entry can be encoded (times in
    seconds since 2000, ASCII path, as the constructors make them). *)
Lemma c46_roundtrip : forall m m0 f t c b,
  m_header m < 2 ^ 32 -> m_session m < 2 ^ 32 -> length (m_checksum m) = csum_bytes (m_header m) ->
  dirent_encode (m_dir m) = Ret (Frame b) ->
  de_header (m_dir m) < 2 ^ 16 -> ascii_name (de_path (m_dir m)) ->
  de_mtime (m_dir m) = y2k t -> de_ctime (m_dir m) = y2k c -> t < 2 ^ 32 -> c < 2 ^ 32 ->
  meta_encode m = Ret (Frame f) ->
  meta_decode m0 f = Ret (m, None).
Proof.
  intros m m0 f t c b Bh Bs LC DE Bd AP Mt Ct Bt Bc EN.
  rewrite meta_encode_any, DE in EN. apply frame_inj in EN. subst f. unfold meta_wire.
  set (g := (wire 4 (m_header m) ++ wire 4 (m_session m) ++ m_checksum m ++ b)%list) in *.
  assert (N0 : number_at g 0 4 = m_header m) by (unfold g; rewrite number_at_wire0; apply u32_pow; auto).
  assert (N4 : number_at g 4 4 = m_session m) by (unfold g; rewrite number_at_wire by (rewrite wire_length; auto); apply u32_pow; auto).
  assert (LG : length g = (8 + csum_bytes (m_header m) + length b)%nat).
  { unfold g. rewrite !app_length, !wire_length, LC. lia. }
  assert (S8 : skipn 8 g = (m_checksum m ++ b)%list).
  { unfold g. rewrite (app_assoc (wire 4 _)). apply skipn_app_exact. rewrite app_length, !wire_length. reflexivity. }
  assert (SC : skipn (8 + csum_bytes (m_header m)) g = b).
  { unfold g. rewrite (app_assoc (wire 4 _)), (app_assoc (wire 4 _ ++ _)). apply skipn_app_exact. rewrite !app_length, !wire_length, LC. lia. }
  destruct (meta_decode_spec m0 g) as [_ B]. rewrite N0, N4 in B.
  assert (G8 : Nat.ltb (length g) 8 = false) by (apply Nat.ltb_ge; lia).
  specialize (B G8). cbv zeta in B.
  replace (Nat.ltb (length g) (8 + csum_bytes (m_header m))) with false in B by (symmetry; apply Nat.ltb_ge; lia).
  rewrite B, SC, S8. rewrite firstn_app_exact by auto.
  rewrite (c43_roundtrip (m_dir m) (m_dir m0) b t c) by auto. cbn [obind]. destruct m; reflexivity.
Qed.

(** C47: encoding metadata never fails, even if the entry cannot be encoded; the
    frame then ends after the checksum. *)
Lemma c47_silent : forall m e, dirent_encode (m_dir m) = Ret (EncErr e) ->
  meta_encode m = Ret (Frame (wire 4 (m_header m) ++ wire 4 (m_session m) ++ m_checksum m)%list).
Proof.
  intros m e DE. rewrite meta_encode_any, DE. unfold meta_wire. rewrite app_nil_r. reflexivity.
Qed.
(** C47: and no receiver accepts it, when the checksum has the announced length;
    in particular metadata of a file of 4 GiB or more cannot be received. *)
Lemma c47_rejected : forall m m0 e f, dirent_encode (m_dir m) = Ret (EncErr e) ->
  m_header m < 2 ^ 32 -> length (m_checksum m) = csum_bytes (m_header m) ->
  meta_encode m = Ret (Frame f) -> verdict_of (meta_decode m0 f) = Reject.
Proof.
  intros m m0 e f DE Bh LC EN. rewrite (c47_silent m e DE) in EN. apply frame_inj in EN. subst f. rewrite c48_verdict. unfold meta_verdict.
  set (g := (wire 4 (m_header m) ++ wire 4 (m_session m) ++ m_checksum m)%list) in *.
  assert (N0 : number_at g 0 4 = m_header m) by (unfold g; rewrite number_at_wire0; apply u32_pow; auto).
  assert (LG : length g = (8 + csum_bytes (m_header m))%nat).
  { unfold g. rewrite !app_length, !wire_length, LC. lia. }
  rewrite N0. replace (Nat.ltb (length g) 8) with false by (symmetry; apply Nat.ltb_ge; lia).
  replace (Nat.ltb (length g) (8 + csum_bytes (m_header m))) with false by (symmetry; apply Nat.ltb_ge; lia).
  rewrite skipn_all2 by lia. reflexivity.
Qed.
Lemma c47_4gib : forall m m0 f, 2 ^ 32 <= de_size (m_dir m) ->
  m_header m < 2 ^ 32 -> length (m_checksum m) = csum_bytes (m_header m) ->
  meta_encode m = Ret (Frame f) -> verdict_of (meta_decode m0 f) = Reject.
Proof. intros m m0 f S Bh LC EN. destruct (c44_4gib _ S) as [e DE]. eapply c47_rejected; eauto. Qed.

(** ** Building *)
Definition meta_body (f v : string) (st : metadata * string) : outcome ((metadata * string) * error) :=
  let (m, csumtype) := st in
  if one_of f ["descriptor"; "progress"; "transfer"; "reliability"] then
    do h <- sf_set sar (m_header m) f v; Ret ((m_set_header m h, csumtype), None)
  else if String.eqb f "csumtype" then
    do h <- sf_set sar (m_header m) f v;
    do h <- sf_set sar h "csumlen" v; Ret ((m_set_header m h, v), None)
  else Ret ((m, csumtype), Some (f ++ "invalid flag for MetaData Frame")).
Lemma meta_flags_cons : forall f v rest st, clean f -> clean v ->
  meta_flags (item_text (f, v) :: rest) st = ebind (meta_body f v st) (fun st => meta_flags rest st).
Proof. intros f v rest [m c] Cf Cv. cbn [meta_flags]. rewrite split_item by auto. cbn [index nth_error obind]. reflexivity. Qed.

Lemma csum_known : forall v, known_option sar "csumtype" v = true -> known_option sar "csumlen" v = true.
Proof.
  intros v H. assert (I : In v ["none"; "crc32"; "md5"; "sha1"]).
  { unfold known_option in H. destruct (lookup "csumtype" (t_flags sar)) as [fl|] eqn:L; [|discriminate].
    vm_compute in L. inversion L; subst fl. cbn [f_opts] in H. cbn [lookup] in H.
    destruct (String.eqb_spec v "none"); [subst; cbn; auto|]. destruct (String.eqb_spec v "crc32"); [subst; cbn; auto|].
    destruct (String.eqb_spec v "md5"); [subst; cbn; auto|]. destruct (String.eqb_spec v "sha1"); [subst; cbn; auto 6|]. discriminate. }
  repeat (destruct I as [<-|I]; [reflexivity|]). destruct I.
Qed.

Lemma meta_body_verdict : forall f v st, verdict_of (meta_body f v st) = meta_item_verdict sar (f, v).
Proof.
  intros f v [m c]. unfold meta_body, meta_item_verdict. rewrite is_in_one_of.
  destruct (is_in f ["descriptor"; "progress"; "transfer"; "reliability"]) eqn:I.
  { replace (is_in f ["descriptor"; "progress"; "transfer"; "reliability"; "csumtype"]) with true.
    - unfold setting_verdict. pose proof (sf_set_known (m_header m) f v) as K.
      destruct (known_option sar f v); [destruct K as (h' & ->)|rewrite K]; reflexivity.
    - symmetry. apply is_in_true. apply is_in_true in I. cbn in *. tauto. }
  destruct (String.eqb_spec f "csumtype") as [->|N].
  - replace (is_in "csumtype" ["descriptor"; "progress"; "transfer"; "reliability"; "csumtype"]) with true by reflexivity.
    unfold setting_verdict. pose proof (sf_set_known (m_header m) "csumtype" v) as K.
    destruct (known_option sar "csumtype" v) eqn:KO; [destruct K as (h' & ->)|rewrite K; reflexivity].
    cbn [obind]. pose proof (sf_set_known h' "csumlen" v) as K2. rewrite (csum_known v KO) in K2. destruct K2 as (h2 & ->). reflexivity.
  - replace (is_in f ["descriptor"; "progress"; "transfer"; "reliability"; "csumtype"]) with false; [reflexivity|].
    symmetry. apply is_in_false. apply is_in_false in I. intros [X|[X|[X|[X|[X|[]]]]]]; apply I; cbn; try tauto. congruence.
Qed.

Definition last_csum (c : string) (items : list (string * string)) : string :=
  match last_setting items "csumtype" with Some v => v | None => c end.
Definition meta_rel (st st' : metadata * string) (items : list (string * string)) : Prop :=
  exists h, sf_setflags sar (m_header (fst st)) (flat_map meta_settings items) = Ret h /\
            st' = (m_set_header (fst st) h, last_csum (snd st) items).
Lemma meta_rel_nil : forall st, meta_rel st st [].
Proof. intros [m c]. exists (m_header m). split; [reflexivity|]. destruct m; reflexivity. Qed.
Lemma meta_rel_cons : forall f v st st1 st2 l, meta_body f v st = Ret (st1, None) -> meta_rel st1 st2 l -> meta_rel st st2 ((f, v) :: l).
Proof.
  intros f v [m c] st1 st2 l B (h & S & ->). unfold meta_body in B.
  unfold meta_rel. cbn [flat_map fst snd]. rewrite is_in_one_of in B.
  unfold last_csum. unfold last_setting in *. rewrite lookup_rev_cons.
  change (meta_settings (f, v)) with (if String.eqb f "csumtype" then [(f, v); ("csumlen", v)] else [(f, v)]).
  destruct (is_in f _) eqn:I.
  - inv_bind B. inversion B; subst st1. cbn [fst snd] in *. apply is_in_true in I.
    assert (NE : f <> "csumtype") by (intros ->; cbn in I; intuition discriminate).
    replace (String.eqb f "csumtype") with false by (symmetry; apply String.eqb_neq; auto).
    replace (String.eqb "csumtype" f) with false by (symmetry; apply String.eqb_neq; auto).
    exists h. cbn [flat_map app sf_setflags]. rewrite E. cbn [obind]. cbn [m_set_header m_header] in S. split; [exact S|].
    destruct (lookup "csumtype" (rev l)); reflexivity.
  - destruct (String.eqb_spec f "csumtype") as [->|]; [|discriminate].
    inv_bind B. inv_bind B. inversion B; subst st1. cbn [fst snd] in *.
    exists h. eval_eqbs. cbv iota. cbn [app sf_setflags]. rewrite E. cbn [obind]. rewrite E0. cbn [obind].
    cbn [m_set_header m_header] in S. split; [exact S|]. destruct (lookup "csumtype" (rev l)); reflexivity.
Qed.

Lemma meta_loop : forall items st, items <> [] -> clean_items items ->
  verdict_of (meta_flags (split_on "," (remove_spaces (flag_list items))) st) = first_bad (map (meta_item_verdict sar) items) /\
  (forall st', meta_flags (split_on "," (remove_spaces (flag_list items))) st = Ret (st', None) -> meta_rel st st' items).
Proof.
  intros items st NE C. rewrite split_flags by auto. split.
  - apply (loop_verdict (metadata * string) meta_flags meta_body (fun _ => eq_refl) meta_flags_cons (fun _ => True)); auto.
    intros; apply meta_body_verdict.
  - intros st' H. eapply (loop_value (metadata * string) meta_flags meta_body (fun _ => eq_refl) meta_flags_cons meta_rel); eauto using meta_rel_nil, meta_rel_cons.
Qed.

(** C73: an unacceptable item decides the construction. *)
Lemma c73_bad_item : forall E m items info, items <> [] -> (forall p, In p items -> clean (fst p) /\ clean (snd p)) ->
  first_bad (map (meta_item_verdict sar) items) <> Accept ->
  verdict_of (meta_new E m (flag_list items) info) = first_bad (map (meta_item_verdict sar) items).
Proof.
  intros E m items info NE C B. unfold meta_new.
  destruct (sf_set_known (m_header m) "version" "v1" : exists h', _) as (h1 & E1). rewrite E1. cbn [obind].
  destruct (sf_set_known h1 "frametype" "metadata" : exists h', _) as (h2 & E2). rewrite E2. cbn [obind].
  destruct (meta_loop items (m_set_header m h2, "") NE C) as [V _]. rewrite <- V in B |- *.
  destruct (meta_flags _ _) as [[[m' c] [e|]]| |]; cbn in *; congruence.
Qed.
(** C73: an empty flag string is refused. *)
Lemma c73_empty : forall E m info, exists m' e, meta_new E m "" info = Ret (m', Some e).
Proof.
  intros. unfold meta_new.
  destruct (sf_set_known (m_header m) "version" "v1" : exists h', _) as (h1 & E1). rewrite E1. cbn [obind].
  destruct (sf_set_known h1 "frametype" "metadata" : exists h', _) as (h2 & E2). rewrite E2. cbn [obind].
  eexists. eexists. reflexivity.
Qed.

(** The flags of the directory entry *)
Definition prop_item (n : node) : string :=
  if is_regular n then "normalfile" else if is_dir n then "normaldirectory" else "specialfile".
Definition desc_item (n : node) : string := desc_name (size_descriptor (node_size n mod 2 ^ 64)).
Definition entry_items (n : node) : list (string * string) := [("property", prop_item n); ("descriptor", desc_item n)].

Lemma statfile_spec : forall E fname h,
  match here E fname with
  | inr _ => exists e, meta_statfile E fname h = Ret (inr e)
  | inl n => match node_verdict h n with
             | Accept => meta_statfile E fname h = Ret (inl (flag_list (entry_items n)))
             | Kill => meta_statfile E fname h = Fatal
             | _ => exists e, meta_statfile E fname h = Ret (inr e)
             end
  end.
Proof.
  intros E fname h. unfold meta_statfile, here. destruct (os_lstat (e_fs E) (e_cwd E) fname) as [n|e]; [|eexists; reflexivity].
  assert (SZ : (if u64 (node_size n) <? MaxUint16 then "d16" else if u64 (node_size n) <? MaxUint32 then "d32"
      else if u64 (node_size n) <? MaxUint64 then "d64" else "d128") = desc_item n).
  { unfold desc_item, size_descriptor, u64, wrap, MaxUint16, MaxUint32, MaxUint64. set (s := node_size n mod 2 ^ 64).
    change (2 ^ 16 - 1) with 65535. change (2 ^ 32 - 1) with 4294967295. change (2 ^ 64 - 1) with 18446744073709551615.
    destruct (s <? 65535); [reflexivity|]. destruct (s <? 4294967295); [reflexivity|]. destruct (s <? 18446744073709551615); reflexivity. }
  cbv zeta. rewrite SZ. clear SZ.
  assert (FL : forall p, In p ["normalfile"; "normaldirectory"; "specialfile"] ->
     obind (sd_addflag sar "" "property" p) (fun fl => sd_addflag sar fl "descriptor" (desc_item n)) =
       Ret (flag_list [("property", p); ("descriptor", desc_item n)])).
  { intros p I. unfold desc_item, size_descriptor.
    destruct I as [<-|[<-|[<-|[]]]];
      (destruct (_ <? 2 ^ 16 - 1); [reflexivity|]; destruct (_ <? 2 ^ 32 - 1); [reflexivity|]; destruct (_ <? 2 ^ 64 - 1); reflexivity). }
  unfold node_verdict, entry_items, prop_item. unfold is_regular, is_dir, is_pipe in *.
  assert (CT : sf_getstr sar h "csumtype" = match hd_csumtype h with 0 => Ret "none" | 1 => Ret "crc32" | 2 => Ret "md5" | 3 => Ret "sha1" | _ => Fatal end).
  { erewrite getstr_field by (vm_compute; reflexivity). cbn [f_opts f_msb f_len]. fold (hd_csumtype h).
    destruct (N.ltb_spec (hd_csumtype h) 4) as [L4|L4].
    - assert (X : hd_csumtype h = 0 \/ hd_csumtype h = 1 \/ hd_csumtype h = 2 \/ hd_csumtype h = 3) by lia.
      destruct X as [X|[X|[X|X]]]; rewrite X; reflexivity.
    - destruct (hd_csumtype h) as [|[[p|p|]|[p|p|]|]]; try lia; reflexivity. }
  destruct (n_kind n) eqn:K;
    (match goal with
     | |- context[sd_addflag sar "" "property" ?p] =>
         let X := fresh in pose proof (FL p ltac:(cbn; tauto)) as X;
         destruct (sd_addflag sar "" "property" p) as [fl| |]; cbn [obind] in X |- *; [rewrite X|discriminate|discriminate]; cbn [obind]; clear X
     | _ => idtac end);
    rewrite ?getstr_transfer; cbn [obind];
    destruct (hd_transfer_cases h) as [T|[T|[T|T]]]; rewrite T; cbn [transfer_name]; eval_eqbs; cbv iota; cbn [negb];
    try (eexists; reflexivity); try reflexivity.
  rewrite CT. destruct (hd_csumtype h) as [|[[p|p|]|[p|p|]|]]; cbn [obind]; eval_eqbs; cbn [negb]; try reflexivity; eexists; reflexivity.
Qed.

Lemma entry_items_header : forall n, sd_setflags 0 (("sod", "sod") :: entry_items n) = Ret (entry_header n).
Proof.
  intros n. unfold entry_items, entry_header, prop_item, desc_item, node_property, size_descriptor.
  destruct (is_regular n); [|destruct (is_dir n)];
    (destruct (_ <? 2 ^ 16 - 1); [reflexivity|]; destruct (_ <? 2 ^ 32 - 1); [reflexivity|]; destruct (_ <? 2 ^ 64 - 1); reflexivity).
Qed.
Lemma entry_property : forall n, dh_property (entry_header n) = node_property n.
Proof.
  intros n. unfold entry_header, node_property, size_descriptor.
  destruct (is_regular n); [|destruct (is_dir n)];
    (destruct (_ <? 2 ^ 16 - 1); [reflexivity|]; destruct (_ <? 2 ^ 32 - 1); [reflexivity|]; destruct (_ <? 2 ^ 64 - 1); reflexivity).
Qed.

Lemma entry_items_ok : forall n, (forall p, In p (entry_items n) -> clean (fst p) /\ clean (snd p)) /\
  (forall p, In p (entry_items n) -> dirent_item_verdict sar p = Accept).
Proof.
  intros n. unfold entry_items, prop_item, desc_item, size_descriptor.
  split; intros p [<-|[<-|[]]]; cbn [fst snd];
    try (destruct (is_regular n); [|destruct (is_dir n)]);
    try (destruct (_ <? 2 ^ 16 - 1); [|destruct (_ <? 2 ^ 32 - 1); [|destruct (_ <? 2 ^ 64 - 1)]]);
    first [reflexivity | unfold clean; cbn; intuition discriminate].
Qed.

(** The entry the metadata gets *)
Definition meta_entry (n : node) (size : N) (t : gotime) (name : string) : dirent :=
  {| de_header := entry_header n; de_size := size; de_mtime := y2k_of t; de_ctime := y2k_of t; de_path := name |}.

Lemma meta_rest_spec : forall E m session fname csumtype n,
  here E fname = inl n -> node_verdict (m_header m) n = Accept -> (slen fname <= 1024)%nat ->
  let done cs d := Ret ({| m_header := m_header m; m_session := session mod 2 ^ 32; m_checksum := cs; m_dir := d |}, None) in
  let r := meta_rest E m session fname (Ret csumtype) in
  if is_pipe n then
    real_time (e_now E) -> y2k_time (e_now E) -> r = done [] (meta_entry n 0 (e_now E) fname)
  else
    match local_node E fname with
    | inr ENOENT => verdict_of r = Reject
    | inr _ => r = Panic
    | inl l =>
        is_link l = false -> real_time (n_mtime l) -> real_time (n_ctime l) -> y2k_time (n_mtime l) -> y2k_time (n_ctime l) ->
        match checksum (e_hash E) (e_now E) (e_fs E) (e_cwd E) (e_sardir E) csumtype fname with
        | None => verdict_of r = Reject
        | Some cs => r = done (match cs with [] => m_checksum m | _ => cs end)
                              (meta_entry n (node_size l mod 2 ^ 64) (n_ctime l) fname)
        end
    end.
Proof.
  intros E m session fname csumtype n HN NV LP. cbv zeta. unfold meta_rest. cbn [m_header m_session m_checksum m_dir].
  pose proof (statfile_spec E fname (m_header m)) as SF. rewrite HN, NV in SF. rewrite SF. cbn [obind].
  destruct (entry_items_ok n) as [EC EA].
  pose proof (dirent_new_known E zero_dirent (entry_items n) fname (entry_header n) ltac:(discriminate) EC EA (entry_items_header n)) as P.
  unfold dirent_new_post in P. replace (1024 <? slen fname)%nat with false in P by (symmetry; apply Nat.ltb_ge; auto).
  rewrite entry_property in P. unfold node_property in P.
  rewrite getstr_transfer. unfold node_verdict in NV.
  unfold is_pipe, is_regular, is_dir in *.
  destruct (hd_transfer_cases (m_header m)) as [T|[T|[T|T]]]; rewrite T in *; cbn [transfer_name];
    destruct (n_kind n) eqn:K; try discriminate; cbn [N.leb N.compare Pos.compare Pos.compare_cont] in P;
    try (intros RT Y; rewrite (P RT Y); reflexivity);
    (destruct (local_node E fname) as [l|[]];
      [intros NL Rm Rc Ym Yc; rewrite (P NL Rm Rc Ym Yc); cbn [obind de_header de_size de_ctime de_path]; eval_eqbs; cbv iota; cbn [negb];
       destruct (checksum _ _ _ _ _ _ _) as [[|b cs]|]; reflexivity
      |destruct (dirent_new E zero_dirent _ fname) as [[d' [e|]]| |]; try discriminate P; reflexivity
      |rewrite P; reflexivity|rewrite P; reflexivity|rewrite P; reflexivity|rewrite P; reflexivity|rewrite P; reflexivity|rewrite P; reflexivity|rewrite P; reflexivity]).
Qed.

Definition meta_fields : list string :=
  ["version"; "frametype"; "descriptor"; "progress"; "transfer"; "reliability"; "csumtype"; "csumlen"].
Lemma meta_settings_keys : forall p, meta_item_verdict sar p = Accept -> incl (keys (meta_settings p)) meta_fields.
Proof.
  intros [f v] H x I. unfold meta_item_verdict in H.
  destruct (is_in f _) eqn:F; [|discriminate]. apply is_in_true in F. unfold meta_settings in I.
  destruct (String.eqb_spec f "csumtype") as [->|].
  - cbn in I |- *. tauto.
  - cbn in I. destruct I as [<-|[]]. cbn in F |- *. tauto.
Qed.

(** C73: an accepted flag list, what the metadata describes: version 1, metadata
    frame, exactly the requested flags.  The node found under the name in the
    working directory must be of the kind of the transfer.  The entry has the kind and the descriptor of
    that node, but size and time come from the node under sardir/name; the checksum
    is whatever the checksum operation gives. *)
Lemma c73_result : forall E m items info n, items <> [] -> (forall p, In p items -> clean (fst p) /\ clean (snd p)) ->
  (forall p, In p items -> meta_item_verdict sar p = Accept) -> m_header m < 2 ^ 32 ->
  let name := mi_fname info in
  here E name = inl n -> (slen name <= 1024)%nat ->
  exists h, set_exactly sar (m_header m) h (("version", "v1") :: ("frametype", "metadata") :: flat_map meta_settings items) /\
    let done cs d := Ret ({| m_header := h; m_session := mi_session info mod 2 ^ 32; m_checksum := cs; m_dir := d |}, None) in
    let r := meta_new E m (flag_list items) info in
    match node_verdict h n with
    | Accept =>
        if is_pipe n then
          real_time (e_now E) -> y2k_time (e_now E) -> r = done [] (meta_entry n 0 (e_now E) name)
        else
          match local_node E name with
          | inr ENOENT => verdict_of r = Reject
          | inr _ => r = Panic
          | inl l =>
              is_link l = false -> real_time (n_mtime l) -> real_time (n_ctime l) -> y2k_time (n_mtime l) -> y2k_time (n_ctime l) ->
              match checksum (e_hash E) (e_now E) (e_fs E) (e_cwd E) (e_sardir E) (asked_csum items) name with
              | None => verdict_of r = Reject
              | Some cs => r = done (match cs with [] => m_checksum m | _ => cs end)
                                    (meta_entry n (node_size l mod 2 ^ 64) (n_ctime l) name)
              end
          end
    | v => verdict_of r = v
    end.
Proof.
  intros E m items info n NE C A Bh name HN LP. subst name. unfold meta_new.
  destruct (sf_set_known (m_header m) "version" "v1" : exists h', _) as (h1 & E1).
  destruct (sf_set_known h1 "frametype" "metadata" : exists h', _) as (h2 & E2).
  destruct (meta_loop items (m_set_header m h2, "") NE C) as [V RL].
  assert (FB : first_bad (map (meta_item_verdict sar) items) = Accept).
  { clear - A. induction items as [|p l IH]; [reflexivity|].
    cbn [map first_bad]. rewrite (A p) by (left; auto). apply IH. intros q Q; apply A; right; auto. }
  rewrite FB in V. apply verdict_accept in V. destruct V as (st' & V). destruct (RL _ V) as (h & SF & ->). cbn [fst snd] in *.
  cbn [m_set_header m_header] in SF.
  exists h. split.
  { apply set_exactly_setflags with (K := meta_fields); auto.
    - intros x [<-|[<-|I]]; [cbn; tauto|cbn; tauto|].
      revert x I. apply keys_flat_map. intros; apply meta_settings_keys; auto.
    - cbn [sf_setflags]. rewrite E1. cbn [obind]. rewrite E2. cbn [obind]. exact SF. }
  cbv zeta. rewrite E1. cbn [obind]. rewrite E2. cbn [obind]. rewrite V. cbn [obind].
  change (last_csum "" items) with (asked_csum items).
  replace (m_set_header (m_set_header m h2) h) with (m_set_header m h) by reflexivity.
  destruct (node_verdict h n) eqn:NV.
  - exact (meta_rest_spec E (m_set_header m h) (mi_session info) (mi_fname info) (asked_csum items) n HN NV LP).
  - unfold meta_rest. cbn [m_set_header m_header m_session m_checksum m_dir]. pose proof (statfile_spec E (mi_fname info) h) as SFS.
    rewrite HN, NV in SFS. destruct SFS as [e ->]. reflexivity.
  - pose proof (statfile_spec E (mi_fname info) h) as SFS. rewrite HN, NV in SFS. exfalso. clear - NV.
    unfold node_verdict in NV. destruct (hd_transfer h) as [|[[p|p|]|[p|p|]|]]; destruct (is_regular n), (is_dir n), (is_pipe n); try discriminate;
      destruct (hd_csumtype h) as [|[[p'|p'|]|[p'|p'|]|]]; discriminate.
  - unfold meta_rest. cbn [m_set_header m_header m_session m_checksum m_dir]. pose proof (statfile_spec E (mi_fname info) h) as SFS.
    rewrite HN, NV in SFS. rewrite SFS. reflexivity.
Qed.

(** C73: a name that is not found in the working directory is refused, even if
    the file is in the sardir (defect). *)
Lemma c73_not_here : forall E m items info e, items <> [] -> (forall p, In p items -> clean (fst p) /\ clean (snd p)) ->
  (forall p, In p items -> meta_item_verdict sar p = Accept) ->
  here E (mi_fname info) = inr e -> verdict_of (meta_new E m (flag_list items) info) = Reject.
Proof.
  intros E m items info e NE C A HN. unfold meta_new.
  destruct (sf_set_known (m_header m) "version" "v1" : exists h', _) as (h1 & E1).
  destruct (sf_set_known h1 "frametype" "metadata" : exists h', _) as (h2 & E2).
  destruct (meta_loop items (m_set_header m h2, "") NE C) as [V RL].
  assert (FB : first_bad (map (meta_item_verdict sar) items) = Accept).
  { clear - A. induction items as [|p l IH]; [reflexivity|].
    cbn [map first_bad]. rewrite (A p) by (left; auto). apply IH. intros q Q; apply A; right; auto. }
  rewrite FB in V. apply verdict_accept in V. destruct V as (st' & V). destruct (RL _ V) as (h & SF & ->).
  rewrite E1. cbn [obind]. rewrite E2. cbn [obind]. rewrite V. cbn [obind]. unfold meta_rest. cbn [m_set_header m_header fst].
  pose proof (statfile_spec E (mi_fname info) h) as SFS. rewrite HN in SFS. destruct SFS as [e' ->]. reflexivity.
Qed.

(** C73: without a checksum type among the flags, metadata of a file or directory
    is always refused. *)
Lemma c73_needs_csumtype : forall E m items info m', items <> [] -> (forall p, In p items -> clean (fst p) /\ clean (snd p)) ->
  last_setting items "csumtype" = None ->
  meta_new E m (flag_list items) info = Ret (m', None) -> hd_transfer (m_header m') = 3.
Proof.
  intros E m items info m' NE C NC H. unfold meta_new in H. inv_bind H. inv_bind H.
  destruct (meta_loop items (m_set_header m a0, "") NE C) as [V RL].
  destruct (meta_flags _ _) as [[[m1 c] [e|]]| |] eqn:F; cbn [obind] in H; try discriminate.
  destruct (RL _ eq_refl) as (h & SF & X). inversion X; subst. unfold last_csum in H. rewrite NC in H. cbn [fst snd] in *.
  unfold meta_rest in H. inv_bind H. destruct a1 as [fl|e]; [|discriminate].
  inv_bind H. destruct a1 as [d [e|]]; [discriminate|]. rewrite getstr_transfer in H. cbn [obind m_header] in H.
  destruct (hd_transfer_cases (m_header (m_set_header (m_set_header m a0) h))) as [T|[T|[T|T]]]; rewrite T in H; cbn [transfer_name] in H.
  1-3: exfalso; revert H; eval_eqbs; cbn [negb obind];
       replace (checksum (e_hash E) (e_now E) (e_fs E) (e_cwd E) (e_sardir E) "" (mi_fname info)) with (@None (list byte)); [discriminate|];
       unfold checksum; destruct (or_err _); [reflexivity|]; destruct (or_fp _); reflexivity.
  revert H. eval_eqbs. cbn [negb]. intros H. inversion H; subst. exact T.
Qed.

(** What a built directory entry got from the operating system *)
Lemma dirent_new_inv : forall E d fl path d', dirent_new E d fl path = Ret (d', None) ->
  dh_property (de_header d') < 2 ->
  exists n t0, local_node E path = inl n /\ de_size d' = node_size n mod 2 ^ 64 /\ de_path d' = path /\
    ts_new t0 "epoch2000_32" (n_ctime n) = Ret (de_ctime d', None).
Proof.
  intros E d fl path d' H P. unfold dirent_new in H. inv_bind H.
  destruct (dirent_flags _ _) as [[d1 [e|]]| |]; cbn [ebind obind] in H; try discriminate.
  destruct (Nat.ltb 1024 (slen path)); [discriminate|].
  rewrite dgetstr_property in H. cbn [obind] in H.
  assert (KH : forall d2 e2 X, dirent_statfile X d1 path = Ret (d2, e2) -> de_header d2 = de_header d1).
  { intros d2 e2 X Y. unfold dirent_statfile in Y. inv_bind Y. destruct a0 as [fi|]; [|inversion Y; reflexivity].
    inv_bind Y. destruct a0 as [mt [e|]]; [inversion Y; reflexivity|]. inv_bind Y. destruct a0 as [ct e]. inversion Y; reflexivity. }
  destruct (dh_property_cases (de_header d1)) as [Q|[Q|[Q|Q]]]; rewrite Q in H; cbn [prop_name] in H; rewrite !is_in_one_of in H;
    cbv [is_in existsb] in H; revert H; eval_eqbs; cbn [orb]; intros H.
  1-2: (destruct (dirent_statfile E d1 path) as [[d2 [e|]]| |] eqn:SFI; cbn [ebind obind] in H; try discriminate;
    inversion H; subst d'; clear H; cbn [de_size de_path de_ctime];
    unfold dirent_statfile in SFI; inv_bind SFI; destruct a0 as [fi|]; [|discriminate];
    unfold file_meta in E1; unfold local_node; unfold full in E1;
    destruct (os_lstat (e_fs E) (e_cwd E) (e_sardir E ++ "/" ++ path)) as [n|[]]; try discriminate;
    inv_bind SFI; destruct a0 as [mt [e|]]; [discriminate|];
    inv_bind SFI; destruct a0 as [ct e]; inversion SFI; subst; cbn [de_size de_path de_ctime];
    exists n; eexists; split; [reflexivity|];
    assert (FN : fm_node fi = n) by (destruct (n_kind n); try (inversion E1; reflexivity);
       destruct (os_lstat (e_fs E) (e_cwd E) target); inversion E1; reflexivity);
    rewrite FN in *; split; [reflexivity|]; split; [reflexivity|]; eassumption).
  all: exfalso; inv_bind H; destruct a0 as [d2 [e|]]; try discriminate; cbn [ebind obind] in H; inversion H; subst d'; cbn [de_header] in P;
    revert E1; unfold ebind, obind; destruct (ts_now _ _ _) as [[mt [e|]]| |]; try discriminate; intros E1; inversion E1; subst d2; cbn [de_header] in P; rewrite Q in P; lia.
Qed.

(** C49: metadata built for a file or directory, with whatever flags, has the
    file's change time in both time fields (the modification time is lost). *)
Lemma c49_times : forall E m flags info m', meta_new E m flags info = Ret (m', None) ->
  de_mtime (m_dir m') = de_ctime (m_dir m') /\
  (dh_property (de_header (m_dir m')) < 2 ->
   exists n, local_node E (mi_fname info) = inl n /\ de_size (m_dir m') = node_size n mod 2 ^ 64 /\
     de_path (m_dir m') = mi_fname info /\
     (real_time (n_ctime n) -> (- 2 ^ 63 + 946684800 <= unix_secs (n_ctime n))%Z -> 
      y2k_time (n_ctime n) /\ de_mtime (m_dir m') = y2k_of (n_ctime n) /\ de_ctime (m_dir m') = y2k_of (n_ctime n))).
Proof.
  intros E m flags info m' H. unfold meta_new in H. inv_bind H. inv_bind H.
  destruct (meta_flags _ _) as [[[m1 c] [e|]]| |]; cbn [obind] in H; try discriminate.
  unfold meta_rest in H. inv_bind H. destruct a1 as [fl|e]; [|discriminate].
  inv_bind H. destruct a1 as [d [e|]]; [discriminate|]. inv_bind H. cbn [m_header m_session m_checksum m_dir] in *.
  assert (D : m_dir m' = {| de_header := de_header d; de_size := de_size d; de_mtime := de_ctime d;
                            de_ctime := de_ctime d; de_path := de_path d |}).
  { destruct (negb _); [|inversion H; reflexivity]. cbn [obind] in H. destruct (checksum _ _ _ _ _ _ _); [|discriminate]. inversion H; reflexivity. }
  rewrite D. cbn [de_header de_size de_mtime de_ctime de_path]. split; [reflexivity|]. intros P.
  destruct (dirent_new_inv _ _ _ _ _ E3 P) as (n & t0 & LN & SZ & PA & TS).
  exists n. split; [exact LN|]. split; [exact SZ|]. split; [exact PA|]. intros RT B.
  assert (Y : y2k_time (n_ctime n)).
  { unfold y2k_time. destruct (Z_le_dec 0 (unix_secs (n_ctime n) - 946684800)) as [L1|L1].
    - destruct (Z_lt_dec (unix_secs (n_ctime n) - 946684800) (2 ^ 32)) as [L2|L2]; [lia|].
      destruct (epoch_refused t0 (n_ctime n) RT ltac:(unfold y2k_time; lia) B) as (t' & e & X). congruence.
    - destruct (epoch_refused t0 (n_ctime n) RT ltac:(unfold y2k_time; lia) B) as (t' & e & X). congruence. }
  rewrite epoch_stamp in TS by auto. inversion TS as [TE]. split; [exact Y|]. split; reflexivity.
Qed.

(** C73: the header-based constructor never looks at the file name it is given
    (defect): whatever the name, the outcome is the same, and it is an error unless
    the working directory has a file called "<uint32 Value>". *)
Lemma c73_make : forall E m header s f1 f2,
  meta_make E m header {| mi_session := s; mi_fname := f1 |} = meta_make E m header {| mi_session := s; mi_fname := f2 |} /\
  (forall e, here E "<uint32 Value>" = inr e -> verdict_of (meta_make E m header {| mi_session := s; mi_fname := f1 |}) = Reject).
Proof.
  intros. split; [reflexivity|]. intros e HN. unfold meta_make.
  destruct (sf_set_known header "version" "v1" : exists h', _) as (h1 & E1). rewrite E1. cbn [obind].
  destruct (sf_set_known h1 "frametype" "metadata" : exists h', _) as (h2 & E2). rewrite E2. cbn [obind].
  unfold meta_rest. cbn [m_set_header m_header mi_session].
  pose proof (statfile_spec E "<uint32 Value>" h2) as SFS. rewrite HN in SFS. destruct SFS as [e' ->]. reflexivity.
Qed.

(** ** Concrete cases *)
Definition ex_meta : metadata :=
  {| m_header := 0x22000044; m_session := 9; m_checksum := bytes_of "0123456789abcdef"; m_dir := ex_dirent |}.
Example c46_roundtrip_ex : m_header ex_meta < 2 ^ 32 /\ length (m_checksum ex_meta) = csum_bytes (m_header ex_meta) /\
  exists f b, dirent_encode (m_dir ex_meta) = Ret (Frame b) /\ meta_encode ex_meta = Ret (Frame f) /\ meta_decode zero_metadata f = Ret (ex_meta, None).
Proof. split; [reflexivity|]. split; [reflexivity|]. eexists. eexists. split; [vm_compute; reflexivity|]. split; vm_compute; reflexivity. Qed.
Example c47_4gib_ex :
  let m := {| m_header := 0x22000000; m_session := 9; m_checksum := [];
              m_dir := {| de_header := 0x8080; de_size := 2 ^ 32; de_mtime := y2k 0; de_ctime := y2k 0; de_path := "f" |} |} in
  2 ^ 32 <= de_size (m_dir m) /\ m_header m < 2 ^ 32 /\ length (m_checksum m) = csum_bytes (m_header m) /\
  exists f, meta_encode m = Ret (Frame f) /\ length f = 8%nat.
Proof. cbv zeta. split; [discriminate|]. split; [reflexivity|]. split; [reflexivity|]. eexists. split; vm_compute; reflexivity. Qed.
Example c48_verdict_ex :
  meta_verdict (wire 4 0x22000040 ++ zeros 19) = Crash /\ meta_verdict (wire 4 0x22000040 ++ zeros 20) = Reject /\
  meta_verdict (wire 4 0x22000040 ++ zeros 4 ++ zeros 16 ++ wire 2 0x8080 ++ zeros 12) = Crash /\
  meta_verdict (wire 4 0x22000040 ++ zeros 4 ++ zeros 16 ++ wire 2 0x8080 ++ zeros 16) = Accept.
Proof. vm_compute. auto. Qed.
(** the sardir is the working directory "." : then everything agrees *)
Definition ex_env_dot : env := {| e_fs := ex_fs; e_cwd := ["s"]; e_sardir := "."; e_now := ex_time; e_hash := ex_hash |}.
Example c73_result_ex :
  let items := [("transfer", "file"); ("csumtype", "md5"); ("progress", "inprogress")] in
  map (meta_item_verdict sar) items = [Accept; Accept; Accept] /\
  meta_new ex_env_dot zero_metadata (flag_list items) {| mi_session := 5; mi_fname := "f" |} =
    Ret ({| m_header := 0x22000042; m_session := 5; m_checksum := zeros 16;
            m_dir := {| de_header := 0x8000; de_size := 5; de_mtime := y2k 753315209; de_ctime := y2k 753315209; de_path := "f" |} |}, None) /\
  verdict_of (meta_new ex_env zero_metadata (flag_list items) {| mi_session := 5; mi_fname := "f" |}) = Reject.
Proof. split; [reflexivity|]. split; vm_compute; reflexivity. Qed.
Example c73_bad_item_ex : map (meta_item_verdict sar) [("colour", "red"); ("csumtype", "sha2"); ("csumlen", "md5")] = [Reject; Kill; Reject].
Proof. reflexivity. Qed.
