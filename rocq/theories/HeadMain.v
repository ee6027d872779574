(** * Which part of a header a decoder or an encoder looks at *)

From Verif Require Import GoBase GoFacts Flags SpecFlags FlagsFacts Config Shipped ConfigFacts SpecWire SarFacts Timestamp SpecTime TimeMain Holes Data SpecFrames FrameFacts DataMain Status SpecStatus StatusMain Request SpecRequest RequestMain Beacon SpecBeacon BeaconMain Fileio Dirent SpecDirent FlagsMain DirentMain Metadata SpecMetadata MetadataMain SpecHead.
Local Open Scope string_scope.
Local Open Scope N_scope.

(** ** Reading behind the header *)
Lemma behind_skip : forall k i (f g : list byte), same_behind k f g -> (k <= i)%nat -> skipn i f = skipn i g.
Proof.
  intros k i f g (L & S) H. revert f g i L S H. induction k; intros f g i L S H.
  - cbn in S. subst. reflexivity.
  - destruct f, g; try discriminate L; [reflexivity|]. destruct i; [lia|]. cbn in *. apply IHk; auto; lia.
Qed.
Lemma behind_slice : forall k i j (f g : list byte), same_behind k f g -> (k <= i)%nat -> slice f i j = slice g i j.
Proof. intros k i j f g H L. unfold slice. rewrite (behind_skip k i f g H L). destruct H as (-> & _). reflexivity. Qed.
Lemma behind_slice_from : forall k i (f g : list byte), same_behind k f g -> (k <= i)%nat -> slice_from f i = slice_from g i.
Proof. intros k i f g H L. unfold slice_from. rewrite (behind_skip k i f g H L). destruct H as (-> & _). reflexivity. Qed.
Lemma behind_get : forall k n i j (f g : list byte), same_behind k f g -> (k <= i)%nat -> get_uint n f i j = get_uint n g i j.
Proof. intros k n i j f g H L. unfold get_uint. rewrite (behind_slice k i j f g H L). reflexivity. Qed.
Lemma behind_sym : forall k f g, same_behind k f g -> same_behind k g f.
Proof. intros k f g (A & B). split; congruence. Qed.

Lemma data_rest_alike : forall a b f g pos k need, same_behind 4 f g -> (4 <= pos)%nat -> data_alike a b ->
  ends_alike data_alike (d_offset_payload a f pos k need) (d_offset_payload b g pos k need).
Proof.
  intros a b f g pos k need H P (A1 & A2 & A3 & A4). unfold d_offset_payload.
  rewrite (behind_get 4 k pos (pos + k) f g H P). destruct (get_uint k g pos (pos + k)) as [off| |]; cbn [obind ends_alike]; auto.
  rewrite (behind_slice_from 4 (pos + k) f g H) by lia. destruct (slice_from g (pos + k)) as [pay| |]; cbn [obind ends_alike]; auto.
  destruct (need && Nat.eqb (length pay) 0); cbn [ends_alike]; unfold data_alike; cbn; auto.
Qed.
(** C145: Decoding a data frame uses no part of its header but the descriptor and whether there is a timestamp. *)
Lemma c145_data : forall d f g, same_behind 4 f g ->
  hd_reqtstamp (header_of f) = hd_reqtstamp (header_of g) -> hd_descriptor (header_of f) = hd_descriptor (header_of g) ->
  ends_alike data_alike (data_decode d f) (data_decode d g).
Proof.
  intros d f g S R D. unfold header_of in *. unfold data_decode. pose proof (proj1 S) as EL. rewrite <- EL.
  destruct (Nat.ltb_spec (length f) 10) as [L|L]; [cbn; unfold data_alike; auto|].
  rewrite (get_uint_number 4 f 0 4), (get_uint_number 4 g 0 4) by lia. cbn [obind].
  rewrite (behind_get 4 4 4 8 f g S) by lia. destruct (get_uint 4 g 4 8) as [s| |]; cbn [obind ends_alike]; auto.
  rewrite !getstr_reqtstamp, <- R. cbn [obind d_tstamp]. rewrite (behind_slice 4 8 24 f g S) by lia.
  rewrite !getstr_descriptor, <- D.
  destruct (String.eqb (yes_no (hd_reqtstamp (number_at f 0 4))) "yes").
  - destruct (slice g 8 24) as [tb| |]; cbn [obind ends_alike]; auto.
    destruct (ts_get (d_tstamp d) tb) as [[t [e|]]| |]; cbn [obind ends_alike]; auto; [unfold data_alike; cbn; auto|].
    destruct (hd_descriptor_cases (number_at f 0 4)) as [E|[E|[E|E]]]; rewrite E; cbn [desc_name]; eval_eqbs; cbv iota;
      try (apply data_rest_alike; [exact S|lia|unfold data_alike; cbn; auto]).
    cbn; unfold data_alike; cbn; auto.
  - cbn [obind]. destruct (hd_descriptor_cases (number_at f 0 4)) as [E|[E|[E|E]]]; rewrite E; cbn [desc_name]; eval_eqbs; cbv iota;
      try (apply data_rest_alike; [exact S|lia|unfold data_alike; cbn; auto]).
    cbn; unfold data_alike; cbn; auto.
Qed.

Lemma holes_behind : forall k n f g pos, same_behind 4 f g -> (4 <= pos)%nat -> dec_holes k n f pos = dec_holes k n g pos.
Proof.
  intros k n f g pos S. revert pos. induction n; intros pos P; cbn [dec_holes]; [reflexivity|].
  rewrite (behind_get 4 k pos (pos + k) f g S P), (behind_get 4 k (pos + k) (pos + k + k) f g S) by lia. rewrite IHn by lia. reflexivity.
Qed.
Lemma status_rest_alike : forall a b f g pos k, same_behind 4 f g -> (4 <= pos)%nat -> status_alike a b ->
  ends_alike status_alike (s_fields a f pos k) (s_fields b g pos k).
Proof.
  intros a b f g pos k S P (A1 & A2 & A3 & A4 & A5). unfold s_fields.
  rewrite (behind_get 4 k pos (pos + k) f g S P), (behind_get 4 k (pos + k) (pos + k + k) f g S) by lia.
  destruct (get_uint k g pos (pos + k)) as [p| |]; cbn [obind ends_alike]; auto.
  destruct (get_uint k g (pos + k) (pos + k + k)) as [i| |]; cbn [obind ends_alike]; auto.
  rewrite (behind_slice_from 4 (pos + k + k) f g S) by lia. destruct (slice_from g (pos + k + k)) as [r| |]; cbn [obind ends_alike]; auto.
  rewrite (holes_behind k _ f g (pos + k + k) S) by lia.
  destruct (dec_holes k (length r / 2 / k) g (pos + k + k)) as [hs| |]; cbn [obind ends_alike]; auto.
  unfold status_alike. cbn. rewrite A5. repeat split; auto.
Qed.
(** C145: Decoding a status uses no part of its header but the descriptor and whether there is a timestamp. *)
Lemma c145_status : forall s f g, same_behind 4 f g ->
  hd_reqtstamp (header_of f) = hd_reqtstamp (header_of g) -> hd_descriptor (header_of f) = hd_descriptor (header_of g) ->
  ends_alike status_alike (status_decode s f) (status_decode s g).
Proof.
  intros d f g S R D. unfold header_of in *. unfold status_decode. pose proof (proj1 S) as EL. rewrite <- EL.
  destruct (Nat.ltb_spec (length f) 12) as [L|L]; [cbn; unfold status_alike; repeat split; reflexivity|].
  rewrite (get_uint_number 4 f 0 4), (get_uint_number 4 g 0 4) by lia. cbn [obind].
  rewrite (behind_get 4 4 4 8 f g S) by lia. destruct (get_uint 4 g 4 8) as [s| |]; cbn [obind ends_alike]; auto.
  rewrite !getstr_reqtstamp, <- R. cbn [obind s_tstamp]. rewrite (behind_slice 4 8 24 f g S) by lia.
  rewrite !getstr_descriptor, <- D.
  destruct (String.eqb (yes_no (hd_reqtstamp (number_at f 0 4))) "yes").
  - destruct (slice g 8 24) as [tb| |]; cbn [obind ends_alike]; auto.
    destruct (ts_get (s_tstamp d) tb) as [[t [e|]]| |]; cbn [obind ends_alike]; auto; [unfold status_alike; cbn; repeat split; reflexivity|].
    destruct (hd_descriptor_cases (number_at f 0 4)) as [E|[E|[E|E]]]; rewrite E; cbn [desc_name]; eval_eqbs; cbv iota;
      try (apply status_rest_alike; [exact S|lia|unfold status_alike; cbn; repeat split; reflexivity]).
    cbn; unfold status_alike; cbn; repeat split; reflexivity.
  - cbn [obind]. destruct (hd_descriptor_cases (number_at f 0 4)) as [E|[E|[E|E]]]; rewrite E; cbn [desc_name]; eval_eqbs; cbv iota;
      try (apply status_rest_alike; [exact S|lia|unfold status_alike; cbn; repeat split; reflexivity]).
    cbn; unfold status_alike; cbn; repeat split; reflexivity.
Qed.
(** C145: Decoding a request uses no part of its header. *)
Lemma c145_request : forall r f g, same_behind 4 f g -> ends_alike request_alike (request_decode r f) (request_decode r g).
Proof.
  intros r f g S. unfold request_decode. pose proof (proj1 S) as EL. rewrite <- EL.
  destruct (Nat.ltb_spec (length f) 9) as [L|L]; [cbn; unfold request_alike; auto|].
  rewrite (get_uint_number 4 f 0 4), (get_uint_number 4 g 0 4) by lia. cbn [obind].
  rewrite (behind_get 4 4 4 8 f g S) by lia. destruct (get_uint 4 g 4 8) as [s| |]; cbn [obind ends_alike]; auto.
  rewrite (behind_slice_from 4 8 f g S) by lia. destruct (slice_from g 8) as [t| |]; cbn [obind ends_alike]; auto.
  destruct (Nat.eqb _ _); [cbn; unfold request_alike; cbn; auto|].
  rewrite (behind_slice_from 4 _ f g S) by (rewrite Nat.add_comm; lia).
  destruct (slice_from g _) as [a| |]; cbn [obind ends_alike]; auto. unfold request_alike; cbn; auto.
Qed.
(** C145: Decoding a beacon uses no part of its header but whether there is free space and, if so, its descriptor. *)
Lemma c145_beacon : forall b f g, same_behind 4 f g ->
  hd_freespace (header_of f) = hd_freespace (header_of g) ->
  (hd_freespace (header_of f) = 1 -> hd_freespaced (header_of f) = hd_freespaced (header_of g)) ->
  ends_alike beacon_alike (beacon_decode b f) (beacon_decode b g).
Proof.
  intros b f g S R D. unfold header_of in *. unfold beacon_decode. pose proof (proj1 S) as EL.
  destruct (Nat.ltb_spec (length f) 4) as [L|L].
  { assert (X : forall h, (length h < 4)%nat -> get_uint 4 h 0 4 = Panic).
    { intros h Hh. unfold get_uint, slice. change (0 <=? 4)%nat with true. cbn [andb].
      destruct (Nat.leb_spec 4 (length h)); [lia|reflexivity]. }
    rewrite (X f), (X g) by lia. exact I. }
  rewrite (get_uint_number 4 f 0 4), (get_uint_number 4 g 0 4) by lia. cbn [obind].
  rewrite !getstr_freespace, <- R. cbn [obind].
  assert (SP : forall k, ends_alike beacon_alike (b_space_eid (b_set_header b (number_at f 0 4)) f k) (b_space_eid (b_set_header b (number_at g 0 4)) g k)).
  { intros k. unfold b_space_eid. rewrite (behind_get 4 k 4 (4 + k) f g S) by lia.
    destruct (get_uint k g 4 (4 + k)) as [fr| |]; cbn [obind ends_alike]; auto.
    rewrite (behind_slice_from 4 (4 + k) f g S) by lia. destruct (slice_from g (4 + k)) as [ei| |]; cbn [obind ends_alike]; auto.
    unfold beacon_alike; cbn; auto. }
  destruct (hd_freespace_cases (number_at f 0 4)) as [E|E]; rewrite E; cbn [yes_no]; unfold yes_no;
    [change (0 =? 0) with true | change (1 =? 0) with false]; cbv iota; eval_eqbs; cbv iota.
  - rewrite (behind_slice_from 4 4 f g S) by lia. destruct (slice_from g 4); cbn [obind ends_alike]; auto. unfold beacon_alike; cbn; auto.
  - rewrite !getstr_freespaced, <- (D E). cbn [obind].
    destruct (hd_freespaced_cases (number_at f 0 4)) as [E'|[E'|[E'|E']]]; rewrite E'; cbn [desc_name]; eval_eqbs; cbv iota;
      try apply SP. cbn. unfold beacon_alike; cbn; auto.
Qed.
(** C145: Decoding a directory entry uses no part of its header but the descriptor. *)
Lemma c145_entry : forall d f g, same_behind 2 f g -> dh_descriptor (number_at f 0 2) = dh_descriptor (number_at g 0 2) ->
  ends_alike entry_alike (dirent_decode d f) (dirent_decode d g).
Proof.
  intros d f g S D. unfold dirent_decode. pose proof (proj1 S) as EL. rewrite <- EL.
  destruct (Nat.ltb_spec (length f) 12) as [L|L]; [cbn; unfold entry_alike; auto|].
  rewrite (get_uint_number 2 f 0 2), (get_uint_number 2 g 0 2) by lia. cbn [obind].
  rewrite !dgetstr_descriptor, <- D. cbn [obind].
  assert (T : forall k, ends_alike entry_alike (de_size_rest (de_set_header d (number_at f 0 2)) f k) (de_size_rest (de_set_header d (number_at g 0 2)) g k)).
  { intros k. unfold de_size_rest. rewrite (behind_get 2 k 2 (2 + k) f g S) by lia.
    destruct (get_uint k g 2 (2 + k)) as [sz| |]; cbn [obind ends_alike]; auto.
    unfold de_times_path. destruct (st_set sar 0 "epoch2000_32") as [t5| |]; cbn [obind ends_alike]; auto.
    rewrite (behind_slice 2 (2 + k) (2 + k + 4) f g S) by lia.
    destruct (slice g (2 + k) (2 + k + 4)) as [mb| |]; cbn [obind ends_alike]; auto.
    destruct (copy_from _ 1 mb) as [ts| |]; cbn [obind ends_alike]; auto. cbn [de_mtime de_set_header de_ctime de_header de_size de_path].
    destruct (ts_get (de_mtime d) ts) as [[mt [e|]]| |]; cbn [obind ends_alike]; auto; [unfold entry_alike; cbn; auto|].
    rewrite (behind_slice 2 (2 + k + 4) (2 + k + 4 + 4) f g S) by lia.
    destruct (slice g (2 + k + 4) (2 + k + 4 + 4)) as [cb| |]; cbn [obind ends_alike]; auto.
    destruct (copy_from _ 1 cb) as [ts'| |]; cbn [obind ends_alike]; auto.
    destruct (ts_get (de_ctime d) ts') as [[ct [e|]]| |]; cbn [obind ends_alike]; auto; [unfold entry_alike; cbn; auto|].
    rewrite (behind_slice_from 2 (2 + k + 4 + 4) f g S) by lia.
    destruct (slice_from g (2 + k + 4 + 4)) as [tl| |]; cbn [obind ends_alike]; auto. unfold entry_alike; cbn; auto. }
  destruct (dh_descriptor_cases (number_at f 0 2)) as [E|[E|[E|E]]]; rewrite E; cbn [desc_name]; eval_eqbs; cbv iota; try apply T.
  cbn. unfold entry_alike; cbn; auto.
Qed.
(** C145: Decoding metadata uses no part of its header but the length of the checksum. *)
Lemma c145_metadata : forall m f g, same_behind 4 f g -> hd_csumlen (header_of f) = hd_csumlen (header_of g) ->
  ends_alike metadata_alike (meta_decode m f) (meta_decode m g).
Proof.
  intros m f g S D. unfold header_of in *. unfold meta_decode. pose proof (proj1 S) as EL. rewrite <- EL.
  destruct (Nat.ltb_spec (length f) 8) as [L|L]; [cbn; unfold metadata_alike; auto|].
  rewrite (get_uint_number 4 f 0 4), (get_uint_number 4 g 0 4) by lia. cbn [obind].
  rewrite (behind_get 4 4 4 8 f g S) by lia. destruct (get_uint 4 g 4 8) as [s| |]; cbn [obind ends_alike]; auto.
  rewrite !get_csumlen, <- D. set (c := (N.to_nat (hd_csumlen (number_at f 0 4)) * 4)%nat).
  rewrite (behind_slice 4 8 (8 + c) f g S) by lia. destruct (slice g 8 (8 + c)) as [cs| |]; cbn [obind ends_alike]; auto.
  rewrite (behind_slice_from 4 (8 + c) f g S) by lia. destruct (slice_from g (8 + c)) as [t| |]; cbn [obind ends_alike]; auto.
  destruct (dirent_decode (m_dir m) t) as [[d e]| |]; cbn [obind ends_alike]; auto. unfold metadata_alike; cbn; auto.
Qed.

(** ** The first byte: version and type *)
Lemma behind_weaken : forall i j f g, same_behind i f g -> (i <= j)%nat -> same_behind j f g.
Proof. intros i j f g H L. split; [apply H|]. eapply behind_skip; eauto. Qed.
Lemma number_split : forall f, (4 <= length f)%nat -> number_at f 0 4 = number_at f 0 1 * 2 ^ 24 + number_at f 1 3.
Proof.
  intros f L. destruct f as [|a [|b [|c [|d f]]]]; cbn [length] in L; try lia. unfold number_at. cbn [firstn skipn fold_left].
  change (2 ^ 24) with (256 * 256 * 256). lia.
Qed.
Lemma low_bits : forall msb len a b r, 8 <= msb -> msb + len <= 32 -> r < 2 ^ 24 -> bit_field 32 msb len (a * 2 ^ 24 + r) = bit_field 32 msb len (b * 2 ^ 24 + r).
Proof.
  intros msb len a b r M W R. unfold bit_field. set (s := 32 - msb - len).
  assert (E : 2 ^ 24 = 2 ^ (24 - s) * 2 ^ s) by (rewrite <- N.pow_add_r; f_equal; unfold s; lia).
  assert (P : 2 ^ s <> 0) by (apply N.pow_nonzero; lia).
  assert (Q : forall x, (x * 2 ^ 24 + r) / 2 ^ s = x * 2 ^ (24 - s) + r / 2 ^ s).
  { intros x. rewrite E, N.mul_assoc, N.add_comm, N.div_add by auto. apply N.add_comm. }
  rewrite !Q. assert (E2 : 2 ^ (24 - s) = 2 ^ (24 - s - len) * 2 ^ len) by (rewrite <- N.pow_add_r; f_equal; unfold s; lia).
  rewrite E2, !N.mul_assoc, !(N.add_comm _ (r / 2 ^ s)). rewrite !N.mod_add by (apply N.pow_nonzero; lia). reflexivity.
Qed.
Lemma first_byte : forall f g msb len, same_behind 1 f g -> (4 <= length f)%nat -> 8 <= msb -> msb + len <= 32 ->
  bit_field 32 msb len (header_of f) = bit_field 32 msb len (header_of g).
Proof.
  intros f g msb len S L M W. unfold header_of. pose proof (proj1 S) as EL. rewrite !number_split by lia.
  assert (E : number_at f 1 3 = number_at g 1 3) by (unfold number_at; rewrite (behind_skip 1 1 f g S) by lia; reflexivity).
  rewrite E. apply low_bits; auto. exact (number_at_bound g 1 3).
Qed.
(** C145: The first byte of a datagram, its version and its type, changes nothing in what any of the five decoders does. *)
Lemma c145_any_type : forall f g, same_behind 1 f g ->
  (forall d, ends_alike data_alike (data_decode d f) (data_decode d g))
  /\ (forall s, ends_alike status_alike (status_decode s f) (status_decode s g))
  /\ (forall r, ends_alike request_alike (request_decode r f) (request_decode r g))
  /\ (forall b, ends_alike beacon_alike (beacon_decode b f) (beacon_decode b g))
  /\ (forall m, ends_alike metadata_alike (meta_decode m f) (meta_decode m g)).
Proof.
  intros f g S. pose proof (proj1 S) as EL. assert (S4 : same_behind 4 f g) by (apply (behind_weaken 1); [exact S|lia]).
  destruct (Nat.ltb_spec (length f) 4) as [L|L].
  - assert (X : forall h, (length h < 4)%nat -> get_uint 4 h 0 4 = Panic).
    { intros h Hh. unfold get_uint, slice. change (0 <=? 4)%nat with true. cbn [andb].
      destruct (Nat.leb_spec 4 (length h)); [lia|reflexivity]. }
    assert (B : forall n, (4 <= n)%nat -> Nat.ltb (length f) n = true) by (intros n Hn; apply Nat.ltb_lt; lia).
    split; [|split; [|split; [|split]]]; intros x.
    + unfold data_decode. rewrite <- EL, B by lia. cbn. unfold data_alike. auto.
    + unfold status_decode. rewrite <- EL, B by lia. cbn. unfold status_alike. repeat split.
    + unfold request_decode. rewrite <- EL, B by lia. cbn. unfold request_alike. auto.
    + unfold beacon_decode. rewrite (X f), (X g) by lia. exact I.
    + unfold meta_decode. rewrite <- EL, B by lia. cbn. unfold metadata_alike. auto.
  - split; [|split; [|split; [|split]]]; intros x.
    + apply c145_data; auto; apply first_byte; auto; lia.
    + apply c145_status; auto; apply first_byte; auto; lia.
    + apply c145_request; auto.
    + apply c145_beacon; auto; [|intros _]; apply first_byte; auto; lia.
    + apply c145_metadata; auto; apply first_byte; auto; lia.
Qed.

(** ** Writing behind the header *)
Definition pre (H : list byte) (o : outcome (list byte)) : outcome (list byte) :=
  match o with Ret t => Ret (H ++ t)%list | Panic => Panic | Fatal => Fatal end.
Lemma overwrite_pre : forall (H T : list byte) i s, (length H <= i)%nat -> overwrite (H ++ T) i s = (H ++ overwrite T (i - length H) s)%list.
Proof.
  intros H T i s L. unfold overwrite. rewrite firstn_app, skipn_app, firstn_all2, (skipn_all2 (n := i + length s) H) by lia.
  rewrite <- !app_assoc. cbn [app]. do 3 f_equal. f_equal. lia.
Qed.
Lemma put_pre : forall k H T i j v, (length H <= i)%nat -> (i <= j)%nat ->
  put_uint k (H ++ T) i j v = pre H (put_uint k T (i - length H) (j - length H) v).
Proof.
  intros k H T i j v L M. unfold put_uint. rewrite app_length.
  replace (i <=? j)%nat with true by (symmetry; apply Nat.leb_le; lia).
  replace (i - length H <=? j - length H)%nat with true by (symmetry; apply Nat.leb_le; lia).
  replace (j <=? length H + length T)%nat with (j - length H <=? length T)%nat
    by (destruct (Nat.leb_spec (j - length H) (length T)), (Nat.leb_spec j (length H + length T)); try reflexivity; lia).
  replace (j - length H - (i - length H))%nat with (j - i)%nat by lia.
  destruct (_ && _); [|reflexivity]. cbn [pre]. rewrite overwrite_pre by lia. reflexivity.
Qed.
Lemma copy_pre : forall H T i j s, (length H <= i)%nat -> (i <= j)%nat ->
  copy_range (H ++ T) i j s = pre H (copy_range T (i - length H) (j - length H) s).
Proof.
  intros H T i j s L M. unfold copy_range. rewrite app_length.
  replace (i <=? j)%nat with true by (symmetry; apply Nat.leb_le; lia).
  replace (i - length H <=? j - length H)%nat with true by (symmetry; apply Nat.leb_le; lia).
  replace (j <=? length H + length T)%nat with (j - length H <=? length T)%nat
    by (destruct (Nat.leb_spec (j - length H) (length T)), (Nat.leb_spec j (length H + length T)); try reflexivity; lia).
  replace (j - length H - (i - length H))%nat with (j - i)%nat by lia.
  destruct (_ && _); [|reflexivity]. cbn [pre]. rewrite overwrite_pre by lia. reflexivity.
Qed.
Lemma copy_from_pre : forall H T i s, (length H <= i)%nat -> copy_from (H ++ T) i s = pre H (copy_from T (i - length H) s).
Proof.
  intros H T i s L. unfold copy_from. rewrite app_length.
  replace (i <=? length H + length T)%nat with (i - length H <=? length T)%nat
    by (destruct (Nat.leb_spec (i - length H) (length T)), (Nat.leb_spec i (length H + length T)); try reflexivity; lia).
  replace (length T - (i - length H))%nat with (length H + length T - i)%nat by lia.
  destruct (_ <=? _)%nat; [|reflexivity]. cbn [pre]. rewrite overwrite_pre by lia. reflexivity.
Qed.
Lemma holes_pre : forall k hs H T i, (length H <= i)%nat -> enc_holes k hs (H ++ T) i = pre H (enc_holes k hs T (i - length H)).
Proof.
  intros k hs. induction hs as [|h hs IH]; intros H T i L; cbn [enc_holes]; [reflexivity|].
  rewrite put_pre by lia. replace (i + k - length H)%nat with (i - length H + k)%nat by lia.
  destruct (put_uint k T _ _ _) as [t| |]; cbn [pre obind]; try reflexivity.
  rewrite put_pre by lia. replace (i + k - length H)%nat with (i - length H + k)%nat by lia.
  replace (i + k + k - length H)%nat with (i - length H + k + k)%nat by lia.
  destruct (put_uint k t _ _ _) as [t'| |]; cbn [pre obind]; try reflexivity.
  rewrite IH by lia. do 2 f_equal. lia.
Qed.
Lemma put_head : forall k n h, (k <= n)%nat -> put_uint k (make_bytes n) 0 k h = Ret (wire k h ++ make_bytes (n - k))%list.
Proof.
  intros k n h L. unfold put_uint, make_bytes. rewrite repeat_length. rewrite Nat.sub_0_r, Nat.leb_refl.
  replace (k <=? n)%nat with true by (symmetry; apply Nat.leb_le; lia). cbn [andb Nat.leb].
  unfold overwrite. cbn [firstn app Nat.add]. rewrite <- wire_be, wire_length. do 2 f_equal.
  replace n with (k + (n - k))%nat at 1 by lia. rewrite repeat_app, skipn_app, repeat_length, skipn_all2 by (rewrite repeat_length; lia).
  rewrite Nat.sub_diag. reflexivity.
Qed.
Ltac wstep := match goal with
  | |- encodes_alike _ _ _ (obind (put_uint ?k (wire ?a ?h ++ ?T) ?i ?j ?v) _) _ =>
      rewrite !(put_pre k) by (rewrite ?wire_length; lia); rewrite !wire_length;
      destruct (put_uint k T (i - a) (j - a) v) as [?t| |]; cbn [pre obind encodes_alike]; auto
  | |- encodes_alike _ _ _ (obind (copy_range (wire ?a ?h ++ ?T) ?i ?j ?v) _) _ =>
      rewrite !copy_pre by (rewrite ?wire_length; lia); rewrite !wire_length;
      destruct (copy_range T (i - a) (j - a) v) as [?t| |]; cbn [pre obind encodes_alike]; auto
  | |- encodes_alike _ _ _ (obind (copy_from (wire ?a ?h ++ ?T) ?i ?v) _) _ =>
      rewrite !copy_from_pre by (rewrite ?wire_length; lia); rewrite !wire_length;
      destruct (copy_from T (i - a) v) as [?t| |]; cbn [pre obind encodes_alike]; auto
  | |- encodes_alike _ _ _ (obind (enc_holes ?k ?hs (wire ?a ?h ++ ?T) ?i) _) _ =>
      rewrite !holes_pre by (rewrite ?wire_length; lia); rewrite !wire_length;
      destruct (enc_holes k hs T (i - a)) as [?t| |]; cbn [pre obind encodes_alike]; auto
  | |- exists rest, _ => eexists; split; reflexivity
  end.
(** C145: Encoding a data frame uses no other part of its header either; the header is copied to the front. *)
Lemma c145_data_out : forall d h', hd_reqtstamp (d_header d) = hd_reqtstamp h' -> hd_descriptor (d_header d) = hd_descriptor h' ->
  encodes_alike 4 (d_header d) h' (data_encode d)
    (data_encode {| d_header := h'; d_session := d_session d; d_tstamp := d_tstamp d; d_offset := d_offset d; d_payload := d_payload d |}).
Proof.
  intros d h' R D. unfold data_encode. cbn [d_header d_session d_tstamp d_offset d_payload].
  rewrite !getstr_reqtstamp, !getstr_descriptor, <- R, <- D. cbn [obind].
  destruct (String.eqb (yes_no (hd_reqtstamp (d_header d))) "yes");
    (destruct (hd_descriptor_cases (d_header d)) as [E|[E|[E|E]]]; rewrite E; cbn [desc_name one_of existsb]; eval_eqbs; cbn [negb orb]; cbv iota);
    try reflexivity; rewrite !put_head by lia; cbn [obind]; wstep.
  1-3: destruct (ts_put (d_tstamp d)) as [tb| |]; cbn [obind encodes_alike]; auto; rewrite !copy_pre by (rewrite ?wire_length; lia); rewrite !wire_length;
      match goal with |- context [copy_range ?T ?i ?j ?v] => destruct (copy_range T i j v) as [t'| |]; cbn [pre obind encodes_alike]; auto end.
  all: rewrite !put_pre by (rewrite ?wire_length; lia); rewrite !wire_length;
    match goal with |- context [put_uint ?k ?T ?i ?j ?v] => destruct (put_uint k T i j v) as [t2| |]; cbn [pre obind encodes_alike]; auto end;
    wstep; wstep.
Qed.
(** C145: Likewise for a status. *)
Lemma c145_status_out : forall s h', hd_reqtstamp (s_header s) = hd_reqtstamp h' -> hd_descriptor (s_header s) = hd_descriptor h' ->
  encodes_alike 4 (s_header s) h' (status_encode s)
    (status_encode {| s_header := h'; s_session := s_session s; s_tstamp := s_tstamp s; s_progress := s_progress s; s_inrespto := s_inrespto s; s_holes := s_holes s |}).
Proof.
  intros d h' R D. unfold status_encode. cbn [s_header s_session s_tstamp s_progress s_inrespto s_holes].
  rewrite !getstr_reqtstamp, !getstr_descriptor, <- R, <- D. cbn [obind].
  destruct (hd_descriptor_cases (s_header d)) as [E|[E|[E|E]]]; rewrite E; cbn [desc_name one_of existsb]; eval_eqbs; cbn [negb orb]; cbv iota;
    try reflexivity; rewrite !put_head by lia; cbn [obind]; repeat wstep.
Qed.
(** C145: Encoding a request uses no part of its header. *)
Lemma c145_request_out : forall r h',
  encodes_alike 4 (r_header r) h' (request_encode r)
    (request_encode {| r_header := h'; r_session := r_session r; r_fname := r_fname r; r_auth := r_auth r |}).
Proof.
  intros r h'. unfold request_encode. cbn [r_header r_session r_fname r_auth].
  rewrite !put_head by lia; cbn [obind]. wstep. wstep. wstep. destruct (r_auth r); cbn [obind encodes_alike]; repeat wstep.
Qed.
(** C145: Encoding a beacon uses only whether there is free space and, if so, its descriptor. *)
Lemma c145_beacon_out : forall b h', hd_freespace (b_header b) = hd_freespace h' ->
  (hd_freespace h' = 1 -> hd_freespaced (b_header b) = hd_freespaced h') ->
  encodes_alike 4 (b_header b) h' (beacon_encode b)
    (beacon_encode {| b_header := h'; b_freespace := b_freespace b; b_eid := b_eid b |}).
Proof.
  intros b h' R D. unfold beacon_encode. cbn [b_header b_freespace b_eid]. rewrite !getstr_freespace, R. cbn [obind].
  destruct (hd_freespace_cases h') as [E|E]; rewrite E; unfold yes_no;
    [change (0 =? 0) with true | change (1 =? 0) with false]; cbv iota; eval_eqbs; cbv iota.
  - cbn [obind]. rewrite !put_head by lia; cbn [obind]. repeat wstep.
  - rewrite !getstr_freespaced, <- (D E). cbn [obind].
    destruct (hd_freespaced_cases (b_header b)) as [E'|[E'|[E'|E']]]; rewrite E'; cbn [desc_name]; eval_eqbs; cbv iota;
      try reflexivity; rewrite !put_head by lia; cbn [obind];
    rewrite !put_pre by (rewrite ?wire_length; lia); rewrite !wire_length;
    match goal with |- context [put_uint ?k ?T ?i ?j ?v] => destruct (put_uint k T i j v) as [t2| |]; cbn [pre obind encodes_alike]; auto end;
    wstep; wstep.
Qed.
(** C145: Encoding a directory entry uses only the descriptor. *)
Lemma c145_entry_out : forall d h', dh_descriptor (de_header d) = dh_descriptor h' ->
  encodes_alike 2 (de_header d) h' (dirent_encode d)
    (dirent_encode {| de_header := h'; de_size := de_size d; de_mtime := de_mtime d; de_ctime := de_ctime d; de_path := de_path d |}).
Proof.
  intros d h' D. unfold dirent_encode. cbn [de_header de_size de_mtime de_ctime de_path]. rewrite !dgetstr_descriptor, <- D. cbn [obind].
  destruct (dh_descriptor_cases (de_header d)) as [E|[E|[E|E]]]; rewrite E; cbn [desc_name one_of existsb]; eval_eqbs; cbn [negb orb]; cbv iota;
    (destruct (Nat.ltb 1024 (slen (de_path d))); [reflexivity|]); rewrite !put_head by lia; cbn [obind Nat.eqb]; try reflexivity;
    (destruct (_ <? de_size d); [reflexivity|]);
    rewrite !put_pre by (rewrite ?wire_length; lia); rewrite !wire_length;
    match goal with |- context [put_uint ?k ?T ?i ?j ?v] => destruct (put_uint k T i j v) as [t2| |]; cbn [pre obind encodes_alike]; auto end;
    repeat wstep.
Qed.
(** C145: Encoding metadata uses no part of its header, not even the length of the checksum. *)
Lemma c145_metadata_out : forall m h',
  encodes_alike 4 (m_header m) h' (meta_encode m)
    (meta_encode {| m_header := h'; m_session := m_session m; m_checksum := m_checksum m; m_dir := m_dir m |}).
Proof.
  intros m h'. unfold meta_encode. cbn [m_header m_session m_checksum m_dir].
  destruct (dirent_encode (m_dir m)) as [er| |]; cbn [obind encodes_alike]; auto.
  rewrite !put_head by lia; cbn [obind]. wstep. destruct (Nat.ltb 0 (length (m_checksum m))); cbn [obind encodes_alike]; repeat wstep.
Qed.

(** C145 example: each of the named parts does matter: changing it alone changes what a decoder gives *)
Definition ex_frame (h : N) (n : nat) : list byte := (wire 4 h ++ wire 4 7 ++ wire 1 5 ++ repeat (ascii_of_N 65) n)%list.
Definition ex_offset (r : outcome (data * error)) : option (N * nat * bool) :=
  match r with Ret (d, e) => Some (d_offset d, length (d_payload d), match e with Some _ => true | None => false end) | _ => None end.
Definition ex_space (r : outcome (beacon * error)) : option (N * nat) := match r with Ret (b, None) => Some (b_freespace b, slen (b_eid b)) | _ => None end.
Definition ex_csum (r : outcome (metadata * error)) : option nat := match r with Ret (m, _) => Some (length (m_checksum m)) | _ => None end.
Definition ex_progress (r : outcome (status * error)) : option (N * nat) := match r with Ret (s, None) => Some (s_progress s, length (s_holes s)) | _ => None end.
Definition ex_desize (r : outcome (dirent * error)) : option N := match r with Ret (d, None) => Some (de_size d) | _ => None end.
Example c145_ex :
  (* data: descriptor 16, 32 bits, and a timestamp *)
  ex_offset (data_decode zero_data (ex_frame 0 40)) = Some (1345, 39%nat, false)
  /\ ex_offset (data_decode zero_data (ex_frame (2 ^ 22) 40)) = Some (88162625, 37%nat, false)
  /\ ex_offset (data_decode zero_data (ex_frame (2 ^ 19) 40)) = Some (16705, 23%nat, false)
  (* another version, type and end of data: no difference *)
  /\ ex_offset (data_decode zero_data (ex_frame (255 * 2 ^ 24 + 3 * 2 ^ 20 + 65535) 40)) = Some (1345, 39%nat, false)
  /\ ex_progress (status_decode zero_status (ex_frame 0 40)) = Some (1345, 9%nat)
  /\ ex_progress (status_decode zero_status (ex_frame (2 ^ 22) 40)) = Some (88162625, 4%nat)
  /\ ex_progress (status_decode zero_status (ex_frame (2 ^ 19) 40)) = Some (16705, 5%nat)
  /\ ex_space (beacon_decode zero_beacon (ex_frame 0 4)) = Some (0, 9%nat)
  /\ ex_space (beacon_decode zero_beacon (ex_frame (2 ^ 14) 4)) = Some (0, 7%nat)
  /\ ex_space (beacon_decode zero_beacon (ex_frame (2 ^ 14 + 2 ^ 12) 4)) = Some (7, 5%nat)
  /\ ex_csum (meta_decode zero_metadata (ex_frame 0 40)) = Some 0%nat
  /\ ex_csum (meta_decode zero_metadata (ex_frame (2 * 2 ^ 4) 40)) = Some 8%nat
  /\ ex_desize (dirent_decode zero_dirent (ex_frame 3 40)) = Some 3
  /\ ex_desize (dirent_decode zero_dirent (ex_frame (2 ^ 22 + 3) 40)) = Some 196608.
Proof. vm_compute. repeat split. Qed.
