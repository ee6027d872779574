(** * The properties of directory entries *)

From Verif Require Import GoBase GoFacts Flags SpecFlags FlagsFacts Config Shipped ConfigFacts SpecWire SarFacts Timestamp SpecTime TimeMain Data Request SpecFrames FrameFacts FlagStrFacts BuildFacts SpecRequest RequestMain Fileio Dirent SpecDirent.
Local Open Scope string_scope.
Local Open Scope N_scope.

Lemma dgetstr_descriptor : forall h, sd_getstr sar h "descriptor" = Ret (desc_name (dh_descriptor h)).
Proof.
  intros h. erewrite dgetstr_field by (vm_compute; reflexivity). cbn [f_opts f_msb f_len].
  unfold dh_descriptor. bf2 (bit_field 16 8 2 h). destruct H as [E|[E|[E|E]]]; rewrite E; reflexivity.
Qed.
Definition prop_name (v : N) : string :=
  match v with 0 => "normalfile" | 1 => "normaldirectory" | 2 => "specialfile" | _ => "specialdirectory" end.
Lemma dgetstr_property : forall h, sd_getstr sar h "property" = Ret (prop_name (dh_property h)).
Proof.
  intros h. erewrite dgetstr_field by (vm_compute; reflexivity). cbn [f_opts f_msb f_len].
  unfold dh_property. bf2 (bit_field 16 6 2 h). destruct H as [E|[E|[E|E]]]; rewrite E; reflexivity.
Qed.
Lemma dh_descriptor_cases : forall h, dh_descriptor h = 0 \/ dh_descriptor h = 1 \/ dh_descriptor h = 2 \/ dh_descriptor h = 3.
Proof. intros. unfold dh_descriptor. bf2 (bit_field 16 8 2 h). auto. Qed.
Lemma dh_property_cases : forall h, dh_property h = 0 \/ dh_property h = 1 \/ dh_property h = 2 \/ dh_property h = 3.
Proof. intros. unfold dh_property. bf2 (bit_field 16 6 2 h). auto. Qed.

(** C44: what encoding a directory entry gives, for every entry: the documented
    bytes, or an error. *)
Lemma c44_encode : forall d,
  match descriptor_width (dh_descriptor (de_header d)) with
  | None => exists e, dirent_encode d = Ret (EncErr e)
  | Some w =>
      if Nat.leb (slen (de_path d)) 1024 && (de_size d <? size_limit w)
      then dirent_encode d = Ret (Frame (dirent_wire (de_header d) w (de_size d) (t_secs (de_mtime d)) (t_secs (de_ctime d)) (de_path d)))
      else exists e, dirent_encode d = Ret (EncErr e)
  end.
Proof.
  intros d. unfold dirent_encode, dirent_wire, size_limit. rewrite dgetstr_descriptor. cbn [obind].
  assert (LP : length (bytes_of (de_path d)) = slen (de_path d)) by apply bytes_of_length.
  destruct (dh_descriptor_cases (de_header d)) as [E|[E|[E|E]]]; rewrite E; cbn [descriptor_width desc_name];
    cbn [one_of existsb]; eval_eqbs; cbn [orb negb]; cbv iota zeta;
    (destruct (Nat.ltb_spec 1024 (slen (de_path d))) as [L|L];
     [replace (slen (de_path d) <=? 1024)%nat with false by (symmetry; apply Nat.leb_gt; lia); cbn [andb]; try (eexists; reflexivity)
     |replace (slen (de_path d) <=? 1024)%nat with true by (symmetry; apply Nat.leb_le; lia); cbn [andb]; cbn [Nat.eqb]]);
    (match goal with |- context[make_bytes ?n] => change (make_bytes n) with ([] ++ make_bytes n)%list end);
    fstep;
    [destruct (N.ltb_spec MaxUint16 (de_size d)) as [S|S]; cbn [obind] |
     destruct (N.ltb_spec MaxUint32 (de_size d)) as [S|S]; cbn [obind] |
     destruct (N.ltb_spec MaxUint32 (de_size d)) as [S|S]; cbn [obind] |
     eexists; reflexivity];
    unfold MaxUint16, MaxUint32 in S; change (2 ^ 16) with 65536; change (2 ^ 32) with 4294967296;
    [replace (de_size d <? 65536) with false by (symmetry; apply N.ltb_ge; lia); eexists; reflexivity |
     replace (de_size d <? 65536) with true by (symmetry; apply N.ltb_lt; lia) |
     replace (de_size d <? 4294967296) with false by (symmetry; apply N.ltb_ge; lia); eexists; reflexivity |
     replace (de_size d <? 4294967296) with true by (symmetry; apply N.ltb_lt; lia) |
     replace (de_size d <? 4294967296) with false by (symmetry; apply N.ltb_ge; lia); eexists; reflexivity |
     replace (de_size d <? 4294967296) with true by (symmetry; apply N.ltb_lt; lia) ];
    repeat (first [ rewrite put_uint_make by (rewrite ?app_length, ?be_bytes_length; cbn [length]; lia)
        | rewrite copy_range_make by (rewrite ?app_length, ?be_bytes_length; cbn [length]; lia)
        | rewrite copy_from_make by (rewrite ?app_length, ?be_bytes_length; cbn [length]; lia) ]; cbn [obind]);
    (match goal with |- context[make_bytes ?n] => replace n with 0%nat by (rewrite ?LP; cbn [length]; lia) end);
    change (make_bytes 0) with (@nil byte);
    rewrite ?app_nil_r, ?app_nil_l, <- ?app_assoc, ?be_bytes_u16, ?be_bytes_u32, ?wire_be; reflexivity.
Qed.

(** C44: it encodes exactly when the descriptor is d16, d32 or d64, the path has
    at most 1024 bytes, and the size is below 2^16 for d16 and below 2^32 for both
    d32 and d64; everything else is an error, never a panic or an exit. *)
Lemma c44_iff : forall d,
  ((exists f, dirent_encode d = Ret (Frame f)) <->
   (slen (de_path d) <= 1024)%nat /\
   ((dh_descriptor (de_header d) = 0 /\ de_size d < 2 ^ 16) \/
    ((dh_descriptor (de_header d) = 1 \/ dh_descriptor (de_header d) = 2) /\ de_size d < 2 ^ 32))) /\
  ((exists f, dirent_encode d = Ret (Frame f)) \/ (exists e, dirent_encode d = Ret (EncErr e))).
Proof.
  intros d. pose proof (c44_encode d) as C.
  destruct (dh_descriptor_cases (de_header d)) as [E|[E|[E|E]]]; rewrite E in *; cbn [descriptor_width size_limit] in C;
    try (destruct (Nat.leb_spec (slen (de_path d)) 1024) as [L|L]; cbn [andb] in C;
         [match type of C with context[?a <? ?b] => destruct (N.ltb_spec a b) as [S|S] end|]);
    (match type of C with ex _ => destruct C as [e C] | _ => idtac end); rewrite C;
    (split; [split; [first [intros [f F]; discriminate | intros _; split; [lia|auto]] |
                     intros [P [[D S']|[[D|D] S']]]; try discriminate; try lia; eauto ] | eauto]).
Qed.

(** C44: a size of 4 GiB or more is refused with every descriptor. *)
Lemma c44_4gib : forall d, 2 ^ 32 <= de_size d -> exists e, dirent_encode d = Ret (EncErr e).
Proof.
  intros d S. destruct (c44_iff d) as [I [F|F]]; [|exact F]. exfalso. apply I in F.
  change (2 ^ 16) with 65536 in F. change (2 ^ 32) with 4294967296 in *. lia.
Qed.

(** ** Decoding *)
Lemma ts_get_y2k : forall t b, length b = 4%nat -> ts_get t (byte_of_N 5 :: b) = Ret (y2k (be_value b), None).
Proof.
  intros t b L. unfold ts_get. change (index (byte_of_N 5 :: b) 0) with (Ret (byte_of_N 5)). cbn [obind].
  change (N_of_ascii (byte_of_N 5)) with 5. change (st_getstr sar 5) with (Ret "epoch2000_32" : outcome string). cbn [obind].
  eval_eqbs.
  assert (G : get_uint 4 (byte_of_N 5 :: b) 1 5 = Ret (be_value b)).
  { change (byte_of_N 5 :: b) with ([byte_of_N 5] ++ b)%list. rewrite <- (app_nil_r b) at 1. apply get_uint_app; auto. }
  rewrite G. reflexivity.
Qed.

Lemma de_times_path_spec : forall d f pos, 
  if Nat.ltb (length f) (pos + 8) then de_times_path d f pos = Panic
  else de_times_path d f pos =
    Ret ({| de_header := de_header d; de_size := de_size d;
            de_mtime := y2k (number_at f pos 4); de_ctime := y2k (number_at f (pos + 4) 4);
            de_path := string_of (latin1_utf8 (before_zero (skipn (pos + 8) f))) |}, None).
Proof.
  intros d f pos. unfold de_times_path. change (st_set sar 0 "epoch2000_32") with (Ret 5 : outcome N). cbn [obind].
  destruct (Nat.ltb_spec (length f) (pos + 8)) as [L|L].
  - unfold slice at 1. destruct (Nat.leb_spec (pos + 4) (length f)) as [L4|L4].
    + replace (pos <=? pos + 4)%nat with true by (symmetry; apply Nat.leb_le; lia). cbn [andb obind].
      replace (pos + 4 - pos)%nat with 4%nat by lia.
      assert (L1 : length (firstn 4 (skipn pos f)) = 4%nat) by (rewrite firstn_length, skipn_length; lia).
      change (byte_of_N 5 :: make_bytes 4) with ([byte_of_N 5] ++ make_bytes 4)%list.
      rewrite copy_from_make by (cbn [length]; lia). cbn [obind]. rewrite L1. change (make_bytes (4 - 4)) with (@nil byte). rewrite app_nil_r.
      change ([byte_of_N 5] ++ firstn 4 (skipn pos f))%list with (byte_of_N 5 :: firstn 4 (skipn pos f)).
      rewrite ts_get_y2k by auto. cbn [obind]. rewrite slice_panic by lia. reflexivity.
    + rewrite andb_false_r. reflexivity.
  - rewrite !slice_ok by lia. cbn [obind]. replace (pos + 4 - pos)%nat with 4%nat by lia.
    replace (pos + 4 + 4 - (pos + 4))%nat with 4%nat by lia.
    assert (L1 : length (firstn 4 (skipn pos f)) = 4%nat) by (rewrite firstn_length, skipn_length; lia).
    assert (L2 : length (firstn 4 (skipn (pos + 4) f)) = 4%nat) by (rewrite firstn_length, skipn_length; lia).
    change (byte_of_N 5 :: make_bytes 4) with ([byte_of_N 5] ++ make_bytes 4)%list.
    rewrite copy_from_make by (cbn [length]; lia). cbn [obind]. rewrite L1. change (make_bytes (4 - 4)) with (@nil byte). rewrite app_nil_r.
    change ([byte_of_N 5] ++ firstn 4 (skipn pos f))%list with (byte_of_N 5 :: firstn 4 (skipn pos f)).
    rewrite ts_get_y2k by auto. cbn [obind].
    unfold copy_from. cbn [length]. rewrite L1. change (1 <=? 5)%nat with true. change (5 - 1)%nat with 4%nat. cbv iota. cbn [obind].
    rewrite (firstn_all2 (firstn 4 (skipn (pos + 4) f))) by lia.
    replace (overwrite (byte_of_N 5 :: firstn 4 (skipn pos f)) 1 (firstn 4 (skipn (pos + 4) f)))
      with (byte_of_N 5 :: firstn 4 (skipn (pos + 4) f)).
    + rewrite ts_get_y2k by auto. cbn [obind de_header de_size de_mtime de_ctime]. rewrite slice_from_ok by lia. cbn [obind].
      rewrite scan_name_spec, <- !number_at_be. replace (pos + 4 + 4)%nat with (pos + 8)%nat by lia. reflexivity.
    + unfold overwrite. rewrite L2. change (firstn 1 (byte_of_N 5 :: firstn 4 (skipn pos f))) with [byte_of_N 5].
      rewrite (skipn_all2 (byte_of_N 5 :: _)) by (cbn [length]; lia). rewrite app_nil_r. reflexivity.
Qed.

Lemma dirent_decode_spec : forall d f,
  verdict_of (dirent_decode d f) = dirent_verdict f /\
  (dirent_verdict f = Accept -> exists w,
     descriptor_width (dh_descriptor (number_at f 0 2)) = Some w /\ dirent_decode d f = Ret (dirent_at f w, None)).
Proof.
  intros d f. unfold dirent_decode, dirent_verdict. destruct (Nat.ltb_spec (length f) 12) as [L|L]; [split; [reflexivity|discriminate]|].
  rewrite get_uint_number by lia. cbn [obind]. rewrite dgetstr_descriptor. cbn [obind].
  assert (G : forall d k, let r := de_size_rest d f k in
    if Nat.ltb (length f) (2 + k + 8) then r = Panic
    else r = Ret ({| de_header := de_header d; de_size := number_at f 2 k; de_mtime := y2k (number_at f (2 + k) 4);
                     de_ctime := y2k (number_at f (2 + k + 4) 4);
                     de_path := string_of (latin1_utf8 (before_zero (skipn (2 + k + 8) f))) |}, None)).
  { intros d0 k. cbv zeta. unfold de_size_rest. pose proof (fun d => de_times_path_spec d f (2 + k)) as T.
    destruct (Nat.ltb_spec (length f) (2 + k + 8)) as [X|X].
    - destruct (Nat.leb_spec (2 + k) (length f)).
      + rewrite get_uint_number by lia. cbn [obind]. apply T.
      + rewrite get_uint_panic' by lia. reflexivity.
    - rewrite get_uint_number by lia. cbn [obind]. rewrite T. reflexivity. }
  destruct (dh_descriptor_cases (number_at f 0 2)) as [E|[E|[E|E]]]; rewrite E; cbn [descriptor_width desc_name]; eval_eqbs; cbv iota;
    [| | |split; [reflexivity|discriminate]];
    (match goal with |- context[de_size_rest ?d f ?k] => specialize (G d k) end; cbv zeta in G;
     match type of G with context[Nat.ltb ?a ?b] => destruct (Nat.ltb a b) end; rewrite G;
     (split; [reflexivity|try discriminate]); intros _; eexists; split; reflexivity).
Qed.

(** C45: the verdict on arbitrary bytes, whatever the receiver holds. *)
Lemma c45_verdict : forall d f, verdict_of (dirent_decode d f) = dirent_verdict f.
Proof. intros; apply dirent_decode_spec. Qed.
(** C45: it panics exactly when there are at least 12 bytes but fewer than header,
    announced size and two times; it never terminates the process; it returns an
    error exactly for fewer than 12 bytes or a 128-bit descriptor. *)
Lemma c45_iff : forall d f,
  (dirent_decode d f = Panic <->
     (12 <= length f)%nat /\ exists w, descriptor_width (dh_descriptor (number_at f 0 2)) = Some w /\ (length f < 10 + w)%nat) /\
  dirent_decode d f <> Fatal /\
  ((exists d' e, dirent_decode d f = Ret (d', Some e)) <-> (length f < 12)%nat \/ dh_descriptor (number_at f 0 2) = 3).
Proof.
  intros d f. rewrite <- verdict_panic, <- verdict_fatal, <- verdict_reject, c45_verdict. unfold dirent_verdict.
  destruct (Nat.ltb_spec (length f) 12) as [L|L].
  { split; [split; [discriminate|intros [? _]; lia]|]. split; [discriminate|]. split; auto. }
  destruct (dh_descriptor_cases (number_at f 0 2)) as [E|[E|[E|E]]]; rewrite E; cbn [descriptor_width];
    try (match goal with |- context[Nat.ltb ?a ?b] => destruct (Nat.ltb_spec a b) end);
    (split; [split; [first [discriminate | intros _; split; [lia|eexists; split; [reflexivity|lia]]]
                    | intros (_ & w & W & X); inversion W; subst; try reflexivity; lia]|];
     split; [discriminate|]; split; [try discriminate; auto|intros [?|?]; [lia|try discriminate; auto]]).
Qed.
(** C45: what accepted bytes decode to. *)
Lemma c45_value : forall d f, dirent_verdict f = Accept -> exists w,
  descriptor_width (dh_descriptor (number_at f 0 2)) = Some w /\ dirent_decode d f = Ret (dirent_at f w, None).
Proof. intros; apply dirent_decode_spec; auto. Qed.

(** C43: any encodable entry comes back, with the times as seconds since 2000 and
    the path up to its first zero byte, bytes of 0x80 and above becoming two. *)
Lemma c43_any : forall d d0 f, de_header d < 2 ^ 16 -> t_secs (de_mtime d) < 2 ^ 32 -> t_secs (de_ctime d) < 2 ^ 32 ->
  dirent_encode d = Ret (Frame f) ->
  dirent_decode d0 f =
    Ret ({| de_header := de_header d; de_size := de_size d;
            de_mtime := y2k (t_secs (de_mtime d)); de_ctime := y2k (t_secs (de_ctime d));
            de_path := string_of (latin1_utf8 (before_zero (bytes_of (de_path d)))) |}, None).
Proof.
  intros d d0 f Bh Bm Bc EN. pose proof (c44_encode d) as C.
  destruct (descriptor_width (dh_descriptor (de_header d))) as [w|] eqn:W; [|destruct C as [e C]; congruence].
  destruct (Nat.leb (slen (de_path d)) 1024 && (de_size d <? size_limit w)) eqn:OK; [|destruct C as [e C]; congruence].
  rewrite C in EN. inversion EN as [EF]. apply andb_true_iff in OK. destruct OK as [_ SZ]. apply N.ltb_lt in SZ.
  assert (Wn : (w = 2 \/ w = 4 \/ w = 8)%nat).
  { destruct (dh_descriptor_cases (de_header d)) as [Q|[Q|[Q|Q]]]; rewrite Q in W; inversion W; auto. }
  assert (SB : de_size d < 2 ^ (8 * N.of_nat w)).
  { destruct Wn as [->|[->| ->]]; cbn [size_limit] in SZ; [exact SZ|exact SZ|].
    eapply N.lt_le_trans; [exact SZ|]. vm_compute; discriminate. }
  clear C EN. unfold dirent_wire in EF.
  set (g := (wire 2 (de_header d) ++ wire w (de_size d) ++ wire 4 (t_secs (de_mtime d)) ++ wire 4 (t_secs (de_ctime d)) ++
             bytes_of (de_path d) ++ [ascii_of_N 0])%list) in *.
  assert (N0 : number_at g 0 2 = de_header d).
  { unfold g. rewrite number_at_wire0. apply mod_pow_small; auto. }
  assert (N2 : number_at g 2 w = de_size d).
  { unfold g. rewrite number_at_wire by (rewrite wire_length; auto). apply mod_pow_small; auto. }
  assert (NM : number_at g (2 + w) 4 = t_secs (de_mtime d)).
  { unfold g. rewrite (app_assoc (wire 2 _)). rewrite number_at_wire by (rewrite app_length, !wire_length; lia). apply u32_pow; auto. }
  assert (NC : number_at g (2 + w + 4) 4 = t_secs (de_ctime d)).
  { unfold g. rewrite (app_assoc (wire 2 _)), (app_assoc (wire 2 _ ++ _)).
    rewrite number_at_wire by (rewrite !app_length, !wire_length; lia). apply u32_pow; auto. }
  assert (SK : skipn (2 + w + 8) g = (bytes_of (de_path d) ++ [ascii_of_N 0])%list).
  { unfold g. rewrite (app_assoc (wire 2 _)), (app_assoc (wire 2 _ ++ _)), (app_assoc ((wire 2 _ ++ _) ++ _)).
    apply skipn_app_exact. rewrite !app_length, !wire_length. lia. }
  assert (LG : (2 + w + 8 < length g)%nat).
  { unfold g. rewrite !app_length, !wire_length. cbn [length]. lia. }
  assert (BZ : before_zero (skipn (2 + w + 8) g) = before_zero (bytes_of (de_path d))).
  { rewrite SK. clear. induction (bytes_of (de_path d)) as [|b l IH]; [reflexivity|].
    cbn [app before_zero]. destruct (N_of_ascii b =? 0); [reflexivity|]. rewrite IH. reflexivity. }
  destruct (dirent_decode_spec d0 g) as [_ V].
  assert (A : dirent_verdict g = Accept).
  { unfold dirent_verdict. rewrite N0, W. replace (length g <? 12)%nat with false by (symmetry; apply Nat.ltb_ge; lia).
    replace (length g <? 2 + w + 8)%nat with false by (symmetry; apply Nat.ltb_ge; lia). reflexivity. }
  destruct (V A) as (w' & W' & D). rewrite N0, W in W'. inversion W'; subst w'.
  change (dirent_wire _ _ _ _ _ _) with g. rewrite D. unfold dirent_at. rewrite N0, N2, NM, NC, BZ. reflexivity.
Qed.

Lemma before_zero_none : forall l, (forall b, In b l -> N_of_ascii b <> 0) -> before_zero l = l.
Proof.
  induction l as [|b l IH]; intros H; [reflexivity|]. cbn [before_zero].
  replace (N_of_ascii b =? 0) with false by (symmetry; apply N.eqb_neq; apply H; left; auto). rewrite IH; auto. intros; apply H; right; auto.
Qed.
(** C43: an encodable entry with an ASCII path and times in seconds since 2000
    (as the constructors make them) survives unchanged, into any receiver. *)
Lemma c43_roundtrip : forall d d0 f m c, de_header d < 2 ^ 16 -> ascii_name (de_path d) ->
  de_mtime d = y2k m -> de_ctime d = y2k c -> m < 2 ^ 32 -> c < 2 ^ 32 ->
  dirent_encode d = Ret (Frame f) -> dirent_decode d0 f = Ret (d, None).
Proof.
  intros d d0 f m c Bh A M C Bm Bc EN.
  rewrite (c43_any d d0 f) by (rewrite ?M, ?C; auto).
  rewrite before_zero_none by (intros b I; specialize (A b I); lia).
  destruct (latin1_ascii (bytes_of (de_path d))) as [-> _]; [intros b I; specialize (A b I); lia|].
  rewrite string_of_bytes_of, M, C. cbn [y2k t_secs]. destruct d; cbn in *; subst; reflexivity.
Qed.

(** ** Building *)
Lemma sd_set_known : forall h f v,
  if dknown_option sar f v then exists h', sd_set sar h f v = Ret h' else sd_set sar h f v = Fatal.
Proof.
  intros. rewrite sd_set_eq. unfold dknown_option.
  destruct (lookup f (t_dirent sar)); [|reflexivity]. destruct (lookup v (f_opts f0)); [eexists|]; reflexivity.
Qed.

Definition dirent_body (f v : string) (d : dirent) : outcome (dirent * error) :=
  if one_of f ["descriptor"; "property"] then
    do h <- sd_set sar (de_header d) f v; Ret (de_set_header d h, None)
  else Ret (d, Some ("Invalid Flag " ++ f ++ " for Directory Entry")).
Lemma dirent_flags_cons : forall f v rest d, clean f -> clean v ->
  dirent_flags (item_text (f, v) :: rest) d = ebind (dirent_body f v d) (fun d => dirent_flags rest d).
Proof. intros. cbn [dirent_flags]. rewrite split_item by auto. cbn [index nth_error obind]. reflexivity. Qed.
Lemma dirent_body_verdict : forall f v d, verdict_of (dirent_body f v d) = dirent_item_verdict sar (f, v).
Proof.
  intros f v d. unfold dirent_body, dirent_item_verdict. rewrite is_in_one_of. destruct (is_in f _); [|reflexivity].
  pose proof (sd_set_known (de_header d) f v) as K. destruct (dknown_option sar f v); [destruct K as (h' & ->)|rewrite K]; reflexivity.
Qed.

Fixpoint sd_setflags (h : N) (l : list (string * string)) : outcome N :=
  match l with [] => Ret h | (f, v) :: r => do h1 <- sd_set sar h f v; sd_setflags h1 r end.
Definition dirent_rel (d d' : dirent) (items : list (string * string)) : Prop :=
  exists h, sd_setflags (de_header d) items = Ret h /\ d' = de_set_header d h.
Lemma dirent_rel_nil : forall d, dirent_rel d d [].
Proof. intros d. exists (de_header d). split; [reflexivity|]. destruct d; reflexivity. Qed.
Lemma dirent_rel_cons : forall f v d d1 d2 l, dirent_body f v d = Ret (d1, None) -> dirent_rel d1 d2 l -> dirent_rel d d2 ((f, v) :: l).
Proof.
  intros f v d d1 d2 l B (h & S & ->). unfold dirent_body in B. destruct (one_of f _); [|discriminate].
  inv_bind B. inversion B; subst d1. exists h. cbn [sd_setflags]. rewrite E. cbn [obind]. split; [exact S|reflexivity].
Qed.

Lemma dirent_disjoint : forall a b f g, lookup a (t_dirent sar) = Some f -> lookup b (t_dirent sar) = Some g -> a <> b ->
  disjoint_fields (f_msb f) (f_len f) (f_msb g) (f_len g).
Proof.
  intros a b f g La Lb N. apply lookup_In in La. apply lookup_In in Lb. vm_compute in La, Lb. unfold disjoint_fields.
  destruct La as [La|[La|[La|[La|[]]]]]; destruct Lb as [Lb|[Lb|[Lb|[Lb|[]]]]]; inversion La; inversion Lb; subst; cbn [f_msb f_len]; try lia; congruence.
Qed.

Lemma dset_exactly_setflags : forall l h h', h < 2 ^ 16 -> sd_setflags h l = Ret h' -> dset_exactly sar h h' l.
Proof.
  induction l as [|[a va] l IH]; intros h h' Bh E.
  - inversion E; subst. split; [exact Bh|]. split; [discriminate|auto].
  - cbn [sd_setflags] in E. inv_bind E. rename a0 into h1. rewrite sd_set_eq in E0.
    destruct (lookup a (t_dirent sar)) as [x|] eqn:L; [|discriminate].
    destruct (lookup va (f_opts x)) as [n|] eqn:O; [|discriminate]. inversion E0; subst h1; clear E0.
    assert (WD : forall a x, lookup a (t_dirent sar) = Some x -> wf_flag 16 x).
    { intros y z Lz. destruct sar_wf as (_ & W & _). apply W with y. apply lookup_In; auto. }
    destruct (WD _ _ L) as (W1 & W2 & _).
    assert (Hn : n < 2 ^ f_len x) by (eapply W2; apply lookup_In; eauto).
    assert (B1 : set_bits 16 x h n < 2 ^ 16) by (apply set_bits_bound; auto).
    destruct (IH _ _ B1 E) as (B & R & U). split; [exact B|]. split.
    + intros f v H. unfold last_setting in *. rewrite lookup_rev_cons in H.
      destruct (lookup f (rev l)) eqn:F; [inversion H; subst; apply R; exact F|].
      destruct (String.eqb_spec f a) as [->|]; [|discriminate]. inversion H; subst v.
      exists x, n. split; [exact L|]. split; [exact O|].
      rewrite <- (set_bits_field_same 16 x h n) by auto.
      apply N.bits_inj; intro i. rewrite !bit_field_testbit.
      destruct (N.ltb_spec i (f_len x)) as [Li|Li]; [|reflexivity]. apply U.
      intros g w gl Hg Lg [G1 G2].
      assert (NE : g <> a).
      { intros ->. apply lookup_rev_None in F. apply F. apply in_map_iff. exists (a, w). auto. }
      pose proof (dirent_disjoint _ _ _ _ Lg L NE) as D.
      destruct (WD _ _ Lg) as (W3 & _). unfold disjoint_fields in D. lia.
    + intros i Hi. rewrite U by (intros; eapply Hi; eauto; right; eauto).
      apply set_bits_outside; auto. apply (Hi a va x); auto. left; reflexivity.
Qed.

Lemma dirent_loop : forall items d, items <> [] -> clean_items items ->
  verdict_of (dirent_flags (split_on "," (remove_spaces (flag_list items))) d) = first_bad (map (dirent_item_verdict sar) items) /\
  (forall d', dirent_flags (split_on "," (remove_spaces (flag_list items))) d = Ret (d', None) -> dirent_rel d d' items).
Proof.
  intros items d NE C. rewrite split_flags by auto. split.
  - apply (loop_verdict dirent dirent_flags dirent_body (fun _ => eq_refl) dirent_flags_cons (fun _ => True)); auto.
    intros; apply dirent_body_verdict.
  - intros d' H. eapply (loop_value dirent dirent_flags dirent_body (fun _ => eq_refl) dirent_flags_cons dirent_rel); eauto using dirent_rel_nil, dirent_rel_cons.
Qed.

(** C72: an unacceptable item decides the construction: an unknown flag is an
    error, an unknown option terminates the process. *)
Lemma c72_bad_item : forall E d items path, items <> [] -> (forall p, In p items -> clean (fst p) /\ clean (snd p)) ->
  first_bad (map (dirent_item_verdict sar) items) <> Accept ->
  verdict_of (dirent_new E d (flag_list items) path) = first_bad (map (dirent_item_verdict sar) items).
Proof.
  intros E d items path NE C B. unfold dirent_new.
  destruct (sd_set_known (de_header d) "sod" "sod" : exists h', _) as (h1 & E1). rewrite E1. cbn [obind].
  destruct (dirent_loop items (de_set_header d h1) NE C) as [V _]. rewrite <- V in B |- *.
  destruct (dirent_flags _ _) as [[d' [e|]]| |]; cbn in *; congruence.
Qed.

(** C72: an empty flag string is refused. *)
Lemma c72_empty : forall E d path, exists d' e, dirent_new E d "" path = Ret (d', Some e).
Proof.
  intros. unfold dirent_new. destruct (sd_set_known (de_header d) "sod" "sod" : exists h', _) as (h1 & E1). rewrite E1. cbn [obind].
  eexists. eexists. reflexivity.
Qed.

Lemma epoch_stamp : forall t ts, real_time ts -> y2k_time ts -> ts_new t "epoch2000_32" ts = Ret (y2k_of ts, None).
Proof. intros t ts R Y. unfold y2k_time in Y. destruct (c12_epoch2000 t ts R) as [C _]; [lia|]. apply C. exact Y. Qed.
Lemma epoch_refused : forall t ts, real_time ts -> ~ y2k_time ts -> (- 2 ^ 63 + 946684800 <= unix_secs ts)%Z ->
  exists t' e, ts_new t "epoch2000_32" ts = Ret (t', Some e).
Proof. intros t ts R Y B. unfold y2k_time in Y. destruct (c12_epoch2000 t ts R B) as [_ C]. apply C. exact Y. Qed.

Lemma dirent_items_verdict : forall items, (forall p, In p items -> dirent_item_verdict sar p = Accept) ->
  first_bad (map (dirent_item_verdict sar) items) = Accept.
Proof.
  induction items as [|p l IH]; intros A; [reflexivity|].
  cbn [map first_bad]. rewrite (A p) by (left; auto). apply IH. intros q Q; apply A; right; auto.
Qed.
(** The header after an accepted flag list, and what is left to do *)
Lemma dirent_new_header : forall d items, items <> [] -> (forall p, In p items -> clean (fst p) /\ clean (snd p)) ->
  (forall p, In p items -> dirent_item_verdict sar p = Accept) ->
  exists h, sd_setflags (de_header d) (("sod", "sod") :: items) = Ret h /\
    exists h1, sd_set sar (de_header d) "sod" "sod" = Ret h1 /\
    dirent_flags (split_on "," (remove_spaces (flag_list items))) (de_set_header d h1) = Ret (de_set_header d h, None).
Proof.
  intros d items NE C A.
  destruct (sd_set_known (de_header d) "sod" "sod" : exists h', _) as (h1 & E1).
  destruct (dirent_loop items (de_set_header d h1) NE C) as [V RL]. rewrite dirent_items_verdict in V by auto.
  apply verdict_accept in V. destruct V as (d' & V). destruct (RL _ V) as (h & SF & ->).
  exists h. split; [cbn [sd_setflags]; rewrite E1; exact SF|]. exists h1. split; [exact E1|]. exact V.
Qed.
Definition dirent_new_post (E : env) (path : string) (h : N) (r : outcome (dirent * error)) : Prop :=
    if Nat.ltb 1024 (slen path) then verdict_of r = Reject
    else if 2 <=? dh_property h then
      real_time (e_now E) -> y2k_time (e_now E) ->
      r = Ret ({| de_header := h; de_size := 0; de_mtime := y2k_of (e_now E); de_ctime := y2k_of (e_now E); de_path := path |}, None)
    else
      match local_node E path with
      | inr ENOENT => verdict_of r = Reject
      | inr _ => r = Panic
      | inl n =>
          is_link n = false -> real_time (n_mtime n) -> real_time (n_ctime n) -> y2k_time (n_mtime n) -> y2k_time (n_ctime n) ->
          r = Ret ({| de_header := h; de_size := node_size n mod 2 ^ 64;
                      de_mtime := y2k_of (n_mtime n); de_ctime := y2k_of (n_ctime n); de_path := path |}, None)
      end.
Lemma dirent_new_known : forall E d items path h, items <> [] -> (forall p, In p items -> clean (fst p) /\ clean (snd p)) ->
  (forall p, In p items -> dirent_item_verdict sar p = Accept) -> sd_setflags (de_header d) (("sod", "sod") :: items) = Ret h ->
  dirent_new_post E path h (dirent_new E d (flag_list items) path).
Proof.
  intros E d items path h NE C A SF. unfold dirent_new.
  destruct (dirent_new_header d items NE C A) as (h' & SF' & h1 & E1 & V). rewrite SF in SF'. inversion SF'; subst h'.
  unfold dirent_new_post. rewrite E1. cbn [obind]. rewrite V. cbn [ebind].
  destruct (Nat.ltb 1024 (slen path)); [reflexivity|].
  cbn [de_set_header de_header de_size de_mtime de_ctime de_path]. rewrite dgetstr_property. cbn [obind]. rewrite !is_in_one_of.
  assert (SP : 2 <=? dh_property h = is_in (prop_name (dh_property h)) ["specialfile"; "specialdirectory"] /\
               2 <=? dh_property h = negb (is_in (prop_name (dh_property h)) ["normalfile"; "normaldirectory"])).
  { destruct (dh_property_cases h) as [Q|[Q|[Q|Q]]]; rewrite Q; split; reflexivity. }
  destruct SP as [SP1 SP2]. destruct (2 <=? dh_property h); rewrite <- SP1.
  - symmetry in SP2. apply negb_true_iff in SP2. rewrite SP2.
    intros RT Y. unfold ts_now. rewrite epoch_stamp by auto. reflexivity.
  - symmetry in SP2. apply negb_false_iff in SP2. rewrite SP2.
    unfold dirent_statfile, file_meta, local_node, full. destruct (os_lstat _ _ _) as [n|[]]; try reflexivity.
    unfold is_link. intros NL Rm Rc Ym Yc.
    destruct (n_kind n) eqn:K; try discriminate; cbn [obind fm_node]; unfold de_set_header; cbn [de_header de_size de_mtime de_ctime de_path];
      rewrite epoch_stamp by auto; cbn [obind]; cbn [de_header de_size de_mtime de_ctime de_path]; rewrite epoch_stamp by auto; reflexivity.
Qed.

(** C72: an accepted flag list: the header has the start-of-entry flag and exactly
    the requested flags.  A path above 1024 bytes is refused.  The entry of a
    special file has size zero and the current time twice.  The entry of a normal
    file has what the operating system says about sardir/path: size and times. *)
Lemma c72_result : forall E d items path, items <> [] -> (forall p, In p items -> clean (fst p) /\ clean (snd p)) ->
  (forall p, In p items -> dirent_item_verdict sar p = Accept) -> de_header d < 2 ^ 16 ->
  exists h, dset_exactly sar (de_header d) h (("sod", "sod") :: items) /\
    let r := dirent_new E d (flag_list items) path in
    if Nat.ltb 1024 (slen path) then verdict_of r = Reject
    else if 2 <=? dh_property h then
      real_time (e_now E) -> y2k_time (e_now E) ->
      r = Ret ({| de_header := h; de_size := 0; de_mtime := y2k_of (e_now E); de_ctime := y2k_of (e_now E); de_path := path |}, None)
    else
      match local_node E path with
      | inr ENOENT => verdict_of r = Reject
      | inr _ => r = Panic
      | inl n =>
          is_link n = false -> real_time (n_mtime n) -> real_time (n_ctime n) -> y2k_time (n_mtime n) -> y2k_time (n_ctime n) ->
          r = Ret ({| de_header := h; de_size := node_size n mod 2 ^ 64;
                      de_mtime := y2k_of (n_mtime n); de_ctime := y2k_of (n_ctime n); de_path := path |}, None)
      end.
Proof.
  intros E d items path NE C A Bh. destruct (dirent_new_header d items NE C A) as (h & SF & _).
  exists h. split; [apply dset_exactly_setflags; auto|]. exact (dirent_new_known E d items path h NE C A SF).
Qed.

(** C72: a file whose modification time is before 2000 or after 2136 cannot be described. *)
Lemma c72_old_file : forall E d items path n, items <> [] -> (forall p, In p items -> clean (fst p) /\ clean (snd p)) ->
  (forall p, In p items -> dirent_item_verdict sar p = Accept) -> (slen path <= 1024)%nat ->
  local_node E path = inl n -> is_link n = false -> real_time (n_mtime n) -> ~ y2k_time (n_mtime n) ->
  (- 2 ^ 63 + 946684800 <= unix_secs (n_mtime n))%Z ->
  last_setting items "property" = Some "normalfile" -> de_header d < 2 ^ 16 ->
  verdict_of (dirent_new E d (flag_list items) path) = Reject.
Proof.
  intros E d items path n NE C A LP LN NL RT Y B LS Bh. unfold dirent_new.
  destruct (dirent_new_header d items NE C A) as (h & SF & h1 & E1 & V).
  assert (DS : dset_exactly sar (de_header d) h (("sod", "sod") :: items)) by (apply dset_exactly_setflags; auto).
  rewrite E1. cbn [obind]. rewrite V. cbn [ebind].
  replace (1024 <? slen path)%nat with false by (symmetry; apply Nat.ltb_ge; auto).
  cbn [de_set_header de_header de_size de_mtime de_ctime de_path]. rewrite dgetstr_property. cbn [obind].
  assert (P : dh_property h = 0).
  { destruct DS as (_ & R & _). destruct (R "property" "normalfile") as (fl & k & L & O & Bf).
    - unfold last_setting in *. rewrite lookup_rev_cons, LS. reflexivity.
    - vm_compute in L. inversion L; subst fl. cbn [f_opts f_msb f_len] in *. vm_compute in O. injection O as O. unfold dh_property; rewrite Bf, <- O; reflexivity. }
  rewrite P. replace (one_of (prop_name 0) ["normalfile"; "normaldirectory"]) with true by reflexivity. cbv iota.
  unfold dirent_statfile, file_meta. unfold local_node in LN. unfold full. rewrite LN. unfold is_link in NL.
  destruct (epoch_refused (de_mtime d) (n_mtime n) RT Y B) as (t' & e & T).
  destruct (n_kind n) eqn:K; try discriminate; cbn [obind fm_node]; unfold de_set_header; cbn [de_header de_size de_mtime de_ctime de_path];
    rewrite T; reflexivity.
Qed.

(** ** Concrete cases *)
Definition ex_dirent : dirent :=
  {| de_header := 0x8040; de_size := 70000; de_mtime := y2k 800000000; de_ctime := y2k 800000001; de_path := "a/b.txt" |}.
Example c43_roundtrip_ex : de_header ex_dirent < 2 ^ 16 /\ ascii_name (de_path ex_dirent) /\
  exists f, dirent_encode ex_dirent = Ret (Frame f) /\ dirent_decode zero_dirent f = Ret (ex_dirent, None).
Proof.
  split; [reflexivity|]. split.
  - intros b I. cbn in I. repeat (destruct I as [<-|I]; [vm_compute; split; reflexivity|]). destruct I.
  - eexists. split; vm_compute; reflexivity.
Qed.
Example c44_iff_ex : dh_descriptor 0x8080 = 2 /\
  dirent_encode {| de_header := 0x8080; de_size := 2 ^ 32; de_mtime := y2k 0; de_ctime := y2k 0; de_path := "f" |} =
    Ret (EncErr "Descriptor d64 too small for file size 4294967296") /\
  exists f, dirent_encode {| de_header := 0x8080; de_size := 2 ^ 32 - 1; de_mtime := y2k 0; de_ctime := y2k 0; de_path := "f" |} = Ret (Frame f).
Proof. split; [reflexivity|]. split; [vm_compute; reflexivity|]. eexists. vm_compute. reflexivity. Qed.
Example c45_verdict_ex :
  dirent_verdict (wire 2 0x8000 ++ zeros 10) = Accept /\ dirent_verdict (wire 2 0x8040 ++ zeros 10) = Crash /\
  dirent_verdict (wire 2 0x8080 ++ zeros 16) = Accept /\ dirent_verdict (wire 2 0x8080 ++ zeros 15) = Crash /\
  dirent_verdict (wire 2 0x80C0 ++ zeros 40) = Reject /\ dirent_verdict (zeros 11) = Reject.
Proof. vm_compute. auto 6. Qed.
Definition ex_time : gotime := {| unix_secs := 1700000000; unix_nanos := 5 |}.
Definition ex_fs : fsys :=
  [([], {| n_kind := KDir; n_size := 4096; n_mtime := ex_time; n_ctime := ex_time |});
   (["s"], {| n_kind := KDir; n_size := 4096; n_mtime := ex_time; n_ctime := ex_time |});
   (["s"; "f"], {| n_kind := KFile (bytes_of "hello"); n_size := 0; n_mtime := ex_time;
                   n_ctime := {| unix_secs := 1700000009; unix_nanos := 0 |} |});
   (["s"; "old"], {| n_kind := KFile []; n_size := 0; n_mtime := {| unix_secs := 900000000; unix_nanos := 0 |}; n_ctime := ex_time |})].
Definition ex_hash : hashes := {| hx_crc32 := fun _ => zeros 4; hx_md5 := fun _ => zeros 16; hx_sha1 := fun _ => zeros 20 |}.
Definition ex_env : env := {| e_fs := ex_fs; e_cwd := []; e_sardir := "/s"; e_now := ex_time; e_hash := ex_hash |}.
Example c72_result_ex :
  let items := [("descriptor", "d32"); ("property", "normalfile")] in
  map (dirent_item_verdict sar) items = [Accept; Accept] /\
  dirent_new ex_env zero_dirent (flag_list items) "f" =
    Ret ({| de_header := 0x8040; de_size := 5; de_mtime := y2k 753315200; de_ctime := y2k 753315209; de_path := "f" |}, None) /\
  verdict_of (dirent_new ex_env zero_dirent (flag_list items) "g") = Reject /\
  verdict_of (dirent_new ex_env zero_dirent (flag_list items) "f/g") = Crash /\
  verdict_of (dirent_new ex_env zero_dirent (flag_list items) "old") = Reject.
Proof. split; [reflexivity|]. split; [vm_compute; reflexivity|]. split; [vm_compute; reflexivity|]. split; vm_compute; reflexivity. Qed.
Example c72_bad_item_ex : map (dirent_item_verdict sar) [("colour", "red"); ("descriptor", "d17"); ("sod", "sod")] = [Reject; Kill; Reject].
Proof. reflexivity. Qed.
