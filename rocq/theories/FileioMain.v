(** * The properties of the file operations *)

From Verif Require Import GoBase GoFacts Flags SpecFlags FlagsFacts FlagStrFacts Config Shipped ConfigFacts SpecWire SarFacts BuildFacts Holes SpecHoles HolesFacts HolesMain Timestamp SpecTime TimeMain Data SpecFrames DataMain Fileio SpecFileio FileioFacts Dirent SpecDirent DirentMain Metadata SpecMetadata MetadataMain.
Local Open Scope string_scope.
Local Open Scope N_scope.

(** ** C50 *)
Lemma seek_small : forall f pos, pos < 2 ^ 63 ->
  file_seek (Some f) pos = Some {| of_path := of_path f; of_name := of_name f; of_pos := Z.of_N pos; of_write := of_write f |}.
Proof.
  intros f pos H. unfold file_seek, i64_of_N. rewrite N.mod_small by (change (2 ^ 64) with 18446744073709551616; change (2 ^ 63) with 9223372036854775808 in H; lia).
  replace (pos <? 2 ^ 63) with true by (symmetry; apply N.ltb_lt; auto).
  replace (Z.of_N pos <? 0)%Z with false by (symmetry; apply Z.ltb_ge; lia). reflexivity.
Qed.
Lemma seek_large : forall f pos, 2 ^ 63 <= pos < 2 ^ 64 -> file_seek (Some f) pos = None.
Proof.
  intros f pos [H1 H2]. unfold file_seek, i64_of_N. rewrite N.mod_small by auto.
  replace (pos <? 2 ^ 63) with false by (symmetry; apply N.ltb_ge; auto).
  replace (Z.of_N pos - 2 ^ 64 <? 0)%Z with true; [reflexivity|].
  symmetry; apply Z.ltb_lt. change (2 ^ 64) with 18446744073709551616 in H2. change (2 ^ 64)%Z with 18446744073709551616%Z. lia.
Qed.
Lemma content_node : forall fs p c, content_of fs p = Some c -> exists n, fs_get p fs = Some n /\ n_kind n = KFile c.
Proof.
  intros fs p c H. unfold content_of in H. destruct (fs_get p fs) as [n|]; [|discriminate]. exists n. split; [reflexivity|].
  destruct (n_kind n); try discriminate. congruence.
Qed.

(** C50: reading returns the bytes of the file from the position on, at most as
    many as asked for; at or behind the end it is an error. *)
Lemma c50_read : forall fs f pos blen c, content_of fs (of_path f) = Some c -> pos < 2 ^ 63 ->
  file_read fs (Some f) pos (Z.of_nat blen) =
    if Nat.eqb blen 0 then Ret (Some [])
    else if Nat.ltb (N.to_nat pos) (length c) then Ret (Some (firstn blen (skipn (N.to_nat pos) c)))
    else Ret None.
Proof.
  intros fs f pos blen c CO P. unfold file_read. replace (Z.of_nat blen <? 0)%Z with false by (symmetry; apply Z.ltb_ge; lia).
  rewrite seek_small by auto. cbn [of_path of_pos]. rewrite CO.
  replace (Z.to_nat (Z.of_N pos)) with (N.to_nat pos) by lia. rewrite Nat2Z.id.
  destruct (Nat.eqb_spec blen 0) as [->|NZ]; [reflexivity|].
  replace (Z.of_nat blen =? 0)%Z with false by (symmetry; apply Z.eqb_neq; lia).
  destruct (Nat.ltb_spec (N.to_nat pos) (length c)) as [L|L].
  - destruct (skipn (N.to_nat pos) c) eqn:S; [|reflexivity]. apply (f_equal (@length byte)) in S. rewrite skipn_length in S. cbn in S. lia.
  - rewrite skipn_all2 by lia. reflexivity.
Qed.

(** C50: writing changes exactly the bytes written (a gap becomes zeros), in that
    file only, and the bytes read back. *)
Lemma c50_write : forall fs f pos buf c, of_write f = true -> content_of fs (of_path f) = Some c -> pos < 2 ^ 63 ->
  exists fs' c', file_write fs (Some f) pos buf = Some (fs', length buf) /\
    unchanged_except (of_path f) fs fs' /\
    content_of fs' (of_path f) = Some c' /\
    (if Nat.eqb (length buf) 0 then c' = c
     else (forall i, nth_error c' i = byte_after c (N.to_nat pos) buf i) /\
          length c' = Nat.max (length c) (N.to_nat pos + length buf)) /\
    file_read fs' (Some f) pos (Z.of_nat (length buf)) = Ret (Some buf).
Proof.
  intros fs f pos buf c W CO P. unfold file_write. rewrite seek_small by auto. cbn [of_path of_pos of_write]. rewrite W.
  destruct (content_node _ _ _ CO) as (n & G & K). rewrite G, K. replace (Z.to_nat (Z.of_N pos)) with (N.to_nat pos) by lia.
  eexists. exists (write_content c (N.to_nat pos) buf). split; [reflexivity|].
  split; [intros q NQ; apply fs_get_set_other; auto|].
  assert (CW : forall n', content_of (fs_set (of_path f) {| n_kind := KFile (write_content c (N.to_nat pos) buf); n_size := n'; n_mtime := n_mtime n; n_ctime := n_ctime n |} fs) (of_path f)
     = Some (write_content c (N.to_nat pos) buf)).
  { intros. unfold content_of. rewrite fs_get_set_same. reflexivity. }
  split; [apply CW|]. rewrite (c50_read _ f pos (length buf) _ (CW _) P).
  destruct buf as [|b0 buf0]; [split; reflexivity|]. set (buf := b0 :: buf0) in *.
  replace (Nat.eqb (length buf) 0) with false by reflexivity.
  assert (LN : length (write_content c (N.to_nat pos) buf) = Nat.max (length c) (N.to_nat pos + length buf)) by (apply write_content_length; discriminate).
  split; [split; [intros; apply write_content_nth; discriminate|exact LN]|].
  replace (Nat.ltb (N.to_nat pos) (length (write_content c (N.to_nat pos) buf))) with true
    by (symmetry; apply Nat.ltb_lt; rewrite LN; unfold buf; cbn [length]; lia).
  do 2 f_equal. apply nth_error_ext. intros i.
  destruct (Nat.ltb_spec i (length buf)) as [L|L].
  - rewrite nth_error_firstn' by auto. rewrite nth_error_skipn', write_content_nth by discriminate. unfold byte_after.
    replace (Nat.leb (N.to_nat pos + length buf) (N.to_nat pos + i)) with false by (symmetry; apply Nat.leb_gt; lia).
    replace (Nat.leb (N.to_nat pos) (N.to_nat pos + i)) with true by (symmetry; apply Nat.leb_le; lia). f_equal. lia.
  - rewrite !(proj2 (nth_error_None _ _)); [reflexivity|lia|]. rewrite firstn_length. lia.
Qed.
(** C50: positions of 2^63 and above are refused, and so is a file that is not open
    or only open for reading. *)
Lemma c50_refused : forall fs f pos buf blen,
  (2 ^ 63 <= pos < 2 ^ 64 -> file_write fs (Some f) pos buf = None /\ file_read fs (Some f) pos (Z.of_nat blen) = Ret None) /\
  (of_write f = false -> file_write fs (Some f) pos buf = None) /\
  file_write fs None pos buf = None /\ file_read fs None pos (Z.of_nat blen) = Ret None.
Proof.
  intros. split; [|split; [|split]].
  - intros H. unfold file_write, file_read. rewrite seek_large by auto.
    replace (Z.of_nat blen <? 0)%Z with false by (symmetry; apply Z.ltb_ge; lia). auto.
  - intros W. unfold file_write, file_seek. destruct (i64_of_N pos <? 0)%Z; [reflexivity|]. cbn [of_write]. rewrite W. reflexivity.
  - reflexivity.
  - unfold file_read. replace (Z.of_nat blen <? 0)%Z with false by (symmetry; apply Z.ltb_ge; lia). reflexivity.
Qed.

(** ** C51 *)
Lemma true_chunk_end : forall src k, true_chunk src k -> (0 < length (snd k))%nat -> (N.to_nat (fst k) + length (snd k) <= length src)%nat.
Proof.
  intros src k T L. specialize (T (length (snd k) - 1)%nat ltac:(lia)).
  destruct (nth_error (snd k) (length (snd k) - 1)) eqn:E; [|apply nth_error_None in E; lia].
  assert (X : nth_error src (N.to_nat (fst k) + (length (snd k) - 1)) <> None) by (rewrite T; discriminate).
  apply nth_error_Some in X. lia.
Qed.

Lemma reassembly_inv : forall src f chunks fs c0, of_write f = true -> content_of fs (of_path f) = Some c0 ->
  (forall k, In k chunks -> true_chunk src k) -> (forall k, In k chunks -> fst k < 2 ^ 63) ->
  exists fs' c, write_all fs (Some f) chunks = Some fs' /\ content_of fs' (of_path f) = Some c /\
    unchanged_except (of_path f) fs fs' /\
    (forall i, received (map range_of chunks) (Z.of_nat i) -> nth_error c i = nth_error src i) /\
    (forall i, ~ received (map range_of chunks) (Z.of_nat i) ->
       nth_error c i = nth_error c0 i \/ (nth_error c0 i = None /\ nth_error c i = Some (ascii_of_N 0) /\ (i < length src)%nat)) /\
    (length c0 <= length c <= Nat.max (length c0) (length src))%nat.
Proof.
  intros src f chunks. induction chunks as [|k r IH] using rev_ind; intros fs c0 W CO TC PB.
  - exists fs, c0. split; [reflexivity|]. split; [exact CO|]. split; [intros q _; reflexivity|].
    split; [intros i (s & e & [] & _)|]. split; [auto|lia].
  - destruct (IH fs c0 W CO) as (fs1 & c1 & W1 & C1 & U1 & R1 & N1 & L1); [intros; apply TC, in_or_app; auto|intros; apply PB, in_or_app; auto|].
    assert (Tk : true_chunk src k) by (apply TC, in_or_app; right; left; auto).
    assert (Pk : fst k < 2 ^ 63) by (apply PB, in_or_app; right; left; auto).
    destruct (c50_write fs1 f (fst k) (snd k) c1 W C1 Pk) as (fs2 & c2 & W2 & U2 & C2 & S2 & _).
    assert (WA : write_all fs (Some f) (r ++ [k]) = Some fs2).
    { clear - W1 W2. revert fs W1. induction r as [|[a b] r IHr]; intros fs W1.
      - cbn [write_all] in W1. injection W1 as ->. cbn [app write_all]. destruct k as [a b]. cbn [fst snd] in *. rewrite W2. reflexivity.
      - cbn [app write_all] in *. destruct (file_write fs (Some f) a b) as [[fs' n]|]; [|discriminate]. apply IHr, W1. }
    exists fs2, c2. split; [exact WA|]. split; [exact C2|]. split; [intros q NQ; rewrite U2, U1; auto|].
    assert (RA : forall p, received (map range_of (r ++ [k])) p <->
       received (map range_of r) p \/ (Z.of_N (fst k) <= p < Z.of_N (fst k) + Z.of_nat (length (snd k)))%Z).
    { intros p. rewrite map_app. unfold received. split.
      - intros (s & e & I & B). apply in_app_or in I. destruct I as [I|[I|[]]]; [left; eauto|right]. unfold range_of in I. inversion I; subst. lia.
      - intros [(s & e & I & B)|B]; [exists s, e; split; [apply in_or_app; auto|auto]|].
        exists (Z.of_N (fst k)), (Z.of_N (fst k) + Z.of_nat (length (snd k)))%Z. split; [apply in_or_app; right; left; reflexivity|exact B]. }
    destruct (Nat.eqb_spec (length (snd k)) 0) as [Z0|NZ].
    { subst c2. split; [|split].
      - intros i X. apply RA in X. destruct X as [X|X]; [auto|lia].
      - intros i X. apply N1. intro Y. apply X, RA. auto.
      - exact L1. }
    destruct S2 as [S2 LN2]. pose proof (true_chunk_end src k Tk ltac:(lia)) as EB.
    split; [|split].
    + intros i X. rewrite S2. unfold byte_after. apply RA in X.
      destruct (Nat.leb_spec (N.to_nat (fst k) + length (snd k)) i) as [A|A].
      { destruct X as [X|X]; [auto|lia]. }
      destruct (Nat.leb_spec (N.to_nat (fst k)) i) as [B|B].
      { rewrite <- (Tk (i - N.to_nat (fst k))%nat) by lia. f_equal. lia. }
      destruct X as [X|X]; [|lia].
      destruct (Nat.ltb_spec i (length c1)) as [D|D]; [auto|].
      (* a received position is inside the file *)
      exfalso.
      assert (Y : nth_error src i = None) by (symmetry; rewrite <- (R1 i X); symmetry; apply nth_error_None; lia).
      apply nth_error_None in Y. lia.
    + intros i X. rewrite S2. unfold byte_after.
      assert (X1 : ~ received (map range_of r) (Z.of_nat i)) by (intro Y; apply X, RA; auto).
      assert (X2 : ~ (Z.of_N (fst k) <= Z.of_nat i < Z.of_N (fst k) + Z.of_nat (length (snd k)))%Z) by (intro Y; apply X, RA; auto).
      destruct (Nat.leb_spec (N.to_nat (fst k) + length (snd k)) i) as [A|A]; [auto|].
      destruct (Nat.leb_spec (N.to_nat (fst k)) i) as [B|B]; [lia|].
      destruct (Nat.ltb_spec i (length c1)) as [D|D]; [auto|].
      right. split; [apply nth_error_None; lia|]. split; [reflexivity|lia].
    + lia.
Qed.

(** C51: any chunks of a source, in any order and with any duplication, written to
    a file: every write succeeds, every received position holds the source's byte, every other
    position what it held before (zero if the file did not reach that far), and
    other files are unchanged. *)
Lemma c51_positions : forall src f chunks fs c0, of_write f = true -> content_of fs (of_path f) = Some c0 ->
  (forall k, In k chunks -> true_chunk src k) -> (forall k, In k chunks -> fst k < 2 ^ 63) ->
  exists fs' c, write_all fs (Some f) chunks = Some fs' /\ content_of fs' (of_path f) = Some c /\
    unchanged_except (of_path f) fs fs' /\
    (forall i, received (map range_of chunks) (Z.of_nat i) -> nth_error c i = nth_error src i) /\
    (forall i, ~ received (map range_of chunks) (Z.of_nat i) -> (i < length c)%nat ->
       nth_error c i = if Nat.ltb i (length c0) then nth_error c0 i else Some (ascii_of_N 0)).
Proof.
  intros src f chunks fs c0 W CO TC PB.
  destruct (reassembly_inv src f chunks fs c0 W CO TC PB) as (fs' & c & A & B & C & D & E & L).
  exists fs', c. split; [exact A|]. split; [exact B|]. split; [exact C|]. split; [exact D|].
  intros i X LI. destruct (E i X) as [Q|(Q1 & Q2 & _)].
  - rewrite Q. destruct (Nat.ltb_spec i (length c0)); [reflexivity|].
    exfalso. rewrite (proj2 (nth_error_None c0 i)) in Q by lia. apply nth_error_None in Q. lia.
  - rewrite Q2. apply nth_error_None in Q1. replace (Nat.ltb i (length c0)) with false by (symmetry; apply Nat.ltb_ge; lia). reflexivity.
Qed.

(** C51: when the record of received ranges is the single range [0, n), the first
    n bytes of the file are those of the source; if n is the length of the source
    and the file was empty, the file is the source. *)
Lemma c51_complete : forall src f chunks fs fs' c0 c l n, of_write f = true -> content_of fs (of_path f) = Some c0 ->
  (forall k, In k chunks -> true_chunk src k) -> (forall k, In k chunks -> fst k < 2 ^ 63) ->
  write_all fs (Some f) chunks = Some fs' -> content_of fs' (of_path f) = Some c ->
  run (map range_of chunks) l -> l = [{| h_start := 0; h_end := Z.of_nat n |}] ->
  firstn n c = firstn n src /\ ((length c0 <= length src)%nat -> n = length src -> c = src).
Proof.
  intros src f chunks fs fs' c0 c l n W CO TC PB WA CC RU ->.
  destruct (reassembly_inv src f chunks fs c0 W CO TC PB) as (fs1 & c1 & A & B & C & D & E & L).
  rewrite A in WA. injection WA as ->. rewrite B in CC. injection CC as ->.
  assert (RC : forall i, (i < n)%nat -> nth_error c i = nth_error src i).
  { intros i LI. apply D. apply (c16_covers_received _ _ RU). exists {| h_start := 0; h_end := Z.of_nat n |}. split; [left; auto|]. cbn [h_start h_end]. lia. }
  assert (FN : firstn n c = firstn n src).
  { apply nth_error_ext. intros i. destruct (Nat.ltb_spec i n) as [LI|LI].
    - rewrite !nth_error_firstn' by auto. auto.
    - rewrite !(proj2 (nth_error_None _ _)); [reflexivity| |]; rewrite firstn_length; lia. }
  split; [exact FN|]. intros LE ->. rewrite firstn_all in FN. rewrite firstn_all2 in FN by lia. exact FN.
Qed.

(** *** From frames to the file *)
(** A data frame the codec carries, with bytes *)
Definition sendable (d : data) : Prop :=
  d_header d < 2 ^ 32 /\ d_session d < 2 ^ 32 /\
  (exists w, descriptor_width (hd_descriptor (d_header d)) = Some w /\ d_offset d < 2 ^ (8 * N.of_nat w)) /\
  (hd_reqtstamp (d_header d) = 1 -> proper_stamp (d_tstamp d)) /\ t_header (d_tstamp d) < 256 /\ d_payload d <> [].
(** The position and bytes a receiver gets out of a datagram *)
Definition chunk_of (f : list byte) (k : chunk) : Prop :=
  exists d, data_decode zero_data f = Ret (d, None) /\ k = (d_offset d, d_payload d).

(** C51: end to end.  The sender encodes data frames with the bytes of the source.
    The network delivers any sequence of them: lost, repeated, reordered.  The receiver
    decodes each datagram, writes it to a new file and records the range.  When the
    record says [0, length) the file equals the source. *)
Lemma c51_end_to_end : forall src sent arrived fs f, of_write f = true -> content_of fs (of_path f) = Some [] ->
  N.of_nat (length src) <= 2 ^ 63 ->
  (forall d, In d sent -> sendable d /\ true_chunk src (d_offset d, d_payload d)) ->
  (forall g, In g arrived -> exists d, In d sent /\ data_encode d = Ret (Frame g)) ->
  exists chunks fs', Forall2 chunk_of arrived chunks /\ write_all fs (Some f) chunks = Some fs' /\
    forall l, run (map range_of chunks) l -> l = [{| h_start := 0; h_end := Z.of_nat (length src) |}] ->
      content_of fs' (of_path f) = Some src.
Proof.
  intros src sent arrived fs f W CO LS SE AR.
  assert (CH : exists chunks, Forall2 chunk_of arrived chunks /\ (forall k, In k chunks -> true_chunk src k) /\ (forall k, In k chunks -> fst k < 2 ^ 63)).
  { clear W CO fs f. induction arrived as [|g r IH]; [exists []; split; [constructor|]; split; intros k []|].
    destruct IH as (chunks & F2 & T & P); [intros; apply AR; right; auto|].
    destruct (AR g (or_introl eq_refl)) as (d & Id & En). destruct (SE d Id) as [(S1 & S2 & (w & S3 & S4) & S5 & S6 & S7) TC].
    destruct (c24_roundtrip d zero_data w S1 S2 S3 S4 S5 S6) as (g' & En' & De). rewrite En in En'. injection En' as <-.
    assert (LP : length (d_payload d) <> 0%nat) by (destruct (d_payload d); [congruence|discriminate]).
    replace (Nat.eqb (length (d_payload d)) 0) with false in De by (symmetry; apply Nat.eqb_neq; auto). rewrite andb_false_r in De.
    exists ((d_offset d, d_payload d) :: chunks). split; [|split].
    - constructor; [|exact F2]. eexists. split; [exact De|]. reflexivity.
    - intros k [<-|I]; auto.
    - intros k [<-|I]; [|auto]. cbn [fst]. pose proof (true_chunk_end _ _ TC ltac:(cbn [snd]; lia)) as X. cbn [fst snd] in X. lia. }
  destruct CH as (chunks & F2 & T & P). destruct (reassembly_inv src f chunks fs [] W CO T P) as (fs' & c & A & B & _).
  exists chunks, fs'. split; [exact F2|]. split; [exact A|]. intros l RU EL.
  destruct (c51_complete src f chunks fs fs' [] c l (length src) W CO T P A B RU EL) as [_ X].
  rewrite B. f_equal. apply X; [cbn [length]; lia|reflexivity].
Qed.

(** ** C52 *)

(** C52: a get of a name that is an existing file, when nothing exists at the doubled
    path: it succeeds and the file's content is gone. *)
Lemma c52_get_destroys : forall now ok fs cwd sardir fname ttype p c,
  ttype = "get" \/ ttype = "take" ->
  resolve_follow fs cwd (sardir ++ "/" ++ fname) = inl p -> content_of fs p = Some c ->
  doubled_exists fs cwd sardir fname = false ->
  let r := file_open now ok fs cwd sardir fname ttype in
  or_err r = false /\ content_of (or_fs r) p = Some [] /\ unchanged_except p fs (or_fs r) /\
  exists f, or_fp r = Some f /\ of_path f = p /\ of_write f = true.
Proof.
  intros now ok fs cwd sardir fname ttype p c TT RF CO DE. unfold doubled_exists in DE. unfold file_open, full.
  assert (OT : one_of ttype ["get"; "take"] = true) by (destruct TT as [->| ->]; reflexivity). rewrite OT, DE.
  unfold os_create. rewrite RF. destruct (content_node _ _ _ CO) as (n & G & K). rewrite G, K. cbn [or_err or_fs or_fp].
  split; [reflexivity|]. split; [unfold content_of; rewrite fs_get_set_same; reflexivity|].
  split; [intros q NQ; apply fs_get_set_other; auto|]. eexists. split; [reflexivity|]. split; reflexivity.
Qed.
(** C52: the only thing that protects files is something at the doubled path: then
    every get is refused, and without it every put is. *)
Lemma c52_doubled : forall now ok fs cwd sardir fname,
  (doubled_exists fs cwd sardir fname = true ->
     forall ttype, ttype = "get" \/ ttype = "take" \/ ttype = "getdir" ->
     file_open now ok fs cwd sardir fname ttype = {| or_fs := fs; or_cwd := cwd; or_fp := None; or_err := true |}) /\
  (doubled_exists fs cwd sardir fname = false ->
     forall ttype, ttype = "put" \/ ttype = "give" ->
     file_open now ok fs cwd sardir fname ttype = {| or_fs := fs; or_cwd := cwd; or_fp := None; or_err := true |}).
Proof.
  intros. unfold doubled_exists, file_open, full. split; intros D ttype T.
  - destruct T as [->|[->| ->]]; cbn [one_of existsb]; eval_eqbs; cbn [orb]; rewrite D; reflexivity.
  - destruct T as [->| ->]; cbn [one_of existsb]; eval_eqbs; cbn [orb]; rewrite D; reflexivity.
Qed.
(** C52: with an ordinary absolute sardir /c1/.../ck that has nothing called c1 inside,
    the doubled path never exists, whatever the name. *)
Lemma c52_ordinary : forall fs cwd c1 rest, (forall c, In c (c1 :: rest) -> plain c) ->
  fs_get ((c1 :: rest) ++ [c1])%list fs = None ->
  forall fname, doubled_exists fs cwd (abs_name (c1 :: rest)) fname = false.
Proof.
  intros fs cwd c1 rest P G fname. unfold doubled_exists, file_exists, full, os_stat, resolve_follow.
  destruct (doubled_missing fs cwd c1 rest fname P G) as [e ->]. reflexivity.
Qed.
(** C52: so no local file can ever be sent. *)
Lemma c52_never_put : forall now ok fs cwd c1 rest fname ttype, (forall c, In c (c1 :: rest) -> plain c) ->
  fs_get ((c1 :: rest) ++ [c1])%list fs = None -> ttype = "put" \/ ttype = "give" ->
  or_err (file_open now ok fs cwd (abs_name (c1 :: rest)) fname ttype) = true.
Proof.
  intros now ok fs cwd c1 rest fname ttype P G T.
  destruct (c52_doubled now ok fs cwd (abs_name (c1 :: rest)) fname) as [_ X]. rewrite X; auto. apply c52_ordinary; auto.
Qed.

(** ** C140 *)

(** C140: for the four kinds that move a file: an error is reported exactly if no file is
    returned, and then nothing has changed; what is returned is the file of that name in
    sardir, at its start, to be written for "get" and "take", when it is there and empty (unless it is
    not a regular file) and nothing else has changed, to be read for "put" and "give", when nothing has changed. *)
Lemma c140_file : forall now ok fs cwd sardir fname ttype, In ttype ["get"; "take"; "put"; "give"] ->
  let r := file_open now ok fs cwd sardir fname ttype in
  or_cwd r = cwd /\ or_err r = (match or_fp r with None => true | Some _ => false end) /\
  match or_fp r with
  | None => or_fs r = fs
  | Some f =>
      resolve_follow fs cwd (sardir ++ "/" ++ fname) = inl (of_path f) /\ of_pos f = 0%Z /\
      if is_in ttype ["get"; "take"]
      then of_write f = true /\ unchanged_except (of_path f) fs (or_fs r) /\
           (content_of (or_fs r) (of_path f) = Some [] \/
            or_fs r = fs /\ exists n, fs_get (of_path f) fs = Some n /\ (n_kind n = KPipe \/ n_kind n = KOther))
      else of_write f = false /\ or_fs r = fs /\ exists n, fs_get (of_path f) fs = Some n
  end.
Proof.
  intros now ok fs cwd sardir fname ttype T.
  assert (C : In ttype ["get"; "take"] \/ In ttype ["put"; "give"]) by (cbn [In] in *; tauto). clear T. destruct C as [T|T].
  - assert (O : one_of ttype ["get"; "take"] = true) by (destruct T as [<-|[<-|[]]]; reflexivity).
    assert (O2 : is_in ttype ["get"; "take"] = true) by (destruct T as [<-|[<-|[]]]; reflexivity). rewrite O2.
    unfold file_open, full. rewrite O. destruct (file_exists fs cwd sardir (sardir ++ "/" ++ fname)); [repeat split|].
    unfold os_create. destruct (resolve_follow fs cwd (sardir ++ "/" ++ fname)) as [p|e] eqn:R; [|repeat split].
    destruct (fs_get p fs) as [n|] eqn:G; [destruct (n_kind n) eqn:K|]; cbn [or_cwd or_err or_fp or_fs of_path of_pos of_write]; repeat split;
      try (intros q NQ; apply fs_get_set_other; auto);
      try (left; unfold content_of; rewrite fs_get_set_same; reflexivity);
      try (right; split; [reflexivity|]; exists n; split; [exact G|]; rewrite K; auto).
  - assert (O : one_of ttype ["get"; "take"] = false) by (destruct T as [<-|[<-|[]]]; reflexivity).
    assert (O1 : String.eqb ttype "getdir" = false) by (destruct T as [<-|[<-|[]]]; reflexivity).
    assert (O2 : one_of ttype ["put"; "give"] = true) by (destruct T as [<-|[<-|[]]]; reflexivity).
    assert (O3 : is_in ttype ["get"; "take"] = false) by (destruct T as [<-|[<-|[]]]; reflexivity). rewrite O3.
    unfold file_open, full. rewrite O, O1, O2. destruct (file_exists fs cwd sardir (sardir ++ "/" ++ fname)); [|repeat split]. cbn [negb].
    unfold os_open. destruct (resolve_follow fs cwd (sardir ++ "/" ++ fname)) as [p|e] eqn:R; [|repeat split].
    destruct (fs_get p fs) as [n|] eqn:G; cbn [or_cwd or_err or_fp or_fs of_path of_pos of_write]; repeat split. eauto.
Qed.
(** C140: and they are opened: for "get" and "take" a name that leads to a directory, when there is
    nothing of that name and nothing at the doubled path; for "put" and "give" what is there, when
    there is something at the doubled path. *)
Lemma c140_opens : forall now ok fs cwd sardir fname ttype p, resolve_follow fs cwd (sardir ++ "/" ++ fname) = inl p ->
  (fs_get p fs = None /\ doubled_exists fs cwd sardir fname = false /\ In ttype ["get"; "take"] \/
   fs_get p fs <> None /\ doubled_exists fs cwd sardir fname = true /\ In ttype ["put"; "give"]) ->
  or_err (file_open now ok fs cwd sardir fname ttype) = false.
Proof.
  intros now ok fs cwd sardir fname ttype p R [(G & D & T)|(G & D & T)]; unfold doubled_exists in D; unfold file_open, full, os_create, os_open; rewrite D, R.
  - destruct T as [<-|[<-|[]]]; cbn [one_of existsb]; eval_eqbs; cbn [orb]; rewrite G; reflexivity.
  - destruct (fs_get p fs); [|congruence]. destruct T as [<-|[<-|[]]]; reflexivity.
Qed.
(** what is made at the end of a path is found by it *)
Lemma walk_made : forall fs n p comps cur, walk fs cur comps = inl p -> fs_get p fs = None -> walk (fs_set p n fs) cur comps = inl p.
Proof.
  intros fs n p. induction comps as [|c r IH]; intros cur W G; [exact W|]. cbn [walk] in *.
  destruct (fs_get cur fs) as [m|] eqn:C; [|discriminate W]. rewrite fs_get_set_other by congruence. rewrite C.
  destruct (is_dir m); [|discriminate W]. destruct (_ || _); [auto|]. destruct (String.eqb c ".."); auto.
Qed.
Lemma resolve_made : forall fs n p cwd s, resolve fs cwd s = inl p -> fs_get p fs = None -> resolve (fs_set p n fs) cwd s = inl p.
Proof. intros fs n p cwd s. unfold resolve. destruct (String.eqb s ""); [discriminate|]. destruct (has_nul s); [discriminate|]. apply walk_made. Qed.
(** C140: "getdir" returns no file.  Without an error a new directory of that name has been
    made, and it is the working directory of the whole process from now on (defect); with an error the
    working directory is as before, and the files are unless the directory was made and could not be entered. *)
Lemma c140_getdir : forall now ok fs cwd sardir fname,
  let r := file_open now ok fs cwd sardir fname "getdir" in
  let made p := resolve fs cwd (sardir ++ "/" ++ fname) = inl p /\ fs_get p fs = None /\ unchanged_except p fs (or_fs r) /\
                exists n, fs_get p (or_fs r) = Some n /\ is_dir n = true in
  or_fp r = None /\
  (or_err r = false -> ok = true /\ made (or_cwd r)) /\
  (or_err r = true -> or_cwd r = cwd /\ (or_fs r = fs \/ ok = false /\ exists p, made p)).
Proof.
  intros now ok fs cwd sardir fname. unfold file_open, full. change (one_of "getdir" ["get"; "take"]) with false. change (String.eqb "getdir" "getdir") with true. cbv iota.
  destruct (file_exists fs cwd sardir (sardir ++ "/" ++ fname)); [cbn; split; [reflexivity|]; split; [discriminate|auto]|].
  unfold os_mkdir. destruct (resolve fs cwd (sardir ++ "/" ++ fname)) as [p|e] eqn:R; [|cbn; split; [reflexivity|]; split; [discriminate|auto]].
  destruct (fs_get p fs) eqn:G; [cbn; split; [reflexivity|]; split; [discriminate|auto]|].
  rewrite (resolve_made _ {| n_kind := KDir; n_size := 4096; n_mtime := now; n_ctime := now |} _ _ _ R G).
  set (fs' := fs_set p {| n_kind := KDir; n_size := 4096; n_mtime := now; n_ctime := now |} fs).
  assert (MADE : unchanged_except p fs fs' /\ exists n, fs_get p fs' = Some n /\ is_dir n = true).
  { split; [intros q NQ; apply fs_get_set_other; auto|]. eexists. split; [apply fs_get_set_same|reflexivity]. }
  destruct ok; cbn [or_fs or_cwd or_err or_fp].
  - split; [reflexivity|]. split; [|discriminate]. intros _. split; [reflexivity|]. split; [reflexivity|]. split; [exact G|]. apply MADE.
  - split; [reflexivity|]. split; [discriminate|]. intros _. split; [reflexivity|]. right. split; [reflexivity|]. exists p. split; [reflexivity|]. split; [exact G|]. apply MADE.
Qed.
(** C140: "delete" opens nothing without an error; every other kind, such as "putblind", is an
    error, whatever files there are (defect). *)
Lemma c140_others : forall now ok fs cwd sardir fname ttype, ~ In ttype ["get"; "take"; "put"; "give"; "getdir"] ->
  file_open now ok fs cwd sardir fname ttype = {| or_fs := fs; or_cwd := cwd; or_fp := None; or_err := negb (String.eqb ttype "delete") |}.
Proof.
  intros now ok fs cwd sardir fname ttype N. unfold file_open, one_of. cbn [existsb].
  repeat match goal with |- context [String.eqb ttype ?b] => destruct (String.eqb_spec ttype b) as [->|_]; [try (exfalso; apply N; repeat (first [left; reflexivity|right]); fail)|] end; reflexivity.
Qed.

(** ** C53 *)

(** C53: whatever the sardir, any file, and any empty directory but the root, can be named for deletion. *)
Lemma c53_escape : forall fs cwd sardir d p n, tree fs -> sardir_is fs cwd sardir d ->
  p <> [] -> fs_get p fs = Some n -> is_dir n && has_child p fs = false ->
  exists name, file_rm fs cwd sardir name = inl (fs_del p fs).
Proof.
  intros fs cwd sardir d p n T (NN & WD & dn & DG & DD) NE G NC.
  set (comps := (repeat ".." (length d) ++ p)%list).
  exists (String.concat "/" comps). unfold file_rm, os_remove, full. rewrite resolve_full, NN.
  assert (PL : forall c, In c p -> plain c) by (intros; eapply tree_plain; eauto).
  assert (NU : has_nul (String.concat "/" comps) = false).
  { apply has_nul_concat. intros c I. unfold comps in I. apply in_app_or in I. destruct I as [I|I].
    - apply repeat_spec in I. subst c. reflexivity.
    - destruct (PL c I) as (_ & _ & _ & _ & X). apply has_nul_none; auto. }
  rewrite NU. cbn [orb]. rewrite WD. rewrite split_concat.
  - unfold comps. rewrite walk_app, (walk_up fs T d dn DG DD). rewrite (walk_down fs T p [] n G). cbn [app]. rewrite G, NC. reflexivity.
  - unfold comps. destruct (repeat ".." (length d)); [destruct p; [congruence|discriminate]|discriminate].
  - intros c I. unfold comps in I. apply in_app_or in I. destruct I as [I|I].
    + apply repeat_spec in I. subst c. cbn. intuition discriminate.
    + destruct (PL c I) as (_ & _ & _ & X & _). exact X.
Qed.
(** C53: without parent components in the name, deletion touches nothing outside the sardir. *)
Lemma c53_confined : forall fs cwd sardir d name fs', sardir_is fs cwd sardir d -> ~ In ".." (split_on "/" name) ->
  file_rm fs cwd sardir name = inl fs' ->
  forall q, fs_get q fs' <> fs_get q fs -> exists r, q = (d ++ r)%list.
Proof.
  intros fs cwd sardir d name fs' (NN & WD & _) ND RM q DF. unfold file_rm, os_remove, full in RM. rewrite resolve_full, NN, WD in RM.
  destruct (false || has_nul name); [discriminate|]. destruct (walk fs d (split_on "/" name)) as [p|] eqn:WK; [|discriminate].
  destruct (fs_get p fs) as [n|]; [|discriminate]. destruct (is_dir n && has_child p fs); [discriminate|]. inversion RM; subst fs'.
  destruct (list_eq_dec string_dec q p) as [->|NQ]; [|exfalso; apply DF, fs_get_del_other; auto].
  eapply walk_below; eauto.
Qed.

(** ** C54 *)

(** C54: when a checksum can be had: the type is none, or it is one of the three
    hashes of the bytes of sardir/name, of the announced length. *)
Lemma c54_result : forall H now fs cwd sardir ty fname,
  checksum H now fs cwd sardir ty fname =
    if doubled_exists fs cwd sardir fname then
      match os_open fs cwd (sardir ++ "/" ++ fname) with
      | inr _ => None
      | inl f =>
          let hashed (h : list byte -> list byte) (words : nat) :=
            match content_of fs (of_path f) with
            | None => None
            | Some c => if Nat.eqb (length (h c)) (4 * words) then Some (h c) else None
            end in
          if String.eqb ty "none" then Some []
          else if String.eqb ty "crc32" then hashed (hx_crc32 H) 1%nat
          else if String.eqb ty "md5" then hashed (hx_md5 H) 4%nat
          else if String.eqb ty "sha1" then hashed (hx_sha1 H) 5%nat
          else None
      end
    else None.
Proof.
  intros. unfold checksum, file_open, doubled_exists. cbn [one_of existsb]. eval_eqbs. cbn [orb]. unfold full.
  destruct (file_exists fs cwd sardir (sardir ++ "/" ++ fname)); cbn [negb]; [|reflexivity].
  destruct (os_open fs cwd (sardir ++ "/" ++ fname)) as [f|e]; [|reflexivity]. cbn [or_err or_fp].
  destruct (String.eqb ty "none"); [reflexivity|].
  assert (Q : forall (a : Z) (w : nat) (l : list byte), a = Z.of_nat w ->
     (if (a <? 0)%Z then None else if negb (a * 4 =? Z.of_nat (length l))%Z then None else Some l) = if Nat.eqb (length l) (4 * w) then Some l else None).
  { intros a w l ->. replace (Z.of_nat w <? 0)%Z with false by (symmetry; apply Z.ltb_ge; lia).
    destruct (Nat.eqb_spec (length l) (4 * w)) as [E|E].
    - replace (Z.of_nat w * 4 =? Z.of_nat (length l))%Z with true by (symmetry; apply Z.eqb_eq; lia). reflexivity.
    - replace (Z.of_nat w * 4 =? Z.of_nat (length l))%Z with false by (symmetry; apply Z.eqb_neq; lia). reflexivity. }
  destruct (String.eqb_spec ty "crc32") as [->|]; [destruct (content_of fs (of_path f)); [|reflexivity]; apply Q; reflexivity|].
  destruct (String.eqb_spec ty "md5") as [->|]; [destruct (content_of fs (of_path f)); [|reflexivity]; apply Q; reflexivity|].
  destruct (String.eqb_spec ty "sha1") as [->|]; [destruct (content_of fs (of_path f)); [|reflexivity]; apply Q; reflexivity|].
  reflexivity.
Qed.
(** C54: a checksum has four times as many bytes as the length that the header
    announces for its type. *)
Lemma c54_length : forall H now fs cwd sardir ty fname cs h h',
  checksum H now fs cwd sardir ty fname = Some cs -> sf_set sar h "csumlen" ty = Ret h' -> h < 2 ^ 32 ->
  length cs = csum_bytes h'.
Proof.
  intros H now fs cwd sardir ty fname cs h h' CK SE Bh. rewrite c54_result in CK.
  destruct (doubled_exists _ _ _ _); [|discriminate]. destruct (os_open _ _ _) as [f|]; [|discriminate]. cbv zeta in CK.
  assert (CB : forall k, lookup ty [("none", 0); ("crc32", 1); ("invalid2", 2); ("invalid3", 3); ("md5", 4); ("sha1", 5)] = Some k -> csum_bytes h' = (4 * N.to_nat k)%nat).
  { intros k LK. unfold csum_bytes. f_equal. f_equal. rewrite sf_set_eq in SE. unfold hd_csumlen.
    destruct (lookup "csumlen" (t_flags sar)) as [fl|] eqn:L; [|discriminate]. vm_compute in L. injection L as <-.
    cbn [f_opts] in SE. rewrite LK in SE. injection SE as <-.
    match goal with |- context[set_bits 32 ?fl h k] => pose proof (set_bits_field_same 32 fl h k) as X end. cbn [f_msb f_len] in X. apply X; [lia|exact Bh|].
    assert (KB : k <= 5).
    { cbn [lookup] in LK. destruct (String.eqb ty "none"); [injection LK as <-; lia|]. destruct (String.eqb ty "crc32"); [injection LK as <-; lia|].
      destruct (String.eqb ty "invalid2"); [injection LK as <-; lia|]. destruct (String.eqb ty "invalid3"); [injection LK as <-; lia|].
      destruct (String.eqb ty "md5"); [injection LK as <-; lia|]. destruct (String.eqb ty "sha1"); [injection LK as <-; lia|discriminate]. }
    change (2 ^ 4) with 16. lia. }
  destruct (String.eqb_spec ty "none") as [->|].
  { rewrite (CB 0) by reflexivity. injection CK as <-. reflexivity. }
  destruct (String.eqb_spec ty "crc32") as [->|].
  { rewrite (CB 1) by reflexivity. destruct (content_of _ _); [|discriminate]. destruct (Nat.eqb_spec (length (hx_crc32 H l)) (4 * 1)); [|discriminate]. injection CK as <-. exact e. }
  destruct (String.eqb_spec ty "md5") as [->|].
  { rewrite (CB 4) by reflexivity. destruct (content_of _ _); [|discriminate]. destruct (Nat.eqb_spec (length (hx_md5 H l)) (4 * 4)); [|discriminate]. injection CK as <-. exact e. }
  destruct (String.eqb_spec ty "sha1") as [->|]; [|discriminate].
  rewrite (CB 5) by reflexivity. destruct (content_of _ _); [|discriminate]. destruct (Nat.eqb_spec (length (hx_sha1 H l)) (4 * 5)); [|discriminate]. injection CK as <-. exact e.
Qed.
(** C54: with an ordinary absolute sardir no file has a checksum, of any type, and
    therefore metadata of a file or directory can never be built. *)
Lemma c54_never : forall H now fs cwd c1 rest, (forall c, In c (c1 :: rest) -> plain c) ->
  fs_get ((c1 :: rest) ++ [c1])%list fs = None ->
  forall ty fname, checksum H now fs cwd (abs_name (c1 :: rest)) ty fname = None.
Proof. intros. rewrite c54_result, c52_ordinary; auto. Qed.
Lemma c54_no_metadata : forall E c1 rest m flags info m', (forall c, In c (c1 :: rest) -> plain c) ->
  e_sardir E = abs_name (c1 :: rest) -> fs_get ((c1 :: rest) ++ [c1])%list (e_fs E) = None ->
  meta_new E m flags info = Ret (m', None) -> hd_transfer (m_header m') = 3.
Proof.
  intros E c1 rest m flags info m' P SD G H. unfold meta_new in H. inv_bind H. inv_bind H.
  destruct (meta_flags _ _) as [[[m1 c] [e|]]| |]; cbn [obind] in H; try discriminate.
  unfold meta_rest in H. inv_bind H. destruct a1 as [fl|e]; [|discriminate].
  inv_bind H. destruct a1 as [d [e|]]; [discriminate|]. rewrite getstr_transfer in H. cbn [obind m_header] in H.
  rewrite SD, c54_never in H by auto.
  destruct (hd_transfer_cases (m_header m1)) as [T|[T|[T|T]]]; rewrite T in H; cbn [transfer_name] in H; revert H; eval_eqbs; cbn [negb]; intros H; try discriminate.
  inversion H; subst. exact T.
Qed.

(** ** C74: deleting through an open file *)

(** C74: deleting a file that was opened by name removes what is at the doubled
    path, never the file itself by its own path. *)
Lemma c74_delete : forall now ok fs cwd sardir fname ttype f fs2,
  or_fp (file_open now ok fs cwd sardir fname ttype) = Some f ->
  file_delete fs2 cwd sardir (Some f) = Some (os_remove fs2 cwd (sardir ++ "/" ++ (sardir ++ "/" ++ fname))).
Proof.
  intros now ok fs cwd sardir fname ttype f fs2 H. unfold file_delete, file_rm, full.
  assert (N : of_name f = sardir ++ "/" ++ fname).
  { unfold file_open, full in H. destruct (one_of ttype _).
    - destruct (file_exists _ _ _ _); [discriminate|]. unfold os_create in H.
      destruct (resolve_follow _ _ _) as [p|]; [|discriminate]. destruct (fs_get p fs) as [n|]; [destruct (n_kind n)|]; inversion H; reflexivity.
    - destruct (String.eqb ttype "getdir").
      { destruct (file_exists _ _ _ _); [discriminate|]. destruct (os_mkdir _ _ _ _); [|discriminate]. destruct ok; discriminate. }
      destruct (one_of ttype _).
      { destruct (negb _); [discriminate|]. unfold os_open in H. destruct (resolve_follow _ _ _) as [p|]; [|discriminate].
        destruct (fs_get p fs); inversion H; reflexivity. }
      destruct (String.eqb ttype "delete"); discriminate. }
  rewrite N. reflexivity.
Qed.
(** C74: with an ordinary absolute sardir it always fails, and deletes nothing. *)
Lemma c74_never : forall now ok fs cwd c1 rest fname ttype f fs2, (forall c, In c (c1 :: rest) -> plain c) ->
  fs_get ((c1 :: rest) ++ [c1])%list fs2 = None ->
  or_fp (file_open now ok fs cwd (abs_name (c1 :: rest)) fname ttype) = Some f ->
  exists e, file_delete fs2 cwd (abs_name (c1 :: rest)) (Some f) = Some (inr e).
Proof.
  intros now ok fs cwd c1 rest fname ttype f fs2 P G H. rewrite (c74_delete _ _ _ _ _ _ _ _ fs2 H).
  unfold os_remove. destruct (doubled_missing fs2 cwd c1 rest fname P G) as [e ->]. eauto.
Qed.

(** ** Concrete cases *)
Definition ex_node (k : kind) : node := {| n_kind := k; n_size := 4096; n_mtime := ex_time; n_ctime := ex_time |}.
Definition ex_tree : fsys :=
  [([], ex_node KDir); (["Users"], ex_node KDir); (["Users"; "chas"], ex_node KDir); (["Users"; "chas"; "sardir"], ex_node KDir);
   (["Users"; "chas"; "sardir"; "f"], ex_node (KFile (bytes_of "hello"))); (["etc"], ex_node KDir); (["etc"; "passwd"], ex_node (KFile (bytes_of "root")))].
Definition ex_open (p : path) : ofile := {| of_path := p; of_name := "f"; of_pos := 0; of_write := true |}.
Example c50_write_ex :
  let f := ex_open ["etc"; "passwd"] in
  content_of ex_tree (of_path f) = Some (bytes_of "root") /\
  option_map (fun r => content_of (fst r) (of_path f)) (file_write ex_tree (Some f) 6 (bytes_of "xy")) =
    Some (Some (bytes_of "root" ++ zeros 2 ++ bytes_of "xy")%list).
Proof. split; vm_compute; reflexivity. Qed.
Example c51_complete_ex :
  let src := bytes_of "abcdef" in
  let chunks := [(3, bytes_of "def"); (0, bytes_of "ab"); (3, bytes_of "d"); (1, bytes_of "bc")] in
  let f := ex_open ["etc"; "x"] in
  let fs := fs_set ["etc"; "x"] (ex_node (KFile [])) ex_tree in
  content_of fs (of_path f) = Some [] /\
  (forall k, In k chunks -> true_chunk src k) /\
  run (map range_of chunks) (hl_add_f (hl_add_f (hl_add_f (hl_add_f [] 3 6) 0 2) 3 4) 1 3) /\
  hl_add_f (hl_add_f (hl_add_f (hl_add_f [] 3 6) 0 2) 3 4) 1 3 = [{| h_start := 0; h_end := 6 |}] /\
  option_map (fun r => content_of r (of_path f)) (write_all fs (Some f) chunks) = Some (Some src).
Proof.
  cbv zeta. split; [reflexivity|]. split.
  { intros k I i L. repeat (destruct I as [<-|I]; [cbn in L; do 4 (try (destruct i as [|i]; [reflexivity|])); cbn in L; lia|]). destruct I. }
  split.
  { eapply (run_add [(3, 6); (0, 2); (3, 4)]%Z _ 1 3); [|apply add_f_add].
    eapply (run_add [(3, 6); (0, 2)]%Z _ 3 4); [|apply add_f_add].
    eapply (run_add [(3, 6)]%Z _ 0 2); [|apply add_f_add].
    eapply (run_add [] _ 3 6); [|apply add_f_add]. constructor. }
  split; vm_compute; reflexivity.
Qed.
Definition ex_data2 : data :=
  {| d_header := d_header ex_data; d_session := 7; d_tstamp := d_tstamp ex_data; d_offset := 2; d_payload := bytes_of "cde" |}.
Example c51_end_to_end_ex : sendable ex_data2 /\ true_chunk (bytes_of "abcde") (d_offset ex_data2, d_payload ex_data2).
Proof.
  split.
  - split; [reflexivity|]. split; [reflexivity|]. split; [exists 4%nat; split; reflexivity|].
    split; [intros _; eexists; split; [reflexivity|]; repeat split; reflexivity|]. split; [reflexivity|discriminate].
  - intros i L. cbn in L. do 3 (try (destruct i as [|i]; [reflexivity|])). lia.
Qed.
(** the shipped sardir *)
Lemma ex_plain : forall c, In c ["Users"; "chas"; "sardir"] -> plain c.
Proof.
  intros c I. unfold plain.
  repeat (destruct I as [<-|I]; [split; [discriminate|]; split; [discriminate|]; split; [discriminate|]; split; vm_compute; intuition discriminate|]). destruct I.
Qed.
Example c52_ex : abs_name ["Users"; "chas"; "sardir"] = "/Users/chas/sardir" /\
  (forall c, In c ["Users"; "chas"; "sardir"] -> plain c) /\
  fs_get ["Users"; "chas"; "sardir"; "Users"] ex_tree = None /\
  content_of ex_tree ["Users"; "chas"; "sardir"; "f"] = Some (bytes_of "hello") /\
  resolve_follow ex_tree [] ("/Users/chas/sardir" ++ "/" ++ "f") = inl ["Users"; "chas"; "sardir"; "f"] /\
  content_of (or_fs (file_open ex_time true ex_tree [] "/Users/chas/sardir" "f" "get")) ["Users"; "chas"; "sardir"; "f"] = Some [].
Proof. split; [reflexivity|]. split; [exact ex_plain|]. split; [reflexivity|]. split; [reflexivity|]. split; vm_compute; reflexivity. Qed.
Example c140_ex :
  let o := file_open ex_time true ex_tree [] "/Users/chas/sardir" in
  In "get" ["get"; "take"; "put"; "give"] /\
  or_err (o "new" "get") = false /\ or_err (o "no/where" "get") = true /\ or_err (o "f" "put") = true /\
  or_err (o "new" "getdir") = false /\ or_cwd (o "new" "getdir") = ["Users"; "chas"; "sardir"; "new"] /\ or_err (o "f" "getdir") = true /\
  ~ In "putblind" ["get"; "take"; "put"; "give"; "getdir"].
Proof.
  cbv zeta. split; [left; reflexivity|]. do 6 (split; [vm_compute; reflexivity|]). intros H. repeat (destruct H as [H|H]; [discriminate|]). exact H.
Qed.
Lemma ex_tree_tree : tree ex_tree.
Proof.
  split; [eexists; split; reflexivity|]. intros p c n G.
  assert (I : forall fs q m, fs_get q fs = Some m -> In q (map fst fs)).
  { induction fs as [|[x y] r IH]; intros q m H; [discriminate|]. cbn [fs_get] in H. destruct (path_eqb q x) eqn:E.
    - apply path_eqb_true in E. subst. left; reflexivity.
    - right. eapply IH; eauto. }
  pose proof (I _ _ _ G) as X. cbn in X.
  assert (PL : forall s, plain s <-> (s <> "" /\ s <> "." /\ s <> ".." /\ ~ In "/"%char (bytes_of s) /\ ~ In (ascii_of_N 0) (bytes_of s))) by (intros; reflexivity).
  destruct X as [X|X]; [destruct p; discriminate|].
  assert (LS : forall a l, (l ++ [a])%list = (p ++ [c])%list -> l = p /\ a = c) by (intros a l E; apply app_inj_tail in E; exact E).
  destruct X as [X|[X|[X|[X|[X|[X|[]]]]]]];
    [apply (LS "Users" []) in X|apply (LS "chas" ["Users"]) in X|apply (LS "sardir" ["Users"; "chas"]) in X
    |apply (LS "f" ["Users"; "chas"; "sardir"]) in X|apply (LS "etc" []) in X|apply (LS "passwd" ["etc"]) in X];
    destruct X as [<- <-]; (split; [apply PL; split; [discriminate|]; split; [discriminate|]; split; [discriminate|]; split; vm_compute; intuition discriminate|eexists; split; reflexivity]).
Qed.
Example c53_ex : tree ex_tree /\ sardir_is ex_tree [] "/Users/chas/sardir" ["Users"; "chas"; "sardir"] /\
  fs_get ["etc"; "passwd"] ex_tree <> None /\
  file_rm ex_tree [] "/Users/chas/sardir" "../../../etc/passwd" = inl (fs_del ["etc"; "passwd"] ex_tree).
Proof.
  split; [exact ex_tree_tree|]. split; [split; [reflexivity|]; split; [vm_compute; reflexivity|]; eexists; split; reflexivity|].
  split; [discriminate|]. vm_compute. reflexivity.
Qed.
Example c54_ex : checksum ex_hash ex_time ex_tree ["Users"; "chas"; "sardir"] "." "md5" "f" = Some (zeros 16) /\
  checksum ex_hash ex_time ex_tree [] "/Users/chas/sardir" "md5" "f" = None.
Proof. split; vm_compute; reflexivity. Qed.
Example c74_ex : exists f e,
  or_fp (file_open ex_time true ex_tree [] "/Users/chas/sardir" "new" "get") = Some f /\
  file_delete (or_fs (file_open ex_time true ex_tree [] "/Users/chas/sardir" "new" "get")) [] "/Users/chas/sardir" (Some f) = Some (inr e).
Proof. eexists. eexists. split; vm_compute; reflexivity. Qed.
