(** * Metadata: the properties

    Statements only; the proofs are in MetadataMain.v. *)
From Verif Require Import GoBase GoFacts Flags SpecFlags FlagsFacts Config Shipped ConfigFacts SpecWire SarFacts Timestamp SpecTime TimeMain Data Request SpecFrames FrameFacts FlagStrFacts BuildFacts SpecRequest RequestMain Fileio Dirent SpecDirent FlagsMain DirentMain Metadata SpecMetadata MetadataMain.
Local Open Scope string_scope.
Local Open Scope N_scope.

(** C48: the verdict on arbitrary bytes. *)
Theorem C48_verdict : forall m f, verdict_of (meta_decode m f) = meta_verdict f.
Proof. exact c48_verdict. Qed.
Print Assumptions C48_verdict.

(** C48: it panics exactly when the announced checksum does not fit the bytes, or
    the rest has at least 12 bytes but is shorter than its own announced size and
    two times; it never terminates the process. *)
Theorem C48_iff : forall m f,
  (meta_decode m f = Panic <->
    (8 <= length f)%nat /\
    (let rest := skipn (8 + csum_bytes (number_at f 0 4)) f in
     (length f < 8 + csum_bytes (number_at f 0 4))%nat \/
     ((12 <= length rest)%nat /\ exists w, descriptor_width (dh_descriptor (number_at rest 0 2)) = Some w /\ (length rest < 10 + w)%nat))) /\
  meta_decode m f <> Fatal.
Proof. exact c48_iff. Qed.
Print Assumptions C48_iff.

(** C48: what accepted bytes decode to. *)
Theorem C48_value : forall m f, meta_verdict f = Accept ->
  let n := csum_bytes (number_at f 0 4) in
  let rest := skipn (8 + n) f in
  exists w, descriptor_width (dh_descriptor (number_at rest 0 2)) = Some w /\
    meta_decode m f = Ret ({| m_header := number_at f 0 4; m_session := number_at f 4 4;
                              m_checksum := firstn n (skipn 8 f); m_dir := dirent_at rest w |}, None).
Proof. exact c48_value. Qed.
Print Assumptions C48_value.

(** C46: a metadata frame comes back exactly, into any receiver, when its
    checksum has the announced length and its entry can be encoded (times in
    seconds since 2000, ASCII path, as the constructors make them). *)
Theorem C46_roundtrip : forall m m0 f t c b,
  m_header m < 2 ^ 32 -> m_session m < 2 ^ 32 -> length (m_checksum m) = csum_bytes (m_header m) ->
  dirent_encode (m_dir m) = Ret (Frame b) ->
  de_header (m_dir m) < 2 ^ 16 -> ascii_name (de_path (m_dir m)) ->
  de_mtime (m_dir m) = y2k t -> de_ctime (m_dir m) = y2k c -> t < 2 ^ 32 -> c < 2 ^ 32 ->
  meta_encode m = Ret (Frame f) ->
  meta_decode m0 f = Ret (m, None).
Proof. exact c46_roundtrip. Qed.
Print Assumptions C46_roundtrip.

(** C47: encoding metadata never fails, even if the entry cannot be encoded; the
    frame then ends after the checksum. *)
Theorem C47_silent : forall m e, dirent_encode (m_dir m) = Ret (EncErr e) ->
  meta_encode m = Ret (Frame (wire 4 (m_header m) ++ wire 4 (m_session m) ++ m_checksum m)%list).
Proof. exact c47_silent. Qed.
Print Assumptions C47_silent.

(** C47: and no receiver accepts it, when the checksum has the announced length;
    in particular metadata of a file of 4 GiB or more cannot be received. *)
Theorem C47_rejected : forall m m0 e f, dirent_encode (m_dir m) = Ret (EncErr e) ->
  m_header m < 2 ^ 32 -> length (m_checksum m) = csum_bytes (m_header m) ->
  meta_encode m = Ret (Frame f) -> verdict_of (meta_decode m0 f) = Reject.
Proof. exact c47_rejected. Qed.
Print Assumptions C47_rejected.
Theorem C47_4gib : forall m m0 f, 2 ^ 32 <= de_size (m_dir m) ->
  m_header m < 2 ^ 32 -> length (m_checksum m) = csum_bytes (m_header m) ->
  meta_encode m = Ret (Frame f) -> verdict_of (meta_decode m0 f) = Reject.
Proof. exact c47_4gib. Qed.
Print Assumptions C47_4gib.

(** C73: an unacceptable item decides the construction. *)
Theorem C73_bad_item : forall E m items info, items <> [] -> (forall p, In p items -> clean (fst p) /\ clean (snd p)) ->
  first_bad (map (meta_item_verdict sar) items) <> Accept ->
  verdict_of (meta_new E m (flag_list items) info) = first_bad (map (meta_item_verdict sar) items).
Proof. exact c73_bad_item. Qed.
Print Assumptions C73_bad_item.

(** C73: an empty flag string is refused. *)
Theorem C73_empty : forall E m info, exists m' e, meta_new E m "" info = Ret (m', Some e).
Proof. exact c73_empty. Qed.
Print Assumptions C73_empty.

(** C73: an accepted flag list, what the metadata describes: version 1, metadata
    frame, exactly the requested flags.  The node found under the name in the
    working directory must be of the kind of the transfer.  The entry has the kind and the descriptor of
    that node, but size and time come from the node under sardir/name; the checksum
    is whatever the checksum operation gives. *)
Theorem C73_result : forall E m items info n, items <> [] -> (forall p, In p items -> clean (fst p) /\ clean (snd p)) ->
  (forall p, In p items -> meta_item_verdict sar p = Accept) -> m_header m < 2 ^ 32 ->
  let name := mi_fname info in
  here E name = inl n -> (slen name <= 1024)%nat ->
  exists h, set_exactly sar (m_header m) h (("version", "v1") :: ("frametype", "metadata") :: flat_map meta_settings items) /\
    let done cs d := Ret ({| m_header := h; m_session := mi_session info mod 2 ^ 32; m_checksum := cs; m_dir := d |}, None) in
    let r := meta_new E m (flag_list items) info in
    match node_verdict h n with
    | Accept =>
        if is_pipe n then
          real_time (e_now E) -> y2k_time (e_now E) -> r = done [] (meta_entry n 0 (e_now E) name)
        else
          match local_node E name with
          | inr ENOENT => verdict_of r = Reject
          | inr _ => r = Panic
          | inl l =>
              is_link l = false -> real_time (n_mtime l) -> real_time (n_ctime l) -> y2k_time (n_mtime l) -> y2k_time (n_ctime l) ->
              match checksum (e_hash E) (e_now E) (e_fs E) (e_cwd E) (e_sardir E) (asked_csum items) name with
              | None => verdict_of r = Reject
              | Some cs => r = done (match cs with [] => m_checksum m | _ => cs end)
                                    (meta_entry n (node_size l mod 2 ^ 64) (n_ctime l) name)
              end
          end
    | v => verdict_of r = v
    end.
Proof. exact c73_result. Qed.
Print Assumptions C73_result.

(** C73: a name that is not found in the working directory is refused, even if
    the file is in the sardir (defect). *)
Theorem C73_not_here : forall E m items info e, items <> [] -> (forall p, In p items -> clean (fst p) /\ clean (snd p)) ->
  (forall p, In p items -> meta_item_verdict sar p = Accept) ->
  here E (mi_fname info) = inr e -> verdict_of (meta_new E m (flag_list items) info) = Reject.
Proof. exact c73_not_here. Qed.
Print Assumptions C73_not_here.

(** C73: without a checksum type among the flags, metadata of a file or directory
    is always refused. *)
Theorem C73_needs_csumtype : forall E m items info m', items <> [] -> (forall p, In p items -> clean (fst p) /\ clean (snd p)) ->
  last_setting items "csumtype" = None ->
  meta_new E m (flag_list items) info = Ret (m', None) -> hd_transfer (m_header m') = 3.
Proof. exact c73_needs_csumtype. Qed.
Print Assumptions C73_needs_csumtype.

(** C49: metadata built for a file or directory, with whatever flags, has the
    file's change time in both time fields (the modification time is lost). *)
Theorem C49_times : forall E m flags info m', meta_new E m flags info = Ret (m', None) ->
  de_mtime (m_dir m') = de_ctime (m_dir m') /\
  (dh_property (de_header (m_dir m')) < 2 ->
   exists n, local_node E (mi_fname info) = inl n /\ de_size (m_dir m') = node_size n mod 2 ^ 64 /\
     de_path (m_dir m') = mi_fname info /\
     (real_time (n_ctime n) -> (- 2 ^ 63 + 946684800 <= unix_secs (n_ctime n))%Z -> 
      y2k_time (n_ctime n) /\ de_mtime (m_dir m') = y2k_of (n_ctime n) /\ de_ctime (m_dir m') = y2k_of (n_ctime n))).
Proof. exact c49_times. Qed.
Print Assumptions C49_times.

(** C73: the header-based constructor never looks at the file name it is given
    (defect): whatever the name, the outcome is the same, and it is an error unless
    the working directory has a file called "<uint32 Value>". *)
Theorem C73_make : forall E m header s f1 f2,
  meta_make E m header {| mi_session := s; mi_fname := f1 |} = meta_make E m header {| mi_session := s; mi_fname := f2 |} /\
  (forall e, here E "<uint32 Value>" = inr e -> verdict_of (meta_make E m header {| mi_session := s; mi_fname := f1 |}) = Reject).
Proof. exact c73_make. Qed.
Print Assumptions C73_make.
Example C46_roundtrip_ex : m_header ex_meta < 2 ^ 32 /\ length (m_checksum ex_meta) = csum_bytes (m_header ex_meta) /\
  exists f b, dirent_encode (m_dir ex_meta) = Ret (Frame b) /\ meta_encode ex_meta = Ret (Frame f) /\ meta_decode zero_metadata f = Ret (ex_meta, None).
Proof. exact c46_roundtrip_ex. Qed.
Example C47_4gib_ex :
  let m := {| m_header := 0x22000000; m_session := 9; m_checksum := [];
              m_dir := {| de_header := 0x8080; de_size := 2 ^ 32; de_mtime := y2k 0; de_ctime := y2k 0; de_path := "f" |} |} in
  2 ^ 32 <= de_size (m_dir m) /\ m_header m < 2 ^ 32 /\ length (m_checksum m) = csum_bytes (m_header m) /\
  exists f, meta_encode m = Ret (Frame f) /\ length f = 8%nat.
Proof. exact c47_4gib_ex. Qed.
Example C48_verdict_ex :
  meta_verdict (wire 4 0x22000040 ++ zeros 19) = Crash /\ meta_verdict (wire 4 0x22000040 ++ zeros 20) = Reject /\
  meta_verdict (wire 4 0x22000040 ++ zeros 4 ++ zeros 16 ++ wire 2 0x8080 ++ zeros 12) = Crash /\
  meta_verdict (wire 4 0x22000040 ++ zeros 4 ++ zeros 16 ++ wire 2 0x8080 ++ zeros 16) = Accept.
Proof. exact c48_verdict_ex. Qed.
Example C73_result_ex :
  let items := [("transfer", "file"); ("csumtype", "md5"); ("progress", "inprogress")] in
  map (meta_item_verdict sar) items = [Accept; Accept; Accept] /\
  meta_new ex_env_dot zero_metadata (flag_list items) {| mi_session := 5; mi_fname := "f" |} =
    Ret ({| m_header := 0x22000042; m_session := 5; m_checksum := zeros 16;
            m_dir := {| de_header := 0x8000; de_size := 5; de_mtime := y2k 753315209; de_ctime := y2k 753315209; de_path := "f" |} |}, None) /\
  verdict_of (meta_new ex_env zero_metadata (flag_list items) {| mi_session := 5; mi_fname := "f" |}) = Reject.
Proof. exact c73_result_ex. Qed.
Example C73_bad_item_ex : map (meta_item_verdict sar) [("colour", "red"); ("csumtype", "sha2"); ("csumlen", "md5")] = [Reject; Kill; Reject].
Proof. exact c73_bad_item_ex. Qed.
