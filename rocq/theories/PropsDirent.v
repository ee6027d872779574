(** * Dirent: the properties

    Statements only; the proofs are in DirentMain.v. *)
From Verif Require Import GoBase GoFacts Flags SpecFlags FlagsFacts Config Shipped ConfigFacts SpecWire SarFacts Timestamp SpecTime TimeMain Data Request SpecFrames FrameFacts FlagStrFacts BuildFacts SpecRequest RequestMain Fileio Dirent SpecDirent DirentMain.
Local Open Scope string_scope.
Local Open Scope N_scope.

(** C44: what encoding a directory entry gives, for every entry: the documented
    bytes, or an error. *)
Theorem C44_encode : forall d,
  match descriptor_width (dh_descriptor (de_header d)) with
  | None => exists e, dirent_encode d = Ret (EncErr e)
  | Some w =>
      if Nat.leb (slen (de_path d)) 1024 && (de_size d <? size_limit w)
      then dirent_encode d = Ret (Frame (dirent_wire (de_header d) w (de_size d) (t_secs (de_mtime d)) (t_secs (de_ctime d)) (de_path d)))
      else exists e, dirent_encode d = Ret (EncErr e)
  end.
Proof. exact c44_encode. Qed.
Print Assumptions C44_encode.

(** C44: it encodes exactly when the descriptor is d16, d32 or d64, the path has
    at most 1024 bytes, and the size is below 2^16 for d16 and below 2^32 for both
    d32 and d64; everything else is an error, never a panic or an exit. *)
Theorem C44_iff : forall d,
  ((exists f, dirent_encode d = Ret (Frame f)) <->
   (slen (de_path d) <= 1024)%nat /\
   ((dh_descriptor (de_header d) = 0 /\ de_size d < 2 ^ 16) \/
    ((dh_descriptor (de_header d) = 1 \/ dh_descriptor (de_header d) = 2) /\ de_size d < 2 ^ 32))) /\
  ((exists f, dirent_encode d = Ret (Frame f)) \/ (exists e, dirent_encode d = Ret (EncErr e))).
Proof. exact c44_iff. Qed.
Print Assumptions C44_iff.

(** C44: a size of 4 GiB or more is refused with every descriptor. *)
Theorem C44_4gib : forall d, 2 ^ 32 <= de_size d -> exists e, dirent_encode d = Ret (EncErr e).
Proof. exact c44_4gib. Qed.
Print Assumptions C44_4gib.

(** C45: the verdict on arbitrary bytes, whatever the receiver holds. *)
Theorem C45_verdict : forall d f, verdict_of (dirent_decode d f) = dirent_verdict f.
Proof. exact c45_verdict. Qed.
Print Assumptions C45_verdict.

(** C45: it panics exactly when there are at least 12 bytes but fewer than header,
    announced size and two times; it never terminates the process; it returns an
    error exactly for fewer than 12 bytes or a 128-bit descriptor. *)
Theorem C45_iff : forall d f,
  (dirent_decode d f = Panic <->
     (12 <= length f)%nat /\ exists w, descriptor_width (dh_descriptor (number_at f 0 2)) = Some w /\ (length f < 10 + w)%nat) /\
  dirent_decode d f <> Fatal /\
  ((exists d' e, dirent_decode d f = Ret (d', Some e)) <-> (length f < 12)%nat \/ dh_descriptor (number_at f 0 2) = 3).
Proof. exact c45_iff. Qed.
Print Assumptions C45_iff.

(** C45: what accepted bytes decode to. *)
Theorem C45_value : forall d f, dirent_verdict f = Accept -> exists w,
  descriptor_width (dh_descriptor (number_at f 0 2)) = Some w /\ dirent_decode d f = Ret (dirent_at f w, None).
Proof. exact c45_value. Qed.
Print Assumptions C45_value.

(** C43: any encodable entry comes back, with the times as seconds since 2000 and
    the path up to its first zero byte, bytes of 0x80 and above becoming two. *)
Theorem C43_any : forall d d0 f, de_header d < 2 ^ 16 -> t_secs (de_mtime d) < 2 ^ 32 -> t_secs (de_ctime d) < 2 ^ 32 ->
  dirent_encode d = Ret (Frame f) ->
  dirent_decode d0 f =
    Ret ({| de_header := de_header d; de_size := de_size d;
            de_mtime := y2k (t_secs (de_mtime d)); de_ctime := y2k (t_secs (de_ctime d));
            de_path := string_of (latin1_utf8 (before_zero (bytes_of (de_path d)))) |}, None).
Proof. exact c43_any. Qed.
Print Assumptions C43_any.

(** C43: an encodable entry with an ASCII path and times in seconds since 2000
    (as the constructors make them) survives unchanged, into any receiver. *)
Theorem C43_roundtrip : forall d d0 f m c, de_header d < 2 ^ 16 -> ascii_name (de_path d) ->
  de_mtime d = y2k m -> de_ctime d = y2k c -> m < 2 ^ 32 -> c < 2 ^ 32 ->
  dirent_encode d = Ret (Frame f) -> dirent_decode d0 f = Ret (d, None).
Proof. exact c43_roundtrip. Qed.
Print Assumptions C43_roundtrip.

(** C72: an unacceptable item decides the construction: an unknown flag is an
    error, an unknown option terminates the process. *)
Theorem C72_bad_item : forall E d items path, items <> [] -> (forall p, In p items -> clean (fst p) /\ clean (snd p)) ->
  first_bad (map (dirent_item_verdict sar) items) <> Accept ->
  verdict_of (dirent_new E d (flag_list items) path) = first_bad (map (dirent_item_verdict sar) items).
Proof. exact c72_bad_item. Qed.
Print Assumptions C72_bad_item.

(** C72: an empty flag string is refused. *)
Theorem C72_empty : forall E d path, exists d' e, dirent_new E d "" path = Ret (d', Some e).
Proof. exact c72_empty. Qed.
Print Assumptions C72_empty.

(** C72: an accepted flag list: the header has the start-of-entry flag and exactly
    the requested flags.  A path above 1024 bytes is refused.  The entry of a
    special file has size zero and the current time twice.  The entry of a normal
    file has what the operating system says about sardir/path: size and times. *)
Theorem C72_result : forall E d items path, items <> [] -> (forall p, In p items -> clean (fst p) /\ clean (snd p)) ->
  (forall p, In p items -> dirent_item_verdict sar p = Accept) -> de_header d < 2 ^ 16 ->
  exists h, dset_exactly sar (de_header d) h (("sod", "sod") :: items) /\
    let r := dirent_new E d (flag_list items) path in
    if Nat.ltb 1024 (slen path) then verdict_of r = Reject
    else if 2 <=? dh_property h then
      real_time (e_now E) -> y2k_time (e_now E) ->
      r = Ret ({| de_header := h; de_size := 0; de_mtime := y2k_of (e_now E); de_ctime := y2k_of (e_now E); de_path := path |}, None)
    else
      match local_node E path with
      | inr ENOENT => verdict_of r = Reject
      | inr _ => r = Panic
      | inl n =>
          is_link n = false -> real_time (n_mtime n) -> real_time (n_ctime n) -> y2k_time (n_mtime n) -> y2k_time (n_ctime n) ->
          r = Ret ({| de_header := h; de_size := node_size n mod 2 ^ 64;
                      de_mtime := y2k_of (n_mtime n); de_ctime := y2k_of (n_ctime n); de_path := path |}, None)
      end.
Proof. exact c72_result. Qed.
Print Assumptions C72_result.

(** C72: a file whose modification time is before 2000 or after 2136 cannot be described. *)
Theorem C72_old_file : forall E d items path n, items <> [] -> (forall p, In p items -> clean (fst p) /\ clean (snd p)) ->
  (forall p, In p items -> dirent_item_verdict sar p = Accept) -> (slen path <= 1024)%nat ->
  local_node E path = inl n -> is_link n = false -> real_time (n_mtime n) -> ~ y2k_time (n_mtime n) ->
  (- 2 ^ 63 + 946684800 <= unix_secs (n_mtime n))%Z ->
  last_setting items "property" = Some "normalfile" -> de_header d < 2 ^ 16 ->
  verdict_of (dirent_new E d (flag_list items) path) = Reject.
Proof. exact c72_old_file. Qed.
Print Assumptions C72_old_file.
Example C43_roundtrip_ex : de_header ex_dirent < 2 ^ 16 /\ ascii_name (de_path ex_dirent) /\
  exists f, dirent_encode ex_dirent = Ret (Frame f) /\ dirent_decode zero_dirent f = Ret (ex_dirent, None).
Proof. exact c43_roundtrip_ex. Qed.
Example C44_iff_ex : dh_descriptor 0x8080 = 2 /\
  dirent_encode {| de_header := 0x8080; de_size := 2 ^ 32; de_mtime := y2k 0; de_ctime := y2k 0; de_path := "f" |} =
    Ret (EncErr "Descriptor d64 too small for file size 4294967296") /\
  exists f, dirent_encode {| de_header := 0x8080; de_size := 2 ^ 32 - 1; de_mtime := y2k 0; de_ctime := y2k 0; de_path := "f" |} = Ret (Frame f).
Proof. exact c44_iff_ex. Qed.
Example C45_verdict_ex :
  dirent_verdict (wire 2 0x8000 ++ zeros 10) = Accept /\ dirent_verdict (wire 2 0x8040 ++ zeros 10) = Crash /\
  dirent_verdict (wire 2 0x8080 ++ zeros 16) = Accept /\ dirent_verdict (wire 2 0x8080 ++ zeros 15) = Crash /\
  dirent_verdict (wire 2 0x80C0 ++ zeros 40) = Reject /\ dirent_verdict (zeros 11) = Reject.
Proof. exact c45_verdict_ex. Qed.
Example C72_result_ex :
  let items := [("descriptor", "d32"); ("property", "normalfile")] in
  map (dirent_item_verdict sar) items = [Accept; Accept] /\
  dirent_new ex_env zero_dirent (flag_list items) "f" =
    Ret ({| de_header := 0x8040; de_size := 5; de_mtime := y2k 753315200; de_ctime := y2k 753315209; de_path := "f" |}, None) /\
  verdict_of (dirent_new ex_env zero_dirent (flag_list items) "g") = Reject /\
  verdict_of (dirent_new ex_env zero_dirent (flag_list items) "f/g") = Crash /\
  verdict_of (dirent_new ex_env zero_dirent (flag_list items) "old") = Reject.
Proof. exact c72_result_ex. Qed.
Example C72_bad_item_ex : map (dirent_item_verdict sar) [("colour", "red"); ("descriptor", "d17"); ("sod", "sod")] = [Reject; Kill; Reject].
Proof. exact c72_bad_item_ex. Qed.
