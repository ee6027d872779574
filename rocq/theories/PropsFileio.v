(** * Fileio: the properties

    Statements only; the proofs are in FileioMain.v. *)
From Verif Require Import GoBase GoFacts Flags SpecFlags FlagsFacts FlagStrFacts Config Shipped ConfigFacts SpecWire SarFacts BuildFacts Holes SpecHoles HolesFacts HolesMain Timestamp SpecTime TimeMain Data SpecFrames DataMain Fileio SpecFileio FileioFacts Dirent SpecDirent DirentMain Metadata SpecMetadata MetadataMain FileioMain.
Local Open Scope string_scope.
Local Open Scope N_scope.

(** C50: reading returns the bytes of the file from the position on, at most as
    many as asked for; at or behind the end it is an error. *)
Theorem C50_read : forall fs f pos blen c, content_of fs (of_path f) = Some c -> pos < 2 ^ 63 ->
  file_read fs (Some f) pos (Z.of_nat blen) =
    if Nat.eqb blen 0 then Ret (Some [])
    else if Nat.ltb (N.to_nat pos) (length c) then Ret (Some (firstn blen (skipn (N.to_nat pos) c)))
    else Ret None.
Proof. exact c50_read. Qed.
Print Assumptions C50_read.

(** C50: writing changes exactly the bytes written (a gap becomes zeros), in that
    file only, and the bytes read back. *)
Theorem C50_write : forall fs f pos buf c, of_write f = true -> content_of fs (of_path f) = Some c -> pos < 2 ^ 63 ->
  exists fs' c', file_write fs (Some f) pos buf = Some (fs', length buf) /\
    unchanged_except (of_path f) fs fs' /\
    content_of fs' (of_path f) = Some c' /\
    (if Nat.eqb (length buf) 0 then c' = c
     else (forall i, nth_error c' i = byte_after c (N.to_nat pos) buf i) /\
          length c' = Nat.max (length c) (N.to_nat pos + length buf)) /\
    file_read fs' (Some f) pos (Z.of_nat (length buf)) = Ret (Some buf).
Proof. exact c50_write. Qed.
Print Assumptions C50_write.

(** C50: positions of 2^63 and above are refused, and so is a file that is not open
    or only open for reading. *)
Theorem C50_refused : forall fs f pos buf blen,
  (2 ^ 63 <= pos < 2 ^ 64 -> file_write fs (Some f) pos buf = None /\ file_read fs (Some f) pos (Z.of_nat blen) = Ret None) /\
  (of_write f = false -> file_write fs (Some f) pos buf = None) /\
  file_write fs None pos buf = None /\ file_read fs None pos (Z.of_nat blen) = Ret None.
Proof. exact c50_refused. Qed.
Print Assumptions C50_refused.

(** C51: any chunks of a source, in any order and with any duplication, written to
    a file: every write succeeds, every received position holds the source's byte, every other
    position what it held before (zero if the file did not reach that far), and
    other files are unchanged. *)
Theorem C51_positions : forall src f chunks fs c0, of_write f = true -> content_of fs (of_path f) = Some c0 ->
  (forall k, In k chunks -> true_chunk src k) -> (forall k, In k chunks -> fst k < 2 ^ 63) ->
  exists fs' c, write_all fs (Some f) chunks = Some fs' /\ content_of fs' (of_path f) = Some c /\
    unchanged_except (of_path f) fs fs' /\
    (forall i, received (map range_of chunks) (Z.of_nat i) -> nth_error c i = nth_error src i) /\
    (forall i, ~ received (map range_of chunks) (Z.of_nat i) -> (i < length c)%nat ->
       nth_error c i = if Nat.ltb i (length c0) then nth_error c0 i else Some (ascii_of_N 0)).
Proof. exact c51_positions. Qed.
Print Assumptions C51_positions.

(** C51: when the record of received ranges is the single range [0, n), the first
    n bytes of the file are those of the source; if n is the length of the source
    and the file was empty, the file is the source. *)
Theorem C51_complete : forall src f chunks fs fs' c0 c l n, of_write f = true -> content_of fs (of_path f) = Some c0 ->
  (forall k, In k chunks -> true_chunk src k) -> (forall k, In k chunks -> fst k < 2 ^ 63) ->
  write_all fs (Some f) chunks = Some fs' -> content_of fs' (of_path f) = Some c ->
  run (map range_of chunks) l -> l = [{| h_start := 0; h_end := Z.of_nat n |}] ->
  firstn n c = firstn n src /\ ((length c0 <= length src)%nat -> n = length src -> c = src).
Proof. exact c51_complete. Qed.
Print Assumptions C51_complete.

(** C51: end to end.  The sender encodes data frames with the bytes of the source.
    The network delivers any sequence of them: lost, repeated, reordered.  The receiver
    decodes each datagram, writes it to a new file and records the range.  When the
    record says [0, length) the file equals the source. *)
Theorem C51_end_to_end : forall src sent arrived fs f, of_write f = true -> content_of fs (of_path f) = Some [] ->
  N.of_nat (length src) <= 2 ^ 63 ->
  (forall d, In d sent -> sendable d /\ true_chunk src (d_offset d, d_payload d)) ->
  (forall g, In g arrived -> exists d, In d sent /\ data_encode d = Ret (Frame g)) ->
  exists chunks fs', Forall2 chunk_of arrived chunks /\ write_all fs (Some f) chunks = Some fs' /\
    forall l, run (map range_of chunks) l -> l = [{| h_start := 0; h_end := Z.of_nat (length src) |}] ->
      content_of fs' (of_path f) = Some src.
Proof. exact c51_end_to_end. Qed.
Print Assumptions C51_end_to_end.

(** C52: a get of a name that is an existing file, when nothing exists at the doubled
    path: it succeeds and the file's content is gone. *)
Theorem C52_get_destroys : forall now ok fs cwd sardir fname ttype p c,
  ttype = "get" \/ ttype = "take" ->
  resolve_follow fs cwd (sardir ++ "/" ++ fname) = inl p -> content_of fs p = Some c ->
  doubled_exists fs cwd sardir fname = false ->
  let r := file_open now ok fs cwd sardir fname ttype in
  or_err r = false /\ content_of (or_fs r) p = Some [] /\ unchanged_except p fs (or_fs r) /\
  exists f, or_fp r = Some f /\ of_path f = p /\ of_write f = true.
Proof. exact c52_get_destroys. Qed.
Print Assumptions C52_get_destroys.

(** C52: the only thing that protects files is something at the doubled path: then
    every get is refused, and without it every put is. *)
Theorem C52_doubled : forall now ok fs cwd sardir fname,
  (doubled_exists fs cwd sardir fname = true ->
     forall ttype, ttype = "get" \/ ttype = "take" \/ ttype = "getdir" ->
     file_open now ok fs cwd sardir fname ttype = {| or_fs := fs; or_cwd := cwd; or_fp := None; or_err := true |}) /\
  (doubled_exists fs cwd sardir fname = false ->
     forall ttype, ttype = "put" \/ ttype = "give" ->
     file_open now ok fs cwd sardir fname ttype = {| or_fs := fs; or_cwd := cwd; or_fp := None; or_err := true |}).
Proof. exact c52_doubled. Qed.
Print Assumptions C52_doubled.

(** C52: with an ordinary absolute sardir /c1/.../ck that has nothing called c1 inside,
    the doubled path never exists, whatever the name. *)
Theorem C52_ordinary : forall fs cwd c1 rest, (forall c, In c (c1 :: rest) -> plain c) ->
  fs_get ((c1 :: rest) ++ [c1])%list fs = None ->
  forall fname, doubled_exists fs cwd (abs_name (c1 :: rest)) fname = false.
Proof. exact c52_ordinary. Qed.
Print Assumptions C52_ordinary.

(** C52: so no local file can ever be sent. *)
Theorem C52_never_put : forall now ok fs cwd c1 rest fname ttype, (forall c, In c (c1 :: rest) -> plain c) ->
  fs_get ((c1 :: rest) ++ [c1])%list fs = None -> ttype = "put" \/ ttype = "give" ->
  or_err (file_open now ok fs cwd (abs_name (c1 :: rest)) fname ttype) = true.
Proof. exact c52_never_put. Qed.
Print Assumptions C52_never_put.

(** C140: for the four kinds that move a file: an error is reported exactly if no file is
    returned, and then nothing has changed; what is returned is the file of that name in
    sardir, at its start, to be written for "get" and "take", when it is there and empty (unless it is
    not a regular file) and nothing else has changed, to be read for "put" and "give", when nothing has changed. *)
Theorem C140_file : forall now ok fs cwd sardir fname ttype, In ttype ["get"; "take"; "put"; "give"] ->
  let r := file_open now ok fs cwd sardir fname ttype in
  or_cwd r = cwd /\ or_err r = (match or_fp r with None => true | Some _ => false end) /\
  match or_fp r with
  | None => or_fs r = fs
  | Some f =>
      resolve_follow fs cwd (sardir ++ "/" ++ fname) = inl (of_path f) /\ of_pos f = 0%Z /\
      if is_in ttype ["get"; "take"]
      then of_write f = true /\ unchanged_except (of_path f) fs (or_fs r) /\
           (content_of (or_fs r) (of_path f) = Some [] \/
            or_fs r = fs /\ exists n, fs_get (of_path f) fs = Some n /\ (n_kind n = KPipe \/ n_kind n = KOther))
      else of_write f = false /\ or_fs r = fs /\ exists n, fs_get (of_path f) fs = Some n
  end.
Proof. exact c140_file. Qed.
Print Assumptions C140_file.

(** C140: and they are opened: for "get" and "take" a name that leads to a directory, when there is
    nothing of that name and nothing at the doubled path; for "put" and "give" what is there, when
    there is something at the doubled path. *)
Theorem C140_opens : forall now ok fs cwd sardir fname ttype p, resolve_follow fs cwd (sardir ++ "/" ++ fname) = inl p ->
  (fs_get p fs = None /\ doubled_exists fs cwd sardir fname = false /\ In ttype ["get"; "take"] \/
   fs_get p fs <> None /\ doubled_exists fs cwd sardir fname = true /\ In ttype ["put"; "give"]) ->
  or_err (file_open now ok fs cwd sardir fname ttype) = false.
Proof. exact c140_opens. Qed.
Print Assumptions C140_opens.

(** C140: "getdir" returns no file.  Without an error a new directory of that name has been
    made, and it is the working directory of the whole process from now on (defect); with an error the
    working directory is as before, and the files are unless the directory was made and could not be entered. *)
Theorem C140_getdir : forall now ok fs cwd sardir fname,
  let r := file_open now ok fs cwd sardir fname "getdir" in
  let made p := resolve fs cwd (sardir ++ "/" ++ fname) = inl p /\ fs_get p fs = None /\ unchanged_except p fs (or_fs r) /\
                exists n, fs_get p (or_fs r) = Some n /\ is_dir n = true in
  or_fp r = None /\
  (or_err r = false -> ok = true /\ made (or_cwd r)) /\
  (or_err r = true -> or_cwd r = cwd /\ (or_fs r = fs \/ ok = false /\ exists p, made p)).
Proof. exact c140_getdir. Qed.
Print Assumptions C140_getdir.

(** C140: "delete" opens nothing without an error; every other kind, such as "putblind", is an
    error, whatever files there are (defect). *)
Theorem C140_others : forall now ok fs cwd sardir fname ttype, ~ In ttype ["get"; "take"; "put"; "give"; "getdir"] ->
  file_open now ok fs cwd sardir fname ttype = {| or_fs := fs; or_cwd := cwd; or_fp := None; or_err := negb (String.eqb ttype "delete") |}.
Proof. exact c140_others. Qed.
Print Assumptions C140_others.

(** C53: whatever the sardir, any file, and any empty directory but the root, can be named for deletion. *)
Theorem C53_escape : forall fs cwd sardir d p n, tree fs -> sardir_is fs cwd sardir d ->
  p <> [] -> fs_get p fs = Some n -> is_dir n && has_child p fs = false ->
  exists name, file_rm fs cwd sardir name = inl (fs_del p fs).
Proof. exact c53_escape. Qed.
Print Assumptions C53_escape.

(** C53: without parent components in the name, deletion touches nothing outside the sardir. *)
Theorem C53_confined : forall fs cwd sardir d name fs', sardir_is fs cwd sardir d -> ~ In ".." (split_on "/" name) ->
  file_rm fs cwd sardir name = inl fs' ->
  forall q, fs_get q fs' <> fs_get q fs -> exists r, q = (d ++ r)%list.
Proof. exact c53_confined. Qed.
Print Assumptions C53_confined.

(** C54: when a checksum can be had: the type is none, or it is one of the three
    hashes of the bytes of sardir/name, of the announced length. *)
Theorem C54_result : forall H now fs cwd sardir ty fname,
  checksum H now fs cwd sardir ty fname =
    if doubled_exists fs cwd sardir fname then
      match os_open fs cwd (sardir ++ "/" ++ fname) with
      | inr _ => None
      | inl f =>
          let hashed (h : list byte -> list byte) (words : nat) :=
            match content_of fs (of_path f) with
            | None => None
            | Some c => if Nat.eqb (length (h c)) (4 * words) then Some (h c) else None
            end in
          if String.eqb ty "none" then Some []
          else if String.eqb ty "crc32" then hashed (hx_crc32 H) 1%nat
          else if String.eqb ty "md5" then hashed (hx_md5 H) 4%nat
          else if String.eqb ty "sha1" then hashed (hx_sha1 H) 5%nat
          else None
      end
    else None.
Proof. exact c54_result. Qed.
Print Assumptions C54_result.

(** C54: a checksum has four times as many bytes as the length that the header
    announces for its type. *)
Theorem C54_length : forall H now fs cwd sardir ty fname cs h h',
  checksum H now fs cwd sardir ty fname = Some cs -> sf_set sar h "csumlen" ty = Ret h' -> h < 2 ^ 32 ->
  length cs = csum_bytes h'.
Proof. exact c54_length. Qed.
Print Assumptions C54_length.

(** C54: with an ordinary absolute sardir no file has a checksum, of any type, and
    therefore metadata of a file or directory can never be built. *)
Theorem C54_never : forall H now fs cwd c1 rest, (forall c, In c (c1 :: rest) -> plain c) ->
  fs_get ((c1 :: rest) ++ [c1])%list fs = None ->
  forall ty fname, checksum H now fs cwd (abs_name (c1 :: rest)) ty fname = None.
Proof. exact c54_never. Qed.
Print Assumptions C54_never.
Theorem C54_no_metadata : forall E c1 rest m flags info m', (forall c, In c (c1 :: rest) -> plain c) ->
  e_sardir E = abs_name (c1 :: rest) -> fs_get ((c1 :: rest) ++ [c1])%list (e_fs E) = None ->
  meta_new E m flags info = Ret (m', None) -> hd_transfer (m_header m') = 3.
Proof. exact c54_no_metadata. Qed.
Print Assumptions C54_no_metadata.

(** C74: deleting a file that was opened by name removes what is at the doubled
    path, never the file itself by its own path. *)
Theorem C74_delete : forall now ok fs cwd sardir fname ttype f fs2,
  or_fp (file_open now ok fs cwd sardir fname ttype) = Some f ->
  file_delete fs2 cwd sardir (Some f) = Some (os_remove fs2 cwd (sardir ++ "/" ++ (sardir ++ "/" ++ fname))).
Proof. exact c74_delete. Qed.
Print Assumptions C74_delete.

(** C74: with an ordinary absolute sardir it always fails, and deletes nothing. *)
Theorem C74_never : forall now ok fs cwd c1 rest fname ttype f fs2, (forall c, In c (c1 :: rest) -> plain c) ->
  fs_get ((c1 :: rest) ++ [c1])%list fs2 = None ->
  or_fp (file_open now ok fs cwd (abs_name (c1 :: rest)) fname ttype) = Some f ->
  exists e, file_delete fs2 cwd (abs_name (c1 :: rest)) (Some f) = Some (inr e).
Proof. exact c74_never. Qed.
Print Assumptions C74_never.
Example C50_write_ex :
  let f := ex_open ["etc"; "passwd"] in
  content_of ex_tree (of_path f) = Some (bytes_of "root") /\
  option_map (fun r => content_of (fst r) (of_path f)) (file_write ex_tree (Some f) 6 (bytes_of "xy")) =
    Some (Some (bytes_of "root" ++ zeros 2 ++ bytes_of "xy")%list).
Proof. exact c50_write_ex. Qed.
Example C51_complete_ex :
  let src := bytes_of "abcdef" in
  let chunks := [(3, bytes_of "def"); (0, bytes_of "ab"); (3, bytes_of "d"); (1, bytes_of "bc")] in
  let f := ex_open ["etc"; "x"] in
  let fs := fs_set ["etc"; "x"] (ex_node (KFile [])) ex_tree in
  content_of fs (of_path f) = Some [] /\
  (forall k, In k chunks -> true_chunk src k) /\
  run (map range_of chunks) (hl_add_f (hl_add_f (hl_add_f (hl_add_f [] 3 6) 0 2) 3 4) 1 3) /\
  hl_add_f (hl_add_f (hl_add_f (hl_add_f [] 3 6) 0 2) 3 4) 1 3 = [{| h_start := 0; h_end := 6 |}] /\
  option_map (fun r => content_of r (of_path f)) (write_all fs (Some f) chunks) = Some (Some src).
Proof. exact c51_complete_ex. Qed.
Example C51_end_to_end_ex : sendable ex_data2 /\ true_chunk (bytes_of "abcde") (d_offset ex_data2, d_payload ex_data2).
Proof. exact c51_end_to_end_ex. Qed.
Example C52_ex : abs_name ["Users"; "chas"; "sardir"] = "/Users/chas/sardir" /\
  (forall c, In c ["Users"; "chas"; "sardir"] -> plain c) /\
  fs_get ["Users"; "chas"; "sardir"; "Users"] ex_tree = None /\
  content_of ex_tree ["Users"; "chas"; "sardir"; "f"] = Some (bytes_of "hello") /\
  resolve_follow ex_tree [] ("/Users/chas/sardir" ++ "/" ++ "f") = inl ["Users"; "chas"; "sardir"; "f"] /\
  content_of (or_fs (file_open ex_time true ex_tree [] "/Users/chas/sardir" "f" "get")) ["Users"; "chas"; "sardir"; "f"] = Some [].
Proof. exact c52_ex. Qed.
Example C140_ex :
  let o := file_open ex_time true ex_tree [] "/Users/chas/sardir" in
  In "get" ["get"; "take"; "put"; "give"] /\
  or_err (o "new" "get") = false /\ or_err (o "no/where" "get") = true /\ or_err (o "f" "put") = true /\
  or_err (o "new" "getdir") = false /\ or_cwd (o "new" "getdir") = ["Users"; "chas"; "sardir"; "new"] /\ or_err (o "f" "getdir") = true /\
  ~ In "putblind" ["get"; "take"; "put"; "give"; "getdir"].
Proof. exact c140_ex. Qed.
Example C53_ex : tree ex_tree /\ sardir_is ex_tree [] "/Users/chas/sardir" ["Users"; "chas"; "sardir"] /\
  fs_get ["etc"; "passwd"] ex_tree <> None /\
  file_rm ex_tree [] "/Users/chas/sardir" "../../../etc/passwd" = inl (fs_del ["etc"; "passwd"] ex_tree).
Proof. exact c53_ex. Qed.
Example C54_ex : checksum ex_hash ex_time ex_tree ["Users"; "chas"; "sardir"] "." "md5" "f" = Some (zeros 16) /\
  checksum ex_hash ex_time ex_tree [] "/Users/chas/sardir" "md5" "f" = None.
Proof. exact c54_ex. Qed.
Example C74_ex : exists f e,
  or_fp (file_open ex_time true ex_tree [] "/Users/chas/sardir" "new" "get") = Some f /\
  file_delete (or_fs (file_open ex_time true ex_tree [] "/Users/chas/sardir" "new" "get")) [] "/Users/chas/sardir" (Some f) = Some (inr e).
Proof. exact c74_ex. Qed.
