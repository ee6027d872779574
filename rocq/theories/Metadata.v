(** * Model of metadata/metadata.go *)

From Verif Require Import GoBase Flags Config Shipped Timestamp Data Request Fileio Dirent.
Local Open Scope string_scope.
Local Open Scope N_scope.

(** metadata.go:20-25 MetaData *)
Record metadata := {
  m_header : N;
  m_session : N;
  m_checksum : list byte;
  m_dir : dirent
}.
(** metadata/metadata.go:20-25: the zero value of a MetaData *)
Definition zero_metadata : metadata :=
  {| m_header := 0; m_session := 0; m_checksum := []; m_dir := zero_dirent |}.
(** metadata.go:27-30 Minfo *)
Record minfo := { mi_session : N; mi_fname : string }.

(** m.Header = h (metadata/metadata.go:112-239 New and Make, 269-288 Decode) *)
Definition m_set_header (m : metadata) (h : N) : metadata :=
  {| m_header := h; m_session := m_session m; m_checksum := m_checksum m; m_dir := m_dir m |}.

(** metadata.go:47-107 statfile: the directory-entry flags, or an error (inr).
    Line 53 stats [fname] itself, relative to the working directory.  Simplification:
    the system's message (line 55) is one word, and line 68 has only the first part of its text. *)
Definition meta_statfile (E : env) (fname : string) (header : N) : outcome (string + string) :=
  match os_lstat (e_fs E) (e_cwd E) fname with
  | inr _ => Ret (inr "lstat")
  | inl fi =>
      let prop := if is_regular fi then Some "normalfile"
                  else if is_dir fi then Some "normaldirectory"
                  else if is_pipe fi then Some "specialfile" else None in
      match prop with
      | None => Ret (inr "Unsupported file, directory or stream type")
      | Some prop =>
          do fl <- sd_addflag sar "" "property" prop;
          let fsize := u64 (node_size fi) in
          do fl <- sd_addflag sar fl "descriptor"
                     (if fsize <? MaxUint16 then "d16" else if fsize <? MaxUint32 then "d32"
                      else if fsize <? MaxUint64 then "d64" else "d128");
          do tr <- sf_getstr sar header "transfer";
          if String.eqb tr "stream" then
            if negb (is_pipe fi) then Ret (inr ("stream specified but " ++ fname ++ " is not a named pipe"))
            else do ct <- sf_getstr sar header "csumtype";
                 if negb (String.eqb ct "none") then Ret (inr "cannot have checksum with stream transfers")
                 else Ret (inl fl)
          else if String.eqb tr "bundle" then Ret (inr "bundle transfers not supported")
          else if String.eqb tr "file" then
            if is_regular fi then Ret (inl fl) else Ret (inr (fname ++ " not a file"))
          else if String.eqb tr "directory" then
            if is_dir fi then Ret (inl fl) else Ret (inr (fname ++ " not a directory"))
          else Ret (inr (tr ++ " invalid transfer type"))
      end
  end.

(** metadata.go:127-146: the loop over the flags; carries csumtype *)
Fixpoint meta_flags (items : list string) (st : metadata * string) : outcome ((metadata * string) * error) :=
  match items with
  | [] => Ret (st, None)
  | it :: rest =>
      let (m, csumtype) := st in
      let f := split_on "=" it in
      do f0 <- index f 0;
      try st <-
        (if one_of f0 ["descriptor"; "progress"; "transfer"; "reliability"] then
           do f1 <- index f 1;
           do h <- sf_set sar (m_header m) f0 f1; Ret ((m_set_header m h, csumtype), None)
         else if String.eqb f0 "csumtype" then
           do f1 <- index f 1;
           do h <- sf_set sar (m_header m) f0 f1;
           do h <- sf_set sar h "csumlen" f1; Ret ((m_set_header m h, f1), None)
         else Ret ((m, csumtype), Some (f0 ++ "invalid flag for MetaData Frame")));
      meta_flags rest st
  end.

(** metadata.go:151-186 and 203-238: session, stat, directory entry, checksum.
    Lines 167 and 220 store the change time in Mtime.  [csumtype] is the type
    passed to fileio.Checksum, a computation because Make gets it by GetStr
    (line 226), which may exit.  Simplification: the text of an error of Checksum is
    one word. *)
Definition meta_rest (E : env) (m : metadata) (session : N) (fname : string) (csumtype : outcome string)
  : outcome (metadata * error) :=
  let m := {| m_header := m_header m; m_session := u32 session; m_checksum := m_checksum m; m_dir := m_dir m |} in
  do fl <- meta_statfile E fname (m_header m);
  match fl with
  | inr e => Ret (m, Some e)
  | inl fl =>
      do ' (d, e) <- dirent_new E zero_dirent fl fname;
      match e with
      | Some e => Ret (m, Some e)
      | None =>
          let m := {| m_header := m_header m; m_session := m_session m; m_checksum := m_checksum m;
                      m_dir := {| de_header := de_header d; de_size := de_size d; de_mtime := de_ctime d;
                                  de_ctime := de_ctime d; de_path := de_path d |} |} in
          do tr <- sf_getstr sar (m_header m) "transfer";
          if negb (String.eqb tr "stream") then
            do ct <- csumtype;
            match checksum (e_hash E) (e_now E) (e_fs E) (e_cwd E) (e_sardir E) ct fname with
            | None => Ret (m, Some "checksum")
            | Some cs =>
                Ret ({| m_header := m_header m; m_session := m_session m;
                        m_checksum := match cs with [] => m_checksum m | _ => cs end;
                        m_dir := m_dir m |}, None)
            end
          else Ret ({| m_header := m_header m; m_session := m_session m; m_checksum := []; m_dir := m_dir m |}, None)
      end
  end.

(** metadata.go:112-187 New *)
Definition meta_new (E : env) (m : metadata) (flags : string) (info : minfo) : outcome (metadata * error) :=
  do h <- sf_set sar (m_header m) "version" "v1";
  do h <- sf_set sar h "frametype" "metadata";
  do ' ((m, csumtype), e) <- meta_flags (split_on "," (remove_spaces flags)) (m_set_header m h, "");
  match e with
  | Some e => Ret (m, Some e)
  | None => meta_rest E m (mi_session info) (mi_fname info) (Ret csumtype)
  end.

(** metadata.go:191-239 Make.  Line 206 takes the file name from the Session field:
    reflect.Value.String of a uint32 is the text "<uint32 Value>". *)
Definition meta_make (E : env) (m : metadata) (header : N) (info : minfo) : outcome (metadata * error) :=
  do h <- sf_set sar header "version" "v1";
  do h <- sf_set sar h "frametype" "metadata";
  meta_rest E (m_set_header m h) (mi_session info) "<uint32 Value>" (sf_getstr sar h "csumtype").

(** metadata.go:242-266 Encode; line 247 drops the error of the directory entry *)
Definition meta_encode (m : metadata) : outcome encoded :=
  do er <- dirent_encode (m_dir m);
  let de := match er with Frame b => b | EncErr _ => [] end in
  let frame := make_bytes (4 + 4 + length (m_checksum m) + length de) in
  do frame <- put_uint 4 frame 0 4 (m_header m);
  do frame <- put_uint 4 frame 4 8 (m_session m);
  let pos := 8%nat in
  let csumlen := length (m_checksum m) in
  do frame <- (if Nat.ltb 0 csumlen then copy_range frame pos (pos + csumlen) (m_checksum m) else Ret frame);
  let pos := (pos + csumlen)%nat in
  do frame <- copy_from frame pos de;
  Ret (Frame frame).

(** metadata.go:269-288 Decode *)
Definition meta_decode (m : metadata) (frame : list byte) : outcome (metadata * error) :=
  if Nat.ltb (length frame) 8 then Ret (m, Some "MetaDataGet - Frame too short")
  else
    do h <- get_uint 4 frame 0 4;
    do s <- get_uint 4 frame 4 8;
    let csuml := (N.to_nat (sf_get sar h "csumlen") * 4)%nat in
    do cs <- slice frame 8 (8 + csuml);
    do tail <- slice_from frame (8 + csuml);
    do ' (d, e) <- dirent_decode (m_dir m) tail;
    Ret ({| m_header := h; m_session := s; m_checksum := cs; m_dir := d |}, e).

(** metadata.go:308-316 ShortPrint *)
Definition meta_shortprint_ok (m : metadata) : outcome unit :=
  do _ <- sf_getstr sar (m_header m) "csumtype";
  dirent_shortprint_ok (m_dir m).
