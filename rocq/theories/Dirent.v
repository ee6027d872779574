(** * Model of dirent/dirent.go *)

From Verif Require Import GoBase Flags Config Shipped Timestamp Data Request Fileio Itoa.
Local Open Scope string_scope.
Local Open Scope N_scope.

(** dirent.go:18-24 DirEnt *)
Record dirent := {
  de_header : N;           (* uint16 *)
  de_size : N;             (* uint64 *)
  de_mtime : timestamp;
  de_ctime : timestamp;
  de_path : string
}.
(** dirent/dirent.go:18-24: the zero value of a DirEnt *)
Definition zero_dirent : dirent :=
  {| de_header := 0; de_size := 0; de_mtime := zero_timestamp; de_ctime := zero_timestamp; de_path := "" |}.

(** d.header = h (dirent/dirent.go:75-126 New, 197-249 Decode) *)
Definition de_set_header (d : dirent) (h : N) : dirent :=
  {| de_header := h; de_size := de_size d; de_mtime := de_mtime d; de_ctime := de_ctime d; de_path := de_path d |}.

(** dirent.go:27-35 Copy, 37-39 Value *)
Definition dirent_copy (d : dirent) : dirent :=
  {| de_header := de_header d; de_size := de_size d; de_mtime := de_mtime d; de_ctime := de_ctime d; de_path := de_path d |}.

(** What the constructors read from the system
    (dirent/dirent.go:43-126 Statfile and New, metadata/metadata.go:112-239, beacon/beacon.go:43-197) *)
Record env := { e_fs : fsys; e_cwd : path; e_sardir : string; e_now : gotime; e_hash : hashes }.

(** dirent.go:43-68 Statfile; sarsys.FileTime (sys_linux.go:61-68) gives Mtime and Ctime.
    Simplification: the text of an error of the file system is one word. *)
Definition dirent_statfile (E : env) (d : dirent) (name : string) : outcome (dirent * error) :=
  do fm <- file_meta (e_fs E) (e_cwd E) (e_sardir E) name;
  match fm with
  | None => Ret (d, Some "stat")
  | Some fi =>
      let n := fm_node fi in
      let d := {| de_header := de_header d; de_size := u64 (node_size n); de_mtime := de_mtime d;
                  de_ctime := de_ctime d; de_path := de_path d |} in
      do ' (mt, e) <- ts_new (de_mtime d) "epoch2000_32" (n_mtime n);
      let d := {| de_header := de_header d; de_size := de_size d; de_mtime := mt;
                  de_ctime := de_ctime d; de_path := de_path d |} in
      match e with
      | Some e => Ret (d, Some e)
      | None =>
          do ' (ct, e) <- ts_new (de_ctime d) "epoch2000_32" (n_ctime n);
          Ret ({| de_header := de_header d; de_size := de_size d; de_mtime := de_mtime d;
                  de_ctime := ct; de_path := de_path d |}, e)
      end
  end.

(** dirent.go:86-98: the loop over the flags *)
Fixpoint dirent_flags (items : list string) (d : dirent) : outcome (dirent * error) :=
  match items with
  | [] => Ret (d, None)
  | it :: rest =>
      let f := split_on "=" it in
      do f0 <- index f 0;
      try d <-
        (if one_of f0 ["descriptor"; "property"] then
           do f1 <- index f 1;
           do h <- sd_set sar (de_header d) f0 f1; Ret (de_set_header d h, None)
         else Ret (d, Some ("Invalid Flag " ++ f0 ++ " for Directory Entry")));
      dirent_flags rest d
  end.

(** dirent.go:75-126 New *)
Definition dirent_new (E : env) (d : dirent) (flags path : string) : outcome (dirent * error) :=
  do h <- sd_set sar (de_header d) "sod" "sod";
  try d <- dirent_flags (split_on "," (remove_spaces flags)) (de_set_header d h);
  if Nat.ltb 1024 (slen path) then Ret (d, Some "path name exceeds 1024 bytes")
  else
    do prop <- sd_getstr sar (de_header d) "property";
    try d <-
      (if one_of prop ["normalfile"; "normaldirectory"] then dirent_statfile E d path
       else if one_of prop ["specialfile"; "specialdirectory"] then
         let d := {| de_header := de_header d; de_size := 0; de_mtime := de_mtime d;
                     de_ctime := de_ctime d; de_path := de_path d |} in
         do ' (mt, e) <- ts_now (e_now E) (de_mtime d) "epoch2000_32";
         match e with
         | Some e => Ret ({| de_header := de_header d; de_size := 0; de_mtime := mt;
                             de_ctime := de_ctime d; de_path := de_path d |}, Some e)
         | None => Ret ({| de_header := de_header d; de_size := 0; de_mtime := mt;
                           de_ctime := mt; de_path := de_path d |}, None)
         end
       else Ret (d, Some ("Invalid Property:" ++ prop)));
    Ret ({| de_header := de_header d; de_size := de_size d; de_mtime := de_mtime d;
            de_ctime := de_ctime d; de_path := path |}, None).

(** dirent.go:129-194 Encode.  Lines 174-178 refuse a d64 size above MaxUint32. *)
Definition dirent_encode (d : dirent) : outcome encoded :=
  do ds <- sd_getstr sar (de_header d) "descriptor";
  if negb (one_of ds ["d16"; "d32"; "d64"; "d128"]) then Ret (EncErr "invalid descriptor in MetaData frame")
  else
    let dsize := (if String.eqb ds "d16" then 2 else if String.eqb ds "d32" then 4
                  else if String.eqb ds "d64" then 8 else 16)%nat in
    let framelen := (2 + 4 + 4 + dsize + slen (de_path d) + 1)%nat in
    if Nat.ltb 1024 (slen (de_path d)) then Ret (EncErr "path name exceeds 1024 bytes")
    else
      let frame := make_bytes framelen in
      do frame <- put_uint 2 frame 0 2 (de_header d);
      let pos := 2%nat in
      do frame <-
        (if Nat.eqb dsize 2 then
           if MaxUint16 <? de_size d then Ret (inr ("Descriptor d16 too small for file size " ++ itoa (de_size d)))
           else do f <- put_uint 2 frame pos (pos + dsize) (u16 (de_size d)); Ret (inl f)
         else if Nat.eqb dsize 4 then
           if MaxUint32 <? de_size d then Ret (inr ("Descriptor d32 too small for file size " ++ itoa (de_size d)))
           else do f <- put_uint 4 frame pos (pos + dsize) (u32 (de_size d)); Ret (inl f)
         else if Nat.eqb dsize 8 then
           if MaxUint32 <? de_size d then Ret (inr ("Descriptor d64 too small for file size " ++ itoa (de_size d)))
           else do f <- put_uint 8 frame pos (pos + dsize) (de_size d); Ret (inl f)
         else Ret (inr ("Malformed Directory Entry Invalid descriptor size " ++ itoa (de_size d))));
      match frame with
      | inr e => Ret (EncErr e)
      | inl frame =>
          let pos := (pos + dsize)%nat in
          do frame <- put_uint 4 frame pos (pos + 4) (u32 (t_secs (de_mtime d)));
          let pos := (pos + 4)%nat in
          do frame <- put_uint 4 frame pos (pos + 4) (u32 (t_secs (de_ctime d)));
          let pos := (pos + 4)%nat in
          let endpos := (pos + slen (de_path d))%nat in
          do frame <- copy_range frame pos endpos (bytes_of (de_path d));
          do frame <- copy_from frame endpos [zero_byte];
          Ret (Frame frame)
      end.

(** dirent.go:223-248: the two times and the path, from [pos] on *)
Definition de_times_path (d : dirent) (frame : list byte) (pos : nat) : outcome (dirent * error) :=
  do t5 <- st_set sar 0 "epoch2000_32";
  let ts := byte_of_N t5 :: make_bytes 4 in
  do mb <- slice frame pos (pos + 4);
  do ts <- copy_from ts 1 mb;
  do ' (mt, e) <- ts_get (de_mtime d) ts;
  let d := {| de_header := de_header d; de_size := de_size d; de_mtime := mt;
              de_ctime := de_ctime d; de_path := de_path d |} in
  match e with
  | Some _ => Ret (d, Some "invalid Mtime")
  | None =>
      let pos := (pos + 4)%nat in
      do cb <- slice frame pos (pos + 4);
      do ts <- copy_from ts 1 cb;
      do ' (ct, e) <- ts_get (de_ctime d) ts;
      let d := {| de_header := de_header d; de_size := de_size d; de_mtime := de_mtime d;
                  de_ctime := ct; de_path := de_path d |} in
      match e with
      | Some _ => Ret (d, Some "invalid Ctime")
      | None =>
          let pos := (pos + 4)%nat in
          do tail <- slice_from frame pos;
          Ret ({| de_header := de_header d; de_size := de_size d; de_mtime := de_mtime d;
                  de_ctime := de_ctime d; de_path := string_of (scan_name tail) |}, None)
      end
  end.

(** dirent.go:206-217: size of width [k] at position 2, then the rest *)
Definition de_size_rest (d : dirent) (frame : list byte) (k : nat) : outcome (dirent * error) :=
  do sz <- get_uint k frame 2 (2 + k);
  de_times_path {| de_header := de_header d; de_size := sz; de_mtime := de_mtime d;
                   de_ctime := de_ctime d; de_path := de_path d |} frame (2 + k).

(** dirent.go:197-249 Decode *)
Definition dirent_decode (d : dirent) (frame : list byte) : outcome (dirent * error) :=
  if Nat.ltb (length frame) 12 then Ret (d, Some "DirEntGet - Entry too short")
  else
    do h <- get_uint 2 frame 0 2;
    let d := de_set_header d h in
    do ds <- sd_getstr sar h "descriptor";
    if String.eqb ds "d16" then de_size_rest d frame 2
    else if String.eqb ds "d32" then de_size_rest d frame 4
    else if String.eqb ds "d64" then de_size_rest d frame 8
    else Ret (d, Some "invalid MetaData Frame").

(** dirent.go:267-274 ShortPrint *)
Definition dirent_shortprint_ok (d : dirent) : outcome unit :=
  do _ <- ts_print_ok (de_mtime d); ts_print_ok (de_ctime d).
