(** * Model of request/request.go *)

From Verif Require Import GoBase Flags Config Shipped Data.
Local Open Scope string_scope.
Local Open Scope N_scope.

(** request.go:17-22 Request.  A nil and an empty Auth slice are not distinguished. *)
Record request := {
  r_header : N;            (* uint32 *)
  r_session : N;           (* uint32 *)
  r_fname : string;
  r_auth : list byte
}.
(** request/request.go:17-22: the zero value of a Request *)
Definition zero_request : request := {| r_header := 0; r_session := 0; r_fname := ""; r_auth := [] |}.

(** request.go:23-27 Rinfo *)
Record rinfo := { ri_session : N; ri_fname : string; ri_auth : list byte }.

(** r.Header = h (request/request.go:42-101 New and Make, 122-145 Decode) *)
Definition r_set_header (r : request) (h : N) : request :=
  {| r_header := h; r_session := r_session r; r_fname := r_fname r; r_auth := r_auth r |}.

(** request.go:59-70: the loop over the flags; [all] is the complete flag string *)
Fixpoint request_flags (all : string) (items : list string) (r : request) : outcome (request * error) :=
  match items with
  | [] => Ret (r, None)
  | it :: rest =>
      let f := split_on "=" it in
      do f0 <- index f 0;
      try r <-
        (if one_of f0 ["frametype"; "version"; "descriptor"; "stream"; "txwilling";
                       "rxwilling"; "fileordir"; "reqtype"; "udplite"] then
           do f1 <- index f 1;
           do h <- sf_set sar (r_header r) f0 f1; Ret (r_set_header r h, None)
         else
           do f1 <- index f 1;
           Ret (r, Some ("Request.New: Invalid Flag " ++ f0 ++ "=" ++ f1 ++ "<" ++ all ++ ">")));
      request_flags all rest r
  end.

(** copy(dst, src) where the whole of dst is the target: len(dst) is unchanged (request/request.go:42-101) *)
Definition go_copy (dst src : list byte) : list byte :=
  overwrite dst 0 (firstn (length dst) src).

(** request.go:42-77 New.  Line 74 copies into the existing Auth slice. *)
Definition request_new (r : request) (flags : string) (info : rinfo) : outcome (request * error) :=
  do h <- sf_set sar (r_header r) "version" "v1";
  do h <- sf_set sar h "frametype" "request";
  let flags := trim_right "," (remove_spaces flags) in
  try r <- request_flags flags (split_on "," flags) (r_set_header r h);
  Ret ({| r_header := r_header r; r_session := u32 (ri_session info); r_fname := ri_fname info;
          r_auth := go_copy (r_auth r) (ri_auth info) |}, None).

(** request.go:81-101 Make.  Line 96 calls Elem() on a reflect.Value that already
    is the struct; reflect panics for a Value that is neither interface nor pointer. *)
Definition request_make (r : request) (header : N) (info : rinfo) : outcome (request * error) :=
  do h <- sf_set sar header "version" "v1";
  do h <- sf_set sar h "frametype" "request";
  Panic.

(** request.go:104-119 Encode *)
Definition request_encode (r : request) : outcome encoded :=
  let framelen := (4 + 4 + slen (r_fname r) + 1 + length (r_auth r))%nat in
  let frame := make_bytes framelen in
  do frame <- put_uint 4 frame 0 4 (r_header r);
  do frame <- put_uint 4 frame 4 8 (r_session r);
  let pos := (8 + slen (r_fname r))%nat in
  do frame <- copy_range frame 8 pos (bytes_of (r_fname r));
  do frame <- copy_from frame pos [zero_byte];
  do frame <- (match r_auth r with
               | [] => Ret frame       (* nil; for an empty non-nil Auth the copy is empty too *)
               | _ => copy_from frame (pos + 1) (r_auth r)
               end);
  Ret (Frame frame).

(** request.go:130-135: bytes up to the first zero byte, each converted with string(byte) *)
Fixpoint scan_name (l : list byte) : list byte :=
  match l with
  | [] => []
  | b :: r => if Ascii.eqb b zero_byte then [] else (utf8_of_byte b ++ scan_name r)%list
  end.

(** request.go:122-145 Decode *)
Definition request_decode (r : request) (frame : list byte) : outcome (request * error) :=
  if Nat.ltb (length frame) 9 then Ret (r, Some "request.Decode - request frame too short")
  else
    do h <- get_uint 4 frame 0 4;
    do s <- get_uint 4 frame 4 8;
    do tail <- slice_from frame 8;
    let fname := (r_fname r ++ string_of (scan_name tail))%string in
    let pos := (8 + 1 + slen fname)%nat in
    if Nat.eqb pos (length frame) then
      Ret ({| r_header := h; r_session := s; r_fname := fname; r_auth := [] |}, None)
    else
      do auth <- slice_from frame pos;
      Ret ({| r_header := h; r_session := s; r_fname := fname; r_auth := auth |}, None).

(** request.go:162-168 ShortPrint *)
Definition request_shortprint_ok (r : request) : outcome unit := Ret tt.
