(** * Model of status/status.go *)

From Verif Require Import GoBase Flags Config Shipped Timestamp Holes Data.
Local Open Scope string_scope.
Local Open Scope N_scope.

(** status.go:19-26 Status *)
Record status := {
  s_header : N;            (* uint32 *)
  s_session : N;           (* uint32 *)
  s_tstamp : timestamp;
  s_progress : N;          (* uint64 *)
  s_inrespto : N;          (* uint64 *)
  s_holes : holes
}.
(** status/status.go:19-26: the zero value of a Status *)
Definition zero_status : status :=
  {| s_header := 0; s_session := 0; s_tstamp := zero_timestamp; s_progress := 0;
     s_inrespto := 0; s_holes := [] |}.

(** status.go:28-33 Sinfo *)
Record sinfo := { si_session : N; si_progress : N; si_inrespto : N; si_holes : holes }.

(** s.Header = h (status/status.go:59-145 New and Make, 238-322 Decode) *)
Definition s_set_header (s : status) (h : N) : status :=
  {| s_header := h; s_session := s_session s; s_tstamp := s_tstamp s;
     s_progress := s_progress s; s_inrespto := s_inrespto s; s_holes := s_holes s |}.
(** s.Tstamp = t (status/status.go:59-145 New and Make, 238-322 Decode) *)
Definition s_set_tstamp (s : status) (t : timestamp) : status :=
  {| s_header := s_header s; s_session := s_session s; s_tstamp := t;
     s_progress := s_progress s; s_inrespto := s_inrespto s; s_holes := s_holes s |}.

(** status.go:74-104: the loop over the flags (one instant [now] per call) *)
Fixpoint status_flags (now : gotime) (items : list string) (s : status) : outcome (status * error) :=
  match items with
  | [] => Ret (s, None)
  | it :: rest =>
      let f := split_on "=" it in
      do f0 <- index f 0;
      try s <-
        (if one_of f0 ["descriptor"; "stream"; "metadatarecvd"; "allholes"; "reqholes"; "errcode"] then
           do f1 <- index f 1;
           do h <- sf_set sar (s_header s) f0 f1; Ret (s_set_header s h, None)
         else if String.eqb f0 "reqtstamp" then
           do f1 <- index f 1;
           do h <- sf_set sar (s_header s) f0 f1;
           let s := s_set_header s h in
           if String.eqb f1 "yes" then
             do ' (t, e) <- ts_now now (s_tstamp s) "posix32"; Ret (s_set_tstamp s t, e)
           else Ret (s, None)
         else if one_of f0 ["localinterp"; "posix32"; "posix64"; "posix32_32"; "posix64_32"] then
           do ' (t, e) <- ts_now now (s_tstamp s) f0;
           let s := s_set_tstamp s t in
           match e with
           | Some e => Ret (s, Some e)
           | None => do h <- sf_set sar (s_header s) "reqtstamp" "yes"; Ret (s_set_header s h, None)
           end
         else Ret (s, Some ("Invalid Flag " ++ f0 ++ " for Status Frame")));
      status_flags now rest s
  end.

(** status.go:106-115, 134-143: values from the interface; holes are appended *)
Definition s_fill (s : status) (info : sinfo) : status :=
  {| s_header := s_header s; s_session := u32 (si_session info); s_tstamp := s_tstamp s;
     s_progress := si_progress info; s_inrespto := si_inrespto info;
     s_holes := (s_holes s ++ si_holes info)%list |}.

(** status.go:59-117 New *)
Definition status_new (now : gotime) (s : status) (flags : string) (info : sinfo) : outcome (status * error) :=
  do h <- sf_set sar (s_header s) "version" "v1";
  do h <- sf_set sar h "frametype" "status";
  try s <- status_flags now (split_on "," (remove_spaces flags)) (s_set_header s h);
  Ret (s_fill s info, None).

(** status.go:121-145 Make *)
Definition status_make (s : status) (header : N) (info : sinfo) : outcome (status * error) :=
  do h <- sf_set sar header "version" "v1";
  do h <- sf_set sar h "frametype" "status";
  Ret (s_fill (s_set_header s h) info, None).

(** status.go:192-197, 203-208, 214-219: the hole loop of Encode.
    uint16(int), uint32(int), uint64(int) keep the low 16, 32, 64 bits. *)
Fixpoint enc_holes (k : nat) (hs : holes) (frame : list byte) (pos : nat) : outcome (list byte) :=
  match hs with
  | [] => Ret frame
  | h :: r =>
      do frame <- put_uint k frame pos (pos + k) (wrap (8 * N.of_nat k) (u64_of_Z (h_start h)));
      do frame <- put_uint k frame (pos + k) (pos + k + k) (wrap (8 * N.of_nat k) (u64_of_Z (h_end h)));
      enc_holes k r frame (pos + k + k)
  end.

(** status.go:148-235 Encode.  Note that havetstamp is never set to true. *)
Definition status_encode (s : status) : outcome encoded :=
  let havetstamp := false in
  do rt <- sf_getstr sar (s_header s) "reqtstamp";
  let framelen := (4 + 4 + (if String.eqb rt "yes" then 16 else 0))%nat in
  do ds <- sf_getstr sar (s_header s) "descriptor";
  if String.eqb ds "d128" then Ret (EncErr "d128 not supported in status")
  else if negb (one_of ds ["d16"; "d32"; "d64"]) then Ret (EncErr "invalid descriptor in status")
  else
    let dsize := (if String.eqb ds "d16" then 2 else if String.eqb ds "d32" then 4 else 8)%nat in
    let framelen := (framelen + (dsize * 2 + dsize * length (s_holes s) * 2))%nat in
    let frame := make_bytes framelen in
    do frame <- put_uint 4 frame 0 4 (s_header s);
    do frame <- put_uint 4 frame 4 8 (s_session s);
    do ' (frame, pos) <-
      (if (havetstamp : bool) then
         do tb <- ts_put (s_tstamp s);
         do frame <- copy_range frame 8 24 tb; Ret (frame, 24%nat)
       else Ret (frame, 8%nat));
    do frame <- put_uint dsize frame pos (pos + dsize) (wrap (8 * N.of_nat dsize) (s_progress s));
    let pos := (pos + dsize)%nat in
    do frame <- put_uint dsize frame pos (pos + dsize) (wrap (8 * N.of_nat dsize) (s_inrespto s));
    let pos := (pos + dsize)%nat in
    do frame <- enc_holes dsize (s_holes s) frame pos;
    Ret (Frame frame).

(** status.go:266-272, 280-286, 294-300: the hole loop of Decode, [n] iterations;
    int(uint64) reinterprets the 64 bits as signed *)
Fixpoint dec_holes (k n : nat) (frame : list byte) (pos : nat) : outcome holes :=
  match n with
  | O => Ret []
  | S n' =>
      do st <- get_uint k frame pos (pos + k);
      do en <- get_uint k frame (pos + k) (pos + k + k);
      do r <- dec_holes k n' frame (pos + k + k);
      Ret ({| h_start := i64_of_N st; h_end := i64_of_N en |} :: r)
  end.

(** status.go:259-272, 274-286, 288-300: the fields of width [k] at [pos] *)
Definition s_fields (s : status) (frame : list byte) (pos k : nat) : outcome (status * error) :=
  do p <- get_uint k frame pos (pos + k);
  do i <- get_uint k frame (pos + k) (pos + k + k);
  do rest <- slice_from frame (pos + k + k);
  let hlen := length rest in
  do hs <- dec_holes k (hlen / 2 / k) frame (pos + k + k);
  Ret ({| s_header := s_header s; s_session := s_session s; s_tstamp := s_tstamp s;
          s_progress := p; s_inrespto := i; s_holes := (s_holes s ++ hs)%list |}, None).

(** status.go:238-322 Decode *)
Definition status_decode (s : status) (frame : list byte) : outcome (status * error) :=
  if Nat.ltb (length frame) 12 then Ret (s, Some "status frame too short")
  else
    do h <- get_uint 4 frame 0 4;
    do se <- get_uint 4 frame 4 8;
    let s := {| s_header := h; s_session := se; s_tstamp := s_tstamp s;
                s_progress := s_progress s; s_inrespto := s_inrespto s; s_holes := s_holes s |} in
    do rt <- sf_getstr sar h "reqtstamp";
    do ' (s, pos, err) <-
      (if String.eqb rt "yes" then
         do tb <- slice frame 8 24;
         do ' (t, e) <- ts_get (s_tstamp s) tb;
         Ret (s_set_tstamp s t, 24%nat, e)
       else Ret (s, 8%nat, None));
    match err with
    | Some e => Ret (s, Some e)
    | None =>
        do ds <- sf_getstr sar h "descriptor";
        if String.eqb ds "d16" then s_fields s frame pos 2
        else if String.eqb ds "d32" then s_fields s frame pos 4
        else if String.eqb ds "d64" then s_fields s frame pos 8
        else if String.eqb ds "d128" then Ret (s, Some "d128 not supported in status")
        else Ret (s, Some "invalid descriptor in status")
    end.

(** status.go:325-342 Print: evaluates GetStr of every status flag *)
Definition status_print_ok (s : status) : outcome unit :=
  do _ <- ofold (fun _ f => do _ <- sf_getstr sar (s_header s) f; Ret tt) tt (sf_values sar "status");
  do rt <- sf_getstr sar (s_header s) "reqtstamp";
  if String.eqb rt "yes" then ts_print_ok (s_tstamp s) else Ret tt.
(** status.go:345-356 ShortPrint *)
Definition status_shortprint_ok (s : status) : outcome unit :=
  do rt <- sf_getstr sar (s_header s) "reqtstamp";
  do _ <- (if String.eqb rt "yes" then ts_print_ok (s_tstamp s) else Ret tt);
  do _ <- sf_getstr sar (s_header s) "errcode"; Ret tt.
