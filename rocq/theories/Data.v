(** * Model of data/data.go *)

From Verif Require Import GoBase Flags Config Shipped Timestamp.
Local Open Scope string_scope.
Local Open Scope N_scope.

(** data.go:18-24 Data *)
Record data := {
  d_header : N;            (* uint32 *)
  d_session : N;           (* uint32 *)
  d_tstamp : timestamp;
  d_offset : N;            (* uint64 *)
  d_payload : list byte
}.
(** data/data.go:18-24: the zero value of a Data *)
Definition zero_data : data :=
  {| d_header := 0; d_session := 0; d_tstamp := zero_timestamp; d_offset := 0; d_payload := [] |}.

(** data.go:27-31 Dinfo *)
Record dinfo := { di_session : N; di_offset : N; di_payload : list byte }.

(** d.Header = h (data/data.go:49-149 New and Make, 152-211 Decode) *)
Definition d_set_header (d : data) (h : N) : data :=
  {| d_header := h; d_session := d_session d; d_tstamp := d_tstamp d;
     d_offset := d_offset d; d_payload := d_payload d |}.
(** d.Tstamp = t (data/data.go:49-149 New and Make, 152-211 Decode) *)
Definition d_set_tstamp (d : data) (t : timestamp) : data :=
  {| d_header := d_header d; d_session := d_session d; d_tstamp := t;
     d_offset := d_offset d; d_payload := d_payload d |}.

(** data.go:81 *)
Definition tstamp_names : list string :=
  ["localinterp"; "posix32"; "posix64"; "posix32_32"; "posix64_32"; "epoch2000_32"].

(** data.go:64-99: the loop over the flags.  Simplification: all calls of
    time.Now() during one New return the same instant [now] (Ticks.v lets the clock move). *)
Fixpoint data_flags (now : gotime) (items : list string) (d : data) : outcome (data * error) :=
  match items with
  | [] => Ret (d, None)
  | it :: rest =>
      let f := split_on "=" it in
      do f0 <- index f 0;
      try d <-
        (if one_of f0 ["version"; "descriptor"; "reqstatus"; "eod"] then
           do f1 <- index f 1;
           do h <- sf_set sar (d_header d) f0 f1; Ret (d_set_header d h, None)
         else if String.eqb f0 "transfer" then
           do f1 <- index f 1;
           if String.eqb f1 "bundle" then Ret (d, Some "bundle transfers not supported") else Ret (d, None)
         else if String.eqb f0 "reqtstamp" then
           do f1 <- index f 1;
           if String.eqb f1 "no" then
             do h <- sf_set sar (d_header d) f0 f1; Ret (d_set_header d h, None)
           else if one_of f1 tstamp_names then
             do h <- sf_set sar (d_header d) f0 "yes";
             do ' (t, e) <- ts_now now (d_tstamp d) f1;
             Ret (d_set_tstamp (d_set_header d h) t, e)
           else if String.eqb f1 "yes" then
             do h <- sf_set sar (d_header d) f0 "yes";
             do ' (t, e) <- ts_now now (d_tstamp d) "posix32";
             Ret (d_set_tstamp (d_set_header d h) t, e)
           else Ret (d, Some (f1 ++ " invalid timestamp type in data"))
         else Ret (d, Some (f0 ++ " invalid flag in data")));
      data_flags now rest d
  end.

(** data.go:103-106, 142-146: the values from the interface *)
Definition d_fill (d : data) (info : dinfo) : data :=
  {| d_header := d_header d; d_session := u32 (di_session info); d_tstamp := d_tstamp d;
     d_offset := di_offset info; d_payload := di_payload info |}.

(** data.go:49-108 New; [info] is a non-nil *Dinfo *)
Definition data_new (now : gotime) (d : data) (flags : string) (info : dinfo) : outcome (data * error) :=
  do h <- sf_set sar (d_header d) "version" "v1";
  do h <- sf_set sar h "frametype" "data";
  try d <- data_flags now (split_on "," (remove_spaces flags)) (d_set_header d h);
  Ret (d_fill d info, None).

(** data.go:112-149 Make *)
Definition data_make (now : gotime) (d : data) (header : N) (info : dinfo) : outcome (data * error) :=
  do h <- sf_set sar header "version" "v1";
  do h <- sf_set sar h "frametype" "data";
  let d := d_set_header d h in
  do tstamp <- sf_getstr sar h "reqtstamp";
  try d <-
    (if String.eqb tstamp "no" then Ret (d, None)
     else if one_of tstamp tstamp_names then
       do ' (t, e) <- ts_now now (d_tstamp d) tstamp; Ret (d_set_tstamp d t, e)
     else if String.eqb tstamp "yes" then
       do ' (t, e) <- ts_now now (d_tstamp d) "posix32"; Ret (d_set_tstamp d t, e)
     else Ret (d, Some (tstamp ++ "invalid timestamp type")));
  Ret (d_fill d info, None).

(** data.go:163-186 and 189-209: offset and payload of the given width at [pos].
    [k] is the byte width, [need] whether an empty payload is an error (line 168,
    only for d16 with timestamp). *)
Definition d_offset_payload (d : data) (frame : list byte) (pos k : nat) (need : bool) : outcome (data * error) :=
  do off <- get_uint k frame pos (pos + k);
  do pay <- slice_from frame (pos + k);
  let d := {| d_header := d_header d; d_session := d_session d; d_tstamp := d_tstamp d;
              d_offset := off; d_payload := pay |} in
  if need && Nat.eqb (length pay) 0 then Ret (d, Some "length of data payload is 0") else Ret (d, None).

(** data.go:152-211 Decode *)
Definition data_decode (d : data) (frame : list byte) : outcome (data * error) :=
  if Nat.ltb (length frame) 10 then Ret (d, Some "data.Get - data frame too short")
  else
    do h <- get_uint 4 frame 0 4;
    do s <- get_uint 4 frame 4 8;
    let d := {| d_header := h; d_session := s; d_tstamp := d_tstamp d;
                d_offset := d_offset d; d_payload := d_payload d |} in
    do rt <- sf_getstr sar h "reqtstamp";
    if String.eqb rt "yes" then
      do tb <- slice frame 8 24;
      do ' (t, e) <- ts_get (d_tstamp d) tb;
      let d := d_set_tstamp d t in
      match e with
      | Some e => Ret (d, Some e)
      | None =>
          do ds <- sf_getstr sar h "descriptor";
          if String.eqb ds "d16" then d_offset_payload d frame 24 2 true
          else if String.eqb ds "d32" then d_offset_payload d frame 24 4 false
          else if String.eqb ds "d64" then d_offset_payload d frame 24 8 false
          else if String.eqb ds "d128" then Ret (d, Some (ds ++ "d128 not supported in data"))
          else Ret (d, Some (ds ++ " invalid descriptor in data"))
      end
    else
      do ds <- sf_getstr sar h "descriptor";
      if String.eqb ds "d16" then d_offset_payload d frame 8 2 false
      else if String.eqb ds "d32" then d_offset_payload d frame 8 4 false
      else if String.eqb ds "d64" then d_offset_payload d frame 8 8 false
      else if String.eqb ds "d128" then Ret (d, Some (ds ++ "d128 not supported in data"))
      else Ret (d, Some (ds ++ "invalid descriptor in data")).

(** An (frame, error) result: Go returns nil for the frame on error. (e.g. data/data.go:214-267) *)
Inductive encoded := Frame (b : list byte) | EncErr (e : string).

(** data.go:214-267 Encode *)
Definition data_encode (d : data) : outcome encoded :=
  do rt <- sf_getstr sar (d_header d) "reqtstamp";
  let havetstamp := String.eqb rt "yes" in
  let framelen := (4 + 4 + (if havetstamp then 16 else 0))%nat in
  do ds <- sf_getstr sar (d_header d) "descriptor";
  if String.eqb ds "d128" then Ret (EncErr (ds ++ "d128 not supported in data"))
  else if negb (one_of ds ["d16"; "d32"; "d64"]) then Ret (EncErr (ds ++ "invalid descriptor in data"))
  else
    let framelen := (framelen + (if String.eqb ds "d16" then 2 else if String.eqb ds "d32" then 4 else 8))%nat in
    let framelen := (framelen + length (d_payload d))%nat in
    let frame := make_bytes framelen in
    do frame <- put_uint 4 frame 0 4 (d_header d);
    do frame <- put_uint 4 frame 4 8 (d_session d);
    do ' (frame, pos) <-
      (if havetstamp then
         do tb <- ts_put (d_tstamp d);
         do frame <- copy_range frame 8 24 tb; Ret (frame, 24%nat)
       else Ret (frame, 8%nat));
    do ' (frame, pos) <-
      (if String.eqb ds "d16" then
         do frame <- put_uint 2 frame pos (pos + 2) (u16 (d_offset d)); Ret (frame, (pos + 2)%nat)
       else if String.eqb ds "d32" then
         do frame <- put_uint 4 frame pos (pos + 4) (u32 (d_offset d)); Ret (frame, (pos + 4)%nat)
       else
         do frame <- put_uint 8 frame pos (pos + 8) (d_offset d); Ret (frame, (pos + 8)%nat));
    do frame <- copy_from frame pos (d_payload d);
    Ret (Frame frame).

(** data.go:287-296 ShortPrint *)
Definition data_shortprint_ok (d : data) : outcome unit :=
  do rt <- sf_getstr sar (d_header d) "reqtstamp";
  if String.eqb rt "yes" then ts_print_ok (d_tstamp d) else Ret tt.
