(** * Model of what the constructors of frames do with the value they are given

    data/data.go:101-106 and 140-146, status/status.go:105-115 and 133-143, request/request.go:71-74 and 95-98,
    beacon/beacon.go:87-93 and 151-157, metadata/metadata.go:151-154 and 204-206: New and Make take an interface{} and read
    its members by name with the package reflect of Go's library.  The models in [Data], [Status], [Request], [Beacon] and
    [Metadata] take a pointer to the structure that is meant; here the argument is any value. *)

From Verif Require Import GoBase Flags Config Shipped Timestamp Holes Data Status Request Beacon Dirent Metadata.
Local Open Scope string_scope.
Local Open Scope N_scope.

(** A value of Go as package reflect shows it (used in data/data.go:101-106), with the text of its type; [GUint] is of any
    unsigned integer type, [GInt] of any signed one, [GBytes] a slice of bytes, [GSlice] a slice or array of something else,
    [GCounted] a map or channel with that many elements, [GOther] of any other type (bool, float, func...).  A nil slice is
    an empty one.  The members of a structure are those FieldByName finds, promoted ones included.  Simplification: there are
    no arrays of bytes and no pointers to arrays, which Bytes and Len treat differently in different releases of Go. *)
Inductive gval :=
| GUint (ty : string) (n : N)
| GInt (ty : string) (z : Z)
| GString (ty : string) (s : string)
| GBytes (ty : string) (l : list byte)
| GSlice (ty : string) (l : list gval)
| GCounted (ty : string) (n : nat)
| GStruct (ty : string) (members : list (string * gval))
| GPtr (ty : string) (target : option gval)
| GIface (ty : string) (inner : option gval)
| GOther (ty : string).

(** The text of the type of a value, Type.String of package reflect (used by String at beacon/beacon.go:89) *)
Definition type_text (v : gval) : string :=
  match v with
  | GUint t _ | GInt t _ | GString t _ | GBytes t _ | GSlice t _ | GCounted t _ | GStruct t _ | GPtr t _ | GIface t _
  | GOther t => t
  end.

(** reflect.Value; None is the zero Value, which is what ValueOf makes of nil, Elem of a nil pointer and FieldByName of a name
    that is missing (data/data.go:101-106) *)
Definition rvalue := option gval.
(** Value.Elem (data/data.go:101): what is pointed to; panics for what is neither a pointer nor an interface *)
Definition rv_elem (v : rvalue) : outcome rvalue :=
  match v with Some (GPtr _ t) | Some (GIface _ t) => Ret t | _ => Panic end.
(** Value.FieldByName (data/data.go:103-106); panics for what is no structure *)
Definition rv_field (v : rvalue) (name : string) : outcome rvalue :=
  match v with Some (GStruct _ fs) => Ret (lookup name fs) | _ => Panic end.
(** Value.Uint (data/data.go:103-104) *)
Definition rv_uint (v : rvalue) : outcome N := match v with Some (GUint _ n) => Ret n | _ => Panic end.
(** Value.Int (status/status.go:112-113) *)
Definition rv_int (v : rvalue) : outcome Z := match v with Some (GInt _ z) => Ret z | _ => Panic end.
(** Value.String (beacon/beacon.go:89, request/request.go:73): never panics *)
Definition rv_string (v : rvalue) : string :=
  match v with
  | None => "<invalid Value>"
  | Some (GString _ s) => s
  | Some g => "<" ++ type_text g ++ " Value>"
  end.
(** Value.Bytes (data/data.go:106) *)
Definition rv_bytes (v : rvalue) : outcome (list byte) := match v with Some (GBytes _ l) => Ret l | _ => Panic end.
(** Value.Len (data/data.go:105, status/status.go:109) *)
Definition rv_len (v : rvalue) : outcome nat :=
  match v with
  | Some (GString _ s) => Ret (slen s)
  | Some (GBytes _ l) => Ret (List.length l)
  | Some (GSlice _ l) => Ret (List.length l)
  | Some (GCounted _ n) => Ret n
  | _ => Panic
  end.
(** Value.Index (status/status.go:112-113) *)
Definition rv_index (v : rvalue) (i : nat) : outcome rvalue :=
  match v with
  | Some (GString _ s) => do b <- index (bytes_of s) i; Ret (Some (GUint "uint8" (N_of_ascii b)))
  | Some (GBytes _ l) => do b <- index l i; Ret (Some (GUint "uint8" (N_of_ascii b)))
  | Some (GSlice _ l) => do g <- index l i; Ret (Some g)
  | _ => Panic
  end.

(** data/data.go:101-106 and 140-146: the members of the value, in the order in which they are read *)
Definition read_dinfo (info : rvalue) : outcome dinfo :=
  do e <- rv_elem info;
  do f <- rv_field e "Session"; do s <- rv_uint f;
  do f <- rv_field e "Offset"; do o <- rv_uint f;
  do f <- rv_field e "Payload"; do n <- rv_len f;
  do f <- rv_field e "Payload"; do p <- rv_bytes f;
  Ret {| di_session := s; di_offset := o; di_payload := p |}.

(** status/status.go:109-115 and 137-143: the loop over the holes from number [i] on; [n] times more.  The value does not
    change meanwhile, so Len is asked once (it is not the frame that is being made). *)
Fixpoint read_holes (e : rvalue) (i n : nat) : outcome holes :=
  match n with
  | O => Ret []
  | S n =>
      do f <- rv_field e "Holes"; do h <- rv_index f i; do x <- rv_field h "Start"; do a <- rv_int x;
      do f <- rv_field e "Holes"; do h <- rv_index f i; do x <- rv_field h "End"; do b <- rv_int x;
      do r <- read_holes e (S i) n;
      Ret ({| h_start := a; h_end := b |} :: r)
  end.
(** status/status.go:105-115 and 133-143 *)
Definition read_sinfo (info : rvalue) : outcome sinfo :=
  do e <- rv_elem info;
  do f <- rv_field e "Session"; do s <- rv_uint f;
  do f <- rv_field e "Progress"; do p <- rv_uint f;
  do f <- rv_field e "Inrespto"; do r <- rv_uint f;
  do f <- rv_field e "Holes"; do n <- rv_len f;
  do hs <- read_holes e 0 n;
  Ret {| si_session := s; si_progress := p; si_inrespto := r; si_holes := hs |}.

(** request/request.go:71-74 *)
Definition read_rinfo (info : rvalue) : outcome rinfo :=
  do e <- rv_elem info;
  do f <- rv_field e "Session"; do s <- rv_uint f;
  do f <- rv_field e "Fname";
  let n := rv_string f in
  do f <- rv_field e "Auth"; do a <- rv_bytes f;
  Ret {| ri_session := s; ri_fname := n; ri_auth := a |}.
(** request/request.go:95-98, in Make, with an Elem more at line 96 *)
Definition read_rinfo_make (info : rvalue) : outcome rinfo :=
  do e <- rv_elem info;
  do e' <- rv_elem e; do f <- rv_field e' "Session"; do s <- rv_uint f;
  do f <- rv_field e "Fname";
  let n := rv_string f in
  do f <- rv_field e "Auth"; do a <- rv_bytes f;
  Ret {| ri_session := s; ri_fname := n; ri_auth := a |}.

(** beacon/beacon.go:87-93 and 151-157: the free space is only read if the header asks for it ([asked]) *)
Definition read_binfo (asked : bool) (info : rvalue) : outcome binfo :=
  do e <- rv_elem info;
  do f <- rv_field e "Eid";
  let eid := rv_string f in
  if asked then
    do f <- rv_field e "Freespace"; do n <- rv_uint f; Ret {| bi_freespace := n; bi_eid := eid |}
  else Ret {| bi_freespace := 0; bi_eid := eid |}.

(** metadata/metadata.go:151-154; Make (204-206) reads the member Session as the name too *)
Definition read_minfo (fname : string) (info : rvalue) : outcome minfo :=
  do e <- rv_elem info;
  do f <- rv_field e "Session"; do s <- rv_uint f;
  do f <- rv_field e fname;
  Ret {| mi_session := s; mi_fname := rv_string f |}.

(** ** New and Make, of any value *)
(** data/data.go:49-108 New *)
Definition data_new_of (now : gotime) (d : data) (flags : string) (info : rvalue) : outcome (data * error) :=
  do h <- sf_set sar (d_header d) "version" "v1";
  do h <- sf_set sar h "frametype" "data";
  try d <- data_flags now (split_on "," (remove_spaces flags)) (d_set_header d h);
  do i <- read_dinfo info;
  Ret (d_fill d i, None).
(** data/data.go:112-149 Make *)
Definition data_make_of (now : gotime) (d : data) (header : N) (info : rvalue) : outcome (data * error) :=
  do h <- sf_set sar header "version" "v1";
  do h <- sf_set sar h "frametype" "data";
  let d := d_set_header d h in
  do tstamp <- sf_getstr sar h "reqtstamp";
  try d <-
    (if String.eqb tstamp "no" then Ret (d, None)
     else if one_of tstamp tstamp_names then
       do ' (t, e) <- ts_now now (d_tstamp d) tstamp; Ret (d_set_tstamp d t, e)
     else if String.eqb tstamp "yes" then
       do ' (t, e) <- ts_now now (d_tstamp d) "posix32"; Ret (d_set_tstamp d t, e)
     else Ret (d, Some (tstamp ++ "invalid timestamp type")));
  do i <- read_dinfo info;
  Ret (d_fill d i, None).
(** status/status.go:59-117 New *)
Definition status_new_of (now : gotime) (s : status) (flags : string) (info : rvalue) : outcome (status * error) :=
  do h <- sf_set sar (s_header s) "version" "v1";
  do h <- sf_set sar h "frametype" "status";
  try s <- status_flags now (split_on "," (remove_spaces flags)) (s_set_header s h);
  do i <- read_sinfo info;
  Ret (s_fill s i, None).
(** status/status.go:121-145 Make *)
Definition status_make_of (s : status) (header : N) (info : rvalue) : outcome (status * error) :=
  do h <- sf_set sar header "version" "v1";
  do h <- sf_set sar h "frametype" "status";
  do i <- read_sinfo info;
  Ret (s_fill (s_set_header s h) i, None).
(** request/request.go:42-77 New *)
Definition request_new_of (r : request) (flags : string) (info : rvalue) : outcome (request * error) :=
  do h <- sf_set sar (r_header r) "version" "v1";
  do h <- sf_set sar h "frametype" "request";
  let flags := trim_right "," (remove_spaces flags) in
  try r <- request_flags flags (split_on "," flags) (r_set_header r h);
  do i <- read_rinfo info;
  Ret ({| r_header := r_header r; r_session := u32 (ri_session i); r_fname := ri_fname i;
          r_auth := go_copy (r_auth r) (ri_auth i) |}, None).
(** request/request.go:81-101 Make *)
Definition request_make_of (r : request) (header : N) (info : rvalue) : outcome (request * error) :=
  do h <- sf_set sar header "version" "v1";
  do h <- sf_set sar h "frametype" "request";
  do i <- read_rinfo_make info;
  Ret ({| r_header := h; r_session := u32 (ri_session i); r_fname := ri_fname i;
          r_auth := go_copy (r_auth r) (ri_auth i) |}, None).
(** beacon/beacon.go:87-133 and 151-196 (the same code in New and Make) *)
Definition beacon_space_of (env : sysenv) (b : beacon) (info : rvalue) : outcome (beacon * error) :=
  do i <- read_binfo false info;
  do fs <- sf_getstr sar (b_header b) "freespace";
  do i <- (if String.eqb fs "yes" then read_binfo true info else Ret i);
  beacon_space env b i.
(** beacon/beacon.go:43-134 New *)
Definition beacon_new_of (env : sysenv) (b : beacon) (flags : string) (info : rvalue) : outcome (beacon * error) :=
  do h <- sf_set sar (b_header b) "version" "v1";
  do h <- sf_set sar h "frametype" "beacon";
  try b <- beacon_flags (split_on "," (remove_spaces flags)) (b_set_header b h);
  beacon_space_of env b info.
(** beacon/beacon.go:138-197 Make *)
Definition beacon_make_of (env : sysenv) (b : beacon) (header : N) (info : rvalue) : outcome (beacon * error) :=
  do h <- sf_set sar header "version" "v1";
  do h <- sf_set sar h "frametype" "beacon";
  beacon_space_of env (b_set_header b h) info.
(** metadata/metadata.go:112-187 New *)
Definition meta_new_of (E : env) (m : metadata) (flags : string) (info : rvalue) : outcome (metadata * error) :=
  do h <- sf_set sar (m_header m) "version" "v1";
  do h <- sf_set sar h "frametype" "metadata";
  do ' ((m, csumtype), e) <- meta_flags (split_on "," (remove_spaces flags)) (m_set_header m h, "");
  match e with
  | Some e => Ret (m, Some e)
  | None => do i <- read_minfo "Fname" info; meta_rest E m (mi_session i) (mi_fname i) (Ret csumtype)
  end.
(** metadata/metadata.go:191-239 Make *)
Definition meta_make_of (E : env) (m : metadata) (header : N) (info : rvalue) : outcome (metadata * error) :=
  do h <- sf_set sar header "version" "v1";
  do h <- sf_set sar h "frametype" "metadata";
  do i <- read_minfo "Session" info;
  meta_rest E (m_set_header m h) (mi_session i) (mi_fname i) (sf_getstr sar h "csumtype").
