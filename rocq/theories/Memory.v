(** * Model of the frames with their backing arrays

    In the other models a frame holds its payload, authentication field, checksum or holes
    as a list.  In the code these are slices, references to arrays that other slices may
    refer to as well.  Here a memory holds the arrays, and the functions that make, fill or
    extend a slice are modelled again on it. *)

From Verif Require Import GoBase Flags Config Shipped Timestamp Holes Data Status Request Beacon Fileio Dirent Metadata Trans Listen.
Local Open Scope string_scope.
Local Open Scope N_scope.

(** ** Go's slices *)

(** A slice: its array, where it starts, its length and its capacity (Go semantics; the Payload of data/data.go:18-24,
    the Auth of request/request.go:17-22, the Checksum of metadata/metadata.go:20-25, the Holes of status/status.go:19-26) *)
Record sref := { sl_array : nat; sl_start : nat; sl_length : nat; sl_capacity : nat }.
(** The elements seen through a slice; nil is None (Go semantics, for the slices of data/data.go:18-24) *)
Definition seen {A} (H : list (list A)) (s : option sref) : list A :=
  match s with
  | None => []
  | Some s => firstn (sl_length s) (skipn (sl_start s) (nth (sl_array s) H []))
  end.
(** make([]T, n): a new array (Go semantics, e.g. data/data.go:166) *)
Definition alloc {A} (z : A) (H : list (list A)) (n : nat) : list (list A) * sref :=
  ((H ++ [repeat z n])%list, {| sl_array := List.length H; sl_start := 0; sl_length := n; sl_capacity := n |}).
(** Another content for array [a] (Go semantics, e.g. data/data.go:167) *)
Fixpoint set_arr {A} (H : list (list A)) (a : nat) (x : list A) : list (list A) :=
  match H, a with
  | [], _ => []
  | _ :: r, O => x :: r
  | y :: r, S a' => y :: set_arr r a' x
  end.
(** Elements [xs] stored from position [i] of a slice on (Go semantics, e.g. data/data.go:167) *)
Definition store {A} (H : list (list A)) (s : sref) (i : nat) (xs : list A) : list (list A) :=
  set_arr H (sl_array s) (overwrite (nth (sl_array s) H []) (sl_start s + i) xs).
(** copy(dst, src) (Go semantics, e.g. data/data.go:167, request/request.go:74) *)
Definition copy_in {A} (H : list (list A)) (dst : option sref) (src : list A) : list (list A) :=
  match dst with None => H | Some s => store H s 0 (firstn (sl_length s) src) end.
(** append(s, x): in place when there is room, otherwise in a new array whose size [grow] tells
    (Go semantics, status/status.go:114, 142, 271, 285, 299) *)
Definition append_one {A} (grow : nat -> nat) (z : A) (H : list (list A)) (s : option sref) (x : A) : list (list A) * sref :=
  let n := match s with None => O | Some s => sl_length s end in
  match s with
  | Some s =>
      if Nat.ltb (sl_length s) (sl_capacity s)
      then (store H s (sl_length s) [x],
            {| sl_array := sl_array s; sl_start := sl_start s; sl_length := S (sl_length s); sl_capacity := sl_capacity s |})
      else ((H ++ [seen H (Some s) ++ x :: repeat z (grow n - S n)])%list,
            {| sl_array := List.length H; sl_start := 0; sl_length := S n; sl_capacity := S n + (grow n - S n) |})
  | None => ((H ++ [x :: repeat z (grow n - S n)])%list,
             {| sl_array := List.length H; sl_start := 0; sl_length := S n; sl_capacity := S n + (grow n - S n) |})
  end.

(** The memory: the arrays of bytes and the arrays of holes (for data/data.go:18-24, status/status.go:19-26) *)
Record mem := { mb : list (list byte); mh : list (list hole) }.

(** data/data.go:18-24 Data, with its slice *)
Record mdata := { md_header : N; md_session : N; md_tstamp : timestamp; md_offset : N; md_payload : option sref }.
(** request/request.go:17-22 Request, with its slice *)
Record mrequest := { mr_header : N; mr_session : N; mr_fname : string; mr_auth : option sref }.
(** metadata/metadata.go:20-25 MetaData, with its slice; the directory entry holds strings and numbers only *)
Record mmetadata := { mm_header : N; mm_session : N; mm_checksum : option sref; mm_dir : dirent }.
(** status/status.go:19-26 Status, with its slice *)
Record mstatus := { ms_header : N; ms_session : N; ms_tstamp : timestamp; ms_progress : N; ms_inrespto : N; ms_holes : option sref }.

(** What a frame holds, by value: the frames of the other models (data/data.go:18-24) *)
Definition data_value (M : mem) (d : mdata) : data :=
  {| d_header := md_header d; d_session := md_session d; d_tstamp := md_tstamp d; d_offset := md_offset d;
     d_payload := seen (mb M) (md_payload d) |}.
(** the same for request/request.go:17-22 *)
Definition request_value (M : mem) (r : mrequest) : request :=
  {| r_header := mr_header r; r_session := mr_session r; r_fname := mr_fname r; r_auth := seen (mb M) (mr_auth r) |}.
(** the same for metadata/metadata.go:20-25 *)
Definition metadata_value (M : mem) (m : mmetadata) : metadata :=
  {| m_header := mm_header m; m_session := mm_session m; m_checksum := seen (mb M) (mm_checksum m); m_dir := mm_dir m |}.
(** the same for status/status.go:19-26 *)
Definition status_value (M : mem) (s : mstatus) : status :=
  {| s_header := ms_header s; s_session := ms_session s; s_tstamp := ms_tstamp s; s_progress := ms_progress s;
     s_inrespto := ms_inrespto s; s_holes := seen (mh M) (ms_holes s) |}.

(** make([]byte, n) followed by copy(p, src) (data/data.go:166-167, request/request.go:142-143, metadata/metadata.go:280-281) *)
Definition fresh_copy (M : mem) (n : nat) (src : list byte) : mem * sref :=
  let '(H, p) := alloc zero_byte (mb M) n in
  ({| mb := copy_in H (Some p) src; mh := mh M |}, p).

(** ** Decoding *)

(** data/data.go:163-186 and 189-209, as [d_offset_payload] *)
Definition md_offset_payload (M : mem) (d : mdata) (f : option sref) (pos k : nat) (need : bool) : outcome (mem * mdata * error) :=
  do off <- get_uint k (seen (mb M) f) pos (pos + k);
  do pay <- slice_from (seen (mb M) f) (pos + k);
  let '(M, p) := fresh_copy M (List.length pay) pay in
  let d := {| md_header := md_header d; md_session := md_session d; md_tstamp := md_tstamp d;
              md_offset := off; md_payload := Some p |} in
  if need && Nat.eqb (sl_length p) 0 then Ret (M, d, Some "length of data payload is 0") else Ret (M, d, None).
(** data/data.go:152-211 Decode, as [data_decode] *)
Definition mdata_decode (M : mem) (d : mdata) (f : option sref) : outcome (mem * mdata * error) :=
  let frame := seen (mb M) f in
  if Nat.ltb (List.length frame) 10 then Ret (M, d, Some "data.Get - data frame too short")
  else
    do h <- get_uint 4 frame 0 4;
    do s <- get_uint 4 frame 4 8;
    let d := {| md_header := h; md_session := s; md_tstamp := md_tstamp d;
                md_offset := md_offset d; md_payload := md_payload d |} in
    do rt <- sf_getstr sar h "reqtstamp";
    if String.eqb rt "yes" then
      do tb <- slice frame 8 24;
      do ' (t, e) <- ts_get (md_tstamp d) tb;
      let d := {| md_header := h; md_session := s; md_tstamp := t; md_offset := md_offset d; md_payload := md_payload d |} in
      match e with
      | Some e => Ret (M, d, Some e)
      | None =>
          do ds <- sf_getstr sar h "descriptor";
          if String.eqb ds "d16" then md_offset_payload M d f 24 2 true
          else if String.eqb ds "d32" then md_offset_payload M d f 24 4 false
          else if String.eqb ds "d64" then md_offset_payload M d f 24 8 false
          else if String.eqb ds "d128" then Ret (M, d, Some (ds ++ "d128 not supported in data"))
          else Ret (M, d, Some (ds ++ " invalid descriptor in data"))
      end
    else
      do ds <- sf_getstr sar h "descriptor";
      if String.eqb ds "d16" then md_offset_payload M d f 8 2 false
      else if String.eqb ds "d32" then md_offset_payload M d f 8 4 false
      else if String.eqb ds "d64" then md_offset_payload M d f 8 8 false
      else if String.eqb ds "d128" then Ret (M, d, Some (ds ++ "d128 not supported in data"))
      else Ret (M, d, Some (ds ++ "invalid descriptor in data")).

(** request/request.go:122-145 Decode, as [request_decode] *)
Definition mrequest_decode (M : mem) (r : mrequest) (f : option sref) : outcome (mem * mrequest * error) :=
  let frame := seen (mb M) f in
  if Nat.ltb (List.length frame) 9 then Ret (M, r, Some "request.Decode - request frame too short")
  else
    do h <- get_uint 4 frame 0 4;
    do s <- get_uint 4 frame 4 8;
    do tail <- slice_from frame 8;
    let fname := (mr_fname r ++ string_of (scan_name tail))%string in
    let pos := (8 + 1 + slen fname)%nat in
    if Nat.eqb pos (List.length frame) then
      Ret (M, {| mr_header := h; mr_session := s; mr_fname := fname; mr_auth := None |}, None)
    else
      do auth <- slice_from frame pos;
      let '(M, p) := fresh_copy M (List.length auth) auth in
      Ret (M, {| mr_header := h; mr_session := s; mr_fname := fname; mr_auth := Some p |}, None).

(** metadata/metadata.go:269-288 Decode, as [meta_decode] *)
Definition mmeta_decode (M : mem) (m : mmetadata) (f : option sref) : outcome (mem * mmetadata * error) :=
  let frame := seen (mb M) f in
  if Nat.ltb (List.length frame) 8 then Ret (M, m, Some "MetaDataGet - Frame too short")
  else
    do h <- get_uint 4 frame 0 4;
    do s <- get_uint 4 frame 4 8;
    let csuml := (N.to_nat (sf_get sar h "csumlen") * 4)%nat in
    do cs <- slice frame 8 (8 + csuml);
    let '(M, p) := fresh_copy M csuml cs in
    do tail <- slice_from (seen (mb M) f) (8 + csuml);
    do ' (d, e) <- dirent_decode (mm_dir m) tail;
    Ret (M, {| mm_header := h; mm_session := s; mm_checksum := Some p; mm_dir := d |}, e).

(** status/status.go:266-272, 280-286, 294-300: the loop over the holes, which appends them *)
Fixpoint mdec_holes (grow : nat -> nat) (k n : nat) (M : mem) (s : option sref) (f : option sref) (pos : nat) : outcome (mem * option sref) :=
  match n with
  | O => Ret (M, s)
  | S n' =>
      do st <- get_uint k (seen (mb M) f) pos (pos + k);
      do en <- get_uint k (seen (mb M) f) (pos + k) (pos + k + k);
      let '(H, s') := append_one grow {| h_start := 0; h_end := 0 |} (mh M) s {| h_start := i64_of_N st; h_end := i64_of_N en |} in
      mdec_holes grow k n' {| mb := mb M; mh := H |} (Some s') f (pos + k + k)
  end.
(** status/status.go:259-272, 274-286, 288-300, as [s_fields] *)
Definition ms_fields (grow : nat -> nat) (M : mem) (s : mstatus) (f : option sref) (pos k : nat) : outcome (mem * mstatus * error) :=
  do p <- get_uint k (seen (mb M) f) pos (pos + k);
  do i <- get_uint k (seen (mb M) f) (pos + k) (pos + k + k);
  do rest <- slice_from (seen (mb M) f) (pos + k + k);
  do ' (M, hs) <- mdec_holes grow k (List.length rest / 2 / k) M (ms_holes s) f (pos + k + k);
  Ret (M, {| ms_header := ms_header s; ms_session := ms_session s; ms_tstamp := ms_tstamp s;
             ms_progress := p; ms_inrespto := i; ms_holes := hs |}, None).
(** status/status.go:238-322 Decode, as [status_decode] *)
Definition mstatus_decode (grow : nat -> nat) (M : mem) (s : mstatus) (f : option sref) : outcome (mem * mstatus * error) :=
  let frame := seen (mb M) f in
  if Nat.ltb (List.length frame) 12 then Ret (M, s, Some "status frame too short")
  else
    do h <- get_uint 4 frame 0 4;
    do se <- get_uint 4 frame 4 8;
    let s := {| ms_header := h; ms_session := se; ms_tstamp := ms_tstamp s;
                ms_progress := ms_progress s; ms_inrespto := ms_inrespto s; ms_holes := ms_holes s |} in
    do rt <- sf_getstr sar h "reqtstamp";
    do ' (s, pos, err) <-
      (if String.eqb rt "yes" then
         do tb <- slice frame 8 24;
         do ' (t, e) <- ts_get (ms_tstamp s) tb;
         Ret ({| ms_header := h; ms_session := se; ms_tstamp := t; ms_progress := ms_progress s;
                 ms_inrespto := ms_inrespto s; ms_holes := ms_holes s |}, 24%nat, e)
       else Ret (s, 8%nat, None));
    match err with
    | Some e => Ret (M, s, Some e)
    | None =>
        do ds <- sf_getstr sar h "descriptor";
        if String.eqb ds "d16" then ms_fields grow M s f pos 2
        else if String.eqb ds "d32" then ms_fields grow M s f pos 4
        else if String.eqb ds "d64" then ms_fields grow M s f pos 8
        else if String.eqb ds "d128" then Ret (M, s, Some "d128 not supported in status")
        else Ret (M, s, Some "invalid descriptor in status")
    end.

(** ** Filling in the caller's values *)

(** data/data.go:101-107 (New) and 139-147 (Make), as [d_fill]; [pay] is the caller's slice *)
Definition mdata_fill (M : mem) (d : mdata) (session offset : N) (pay : option sref) : mem * mdata :=
  let src := seen (mb M) pay in
  let '(M, p) := fresh_copy M (List.length src) src in
  (M, {| md_header := md_header d; md_session := u32 session; md_tstamp := md_tstamp d; md_offset := offset; md_payload := Some p |}).
(** request/request.go:71-74 (New): the authentication field is copied into the array that the request already has *)
Definition mrequest_fill (M : mem) (r : mrequest) (session : N) (fname : string) (auth : option sref) : mem * mrequest :=
  ({| mb := copy_in (mb M) (mr_auth r) (seen (mb M) auth); mh := mh M |},
   {| mr_header := mr_header r; mr_session := u32 session; mr_fname := fname; mr_auth := mr_auth r |}).
(** status/status.go:110-115 (New) and 138-143 (Make): the loop that appends the caller's holes one by one; [i] counts up from the
    first hole, [n] are left *)
Fixpoint mfill_holes (grow : nat -> nat) (n i : nat) (M : mem) (s hs : option sref) : mem * option sref :=
  match n with
  | O => (M, s)
  | S n' =>
      let h := nth i (seen (mh M) hs) {| h_start := 0; h_end := 0 |} in
      let '(H, s') := append_one grow {| h_start := 0; h_end := 0 |} (mh M) s h in
      mfill_holes grow n' (S i) {| mb := mb M; mh := H |} (Some s') hs
  end.
(** status/status.go:106-115 (New) and 134-143 (Make), as [s_fill] *)
Definition mstatus_fill (grow : nat -> nat) (M : mem) (s : mstatus) (session progress inrespto : N) (hs : option sref) : mem * mstatus :=
  let '(M, l) := mfill_holes grow (List.length (seen (mh M) hs)) 0 M (ms_holes s) hs in
  (M, {| ms_header := ms_header s; ms_session := u32 session; ms_tstamp := ms_tstamp s; ms_progress := progress;
         ms_inrespto := inrespto; ms_holes := l |}).

(** ** Encoding *)

(** An assignment or copy into a slice, as the functions of the other models make it (e.g. data/data.go:241-265) *)
Definition edit (M : mem) (s : sref) (g : list byte -> outcome (list byte)) : outcome mem :=
  do b <- g (seen (mb M) (Some s));
  Ret {| mb := store (mb M) s 0 b; mh := mh M |}.
(** data/data.go:214-267 Encode, as [data_encode]; the result is the slice that is returned, or the error *)
Definition mdata_encode (M : mem) (d : mdata) : outcome (mem * (sref + string)) :=
  do rt <- sf_getstr sar (md_header d) "reqtstamp";
  let havetstamp := String.eqb rt "yes" in
  let framelen := (4 + 4 + (if havetstamp then 16 else 0))%nat in
  do ds <- sf_getstr sar (md_header d) "descriptor";
  if String.eqb ds "d128" then Ret (M, inr (ds ++ "d128 not supported in data"))
  else if negb (one_of ds ["d16"; "d32"; "d64"]) then Ret (M, inr (ds ++ "invalid descriptor in data"))
  else
    let framelen := (framelen + (if String.eqb ds "d16" then 2 else if String.eqb ds "d32" then 4 else 8))%nat in
    let framelen := (framelen + List.length (seen (mb M) (md_payload d)))%nat in
    let '(H, frame) := alloc zero_byte (mb M) framelen in
    let M := {| mb := H; mh := mh M |} in
    do M <- edit M frame (fun b => put_uint 4 b 0 4 (md_header d));
    do M <- edit M frame (fun b => put_uint 4 b 4 8 (md_session d));
    do ' (M, pos) <-
      (if havetstamp then
         do tb <- ts_put (md_tstamp d);
         do M <- edit M frame (fun b => copy_range b 8 24 tb); Ret (M, 24%nat)
       else Ret (M, 8%nat));
    do ' (M, pos) <-
      (if String.eqb ds "d16" then
         do M <- edit M frame (fun b => put_uint 2 b pos (pos + 2) (u16 (md_offset d))); Ret (M, (pos + 2)%nat)
       else if String.eqb ds "d32" then
         do M <- edit M frame (fun b => put_uint 4 b pos (pos + 4) (u32 (md_offset d))); Ret (M, (pos + 4)%nat)
       else
         do M <- edit M frame (fun b => put_uint 8 b pos (pos + 8) (md_offset d)); Ret (M, (pos + 8)%nat));
    do M <- edit M frame (fun b => copy_from b pos (seen (mb M) (md_payload d)));
    Ret (M, inl frame).
(** request/request.go:104-119 Encode, as [request_encode] *)
Definition mrequest_encode (M : mem) (r : mrequest) : outcome (mem * (sref + string)) :=
  let framelen := (4 + 4 + slen (mr_fname r) + 1 + List.length (seen (mb M) (mr_auth r)))%nat in
  let '(H, frame) := alloc zero_byte (mb M) framelen in
  let M := {| mb := H; mh := mh M |} in
  do M <- edit M frame (fun b => put_uint 4 b 0 4 (mr_header r));
  do M <- edit M frame (fun b => put_uint 4 b 4 8 (mr_session r));
  let pos := (8 + slen (mr_fname r))%nat in
  do M <- edit M frame (fun b => copy_range b 8 pos (bytes_of (mr_fname r)));
  do M <- edit M frame (fun b => copy_from b pos [zero_byte]);
  do M <- (match mr_auth r with
           | None => Ret M
           | Some _ => edit M frame (fun b => copy_from b (pos + 1) (seen (mb M) (mr_auth r)))
           end);
  Ret (M, inl frame).
(** metadata/metadata.go:242-266 Encode, as [meta_encode] (the bytes of the directory entry are made by [dirent_encode] in an
    array of their own that nothing else refers to) *)
Definition mmeta_encode (M : mem) (m : mmetadata) : outcome (mem * (sref + string)) :=
  do er <- dirent_encode (mm_dir m);
  let de := match er with Frame b => b | EncErr _ => [] end in
  let csumlen := List.length (seen (mb M) (mm_checksum m)) in
  let '(H, frame) := alloc zero_byte (mb M) (4 + 4 + csumlen + List.length de) in
  let M := {| mb := H; mh := mh M |} in
  do M <- edit M frame (fun b => put_uint 4 b 0 4 (mm_header m));
  do M <- edit M frame (fun b => put_uint 4 b 4 8 (mm_session m));
  let pos := 8%nat in
  do M <- (if Nat.ltb 0 csumlen then edit M frame (fun b => copy_range b pos (pos + csumlen) (seen (mb M) (mm_checksum m))) else Ret M);
  let pos := (pos + csumlen)%nat in
  do M <- edit M frame (fun b => copy_from b pos de);
  Ret (M, inl frame).

(** status/status.go:192-197, 203-208, 214-219: the loop over the holes, as [enc_holes] *)
Fixpoint menc_holes (k : nat) (hs : holes) (M : mem) (frame : sref) (pos : nat) : outcome mem :=
  match hs with
  | [] => Ret M
  | h :: r =>
      do M <- edit M frame (fun b => put_uint k b pos (pos + k) (wrap (8 * N.of_nat k) (u64_of_Z (h_start h))));
      do M <- edit M frame (fun b => put_uint k b (pos + k) (pos + k + k) (wrap (8 * N.of_nat k) (u64_of_Z (h_end h))));
      menc_holes k r M frame (pos + k + k)
  end.
(** status/status.go:148-235 Encode, as [status_encode] (havetstamp is never true) *)
Definition mstatus_encode (M : mem) (s : mstatus) : outcome (mem * (sref + string)) :=
  do rt <- sf_getstr sar (ms_header s) "reqtstamp";
  let framelen := (4 + 4 + (if String.eqb rt "yes" then 16 else 0))%nat in
  do ds <- sf_getstr sar (ms_header s) "descriptor";
  if String.eqb ds "d128" then Ret (M, inr "d128 not supported in status")
  else if negb (one_of ds ["d16"; "d32"; "d64"]) then Ret (M, inr "invalid descriptor in status")
  else
    let dsize := (if String.eqb ds "d16" then 2 else if String.eqb ds "d32" then 4 else 8)%nat in
    let framelen := (framelen + (dsize * 2 + dsize * List.length (seen (mh M) (ms_holes s)) * 2))%nat in
    let '(H, frame) := alloc zero_byte (mb M) framelen in
    let M := {| mb := H; mh := mh M |} in
    do M <- edit M frame (fun b => put_uint 4 b 0 4 (ms_header s));
    do M <- edit M frame (fun b => put_uint 4 b 4 8 (ms_session s));
    let pos := 8%nat in
    do M <- edit M frame (fun b => put_uint dsize b pos (pos + dsize) (wrap (8 * N.of_nat dsize) (ms_progress s)));
    let pos := (pos + dsize)%nat in
    do M <- edit M frame (fun b => put_uint dsize b pos (pos + dsize) (wrap (8 * N.of_nat dsize) (ms_inrespto s)));
    let pos := (pos + dsize)%nat in
    do M <- menc_holes dsize (seen (mh M) (ms_holes s)) M frame pos;
    Ret (M, inl frame).

(** ** The listener *)

(** A frame on a channel (saratoga/saratoga.go:243-397), with its slices *)
Inductive mframe :=
| MBeacon (b : beacon)
| MRequest (r : mrequest)
| MMetadata (m : mmetadata)
| MData (d : mdata)
| MStatus (s : mstatus).
(** What an iteration of the loop ends in, as [heard] (saratoga/saratoga.go:166-424) *)
Inductive mheard :=
| MDropped
| MToRx (from : udpaddr) (f : mframe)
| MToTx (p : packet).
(** Frames as declared in saratoga/saratoga.go:243-397 with var or new: their slices are nil *)
Definition mdata0 : mdata := {| md_header := d_header zero_data; md_session := d_session zero_data; md_tstamp := d_tstamp zero_data; md_offset := d_offset zero_data; md_payload := None |}.
(** the same (saratoga/saratoga.go:243-397) *)
Definition mrequest0 : mrequest := {| mr_header := r_header zero_request; mr_session := r_session zero_request; mr_fname := r_fname zero_request; mr_auth := None |}.
(** the same (saratoga/saratoga.go:243-397) *)
Definition mmetadata0 : mmetadata := {| mm_header := m_header zero_metadata; mm_session := m_session zero_metadata; mm_checksum := None; mm_dir := m_dir zero_metadata |}.
(** the same (saratoga/saratoga.go:243-397) *)
Definition mstatus0 : mstatus := {| ms_header := s_header zero_status; ms_session := s_session zero_status; ms_tstamp := s_tstamp zero_status; ms_progress := s_progress zero_status; ms_inrespto := s_inrespto zero_status; ms_holes := None |}.
(** The answers that [listen_one] gives to frames that do not decode go to the transmit channel; they have no holes
    (saratoga/saratoga.go:292-305, 335-348, 379-392) *)
Definition to_heard (h : heard) : mheard :=
  match h with ToTx p => MToTx p | _ => MDropped end.

(** saratoga/saratoga.go:166-424 listen, one iteration, as [listen_one]; [buf] is the receive buffer made before the loop *)
Definition mlisten_one (grow : nat -> nat) (now : gotime) (mtu : Z) (M : mem) (buf : sref) (dgram : list byte) (from : udpaddr) : outcome (mem * mheard) :=
  let maxframesize := (mtu - 60)%Z in
  (* conn.ReadFromUDP(buf) *)
  let M := {| mb := copy_in (mb M) (Some buf) dgram; mh := mh M |} in
  let framelen := Nat.min (sl_length buf) (List.length dgram) in
  if Nat.ltb framelen 8 then Ret (M, MDropped)
  else if (maxframesize <? Z.of_nat framelen)%Z then Ret (M, MDropped)
  else
    (* framebuf := make([]byte, framelen); copy(framebuf, buf[:framelen]) *)
    do front <- slice (seen (mb M) (Some buf)) 0 framelen;
    let '(M, fb) := fresh_copy M framelen front in
    let framebuf := Some fb in
    do header <- get_uint 4 (seen (mb M) framebuf) 0 4;
    do version <- sf_getstr sar header "version";
    if negb (String.eqb version "v1") then
      do ' (st, e) <- status_new now zero_status "errcode=badpacket" no_info;
      match e with
      | Some _ => Ret (M, MDropped)
      | None => Ret (M, MToTx (status_val st from))
      end
    else
      do frametype <- sf_getstr sar header "frametype";
      if String.eqb frametype "beacon" then
        do ' (b, e) <- beacon_decode zero_beacon (seen (mb M) framebuf);
        match e with
        | Some _ => Ret (M, MDropped)
        | None => Ret (M, MToRx from (MBeacon b))
        end
      else if String.eqb frametype "request" then
        do ' (M, r, e) <- mrequest_decode M mrequest0 framebuf;
        match e with
        | Some _ => Ret (M, MDropped)
        | None => Ret (M, MToRx from (MRequest r))
        end
      else if String.eqb frametype "data" then
        do ' (M, d, e) <- mdata_decode M mdata0 framebuf;
        match e with
        | Some _ => do h <- bad_frame now header (md_session d) (md_offset d) from; Ret (M, to_heard h)
        | None => Ret (M, MToRx from (MData d))
        end
      else if String.eqb frametype "metadata" then
        do ' (M, m, e) <- mmeta_decode M mmetadata0 framebuf;
        match e with
        | Some _ => do session <- get_uint 4 (seen (mb M) framebuf) 4 8; do h <- bad_frame now header session 0 from; Ret (M, to_heard h)
        | None => Ret (M, MToRx from (MMetadata m))
        end
      else if String.eqb frametype "status" then
        do ' (M, s, e) <- mstatus_decode grow M mstatus0 framebuf;
        match e with
        | Some _ => do session <- get_uint 4 (seen (mb M) framebuf) 4 8; do h <- bad_frame now header session 0 from; Ret (M, to_heard h)
        | None =>
            do _ <- status_shortprint_ok (status_value M s);
            do _ <- status_print_ok (status_value M s);
            Ret (M, MToRx from (MStatus s))
        end
      else Ret (M, MDropped).

(** A datagram as it arrives: at which listener, at what time, its bytes and its sender (saratoga/saratoga.go:166-424) *)
Record arrival := { ar_socket : nat; ar_now : gotime; ar_bytes : list byte; ar_from : udpaddr }.
(** The listeners' loops: each listener has a receive buffer of its own (saratoga/saratoga.go:166-424, started in 586 and 594) *)
Fixpoint mlisten (grow : nat -> nat) (mtu : Z) (bufs : nat -> sref) (M : mem) (l : list arrival) : outcome (mem * list mheard) :=
  match l with
  | [] => Ret (M, [])
  | a :: r =>
      do ' (M, h) <- mlisten_one grow (ar_now a) mtu M (bufs (ar_socket a)) (ar_bytes a) (ar_from a);
      do ' (M, hs) <- mlisten grow mtu bufs M r;
      Ret (M, h :: hs)
  end.
(** saratoga/saratoga.go:169-171: the receive buffer; make panics for a negative length *)
Definition new_buf (M : mem) (mtu : Z) : outcome (mem * sref) :=
  if (mtu - 60 + 100 <? 0)%Z then Panic
  else let '(H, s) := alloc zero_byte (mb M) (Z.to_nat (mtu - 60 + 100)) in Ret ({| mb := H; mh := mh M |}, s).
