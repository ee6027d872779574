(** * Specification vocabulary: why a frame is refused, and what a refused frame leaves behind *)

From Verif Require Import GoBase Flags Config Shipped Timestamp Holes Data Status Request Beacon Fileio Itoa Dirent Metadata.
From Verif Require Import SpecFlags SpecWire SpecFrames SpecStatus SpecBeacon SpecRequest SpecDirent SpecMetadata.
Local Open Scope string_scope.
Local Open Scope N_scope.

(** ** Received frames *)

(** A timestamp of type 0 is announced: local text, which is never read *)
Definition stamp_refused (frame : list byte) : bool :=
  (hd_reqtstamp (number_at frame 0 4) =? 1) && (number_at frame 8 1 =? 0).
Definition stamp_reason : string := "timestamp.Get: Invalid Timestamp type:localinterp".
(** ... and yet its text is kept: 14 bytes behind the type *)
Definition stamp_left (frame : list byte) : timestamp :=
  {| t_header := 0; t_secs := 0; t_nsecs := 0; t_local := string_of (firstn 14 (skipn 9 frame)); t_ttype := "localinterp" |}.
(** 128-bit offsets are announced *)
Definition too_wide (frame : list byte) : bool := hd_descriptor (number_at frame 0 4) =? 3.

Definition data_reason (frame : list byte) : string :=
  if Nat.ltb (length frame) 10 then "data.Get - data frame too short"
  else if stamp_refused frame then stamp_reason
  else if too_wide frame then "d128d128 not supported in data"
  else "length of data payload is 0".
Definition data_left (d : data) (frame : list byte) : data :=
  if Nat.ltb (length frame) 10 then d
  else
    let early := (stamp_refused frame || too_wide frame)%bool in
    {| d_header := number_at frame 0 4; d_session := number_at frame 4 4;
       d_tstamp := if stamp_refused frame then stamp_left frame else ts_read (d_tstamp d) frame;
       d_offset := if early then d_offset d else number_at frame 24 2;
       d_payload := if early then d_payload d else [] |}.

Definition status_reason (frame : list byte) : string :=
  if Nat.ltb (length frame) 12 then "status frame too short"
  else if stamp_refused frame then stamp_reason
  else "d128 not supported in status".
Definition status_left (s : status) (frame : list byte) : status :=
  if Nat.ltb (length frame) 12 then s
  else {| s_header := number_at frame 0 4; s_session := number_at frame 4 4;
          s_tstamp := if stamp_refused frame then stamp_left frame else ts_read (s_tstamp s) frame;
          s_progress := s_progress s; s_inrespto := s_inrespto s; s_holes := s_holes s |}.

Definition entry_reason (f : list byte) : string :=
  if Nat.ltb (length f) 12 then "DirEntGet - Entry too short" else "invalid MetaData Frame".
Definition entry_left (d : dirent) (f : list byte) : dirent :=
  if Nat.ltb (length f) 12 then d
  else {| de_header := number_at f 0 2; de_size := de_size d; de_mtime := de_mtime d; de_ctime := de_ctime d; de_path := de_path d |}.

(** The directory entry of a metadata frame lies behind the checksum *)
Definition entry_in (f : list byte) : list byte := skipn (8 + csum_bytes (number_at f 0 4)) f.
Definition meta_reason (f : list byte) : string :=
  if Nat.ltb (length f) 8 then "MetaDataGet - Frame too short" else entry_reason (entry_in f).
Definition meta_left (m : metadata) (f : list byte) : metadata :=
  if Nat.ltb (length f) 8 then m
  else {| m_header := number_at f 0 4; m_session := number_at f 4 4;
          m_checksum := firstn (csum_bytes (number_at f 0 4)) (skipn 8 f);
          m_dir := entry_left (m_dir m) (entry_in f) |}.

(** ** Frames to be sent *)

(** Why a directory entry cannot be encoded *)
Definition entry_unsendable (d : dirent) : string :=
  if Nat.ltb 1024 (slen (de_path d)) then "path name exceeds 1024 bytes"
  else match dh_descriptor (de_header d) with
       | 0 => "Descriptor d16 too small for file size " ++ itoa (de_size d)
       | 1 => "Descriptor d32 too small for file size " ++ itoa (de_size d)
       | 2 => "Descriptor d64 too small for file size " ++ itoa (de_size d)
       | _ => "Malformed Directory Entry Invalid descriptor size " ++ itoa (de_size d)
       end.

(** ** Flag lists *)

(** The reason for the first item that is refused; None if there is none, or if the program ends at an earlier item *)
Fixpoint first_refusal (iv : string * string -> verdict) (why : string * string -> string) (items : list (string * string)) : option string :=
  match items with
  | [] => None
  | p :: r => match iv p with Accept => first_refusal iv why r | Reject => Some (why p) | _ => None end
  end.
Definition data_item_reason (p : string * string) : string :=
  let (f, v) := p in
  if String.eqb f "transfer" then "bundle transfers not supported"
  else if String.eqb f "reqtstamp" then v ++ " invalid timestamp type in data"
  else f ++ " invalid flag in data".
Definition status_item_reason (p : string * string) : string := "Invalid Flag " ++ fst p ++ " for Status Frame".
(** The whole list is in the text *)
Definition request_item_reason (all : string) (p : string * string) : string :=
  "Request.New: Invalid Flag " ++ fst p ++ "=" ++ snd p ++ "<" ++ all ++ ">".
Definition beacon_item_reason (p : string * string) : string :=
  let (f, v) := p in
  if String.eqb f "freespaced" then "Beacon.New: Invalid freespaced " ++ v else "Beacon.New: Invalid Flag " ++ f ++ "=" ++ v.
Definition entry_item_reason (p : string * string) : string := "Invalid Flag " ++ fst p ++ " for Directory Entry".
Definition meta_item_reason (p : string * string) : string := fst p ++ "invalid flag for MetaData Frame".

(** Why what is called [name] in the working directory cannot be described, for a header [h] *)
Definition node_reason (h : N) (n : node) (name : string) : string :=
  if negb (is_regular n || is_dir n || is_pipe n) then "Unsupported file, directory or stream type"
  else match hd_transfer h with
       | 0 => name ++ " not a file"
       | 1 => name ++ " not a directory"
       | 2 => "bundle transfers not supported"
       | _ => if is_pipe n then "cannot have checksum with stream transfers"
              else "stream specified but " ++ name ++ " is not a named pipe"
       end.

(** ** Times *)

(** Why an instant cannot be stored in a timestamp of this type *)
Definition instant_reason (ty : string) : string :=
  if String.eqb ty "posix64_32" then "posix64_32:Remainder exceed 32 bits"
  else if String.eqb ty "epoch2000_32" then "epoch2000_32:Seconds out of bounds"
  else ty ++ ":Seconds exceed 32 bits".
