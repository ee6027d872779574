(** * Specification vocabulary for the texts of frames *)

From Verif Require Import GoBase Flags Config Shipped Timestamp Holes Data Status Request Beacon Fileio Dirent Metadata Trans Listen Clock Table Screen.
From Verif Require Import SpecWire SpecFrames SpecDirent SpecWords.
Local Open Scope string_scope.
Local Open Scope N_scope.

(** ** Numbers in base 16 *)
(** The digit that stands for [d] *)
Definition sixteen (d : N) : ascii := ascii_of_N (if d <? 10 then 48 + d else 87 + d).
(** [l] is a number in base 16, most significant digit first *)
Inductive hexadecimal : list byte -> N -> Prop :=
| hx_one : forall d, d < 16 -> hexadecimal [sixteen d] d
| hx_more : forall l n d, hexadecimal l n -> d < 16 -> hexadecimal (l ++ [sixteen d])%list (16 * n + d).
(** No zero in front of other digits *)
Definition no_front_zero (l : list byte) : Prop := forall r, l = "0"%char :: r -> r = [].
(** Two digits for every byte *)
Fixpoint two_digits (l : list byte) : list byte :=
  match l with
  | [] => []
  | a :: r => sixteen (N_of_ascii a / 16) :: sixteen (N_of_ascii a mod 16) :: two_digits r
  end.

(** ** What a text is made of *)
Inductive part :=
| Lit (s : string)            (* this *)
| Dec (n : N)                 (* a number in base 10 *)
| Int (z : Z)                 (* the same with a sign if negative *)
| Hex (n : N)                 (* a number in base 16 *)
| Sum (l : list byte)         (* bytes in base 16 *)
| Flag (h : N) (f : string)   (* the name of the value of a header's flag *)
| DFlag (h : N) (f : string)  (* the same of a directory entry's header *)
| Time (t : timestamp).       (* a time, see C102 *)
Definition part_text (p : part) (x : string) : Prop :=
  match p with
  | Lit s => x = s
  | Dec n => decimal (bytes_of x) n /\ no_front_zero (bytes_of x)
  | Int z => exists y, decimal (bytes_of y) (Z.abs_N z) /\ no_front_zero (bytes_of y) /\ x = (if (z <? 0)%Z then "-" else "") ++ y
  | Hex n => hexadecimal (bytes_of x) n /\ no_front_zero (bytes_of x)
  | Sum l => bytes_of x = two_digits l
  | Flag h f => reads sar h f x
  | DFlag h f => dreads sar h f x
  | Time t => ts_print t = Ret x
  end.
Fixpoint writes (ps : list part) (text : string) : Prop :=
  match ps with
  | [] => text = ""
  | p :: r => exists x y, part_text p x /\ writes r y /\ text = x ++ y
  end.

(** ** What the texts of the frames are *)
Definition nl : part := Lit (String (ascii_of_N 10) "").
Local Open Scope list_scope.

(** The short texts *)
Definition beacon_says (b : beacon) : list part :=
  [Lit "Beacon: 0x"; Hex (b_header b); nl] ++
  (if hd_freespace (b_header b) =? 1 then [Lit "  free:"; Dec (b_freespace b); Lit "kB"; nl] else []) ++
  [Lit "  EID:"; Lit (b_eid b)].
Definition data_says (d : data) : list part :=
  [Lit "Data: 0x"; Hex (d_header d); nl] ++
  (if hd_reqtstamp (d_header d) =? 1 then [Lit "  tstamp:"; Time (d_tstamp d); nl] else []) ++
  [Lit "  session:"; Dec (d_session d); Lit ",  offset:"; Dec (d_offset d); Lit ",  paylen:"; Dec (N.of_nat (length (d_payload d)))].
Definition request_says (r : request) : list part :=
  [Lit "Request: 0x"; Hex (r_header r); nl; Lit "  session:"; Dec (r_session r); nl;
   Lit "  filename:"; Lit (r_fname r); nl; Lit "  auth:"; Lit (string_of (r_auth r))].
Definition status_says (s : status) : list part :=
  [Lit "Status: 0x"; Hex (s_header s); nl; Lit "  session:"; Dec (s_session s); nl] ++
  (if hd_reqtstamp (s_header s) =? 1 then [Lit "  timestamp:"; Time (s_tstamp s); nl] else []) ++
  [Lit "  errcode:"; Flag (s_header s) "errcode"; nl; Lit "  progress:"; Dec (s_progress s); nl;
   Lit "  inrespto:"; Dec (s_inrespto s); nl; Lit "  numb holes:"; Dec (N.of_nat (length (s_holes s)))].
Definition entry_says (title : string) (flags : list string) (d : dirent) : list part :=
  [Lit title; Hex (de_header d); nl] ++
  flat_map (fun f => [Lit "    "; Lit f; Lit ":"; DFlag (de_header d) f; nl]) flags ++
  [Lit "    Path:"; Lit (de_path d); nl; Lit "    Size:"; Dec (de_size d); nl;
   Lit "    Mtime:"; Time (de_mtime d); nl; Lit "    Ctime:"; Time (de_ctime d)].
(** A checksum line only if the frame has a checksum; its type is shown even so *)
Definition sum_says (label : string) (m : metadata) : list part :=
  if hd_csumtype (m_header m) =? 0 then []
  else [Lit "  "; Lit label; Lit " ["; Flag (m_header m) "csumtype"; Lit "]:"; Sum (m_checksum m); nl].
Definition meta_says (m : metadata) : list part :=
  [Lit "Metadata: 0x"; Hex (m_header m); nl; Lit "  session:"; Dec (m_session m); nl] ++
  sum_says "checksum" m ++ entry_says "  Dir Entry: 0x" [] (m_dir m).
Definition says (f : frame) : list part :=
  match f with
  | FBeacon b => beacon_says b | FRequest r => request_says r | FMetadata m => meta_says m
  | FData d => data_says d | FStatus s => status_says s
  end.

(** The long texts *)
Definition flags_say (h : N) (flags : list string) : list part :=
  flat_map (fun f => [Lit "  "; Lit f; Lit ":"; Flag h f; nl]) flags.
Definition beacon_tells (b : beacon) : list part :=
  [Lit "Beacon: 0x"; Hex (b_header b); nl] ++
  flags_say (b_header b) ["version"; "frametype"; "descriptor"; "stream"; "txwilling"; "rxwilling"; "udplite"; "freespace"; "freespaced"] ++
  (if hd_freespace (b_header b) =? 1 then [Lit "  free:"; Dec (b_freespace b); Lit "kB"; nl] else []) ++
  [Lit "  EID:"; Lit (b_eid b)].
Definition data_tells (d : data) : list part :=
  [Lit "Data: 0x"; Hex (d_header d); nl] ++
  flags_say (d_header d) ["version"; "frametype"; "descriptor"; "transfer"; "reqtstamp"; "reqstatus"; "eod"] ++
  (if hd_reqtstamp (d_header d) =? 1 then [Lit "  tstamp:"; Time (d_tstamp d); nl] else []) ++
  [Lit "  session:"; Dec (d_session d); Lit "  offset:"; Dec (d_offset d); Lit "  paylen : "; Dec (N.of_nat (length (d_payload d)))].
Definition hole_says (ih : nat * hole) : list part :=
  [Lit "  Hole["; Dec (N.of_nat (fst ih)); Lit "]: Start:"; Int (h_start (snd ih)); Lit " End:"; Int (h_end (snd ih)); nl].
Definition status_tells (s : status) : list part :=
  [Lit "Status: 0x"; Hex (s_header s); nl] ++
  flags_say (s_header s) ["version"; "frametype"; "descriptor"; "reqtstamp"; "metadatarecvd"; "allholes"; "reqholes"; "errcode"] ++
  [Lit "  session:"; Dec (s_session s); nl] ++
  (if hd_reqtstamp (s_header s) =? 1 then [Lit "  timestamp:"; Time (s_tstamp s); nl] else []) ++
  [Lit "  progress:"; Dec (s_progress s); Lit "  inresponseto:"; Dec (s_inrespto s); nl] ++
  flat_map hole_says (combine (seq 0 (length (s_holes s))) (s_holes s)).
Definition meta_tells (m : metadata) : list part :=
  [Lit "Metadata: 0x"; Hex (m_header m); nl] ++
  flags_say (m_header m) ["version"; "frametype"; "descriptor"; "transfer"; "progress"; "reliability"; "csumlen"; "csumtype"] ++
  [Lit "  session:"; Dec (m_session m); nl] ++
  sum_says "Checksum" m ++ entry_says "  Directory Entry: 0x" ["sod"; "property"; "descriptor"; "reserved"] (m_dir m).

(** ** When two frames have the same text *)
(** The kinds of timestamps that are numbers *)
Definition numeric (t : timestamp) : Prop := ts_type (t_header t) <> None.
(** The times a frame shows are numbers *)
Definition clear_times (f : frame) : Prop :=
  match f with
  | FData d => hd_reqtstamp (d_header d) = 1 -> numeric (d_tstamp d)
  | FStatus s => hd_reqtstamp (s_header s) = 1 -> numeric (s_tstamp s)
  | FMetadata m => numeric (de_mtime (m_dir m)) /\ numeric (de_ctime (m_dir m))
  | _ => True
  end.
Definition same_time (t t' : timestamp) : Prop := ts_print t = ts_print t'.
Definition auth_line (r : request) : string := r_fname r ++ String (ascii_of_N 10) "" ++ "  auth:" ++ string_of (r_auth r).
(** Frames that agree in everything the short text shows *)
Definition same_shown (f g : frame) : Prop :=
  match f, g with
  | FBeacon b, FBeacon c =>
      b_header b = b_header c /\ (hd_freespace (b_header b) = 1 -> b_freespace b = b_freespace c) /\ b_eid b = b_eid c
  | FData d, FData e =>
      d_header d = d_header e /\ (hd_reqtstamp (d_header d) = 1 -> same_time (d_tstamp d) (d_tstamp e)) /\
      d_session d = d_session e /\ d_offset d = d_offset e /\ length (d_payload d) = length (d_payload e)
  | FRequest r, FRequest q => r_header r = r_header q /\ r_session r = r_session q /\ auth_line r = auth_line q
  | FStatus s, FStatus q =>
      s_header s = s_header q /\ s_session s = s_session q /\ (hd_reqtstamp (s_header s) = 1 -> same_time (s_tstamp s) (s_tstamp q)) /\
      s_progress s = s_progress q /\ s_inrespto s = s_inrespto q /\ length (s_holes s) = length (s_holes q)
  | FMetadata m, FMetadata q =>
      m_header m = m_header q /\ m_session m = m_session q /\ (hd_csumtype (m_header m) <> 0 -> m_checksum m = m_checksum q) /\
      de_header (m_dir m) = de_header (m_dir q) /\ de_path (m_dir m) = de_path (m_dir q) /\ de_size (m_dir m) = de_size (m_dir q) /\
      same_time (de_mtime (m_dir m)) (de_mtime (m_dir q)) /\ same_time (de_ctime (m_dir m)) (de_ctime (m_dir q))
  | _, _ => False
  end.

(** Statuses that agree in everything: the session, the progress, what they answer and the holes,
    with the time stamps as far as they are shown *)
Definition same_status (s q : status) : Prop :=
  s_header s = s_header q /\ s_session s = s_session q /\ (hd_reqtstamp (s_header s) = 1 -> same_time (s_tstamp s) (s_tstamp q)) /\
  s_progress s = s_progress q /\ s_inrespto s = s_inrespto q /\ s_holes s = s_holes q.

(** ** What is written in a window *)
Definition shown_in (v : vname) (ls : list clabel) : string :=
  String.concat "" (flat_map (fun l => match l with CPrint w line colour text => if vname_eqb v w then [painted line colour text] else [] | _ => [] end) ls).
