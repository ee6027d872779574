(** * Model of the texts of frames: Print and ShortPrint, and what main shows of a frame *)

From Verif Require Import GoBase Flags Config Shipped Timestamp Holes Data Status Request Beacon Fileio Dirent Metadata Trans Listen Daemon Sarnet Words Clock Table Screen.
Local Open Scope string_scope.
Local Open Scope N_scope.

(** ** Verb %x of package fmt *)

(** fmt/format.go ldigits (for "%x" in metadata/metadata.go:291-316 and the like) *)
Definition hex_digit (d : N) : ascii := nth (N.to_nat d) (bytes_of "0123456789abcdef") "0"%char.
(** fmt/format.go fmtInteger with base 16: digits from the last to the first.  The fuel is enough: there
    are no more digits than bits. (for "%x" in beacon/beacon.go:280-302 and the like) *)
Fixpoint hex_loop (fuel : nat) (n : N) (acc : string) : string :=
  match fuel with
  | O => acc
  | S fuel => if n <? 16 then String (hex_digit n) acc else hex_loop fuel (n / 16) (String (hex_digit (n mod 16)) acc)
  end.
(** "%x" of fmt, as used in beacon/beacon.go:280-302 and the like *)
Definition hex (n : N) : string := hex_loop (S (N.to_nat (N.log2 n))) n "".
(** fmt/format.go fmtSbx: %x of a []byte is two digits a byte (for "%x" in metadata/metadata.go:299-302, 310-313) *)
Fixpoint hex_bytes (l : list byte) : string :=
  match l with
  | [] => ""
  | a :: r => String (hex_digit (N_of_ascii a / 16)) (String (hex_digit (N_of_ascii a mod 16)) (hex_bytes r))
  end.

(** ** The texts *)

(** beacon.go:283-286, data.go:273-276, metadata.go:295-298, request.go:151-154, status.go:328-331: the loop over
    the flags of a frame; dirent.go:256-259 with [indent] longer *)
Fixpoint flag_lines (indent : string) (getstr : string -> outcome string) (fs : list string) (acc : string) : outcome string :=
  match fs with
  | [] => Ret acc
  | f :: r => do n <- getstr f; flag_lines indent getstr r (acc ++ indent ++ f ++ ":" ++ n ++ newline)
  end.
(** Sarflags.Values: the flags that a header has, in order (called in beacon/beacon.go:283 and the like) *)
Definition hflags (ftype : string) (header : N) (acc : string) : outcome string :=
  flag_lines "  " (sf_getstr sar header) (sf_values sar ftype) acc.

(** beacon.go:280-292 Print *)
Definition beacon_print (b : beacon) : outcome string :=
  do s <- hflags "beacon" (b_header b) ("Beacon: 0x" ++ hex (b_header b) ++ newline);
  do fs <- sf_getstr sar (b_header b) "freespace";
  let s := if String.eqb fs "yes" then s ++ "  free:" ++ itoa (b_freespace b) ++ "kB" ++ newline else s in
  Ret (s ++ "  EID:" ++ b_eid b).
(** beacon.go:295-302 ShortPrint *)
Definition beacon_shortprint (b : beacon) : outcome string :=
  let s := "Beacon: 0x" ++ hex (b_header b) ++ newline in
  do fs <- sf_getstr sar (b_header b) "freespace";
  let s := if String.eqb fs "yes" then s ++ "  free:" ++ itoa (b_freespace b) ++ "kB" ++ newline else s in
  Ret (s ++ "  EID:" ++ b_eid b).

(** data.go:277-279, 289-291; status.go:333-335, 348-350 with another label *)
Definition stamp_line (label : string) (header : N) (t : timestamp) (s : string) : outcome string :=
  do rt <- sf_getstr sar header "reqtstamp";
  if String.eqb rt "yes" then do x <- ts_print t; Ret (s ++ "  " ++ label ++ ":" ++ x ++ newline) else Ret s.
(** data.go:270-284 Print *)
Definition data_print (d : data) : outcome string :=
  do s <- hflags "data" (d_header d) ("Data: 0x" ++ hex (d_header d) ++ newline);
  do s <- stamp_line "tstamp" (d_header d) (d_tstamp d) s;
  Ret (s ++ "  session:" ++ itoa (d_session d) ++ "  offset:" ++ itoa (d_offset d) ++ "  paylen : " ++ itoa (N.of_nat (length (d_payload d)))).
(** data.go:287-296 ShortPrint *)
Definition data_shortprint (d : data) : outcome string :=
  do s <- stamp_line "tstamp" (d_header d) (d_tstamp d) ("Data: 0x" ++ hex (d_header d) ++ newline);
  Ret (s ++ "  session:" ++ itoa (d_session d) ++ "," ++ "  offset:" ++ itoa (d_offset d) ++ "," ++ "  paylen:" ++ itoa (N.of_nat (length (d_payload d)))).

(** request.go:148-159 Print; 162-168 ShortPrint *)
Definition request_end (r : request) (s : string) : string :=
  s ++ "  session:" ++ itoa (r_session r) ++ newline ++ "  filename:" ++ r_fname r ++ newline ++ "  auth:" ++ string_of (r_auth r).
(** request/request.go:148-159 Print *)
Definition request_print (r : request) : outcome string :=
  do s <- hflags "request" (r_header r) ("Request: 0x" ++ hex (r_header r) ++ newline);
  Ret (request_end r s).
(** request/request.go:162-168 ShortPrint *)
Definition request_shortprint (r : request) : outcome string :=
  Ret (request_end r ("Request: 0x" ++ hex (r_header r) ++ newline)).

(** status.go:338-340: the holes, from number [i] *)
Fixpoint hole_lines (i : N) (hs : holes) : string :=
  match hs with
  | [] => ""
  | h :: r => "  Hole[" ++ itoa i ++ "]: Start:" ++ zitoa (h_start h) ++ " End:" ++ zitoa (h_end h) ++ newline ++ hole_lines (i + 1) r
  end.
(** status.go:325-342 Print *)
Definition status_print (s : status) : outcome string :=
  do t <- hflags "status" (s_header s) ("Status: 0x" ++ hex (s_header s) ++ newline);
  do t <- stamp_line "timestamp" (s_header s) (s_tstamp s) (t ++ "  session:" ++ itoa (s_session s) ++ newline);
  Ret (t ++ "  progress:" ++ itoa (s_progress s) ++ "  inresponseto:" ++ itoa (s_inrespto s) ++ newline ++ hole_lines 0 (s_holes s)).
(** status.go:345-356 ShortPrint *)
Definition status_shortprint (s : status) : outcome string :=
  do t <- stamp_line "timestamp" (s_header s) (s_tstamp s)
            ("Status: 0x" ++ hex (s_header s) ++ newline ++ "  session:" ++ itoa (s_session s) ++ newline);
  do e <- sf_getstr sar (s_header s) "errcode";
  Ret (t ++ "  errcode:" ++ e ++ newline ++ "  progress:" ++ itoa (s_progress s) ++ newline ++ "  inrespto:" ++ itoa (s_inrespto s) ++ newline ++
       "  numb holes:" ++ itoa (N.of_nat (length (s_holes s)))).

(** dirent.go:260-263, 269-272 *)
Definition dirent_end (d : dirent) (s : string) : outcome string :=
  do m <- ts_print (de_mtime d);
  do c <- ts_print (de_ctime d);
  Ret (s ++ "    Path:" ++ de_path d ++ newline ++ "    Size:" ++ itoa (de_size d) ++ newline ++ "    Mtime:" ++ m ++ newline ++ "    Ctime:" ++ c).
(** dirent.go:252-265 Print *)
Definition dirent_print (d : dirent) : outcome string :=
  do s <- flag_lines "    " (sd_getstr sar (de_header d)) (sd_flags sar) ("  Directory Entry: 0x" ++ hex (de_header d) ++ newline);
  dirent_end d s.
(** dirent.go:267-274 ShortPrint *)
Definition dirent_shortprint (d : dirent) : outcome string := dirent_end d ("  Dir Entry: 0x" ++ hex (de_header d) ++ newline).

(** metadata.go:299-302 with label "Checksum", 310-313 with "checksum" *)
Definition meta_sums (label : string) (m : metadata) (s : string) : outcome string :=
  do cs <- sf_getstr sar (m_header m) "csumtype";
  let s := s ++ "  session:" ++ itoa (m_session m) ++ newline in
  Ret (if String.eqb cs "none" then s else s ++ "  " ++ label ++ " [" ++ cs ++ "]:" ++ hex_bytes (m_checksum m) ++ newline).
(** metadata.go:291-305 Print *)
Definition meta_print (m : metadata) : outcome string :=
  do s <- hflags "metadata" (m_header m) ("Metadata: 0x" ++ hex (m_header m) ++ newline);
  do s <- meta_sums "Checksum" m s;
  do d <- dirent_print (m_dir m); Ret (s ++ d).
(** metadata.go:308-316 ShortPrint *)
Definition meta_shortprint (m : metadata) : outcome string :=
  do s <- meta_sums "checksum" m ("Metadata: 0x" ++ hex (m_header m) ++ newline);
  do d <- dirent_shortprint (m_dir m); Ret (s ++ d).

(** frames/frames.go:43-50: Print and ShortPrint of any frame *)
Definition frame_print (f : frame) : outcome string :=
  match f with
  | FBeacon b => beacon_print b | FRequest r => request_print r | FMetadata m => meta_print m
  | FData d => data_print d | FStatus s => status_print s
  end.
(** frames/frames.go:48-50 ShortPrint *)
Definition frame_shortprint (f : frame) : outcome string :=
  match f with
  | FBeacon b => beacon_shortprint b | FRequest r => request_shortprint r | FMetadata m => meta_shortprint m
  | FData d => data_shortprint d | FStatus s => status_shortprint s
  end.

(** ** What is printed of a frame, before anything is done with it *)

(** saratoga/saratoga.go:607-721: how main names a frame it has received *)
Definition kind_name (f : frame) : string :=
  match f with FBeacon _ => "BEACON" | FRequest _ => "REQUEST" | FMetadata _ => "METADATA" | FData _ => "DATA" | FStatus _ => "STATUS" end.
(** saratoga/saratoga.go:607-721: how main names the channel *)
Definition family_name (f : family) : string := match f with V4 => "v4" | V6 => "v6" end.
(** saratoga/saratoga.go:607-639, 640-671: main has received the frame on a receive channel.  fmt.Sprint puts
    no space between texts. *)
Definition rx_prints (f : family) (p : frame) : outcome (list clabel) :=
  do t <- frame_shortprint p;
  Ret ((match p with FBeacon _ => [] | _ => [CPrint VMsg true "white_black" ("Received " ++ family_name f ++ " Saratoga " ++ kind_name p ++ " Frame")] end)
       ++ [CPrint VPacket true "white_black" ("Rx" ++ t)])%list.
(** saratoga/saratoga.go:672-696, 697-721: main has received the frame on a transmit channel *)
Definition tx_prints (f : family) (p : frame) : outcome (list clabel) :=
  do t <- frame_shortprint p;
  Ret [CPrint VMsg true "blue_black" ("Need to send " ++ family_name f ++ " Saratoga " ++ kind_name p ++ " Frame");
       CPrint VMsg true "blue_black" t].
(** saratoga/saratoga.go:394-395: the listener has received a status *)
Definition listener_prints (s : status) : outcome (list clabel) :=
  do a <- status_shortprint s;
  do b <- status_print s;
  Ret [CPrint VPacket true "green_black" ("Listen Rx " ++ a); CPrint VMsg true "white_black" ("Decoded status " ++ b)].
