(** * Model of the transfers of sarwin/sarwin.go *)

From Verif Require Import GoBase Flags Config Shipped Timestamp Holes Data Status Request Fileio Dirent Metadata Trans Sarnet.
Local Open Scope string_scope.
Local Open Scope N_scope.

(** ** Session numbers *)

(** sarwin.go:736-746 newsession: the new value of sessionid, which is also the result.
    The mutex makes a call atomic. *)
Definition newsession (pid sessionid : N) : N :=
  if sessionid =? 0 then u32 (u32 pid + 1) else u32 (sessionid + 1).

(** ** The table *)

(** *net.UDPConn: DialUDP gives a connected socket, ListenUDP one that is not (sarwin/sarwin.go:921-1086) *)
Record udpconn := { uc_remote : option udpaddr }.

(** sarwin.go:862-891 Transfer.  Left out: Tstamp, Dcount, Framecount (never assigned a
    value other than zero) and Version, Fileordir, Udplite, Descriptor, Stream (copied
    from the request by NewResponder and not used otherwise). *)
Record transfer := {
  tr_direction : bool;
  tr_session : N;
  tr_conn : option udpconn;
  tr_peer : udpaddr;
  tr_ttype : string;
  tr_tstamptype : string;
  tr_filename : string;
  tr_fp : option ofile;
  tr_filemeta : option filemeta;
  tr_csumtype : string;
  tr_havemeta : bool;
  tr_checksum : list byte;
  tr_dir : option dirent;
  tr_data : list byte;
  tr_progress : N;
  tr_inrespto : N;
  tr_curfills : holes;
  tr_cliflags : option cliflags
}.

(** sarwin.go:853-854 *)
Definition initiator : bool := true.
(** sarwin/sarwin.go:853-854: the direction of a transfer that another side asked for *)
Definition responder : bool := false.
(** sarwin/sarwin.go:856 Directions *)
Definition direction_name (d : bool) : string := if d then "Initiator" else "Responder".

(** Memory as far as transfers are concerned: the table Transfers and the transfers that
    live outside of it (loop variables whose address is taken, new(Transfer)). (sarwin/sarwin.go:895) *)
Record tmem := { tm_table : list transfer; tm_cells : list transfer }.
(** A *Transfer: an element of the table, or a transfer outside of it.  Simplification:
    a pointer to an element of the table means the element at that index now (Slots.v has the arrays). (sarwin/sarwin.go:898-918) *)
Inductive tptr := PSlot (i : nat) | PCell (i : nat).
(** Reading through a *Transfer (sarwin/sarwin.go:898-918, 1191-1213) *)
Definition tread (m : tmem) (p : tptr) : option transfer :=
  match p with PSlot i => nth_error (tm_table m) i | PCell i => nth_error (tm_cells m) i end.
(** Transfers[i] = t (sarwin/sarwin.go:895) *)
Fixpoint tset (l : list transfer) (i : nat) (t : transfer) : list transfer :=
  match l, i with
  | [], _ => []
  | _ :: r, O => t :: r
  | x :: r, S i' => x :: tset r i' t
  end.
(** Storing through a *Transfer (sarwin/sarwin.go:1137-1213) *)
Definition twrite (m : tmem) (p : tptr) (t : transfer) : tmem :=
  match p with
  | PSlot i => {| tm_table := tset (tm_table m) i t; tm_cells := tm_cells m |}
  | PCell i => {| tm_table := tm_table m; tm_cells := tset (tm_cells m) i t |}
  end.

(** sarwin.go:903: the condition of Lookup *)
Definition is_transfer (direction : bool) (session : N) (peer : string) (t : transfer) : bool :=
  Bool.eqb direction (tr_direction t) && (session =? tr_session t) && String.eqb (udpaddr_string (tr_peer t)) peer.
(** sarwin.go:898-908 Lookup: the address of the loop variable, which holds a copy *)
Fixpoint tlookup_loop (l : list transfer) (direction : bool) (session : N) (peer : string) : option transfer :=
  match l with
  | [] => None
  | t :: r => if is_transfer direction session peer t then Some t else tlookup_loop r direction session peer
  end.
(** sarwin/sarwin.go:898-908 Lookup *)
Definition tlookup (m : tmem) (direction : bool) (session : N) (peer : string) : tmem * option tptr :=
  match tlookup_loop (tm_table m) direction session peer with
  | None => (m, None)
  | Some t => ({| tm_table := tm_table m; tm_cells := (tm_cells m ++ [t])%list |}, Some (PCell (length (tm_cells m))))
  end.

(** conn.RemoteAddr().String(): a nil connection and a nil address panic (sarwin/sarwin.go:903, 913) *)
Definition remote_string (c : option udpconn) : outcome string :=
  match c with
  | None => Panic
  | Some c => match uc_remote c with None => Panic | Some a => Ret (udpaddr_string a) end
  end.
(** sarwin.go:911-918 Match: from the end of the table; [n] elements are left to look at *)
Fixpoint tmatch_loop (l : list transfer) (n : nat) (addr : string) (session : N) : outcome (option tptr) :=
  match n with
  | O => Ret None
  | S i =>
      do t <- index l i;
      do remote <- remote_string (tr_conn t);
      if String.eqb addr remote && (session =? tr_session t) then Ret (Some (PSlot i))
      else tmatch_loop l i addr session
  end.
(** sarwin/sarwin.go:911-918 Match *)
Definition tmatch (l : list transfer) (addr : string) (session : N) : outcome (option tptr) :=
  tmatch_loop l (length l) addr session.

(** sarwin.go:1220-1225: the loop of Remove, [n] elements are left; None: not found *)
Fixpoint tremove_loop (l : list transfer) (t : transfer) (n : nat) : option (list transfer) :=
  match n with
  | O => None
  | S i =>
      match tlookup_loop l (tr_direction t) (tr_session t) (udpaddr_string (tr_peer t)) with
      | Some _ => Some (firstn i l ++ skipn (S i) l)%list
      | None => tremove_loop l t i
      end
  end.
(** sarwin.go:1216-1229 Remove: the new table and the error *)
Definition tremove (l : list transfer) (t : transfer) : list transfer * error :=
  match tremove_loop l t (length l) with
  | Some l' => (l', None)
  | None => (l, Some ("Cannot remove " ++ direction_name (tr_direction t) ++ " Transfer for session " ++ itoa (tr_session t) ++ " to " ++
                      udpaddr_string (tr_peer t)))
  end.

(** sarwin.go:1191-1213 Change.  [memory]: the largest slice make can give; a larger one
    panics.  int(m.Dir.Size) reinterprets the 64 bits. *)
Definition tchange (memory : N) (t : transfer) (m : metadata) : outcome (transfer * error) :=
  do csumtype <- sf_getstr sar (m_header m) "csumtype";
  let dir := dirent_copy (m_dir m) in
  let with_data (data : list byte) (have : bool) :=
    {| tr_direction := tr_direction t; tr_session := tr_session t; tr_conn := tr_conn t; tr_peer := tr_peer t;
       tr_ttype := tr_ttype t; tr_tstamptype := tr_tstamptype t; tr_filename := tr_filename t; tr_fp := tr_fp t;
       tr_filemeta := tr_filemeta t; tr_csumtype := csumtype; tr_havemeta := have;
       tr_checksum := m_checksum m; tr_dir := Some dir; tr_data := data; tr_progress := tr_progress t;
       tr_inrespto := tr_inrespto t; tr_curfills := tr_curfills t; tr_cliflags := tr_cliflags t |} in
  do data <- (if Nat.eqb (length (tr_data t)) 0
              then if de_size dir <=? memory then Ret (make_bytes (N.to_nat (de_size dir))) else Panic
              else Ret (tr_data t));
  if negb (Z.of_nat (length data) =? i64_of_N (de_size (m_dir m)))%Z
  then Ret (with_data data (tr_havemeta t), Some ("Size of File Differs - Old=" ++ itoa (N.of_nat (length data)) ++ " New=" ++ itoa (de_size (m_dir m))))
  else Ret (with_data data true, None).

(** ** Status reports *)

(** sarwin.go:822-844: the loop of stpaylen: None is "return 0"; otherwise hsize and plen *)
Fixpoint stpaylen_loop (items : list string) (hsize plen : Z) : outcome (option (Z * Z)) :=
  match items with
  | [] => Ret (Some (hsize, plen))
  | it :: r =>
      let f := split_on "=" it in
      do f0 <- index f 0;
      if String.eqb f0 "descriptor" then
        do f1 <- index f 1;
        if String.eqb f1 "d16" then stpaylen_loop r 4 plen
        else if String.eqb f1 "d32" then stpaylen_loop r 8 plen
        else if String.eqb f1 "d64" then stpaylen_loop r 16 plen
        else if String.eqb f1 "d128" then stpaylen_loop r 32 plen
        else Ret None
      else if String.eqb f0 "reqtstamp" then
        do f1 <- index f 1;
        stpaylen_loop r hsize (if String.eqb f1 "yes" then plen - 16 else plen)%Z
      else stpaylen_loop r hsize plen
  end.
(** a / b of ints: towards zero, panics for b = 0 (sarwin/sarwin.go:1137-1188) *)
Definition int_div (a b : Z) : outcome Z := if (b =? 0)%Z then Panic else Ret (Z.quot a b).
(** sarwin.go:812-847 stpaylen *)
Definition stpaylen (mtu : Z) (flags : string) : outcome Z :=
  do r <- stpaylen_loop (split_on "," (remove_spaces flags)) 0 (mtu - 60 - 8 - 8)%Z;
  match r with
  | None => Ret 0%Z
  | Some (hsize, plen) => int_div (plen - hsize) hsize
  end.

(** conn.WriteTo(buf, to): an error on a connected socket (ErrWriteToConnected), otherwise
    what the system says (status/status.go:359-374) *)
Definition write_to (c : udpconn) (system_ok : bool) : bool :=
  match uc_remote c with Some _ => false | None => system_ok end.
(** status.go:359-374 Send: the frame handed to the network, None for an error.
    Simplification: a datagram is written whole or not at all. *)
Definition status_send (s : status) (c : udpconn) (system_ok : bool) : outcome (option (list byte)) :=
  do e <- status_encode s;
  match e with
  | EncErr _ => Ret None
  | Frame buf => Ret (if write_to c system_ok then Some buf else None)
  end.

(** sarwin.go:1165-1186: the loop of WriteStatus, [n] frames to go; the result and the
    frames sent.  [oks]: what the system says to the frames.  The values of starthole
    and endhole are not used by the code. *)
Fixpoint write_status_loop (n : nat) (now : gotime) (oks : nat -> bool) (t : transfer) (c : udpconn) (flags : string)
  : outcome (string * list (list byte)) :=
  match n with
  | O => Ret ("success", [])
  | S n' =>
      let info := {| si_session := tr_session t; si_progress := tr_progress t; si_inrespto := tr_inrespto t;
                     si_holes := hl_getholes (tr_curfills t) |} in
      do ' (st, e) <- status_new now zero_status flags info;
      match e with
      | Some _ => Ret ("badstatus", [])
      | None =>
          do sent <- status_send st c (oks n');
          match sent with
          | None => Ret ("badstatus", [])
          | Some buf =>
              do _ <- status_shortprint_ok st;
              do _ <- status_print_ok st;
              do ' (r, bufs) <- write_status_loop n' now oks t c flags;
              Ret (r, buf :: bufs)
          end
      end
  end.
(** sarwin.go:1137-1188 WriteStatus *)
Definition write_status (now : gotime) (mtu : Z) (oks : nat -> bool) (t : transfer) (sflags : string)
  : outcome (string * list (list byte)) :=
  match tr_conn t with
  | None => Ret ("badstatus", [])
  | Some c =>
      do maxholes <- stpaylen mtu sflags;
      do errf <- sf_flagvalue sflags "errcode";
      let h := hl_getholes (tr_curfills t) in
      let lasthole := if String.eqb errf "success" then Z.of_nat (length h) else 0%Z in
      if (lasthole <=? maxholes)%Z then
        do flags <- sf_replaceflag sar sflags "allholes" "yes";
        write_status_loop 1 now oks t c flags
      else
        do q <- int_div (Z.of_nat (length h)) maxholes;
        do flags <- sf_replaceflag sar sflags "allholes" "no";
        write_status_loop (Z.to_nat (q + 1)) now oks t c flags
  end.

(** ** Starting a transfer *)

(** What the system provides: the time, the process id, whether a peer can be dialled,
    what the resolver knows, and whether os.Chdir works (see Fileio.v) (sarwin/sarwin.go:921-986) *)
Record ienv := {
  ie_now : gotime; ie_pid : N; ie_dial : udpaddr -> bool; ie_resolve : string -> option udpaddr; ie_chdir : bool
}.

(** sarwin.go:923-948: the loop of NewInitiator over the table.  None: no objection;
    otherwise the transfer is refused and this is the table then.  [all] is the table. *)
Fixpoint initiator_loop (fs : fsys) (cwd : path) (sardir : string) (all l : list transfer)
    (ttype : string) (peer : udpaddr) (fname : string) : option (list transfer) :=
  match l with
  | [] => None
  | i :: r =>
      match tr_conn i with
      | None => Some (fst (tremove all i))
      | Some _ =>
          if file_exists fs cwd sardir fname && one_of ttype ["get"; "getdelete"; "getdir"] then Some all
          else if String.eqb fname (tr_filename i) && String.eqb (udpaddr_string peer) (udpaddr_string (tr_peer i))
               then Some all
               else initiator_loop fs cwd sardir all r ttype peer fname
      end
  end.
(** sarwin/sarwin.go:923-948: the loop of NewInitiator over the table *)
Definition initiator_check (fs : fsys) (cwd : path) (sardir : string) (table : list transfer) :=
  initiator_loop fs cwd sardir table table.

(** The state that adding a transfer changes (sarwin/sarwin.go:921-986) *)
Record istate := { is_table : list transfer; is_session : N; is_fs : fsys; is_cwd : path }.

(** sarwin.go:953-985: the rest of NewInitiator, done with Trmu held; the transfer
    that is returned by pointer and added to the table by value.  FileMeta can panic, and
    a Cliflags without global flags makes line 979 panic. *)
Definition initiator_add (E : ienv) (sardir : string) (c : cliflags) (s : istate) (ttype : string) (peer : udpaddr) (fname : string)
  : outcome (istate * transfer) :=
  let session := newsession (ie_pid E) (is_session s) in
  let conn := if ie_dial E peer then Some {| uc_remote := Some peer |} else None in
  let o := file_open (ie_now E) (ie_chdir E) (is_fs s) (is_cwd s) sardir fname ttype in
  do fm <- file_meta (or_fs o) (or_cwd o) sardir fname;
  match copy_cliflags c with
  | (_, Some _) => Panic
  | (cf, None) =>
      let t := {| tr_direction := initiator; tr_session := session; tr_conn := conn; tr_peer := peer;
                  tr_ttype := ttype; tr_tstamptype := cl_timestamp c; tr_filename := fname; tr_fp := or_fp o;
                  tr_filemeta := fm; tr_csumtype := ""; tr_havemeta := false; tr_checksum := []; tr_dir := None;
                  tr_data := []; tr_progress := 0; tr_inrespto := 0; tr_curfills := []; tr_cliflags := cf |} in
      Ret ({| is_table := (is_table s ++ [t])%list; is_session := session; is_fs := or_fs o; is_cwd := or_cwd o |}, t)
  end.

(** sarwin.go:921-986 NewInitiator, not interrupted: the transfer, or None if refused *)
Definition new_initiator (E : ienv) (sardir : string) (c : cliflags) (s : istate) (ttype : string) (peer : udpaddr) (fname : string)
  : outcome (istate * option transfer) :=
  match initiator_check (is_fs s) (is_cwd s) sardir (is_table s) ttype peer fname with
  | Some table' => Ret ({| is_table := table'; is_session := is_session s; is_fs := is_fs s; is_cwd := is_cwd s |}, None)
  | None => do ' (s', t) <- initiator_add E sardir c s ttype peer fname; Ret (s', Some t)
  end.

(** ** Answering a request *)

(** sarwin.go:990-1086 NewResponder: the new table and the error.  [field] is the flag
    name of line 1024; the code is the instance below.  [H]: the hash functions.  Simplification: the
    texts of errors of the system are one word. *)
Definition new_responder_gen (field : string) (E : ienv) (H : hashes) (sardir : string) (c : cliflags)
    (fs : fsys) (cwd : path) (table : list transfer) (r : request) (peer : string)
  : outcome (list transfer * error) :=
  match tlookup_loop table responder (r_session r) peer with
  | Some _ => Ret (table, Some ("Transfer " ++ direction_name responder ++ " for session " ++ itoa (r_session r) ++ " to " ++ peer ++
                              " is currently in progress, cannnot duplicate transfer"))
  | None =>
      match ie_resolve E peer with
      | None => Ret (table, Some "resolve")
      | Some udpaddr =>
          if negb (ie_dial E udpaddr) then Ret (table, Some "dial")
          else
            do _ <- sf_getstr sar (r_header r) "version";
            do ttype <- sf_getstr sar (r_header r) "reqtype";
            do _ <- sf_getstr sar (r_header r) field;
            do _ <- sf_getstr sar (r_header r) "udplite";
            do _ <- sf_getstr sar (r_header r) "stream";
            do descriptor <- sf_getstr sar (r_header r) "descriptor";
            do ' (fm, flags, err) <-
              (if one_of ttype ["get"; "getrm"; "rm"] then
                 do fm <- file_meta fs cwd sardir (r_fname r);
                 match fm with
                 | None => Ret (None, "", true)
                 | Some m =>
                     do flags <-
                       (if fm_isdir m then
                          do f <- sf_addflag sar "" "property" "normaldirectory"; sf_addflag sar f "reliability" "yes"
                        else if fm_isregular m then
                          do f <- sf_addflag sar "" "property" "normalfile"; sf_addflag sar f "reliability" "yes"
                        else
                          do f <- sf_addflag sar "" "property" "specialfile"; sf_addflag sar f "reliability" "no");
                     do flags <- sf_addflag sar flags "descriptor" descriptor;
                     Ret (Some m, flags, false)
                 end
               else if one_of ttype ["put"; "putrm"] then
                 do f <- sf_addflag sar "" "reliability" "yes"; Ret (None, f, false)
               else if String.eqb ttype "putblind" then
                 do f <- sf_addflag sar "" "reliability" "no"; Ret (None, f, false)
               else Ret (None, "", false));
            if (err : bool) then Ret (table, Some "no file")
            else
              do ' (d, e) <- dirent_new {| e_fs := fs; e_cwd := cwd; e_sardir := sardir; e_now := ie_now E; e_hash := H |}
                               zero_dirent flags (r_fname r);
              match e with
              | Some e => Ret (table, Some e)
              | None =>
                  match copy_cliflags c with
                  | (_, Some e) => Ret (table, Some e)
                  | (cf, None) =>
                      let t := {| tr_direction := responder; tr_session := r_session r;
                                  tr_conn := Some {| uc_remote := Some udpaddr |}; tr_peer := udpaddr;
                                  tr_ttype := ttype; tr_tstamptype := ""; tr_filename := r_fname r; tr_fp := None;
                                  tr_filemeta := fm; tr_csumtype := ""; tr_havemeta := false; tr_checksum := [];
                                  tr_dir := Some d; tr_data := []; tr_progress := 0; tr_inrespto := 0;
                                  tr_curfills := []; tr_cliflags := cf |} in
                      Ret ((table ++ [t])%list, None)
                  end
              end
      end
  end.
(** sarwin/sarwin.go:990-1086 NewResponder *)
Definition new_responder := new_responder_gen "fileordir".
