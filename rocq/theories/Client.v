(** * Model of client/client.go: sending a file

    The file is marked deprecated by its author and does not compile in the repository: [maxpaylen] and [filedescriptor] are
    commented out in sarwin/sarwin.go (they are modelled from there), and the type Transfer, replaceflag and frames.UDPWrite
    are missing.  It is the only code of the repository that sends the contents of a file. *)

From Verif Require Import GoBase Flags Config Shipped Timestamp Holes Data Status.
Local Open Scope string_scope.
Local Open Scope N_scope.

(** sarwin/sarwin.go:750-771 filedescriptor; [size] is the size os.Stat gives, if it succeeds *)
Definition filedescriptor (size : option N) : string :=
  match size with
  | Some n => if n <=? 2 ^ 16 - 1 then "descriptor=d16" else if n <=? 2 ^ 32 - 1 then "descriptor=d32" else "descriptor=d64"
  | None => "descriptor=d64"
  end.

(** sarwin/sarwin.go:785-803, the loop of maxpaylen *)
Fixpoint paylen_loop (items : list string) (plen : Z) : outcome Z :=
  match items with
  | [] => Ret plen
  | it :: r =>
      let f := split_on "=" it in
      do f0 <- index f 0;
      if String.eqb f0 "descriptor" then
        do f1 <- index f 1;
        if String.eqb f1 "d16" then paylen_loop r (plen - 2)
        else if String.eqb f1 "d32" then paylen_loop r (plen - 4)
        else if String.eqb f1 "d64" then paylen_loop r (plen - 8)
        else if String.eqb f1 "d128" then paylen_loop r (plen - 16)
        else Ret 0%Z
      else if String.eqb f0 "reqtstamp" then
        do f1 <- index f 1;
        paylen_loop r (if String.eqb f1 "yes" then plen - 16 else plen)
      else paylen_loop r plen
  end.
(** sarwin/sarwin.go:776-808 maxpaylen *)
Definition maxpaylen (mtu : Z) (flags : string) : outcome Z :=
  paylen_loop (split_on "," (remove_spaces flags)) (mtu - 60 - 8 - 8).

(** What the surroundings do: the MTU, the content of the file, and by the number of the call the clock, what UDPWrite
    returns, and whether reading the file fails (client/client.go:33-236) *)
Record surroundings := {
  c_mtu : Z;
  c_file : list byte;
  c_now : nat -> gotime;
  c_write : nat -> string;
  c_readerr : nat -> bool
}.
(** What the client does: it hands a data frame or the metadata frame to the socket, sends a message on the error channel,
    or tells a position on the position channel (client/client.go:33-236, 440-503) *)
Inductive caction := CSend (d : data) | CMeta | CSay (s : string) | CPos (progress inrespto : N).

(** os.File.ReadAt of [n] bytes at [pos]: the bytes, and whether the end of the file was met
    (client/client.go:141-168, 188-233) *)
Definition read_at (c : list byte) (n pos : nat) : list byte * bool :=
  let b := firstn n (skipn pos c) in (b, Nat.ltb (length b) n).

(** client/client.go:188-233, the loop of senddata; [n] counts the frames.  A failed write is reported, the loop goes on.
    The counter and the position do not overflow. *)
Fixpoint send_loop (fuel : nat) (s : surroundings) (session : N) (plen n pos fcount : nat) (flags : string) : outcome (list caction * bool) :=
  match fuel with
  | O => Ret ([], false)
  | S fuel' =>
      if c_readerr s n then Ret ([CSay "accessdenied"], true)
      else
        let (buf, eof) := read_at (c_file s) plen pos in
        do flags <- (if eof then sf_replaceflag sar flags "eod" "yes" else Ret flags);
        let ask := Nat.eqb (S fcount) 100 || eof in
        do flags <- sf_replaceflag sar flags "reqstatus" (if ask then "yes" else "no");
        do ' (d, e) <- data_new (c_now s n) zero_data flags {| di_session := session; di_offset := N.of_nat pos; di_payload := buf |};
        match e with
        | Some _ => Ret ([CSay "badpacket"], true)
        | None =>
            do _ <- data_shortprint_ok d;
            let sent := CSend d :: (if String.eqb (c_write s n) "success" then [] else [CSay (c_write s n)]) in
            if eof then Ret ((sent ++ [CSay "success"])%list, true)
            else
              do ' (rest, fin) <- send_loop fuel' s session plen (S n) (pos + length buf) (if ask then 0 else S fcount) flags;
              Ret ((sent ++ rest)%list, fin)
        end
  end.
(** client/client.go:175-235 senddata; true iff it returned within [fuel] rounds *)
Definition senddata (fuel : nat) (s : surroundings) (session : N) (dflags : string) : outcome (list caction * bool) :=
  do flags <- sf_replaceflag sar dflags "eod" "no";
  do fv <- sf_flagvalue dflags "reqtstamp";
  do flags <- (if String.eqb fv "no" || String.eqb fv "" then Ret flags else sf_replaceflag sar flags "reqtstamp" fv);
  do plen <- maxpaylen (c_mtu s) dflags;
  if (plen <? 0)%Z then Panic else send_loop fuel s session (Z.to_nat plen) 0 0 0 flags.

(** client/client.go:141-168, the loop that sends data frames for a hole; [todo] is the number of frames to go, [fc] the
    frame counter, [n] counts the calls of UDPWrite.  [None]: the loop ended, otherwise the message readstatus stops with. *)
Fixpoint hole_loop (todo : nat) (s : surroundings) (session : N) (dflags : string) (plen hend : Z) (buf : list byte) (fc n : nat)
  : outcome (list caction * option string * nat) :=
  match todo with
  | O => Ret ([], None, n)
  | S todo' =>
      let rlen := Z.of_nat (length buf) in
      let pstart := (rlen - Z.of_nat fc * plen)%Z in
      let pend := if (pstart + plen >? hend)%Z then hend else (pstart + plen)%Z in
      do pay <- (if (0 <=? pstart)%Z && (pstart <=? pend)%Z && (pend <=? rlen)%Z then slice buf (Z.to_nat pstart) (Z.to_nat pend) else Panic);
      do ' (d, e) <- data_new (c_now s n) zero_data dflags {| di_session := session; di_offset := u64_of_Z pstart; di_payload := pay |};
      match e with
      | Some _ => Ret ([], Some "badpacket", n)
      | None =>
          if String.eqb (c_write s n) "success" then
            do _ <- data_shortprint_ok d;
            do ' (l, stop, n') <- hole_loop todo' s session dflags plen hend buf (S fc) (S n);
            Ret (CSend d :: l, stop, n')
          else Ret ([CSend d], Some (c_write s n), S n)
      end
  end.
(** make([]byte, n) panics for a negative length and for one above what can be allocated, 2^48 bytes on 64-bit systems
    (Go runtime, client/client.go:130).  That memory may run out below that is not modelled. *)
Definition max_make : Z := 2 ^ 48.
(** client/client.go:126-169: one hole; the difference of its ends wraps *)
Definition fill_hole (s : surroundings) (session : N) (dflags : string) (h : hole) (n : nat) : outcome (list caction * option string * nat) :=
  let len := i64_of_Z (h_end h - h_start h) in
  if (len <? 0)%Z || (max_make <? len)%Z then Panic
  else if (h_start h <? 0)%Z then Ret ([], Some "badoffset", n)
  else
    let (buf, eof) := read_at (c_file s) (Z.to_nat len) (Z.to_nat (h_start h)) in
    if eof then Ret ([], Some "badoffset", n)
    else
      do plen <- maxpaylen (c_mtu s) dflags;
      if (plen =? 0)%Z then Panic
      else hole_loop (Z.to_nat (Z.quot (Z.of_nat (length buf)) plen)) s session dflags plen (h_end h) buf 0 n.
(** client/client.go:126-169 the holes of a status *)
Fixpoint fill_holes (s : surroundings) (session : N) (dflags : string) (hs : holes) (n : nat) : outcome (list caction * option string * nat) :=
  match hs with
  | [] => Ret ([], None, n)
  | h :: r =>
      do ' (l, stop, n) <- fill_hole s session dflags h n;
      match stop with
      | Some e => Ret (l, Some e, n)
      | None => do ' (l', stop', n) <- fill_holes s session dflags r n; Ret ((l ++ l')%list, stop', n)
      end
  end.
(** client/client.go:68-172: a datagram read; [None]: readstatus reads on, [Some]: the message it stops with.  The frame is
    decoded twice, into fresh frames, with the same result.  Printing the metadata frame that was sent again is left out. *)
Definition on_datagram (s : surroundings) (session : N) (dflags : string) (f : list byte) (n : nat) : outcome (list caction * option string * nat) :=
  do header <- get_uint 4 f 0 4;
  do v <- sf_getstr sar header "version";
  if negb (String.eqb v "v1") then Ret ([], Some "badpacket", n)
  else
    do ft <- sf_getstr sar header "frametype";
    if String.eqb ft "status" then
      do ' (st, e) <- status_decode zero_status f;
      match e with
      | Some _ => Ret ([], Some "badpacket", n)
      | None =>
          do _ <- status_shortprint_ok st;
          do errf <- sf_getstr sar header "errcode";
          if negb (String.eqb errf "success") then Ret ([], Some errf, n)
          else
            do md <- sf_getstr sar header "metadatarecvd";
            let resend := String.eqb md "no" in
            if resend && negb (String.eqb (c_write s n) "success") then Ret ([CMeta], Some (c_write s n), S n)
            else
              let told := ((if resend then [CMeta] else []) ++ CPos (s_progress st) (s_inrespto st)
                           :: (if s_progress st =? N.of_nat (length (c_file s)) then [CSay "success"] else []))%list in
              do ' (l, stop, n) <- fill_holes s session dflags (s_holes st) (if resend then S n else n);
              Ret ((told ++ l ++ match stop with None => [CSay "success"] | Some _ => [] end)%list, stop, n)
      end
    else
      do _ <- sf_getstr sar header "frametpye";
      Ret ([], Some "badpacket", n).
(** client/client.go:33-172 readstatus over what conn.Read gives: an error (such as a timeout) or a datagram.  True iff it
    returned. *)
Inductive cread := RFailed | RGot (f : list byte).
(** client/client.go:33-172 readstatus; [fuel] is what is still to be read *)
Fixpoint readstatus (s : surroundings) (session : N) (dflags : string) (reads : list cread) (n : nat) : outcome (list caction * bool) :=
  match reads with
  | [] => Ret ([], false)
  | RFailed :: _ => Ret ([CSay "cantreceive"], true)
  | RGot f :: r =>
      do ' (l, stop, n) <- on_datagram s session dflags f n;
      match stop with
      | Some e => Ret ((l ++ [CSay e])%list, true)
      | None => do ' (l', fin) <- readstatus s session dflags r n; Ret ((l ++ l')%list, fin)
      end
  end.

(** client/client.go:405-436: the messages the loop of cput selects from.  [scan] is fmt.Sscanf with two numbers. *)
Inductive cmsg := MStatus (s : string) | MData (s : string) | MPos.
(** client/client.go:405-436: the loop of cput, over the messages it receives *)
Fixpoint cput_loop (scan : string -> option (N * N)) (msgs : list cmsg) : option string :=
  match msgs with
  | [] => None
  | MStatus e :: r => match scan e with
                      | Some _ => cput_loop scan r
                      | None => if String.eqb e "success" then cput_loop scan r else Some e
                      end
  | MData e :: r => if String.eqb e "success" then cput_loop scan r else Some e
  | MPos :: r => cput_loop scan r
  end.
(** client/client.go:506-524 cputrm: what it reports, and whether it removes the local file; [removed] is whether os.Remove
    succeeds.  [None]: cput does not return. *)
Definition cputrm (put : option string) (removed : bool) : option (string * bool) :=
  match put with
  | None => None
  | Some e => if String.eqb e "success" then Some (if removed then (e, true) else ("didnotdelete", false)) else Some (e, false)
  end.
(** The answers of the system and of New while a put is set up (client/client.go:293-395) *)
Record answers := { a_open : bool; a_seek : bool; a_resolve : bool; a_dial : bool; a_request : bool; a_metadata : bool; a_write : nat -> string }.
(** client/client.go:264-290: the entries of clienthandler *)
Inductive kind := KRequest | KMetadata.
(** client/client.go:293-395: cput up to its loop.  The frames handed to the socket; [None]: the loop starts.  After a failed
    dial conn is nil, and closing it (line 331) panics. *)
Definition cput_setup (a : answers) : outcome (list kind * option string) :=
  if negb (a_open a) then Ret ([], Some "filenotfound")
  else if negb (a_seek a) then Ret ([], Some "badoffset")
  else if negb (a_resolve a) then Ret ([], Some "cantsend")
  else if negb (a_dial a) then Panic
  else if negb (a_request a) then Ret ([], Some "badrequest")
  else if negb (String.eqb (a_write a 0) "success") then Ret ([KRequest], Some (a_write a 0))
  else if negb (a_metadata a) then Ret ([KRequest], Some "badrequest")
  else if negb (String.eqb (a_write a 1) "success") then Ret ([KRequest; KMetadata], Some (a_write a 1))
  else Ret ([KRequest; KMetadata], None).
(** client/client.go:440-503 cputblind: the frames handed to the socket, and what is reported *)
Definition cputblind (a : answers) : list kind * string :=
  if negb (a_open a) then ([], "filenotfound")
  else if negb (a_seek a) then ([], "badoffset")
  else if negb (a_resolve a) then ([], "cantsend")
  else if negb (a_dial a) then ([], "cantsend")
  else if negb (a_metadata a) then ([], "badrequest")
  else if negb (String.eqb (a_write a 0) "success") then ([KMetadata], a_write a 0)
  else ([KMetadata], "success").
(** cput: the loop gets the messages [msgs], if it starts.  [None]: it does not return. (client/client.go:292-437) *)
Definition cput (a : answers) (scan : string -> option (N * N)) (msgs : list cmsg) : outcome (list kind * option string) :=
  do ' (ks, e) <- cput_setup a;
  match e with
  | Some e => Ret (ks, Some e)
  | None => Ret (ks, cput_loop scan msgs)
  end.
(** sarwin/sarwin.go:850 Ttypes *)
Definition transfer_types : list string := ["get"; "getrm"; "getdir"; "put"; "putblind"; "putrm"; "rm"; "rmdir"].
(** client/client.go:270-279 clienthandler; [removed] as in cputrm *)
Definition handler (ttype : string) (a : answers) (scan : string -> option (N * N)) (msgs : list cmsg) (removed : bool)
  : option (outcome (list kind * option string * bool)) :=
  if String.eqb ttype "put" then Some (do ' (ks, e) <- cput a scan msgs; Ret (ks, e, false))
  else if String.eqb ttype "putrm" then
    Some (do ' (ks, e) <- cput a scan msgs;
          match cputrm e removed with Some (e, gone) => Ret (ks, Some e, gone) | None => Ret (ks, None, false) end)
  else if String.eqb ttype "putblind" then let (ks, e) := cputblind a in Some (Ret (ks, Some e, false))
  else None.
(** client/client.go:240-256 Doclient: the frames of the set-up, what is reported, and whether the local file is removed *)
Fixpoint doclient_loop (types : list string) (ttype : string) (a : answers) (scan : string -> option (N * N)) (msgs : list cmsg) (removed : bool)
  : outcome (list kind * option string * bool) :=
  match types with
  | [] => Ret ([], Some "undefined", false)
  | i :: r =>
      if String.eqb i ttype then
        match handler i a scan msgs removed with
        | Some x => x
        | None => doclient_loop r ttype a scan msgs removed
        end
      else doclient_loop r ttype a scan msgs removed
  end.
(** client/client.go:240-256 Doclient *)
Definition doclient := doclient_loop transfer_types.
