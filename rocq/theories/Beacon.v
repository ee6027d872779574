(** * Model of beacon/beacon.go: beacon frames and the peer table *)

From Verif Require Import GoBase Flags Config Shipped Timestamp Data.
Local Open Scope string_scope.
Local Open Scope N_scope.

(** beacon.go:21-25 Beacon *)
Record beacon := { b_header : N; b_freespace : N; b_eid : string }.
(** beacon/beacon.go:21-24: the zero value of a Beacon *)
Definition zero_beacon : beacon := {| b_header := 0; b_freespace := 0; b_eid := "" |}.
(** beacon.go:26-29 Binfo *)
Record binfo := { bi_freespace : N; bi_eid : string }.

(** The operating system's answers to os.Getwd and syscall.Statfs (beacon.go:100,
    108): an error, or for Statfs the block size and available blocks. *)
Record sysenv := { se_getwd : error; se_statfs : option (N * N) }.

(** b.Header = h (beacon/beacon.go:43-197 New and Make, 248-277 Decode) *)
Definition b_set_header (b : beacon) (h : N) : beacon :=
  {| b_header := h; b_freespace := b_freespace b; b_eid := b_eid b |}.

(** beacon.go:59-86: the loop over the flags *)
Fixpoint beacon_flags (items : list string) (b : beacon) : outcome (beacon * error) :=
  match items with
  | [] => Ret (b, None)
  | it :: rest =>
      let f := split_on "=" it in
      do f0 <- index f 0;
      try b <-
        (if one_of f0 ["descriptor"; "stream"; "txwilling"; "rxwilling"; "udplite"; "freespace"] then
           do f1 <- index f 1;
           do h <- sf_set sar (b_header b) f0 f1; Ret (b_set_header b h, None)
         else if String.eqb f0 "freespaced" then
           do h <- sf_set sar (b_header b) "freespace" "yes";
           let b := b_set_header b h in
           do f1 <- index f 1;
           if one_of f1 ["d16"; "d32"; "d64"] then
             do h <- sf_set sar (b_header b) f0 f1; Ret (b_set_header b h, None)
           else Ret (b, Some ("Beacon.New: Invalid freespaced " ++ f1))
         else
           do f1 <- index f 1;
           Ret (b, Some ("Beacon.New: Invalid Flag " ++ f0 ++ "=" ++ f1)));
      beacon_flags rest b
  end.

(** beacon.go:87-133 and 151-196 (the same code in New and Make): endpoint id,
    free space and its descriptor *)
Definition beacon_space (env : sysenv) (b : beacon) (info : binfo) : outcome (beacon * error) :=
  let b := {| b_header := b_header b; b_freespace := b_freespace b; b_eid := bi_eid info |} in
  do fs <- sf_getstr sar (b_header b) "freespace";
  if String.eqb fs "yes" then
    let b := {| b_header := b_header b; b_freespace := bi_freespace info; b_eid := b_eid b |} in
    match se_getwd env with
    | Some e =>
        do h <- sf_set sar (b_header b) "freespace" "no";
        Ret ({| b_header := h; b_freespace := 0; b_eid := b_eid b |}, Some e)
    | None =>
        let measured :=
          if b_freespace b =? 0 then
            match se_statfs env with
            | None => None
            | Some (bsize, bavail) => Some (u64 (bsize * bavail) / 1024)
            end
          else Some (b_freespace b) in
        match measured with
        | None =>
            do h <- sf_set sar (b_header b) "freespace" "no";
            Ret ({| b_header := h; b_freespace := 0; b_eid := b_eid b |}, None)
        | Some fr =>
            let b := {| b_header := b_header b; b_freespace := fr; b_eid := b_eid b |} in
            if fr <? MaxUint16 then
              do h <- sf_set sar (b_header b) "freespaced" "d16"; Ret (b_set_header b h, None)
            else if fr <? MaxUint32 then
              do h <- sf_set sar (b_header b) "freespaced" "d32"; Ret (b_set_header b h, None)
            else if fr <? MaxUint64 then
              do h <- sf_set sar (b_header b) "freespaced" "d64"; Ret (b_set_header b h, None)
            else Ret (b, Some "beacon.New: d128 not supported invalid beacon frame")
        end
    end
  else
    do fs <- sf_getstr sar (b_header b) "freespace";
    if String.eqb fs "no" then
      Ret ({| b_header := b_header b; b_freespace := 0; b_eid := b_eid b |}, None)
    else Ret (b, None).

(** beacon.go:43-134 New *)
Definition beacon_new (env : sysenv) (b : beacon) (flags : string) (info : binfo) : outcome (beacon * error) :=
  do h <- sf_set sar (b_header b) "version" "v1";
  do h <- sf_set sar h "frametype" "beacon";
  try b <- beacon_flags (split_on "," (remove_spaces flags)) (b_set_header b h);
  beacon_space env b info.

(** beacon.go:138-197 Make *)
Definition beacon_make (env : sysenv) (b : beacon) (header : N) (info : binfo) : outcome (beacon * error) :=
  do h <- sf_set sar header "version" "v1";
  do h <- sf_set sar h "frametype" "beacon";
  beacon_space env (b_set_header b h) info.

(** beacon.go:200-245 Encode *)
Definition beacon_encode (b : beacon) : outcome encoded :=
  do fs <- sf_getstr sar (b_header b) "freespace";
  do dsize <-
    (if String.eqb fs "yes" then
       do ds <- sf_getstr sar (b_header b) "freespaced";
       Ret (if String.eqb ds "d16" then inl 2%nat
            else if String.eqb ds "d32" then inl 4%nat
            else if String.eqb ds "d64" then inl 8%nat
            else if String.eqb ds "d128" then inr "d128 not supported invalid beacon frame"
            else inr "invalid beacon frame")
     else Ret (inl 0%nat));
  match dsize with
  | inr e => Ret (EncErr e)
  | inl dsize =>
      let framelen := (4 + slen (b_eid b) + dsize)%nat in
      let frame := make_bytes framelen in
      do frame <- put_uint 4 frame 0 4 (b_header b);
      do ' (frame, pos) <-
        (match dsize with
         | O => Ret (frame, 4%nat)
         | _ => do frame <- put_uint dsize frame 4 (4 + dsize) (wrap (8 * N.of_nat dsize) (b_freespace b));
                Ret (frame, (4 + dsize)%nat)
         end);
      do frame <- copy_from frame pos (bytes_of (b_eid b));
      Ret (Frame frame)
  end.

(** beacon.go:253-261: free space of width [k] then the endpoint id *)
Definition b_space_eid (b : beacon) (frame : list byte) (k : nat) : outcome (beacon * error) :=
  do fr <- get_uint k frame 4 (4 + k);
  do eid <- slice_from frame (4 + k);
  Ret ({| b_header := b_header b; b_freespace := fr; b_eid := string_of eid |}, None).

(** beacon.go:248-277 Decode (no length check) *)
Definition beacon_decode (b : beacon) (frame : list byte) : outcome (beacon * error) :=
  do h <- get_uint 4 frame 0 4;
  let b := b_set_header b h in
  do fs <- sf_getstr sar h "freespace";
  if String.eqb fs "yes" then
    do ds <- sf_getstr sar h "freespaced";
    if String.eqb ds "d16" then b_space_eid b frame 2
    else if String.eqb ds "d32" then b_space_eid b frame 4
    else if String.eqb ds "d64" then b_space_eid b frame 8
    else if String.eqb ds "d128" then Ret (b, Some "d128 not supported invalid beacon frame")
    else
      do eid <- slice_from frame 4;
      Ret ({| b_header := h; b_freespace := 0; b_eid := string_of eid |}, Some "invalid beacon frame")
  else
    do eid <- slice_from frame 4;
    Ret ({| b_header := h; b_freespace := 0; b_eid := string_of eid |}, None).

(** beacon.go:295-302 ShortPrint *)
Definition beacon_shortprint_ok (b : beacon) : outcome unit :=
  do _ <- sf_getstr sar (b_header b) "freespace"; Ret tt.

(** ** The peer table *)

(** beacon.go:328-337 Peer *)
Record peer := {
  p_addr : string;
  p_freespace : N;
  p_eid : string;
  p_maxdesc : string;
  p_canrx : string;
  p_cantx : string;
  p_created : timestamp;
  p_updated : timestamp
}.

(** beacon.go:352-367: the body of the scan for a matching peer; returns the new
    entry and whether it changed.  Go's || evaluates the GetStr calls only when
    the earlier comparisons are equal, and re-evaluates them in the body. *)
Definition peer_change (now : gotime) (p : peer) (b : beacon) : outcome (peer * bool) :=
  do differs <-
    (if negb (p_freespace p =? b_freespace b) then Ret true
     else if negb (String.eqb (p_eid p) (b_eid b)) then Ret true
     else do md <- sf_getstr sar (b_header b) "descriptor";
          if negb (String.eqb (p_maxdesc p) md) then Ret true
          else do rx <- sf_getstr sar (b_header b) "rxwilling";
               if negb (String.eqb (p_canrx p) rx) then Ret true
               else do tx <- sf_getstr sar (b_header b) "txwilling";
                    Ret (negb (String.eqb (p_cantx p) tx)));
  if (differs : bool) then
    do md <- sf_getstr sar (b_header b) "descriptor";
    do rx <- sf_getstr sar (b_header b) "rxwilling";
    do tx <- sf_getstr sar (b_header b) "txwilling";
    do ' (upd, _) <- ts_now now (p_updated p) "posix32_32";
    Ret ({| p_addr := p_addr p; p_freespace := b_freespace b; p_eid := b_eid b; p_maxdesc := md;
            p_canrx := rx; p_cantx := tx; p_created := p_created p; p_updated := upd |}, true)
  else Ret (p, false).

(** beacon.go:372-380: a new peer *)
Definition peer_new (now : gotime) (b : beacon) (addr : string) : outcome peer :=
  do md <- sf_getstr sar (b_header b) "descriptor";
  do rx <- sf_getstr sar (b_header b) "rxwilling";
  do tx <- sf_getstr sar (b_header b) "txwilling";
  do ' (created, _) <- ts_now now zero_timestamp "posix32_32";
  Ret {| p_addr := addr; p_freespace := b_freespace b; p_eid := b_eid b; p_maxdesc := md;
         p_canrx := rx; p_cantx := tx; p_created := created; p_updated := created |}.

(** beacon.go:349-369: the scan; [None] when no peer has the address *)
Fixpoint peer_scan (now : gotime) (ps : list peer) (b : beacon) (addr : string)
  : outcome (option (list peer * bool)) :=
  match ps with
  | [] => Ret None
  | p :: r =>
      if String.eqb (p_addr p) addr then
        do ' (p', ch) <- peer_change now p b; Ret (Some (p' :: r, ch))
      else
        do m <- peer_scan now r b addr;
        Ret (match m with Some (r', ch) => Some (p :: r', ch) | None => None end)
  end.

(** beacon.go:344-385 NewPeer.  [from] is the sender: [None] for nil, otherwise
    from.IP.String(); [now] is the current time. *)
Definition new_peer (now : gotime) (ps : list peer) (b : beacon) (from : option string)
  : outcome (list peer * bool) :=
  match from with
  | None => Ret (ps, false)
  | Some addr =>
      do m <- peer_scan now ps b addr;
      match m with
      | Some (ps', ch) => Ret (ps', ch)
      | None => do p <- peer_new now b addr; Ret ((ps ++ [p])%list, true)
      end
  end.
