(** * Model of the settings as memory that several goroutines use: sarwin/sarwin.go, sarflags/sarflags.go

    Every command runs in a goroutine of its own (sarwin.go:2457-2494).  Cli.v lets a
    command on the settings, and the copying of the settings for a transfer, happen in one
    step.  Here each access to the memory is a step. *)

From Verif Require Import GoBase Flags Config Shipped Timestamp Data Beacon Fileio Trans Sarnet Transfer Words Cli.
Local Open Scope string_scope.
Local Open Scope N_scope.

(** One access.  An assignment to an element of a map is two steps: the runtime marks the map
    as being written, and then stores.  To find the mark when entering an assignment, a
    look-up or a step of a range loop is a fatal error that cannot be recovered ("concurrent
    map writes", "concurrent map read and map write", "concurrent map iteration and map
    write").  Simplification: a string or a number is read and written in one step
    (Torn.v takes two for a string).
    (sarwin/sarwin.go:1372-2380, sarflags/sarflags.go:630-657) *)
Inductive act :=
| ALock                                                     (* Climu.Lock() *)
| AUnlock                                                   (* Climu.Unlock() *)
| AStore (k v : string)                                     (* Global[k] = v, first half *)
| AStored (k v : string)                                    (* Global[k] = v, second half *)
| ASet (f : cliflags -> cliflags)                           (* assignment to another member *)
| ALook                                                     (* a look at Global: an element, or the next key *)
| ATake (f : cliflags -> cliflags -> cliflags)              (* a member of the copy: settings, copy before *)
| ATakeGlobal (k : string)                                  (* d.Global[k] = s.Global[k], d the copy *)
| ANonempty.                                                (* len(s.Global) == 0 *)
(** sarwin/sarwin.go:1372-2380: the new value of a member *)
Definition store (k v : string) : list act := [AStore k v; AStored k v].

(** A goroutine: what it has still to do, and the copy it makes
    (sarwin/sarwin.go:2497-2521 Run, which starts each command with "go") *)
Record worker := { wk_todo : list act; wk_copy : cliflags }.
(** [rs_busy]: Global is marked as being written
    The settings sarflags/sarflags.go:289, the lock 267, and the goroutines *)
Record rstate := { rs_set : cliflags; rs_lock : option nat; rs_busy : bool; rs_dead : bool; rs_work : list worker }.

(** Auxiliary, no code: a goroutine of sarwin/sarwin.go:2497-2521 goes on *)
Fixpoint set_worker (l : list worker) (i : nat) (w : worker) : list worker :=
  match l, i with
  | [], _ => []
  | _ :: r, O => w :: r
  | x :: r, S i => x :: set_worker r i w
  end.

(** One step of goroutine [i].  None: it has finished, or waits for Climu, or there is none.
    (sarwin/sarwin.go:1372-2380, sarflags/sarflags.go:630-657) *)
Definition rstep (s : rstate) (i : nat) : option rstate :=
  if rs_dead s then None
  else match nth_error (rs_work s) i with
  | Some {| wk_todo := a :: r; wk_copy := d |} =>
      let next c l b d :=
        Some {| rs_set := c; rs_lock := l; rs_busy := b; rs_dead := false;
                rs_work := set_worker (rs_work s) i {| wk_todo := r; wk_copy := d |} |} in
      let dies := Some {| rs_set := rs_set s; rs_lock := rs_lock s; rs_busy := rs_busy s; rs_dead := true; rs_work := rs_work s |} in
      let c := rs_set s in
      let l := rs_lock s in
      let b := rs_busy s in
      match a with
      | ALock => match l with None => next c (Some i) b d | Some _ => None end
      | AUnlock => next c None b d
      | AStore _ _ => if b then dies else next c l true d
      | AStored k v => next (set_global c k v) l false d
      | ASet f => next (f c) l b d
      | ALook => if b then dies else next c l b d
      | ATake f => next c l b (f c d)
      | ATakeGlobal k => if b then dies else next c l b (set_global d k (global c k))
      | ANonempty => match cl_global c with [] => dies | _ => next c l b d end
      end
  | _ => None
  end.
(** A run follows the choices of the scheduler; impossible ones are skipped (sarwin/sarwin.go:2497-2521) *)
Fixpoint rrun (s : rstate) (is : list nat) : rstate :=
  match is with
  | [] => s
  | i :: r => rrun (match rstep s i with Some s' => s' | None => s end) r
  end.

(** ** What the commands do between Climu.Lock() and Climu.Unlock() *)

(** A case of a switch on the second word that stores in Global (sarwin/sarwin.go:1550-1574 and the like) *)
Fixpoint stored_by (k a : string) (cases : list (string * string)) : list act :=
  match cases with
  | [] => []
  | (b, v) :: r => if String.eqb a b then store k v else stored_by k a r
  end.
(** sarwin.go:1375-1402 cmdChecksum: looks at Global for its message *)
Definition acc_checksum (args : list string) : list act :=
  match args with
  | [_] => [ALook]
  | [_; a] =>
      if one_of a ["off"; "none"; "crc32"; "md5"; "sha1"]
      then (stored_by "csumtype" a [("off", "none"); ("none", "none"); ("crc32", "crc32"); ("md5", "md5"); ("sha1", "sha1")] ++ [ALook])%list
      else []
  | _ => []
  end.
(** sarwin.go:1445-1498 cmdDescriptor *)
Definition acc_descriptor (args : list string) : list act :=
  match args with
  | [_] => [ALook]
  | [_; a] =>
      if String.eqb a "?" then []
      else (stored_by "descriptor" a [("auto", "d64"); ("d16", "d16"); ("d32", "d32"); ("d64", "d64")] ++ [ALook])%list
  | _ => []
  end.
(** sarwin.go:1550-1574 cmdFreespace, 2013-2035 cmdReqtstamp, 2113-2134 cmdRxwilling,
    2143-2165 cmdStream, 2412-2433 cmdTxwilling *)
Definition acc_flag (k : string) (cases : list (string * string)) (args : list string) : list act :=
  match args with
  | [_] => [ALook]
  | [_; a] => stored_by k a cases
  | _ => []
  end.
(** sarwin.go:1701-1719 cmdBcount *)
Definition acc_bcount (args : list string) : list act :=
  match args with
  | [_; a] => match atoi a with
              | Some n => if (0 <=? n)%Z then [ASet (fun c => set_bcount c (Z.to_N n))] else []
              | None => []
              end
  | _ => []
  end.
(** sarwin.go:1726-1752 cmdInterval *)
Definition acc_interval (args : list string) : list act :=
  let put n := [ASet (fun c => set_timeout c (with_binterval (cl_timeout c) n))] in
  match args with
  | [_; a] =>
      if String.eqb a "off" then put 0
      else match atoi a with Some n => if (0 <=? n)%Z then put (Z.to_N n) else [] | None => [] end
  | _ => []
  end.
(** sarwin.go:2173-2309 cmdTimeout *)
Definition put_timer (name : string) (n : Z) : list act :=
  let put (g : timeouts -> timeouts) := [ASet (fun c => set_timeout c (g (cl_timeout c)))] in
  if String.eqb name "metadata" then put (fun t => with_metadata t n)
  else if String.eqb name "request" then put (fun t => with_request t n)
  else if String.eqb name "status" then put (fun t => with_status t n)
  else if String.eqb name "datacounter" then put (fun t => with_datacounter t n)
  else if String.eqb name "transfer" then put (fun t => with_transfer t n)
  else [].
(** sarwin/sarwin.go:2173-2309 cmdTimeout *)
Definition acc_timeout (args : list string) : list act :=
  let counter := [ASet (fun c => let t := cl_timeout c in
                    if (to_datacounter t =? 0)%Z then set_timeout c (with_datacounter t 100) else c)] in
  match args with
  | [_] => counter
  | [_; a] => if String.eqb a "datacounter" then counter else []
  | [_; a; v] =>
      match (match atoi v with Some n => if (0 <=? n)%Z then Some n else None | None => None end) with
      | Some n => put_timer a (if String.eqb a "datacounter" && (n =? 0)%Z then 100 else n)
      | None => if String.eqb v "off" then put_timer a (if String.eqb a "datacounter" then 100 else 60) else []
      end
  | _ => []
  end.
(** sarwin.go:2317-2353 cmdTimestamp *)
Definition acc_timestamp (args : list string) : list act :=
  let on v := (store "reqtstamp" "yes" ++ [ASet (fun c => set_timestamp c v)])%list in
  match args with
  | [_] => [ALook]
  | [_; a] =>
      if String.eqb a "off" then store "reqtstamp" "no"
      else if String.eqb a "32" then on "posix32"
      else if String.eqb a "32_32" then on "posix32_32"
      else if String.eqb a "64" then on "posix64"
      else if String.eqb a "64_32" then on "posix64_32"
      else if String.eqb a "32_y2k" then on "epoch2000_32"
      else if String.eqb a "local" then on "localinterp"
      else []
  | _ => []
  end.
(** sarwin.go:2361-2379 cmdTimezone *)
Definition acc_timezone (args : list string) : list act :=
  match args with
  | [_; a] => if one_of a ["local"; "utc"] then [ASet (fun c => set_timezone c a)] else []
  | _ => []
  end.
(** sarwin/sarwin.go:2459-2494 cmdhandler: the accesses of each command on the settings *)
Definition accesses : list (string * (list string -> list act)) :=
  [("bcount", acc_bcount); ("checksum", acc_checksum); ("descriptor", acc_descriptor);
   ("freespace", acc_flag "freespace" [("yes", "yes"); ("no", "no")]);
   ("interval", acc_interval);
   ("reqtstamp", acc_flag "reqtstamp" [("yes", "yes"); ("no", "no")]);
   ("rxwilling", acc_flag "rxwilling" [("on", "yes"); ("off", "no"); ("capable", "capable")]);
   ("stream", acc_flag "stream" [("yes", "yes"); ("no", "no")]);
   ("timeout", acc_timeout); ("timestamp", acc_timestamp); ("timezone", acc_timezone);
   ("txwilling", acc_flag "txwilling" [("on", "on"); ("off", "off"); ("capable", "capable")])].

(** ** Goroutines *)

(** sarflags.go:631-648 CopyCliflags: the members it copies before Global, in order.  The
    copy is of [zero_cli]. *)
Definition zero_cli : cliflags :=
  {| cl_global := []; cl_v4 := ""; cl_v6 := ""; cl_port := 0; cl_timestamp := ""; cl_timeout := zero_timeouts; cl_timezone := "";
     cl_prompt := ""; cl_ppad := 0; cl_sardir := ""; cl_buffersize := 0; cl_bcount := 0 |}.
(** sarflags/sarflags.go:631-648: the members that CopyCliflags copies before Global *)
Definition copied (d : cliflags) (v4 v6 : string) (port : Z) (stamp : string) (t : timeouts) (zone prompt : string) (ppad : Z) (dir : string) (buf : Z) :=
  {| cl_global := cl_global d; cl_v4 := v4; cl_v6 := v6; cl_port := port; cl_timestamp := stamp; cl_timeout := t; cl_timezone := zone;
     cl_prompt := prompt; cl_ppad := ppad; cl_sardir := dir; cl_buffersize := buf; cl_bcount := cl_bcount d |}.
(** sarflags/sarflags.go:631-648 *)
Definition take_members : list act :=
  [ATake (fun s d => copied d (cl_v4 s) (cl_v6 d) (cl_port d) (cl_timestamp d) (cl_timeout d) (cl_timezone d) (cl_prompt d) (cl_ppad d) (cl_sardir d) (cl_buffersize d));
   ATake (fun s d => copied d (cl_v4 d) (cl_v4 s) (cl_port d) (cl_timestamp d) (cl_timeout d) (cl_timezone d) (cl_prompt d) (cl_ppad d) (cl_sardir d) (cl_buffersize d));
   ATake (fun s d => copied d (cl_v4 d) (cl_v6 d) (cl_port s) (cl_timestamp d) (cl_timeout d) (cl_timezone d) (cl_prompt d) (cl_ppad d) (cl_sardir d) (cl_buffersize d));
   ATake (fun s d => copied d (cl_v4 d) (cl_v6 d) (cl_port d) (cl_timestamp s) (cl_timeout d) (cl_timezone d) (cl_prompt d) (cl_ppad d) (cl_sardir d) (cl_buffersize d));
   ATake (fun s d => copied d (cl_v4 d) (cl_v6 d) (cl_port d) (cl_timestamp d) (cl_timeout d) (cl_timezone s) (cl_prompt d) (cl_ppad d) (cl_sardir d) (cl_buffersize d));
   ATake (fun s d => copied d (cl_v4 d) (cl_v6 d) (cl_port d) (cl_timestamp d) (cl_timeout d) (cl_timezone d) (cl_prompt s) (cl_ppad d) (cl_sardir d) (cl_buffersize d));
   ATake (fun s d => copied d (cl_v4 d) (cl_v6 d) (cl_port d) (cl_timestamp d) (cl_timeout d) (cl_timezone d) (cl_prompt d) (cl_ppad s) (cl_sardir d) (cl_buffersize d));
   ATake (fun s d => copied d (cl_v4 d) (cl_v6 d) (cl_port d) (cl_timestamp d) (cl_timeout d) (cl_timezone d) (cl_prompt d) (cl_ppad d) (cl_sardir s) (cl_buffersize d));
   ATake (fun s d => copied d (cl_v4 d) (cl_v6 d) (cl_port d) (cl_timestamp d) (cl_timeout d) (cl_timezone d) (cl_prompt d) (cl_ppad d) (cl_sardir d) (cl_buffersize s));
   ATake (fun s d => set_timeout d (with_binterval (cl_timeout d) (to_binterval (cl_timeout s))));
   ATake (fun s d => set_timeout d (with_metadata (cl_timeout d) (to_metadata (cl_timeout s))));
   ATake (fun s d => set_timeout d (with_request (cl_timeout d) (to_request (cl_timeout s))));
   ATake (fun s d => set_timeout d (with_status (cl_timeout d) (to_status (cl_timeout s))));
   ATake (fun s d => set_timeout d (with_transfer (cl_timeout d) (to_transfer (cl_timeout s))));
   ATake (fun s d => set_timeout d (with_datacounter (cl_timeout d) (to_datacounter (cl_timeout s))))].
(** sarflags.go:649-655: the map.  [order] is the order in which the range loop happens to
    find the keys; no key is added or removed meanwhile.  An empty map makes NewInitiator
    panic (sarwin.go:978-980). *)
Definition take_global (order : list string) : list act :=
  (ANonempty :: flat_map (fun k => [ALook; ATakeGlobal k]) order ++ [ALook])%list.

(** What a goroutine of sarwin/sarwin.go:2497-2521 runs *)
Inductive job :=
| JSetting (args : list string)          (* one of the commands above, with its words *)
| JBeacon (looks : nat)                  (* cmdBeacon, sarwin.go:1278-1365: looks at Global through Setglobal *)
| JTransfer (order : list string).       (* NewInitiator's copy of the settings, sarwin.go:978; it does not hold Climu *)
(** What each job does to the shared settings, step by step (sarwin/sarwin.go:978, 1278-1365, 1372-2380) *)
Definition body (j : job) : list act :=
  match j with
  | JSetting args =>
      match args with
      | name :: _ => match lookup name accesses with Some f => f args | None => [] end
      | [] => []
      end
  | JBeacon looks => repeat ALook looks
  | JTransfer order => (take_members ++ take_global order)%list
  end.
(** sarwin/sarwin.go:1372-2380: Lock, the accesses, Unlock; 978: the copy without the lock *)
Definition program (j : job) : list act :=
  match j with
  | JTransfer _ => body j
  | _ => (ALock :: body j ++ [AUnlock])%list
  end.
(** The goroutines before their first step (sarwin/sarwin.go:2497-2521) *)
Definition begin (c : cliflags) (jobs : list job) : rstate :=
  {| rs_set := c; rs_lock := None; rs_busy := false; rs_dead := false;
     rs_work := map (fun j => {| wk_todo := program j; wk_copy := zero_cli |}) jobs |}.
