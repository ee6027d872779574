(** * Specification vocabulary for the frame codecs

    The byte layout of every frame, and the verdict a decoder must reach on
    arbitrary bytes, written down from the protocol: positions and widths only. *)

From Verif Require Import GoBase Flags SpecFlags SpecWire Timestamp Data.
Local Open Scope string_scope.
Local Open Scope N_scope.

(** ** What can become of a call *)
Inductive verdict :=
| Accept      (* it returns without error *)
| Reject      (* it returns an error *)
| Crash       (* it panics *)
| Kill.       (* it terminates the process *)

(** The verdict of a call that returns a value and an error *)
Definition verdict_of {A} (r : outcome (A * error)) : verdict :=
  match r with
  | Ret (_, None) => Accept
  | Ret (_, Some _) => Reject
  | Panic => Crash
  | Fatal => Kill
  end.

(** ** Timestamps *)

(** The 16 bytes of any timestamp: numeric, or local text cut to 14 bytes.
    [None] for a type that does not exist. *)
Definition ts_bytes (t : timestamp) : option (list byte) :=
  match ts_type (t_header t) with
  | Some L => Some (ts_wire (t_header t) L (t_secs t) (t_nsecs t))
  | None =>
      if t_header t =? 0 then
        let text := firstn 14 (bytes_of (t_local t)) in
        Some (wire 1 0 ++ text ++ zeros (15 - length text))%list
      else None
  end.

(** The timestamp that a receiver reads from 16 bytes at position [i]: defined
    for the five numeric types *)
Definition ts_at (frame : list byte) (i : nat) : option timestamp :=
  match ts_type (number_at frame i 1) with
  | Some L => Some {| t_header := number_at frame i 1;
                      t_secs := number_at frame (i + 1) (tl_secs L);
                      t_nsecs := number_at frame (i + 1 + tl_secs L) (tl_nanos L);
                      t_local := ""; t_ttype := tl_name L |}
  | None => None
  end.

(** A timestamp as the constructors build them: numeric, in range, named by its type *)
Definition proper_stamp (t : timestamp) : Prop :=
  exists L, ts_type (t_header t) = Some L /\ t_header t < 256 /\
    t_secs t < 2 ^ (8 * N.of_nat (tl_secs L)) /\ t_nsecs t < 2 ^ (8 * N.of_nat (tl_nanos L)) /\
    t_local t = "" /\ t_ttype t = tl_name L.

(** ** Data frames *)
Definition data_wire (h s : N) (ts : list byte) (w : nat) (off : N) (pay : list byte) : list byte :=
  (wire 4 h ++ wire 4 s ++ ts ++ wire w off ++ pay)%list.

(** The first byte after the timestamp, if one is announced *)
Definition after_ts (h : N) : nat := if hd_reqtstamp h =? 1 then 24%nat else 8%nat.

(** Verdict on the announced timestamp of a frame with header [h]: whether the
    16 bytes are there, then whether the type exists *)
Definition ts_verdict (frame : list byte) : verdict :=
  let h := number_at frame 0 4 in
  if hd_reqtstamp h =? 1 then
    if Nat.ltb (length frame) 24 then Crash
    else match number_at frame 8 1 with
         | 0 => Reject
         | 1 | 2 | 3 | 4 | 5 => Accept
         | _ => Kill
         end
  else Accept.

Definition data_verdict (frame : list byte) : verdict :=
  if Nat.ltb (length frame) 10 then Reject
  else
    let h := number_at frame 0 4 in
    match ts_verdict frame with
    | Accept =>
        match descriptor_width (hd_descriptor h) with
        | None => Reject
        | Some w =>
            if Nat.ltb (length frame) (after_ts h + w) then Crash
            else if (hd_reqtstamp h =? 1) && Nat.eqb w 2 && Nat.eqb (length frame) (after_ts h + w)
                 then Reject      (* only this combination minds an empty payload *)
                 else Accept
        end
    | v => v
    end.

(** The timestamp a receiver holds after an accepted frame: the one in the frame
    if the header announces one, else the one it held before *)
Definition ts_read (t0 : timestamp) (frame : list byte) : timestamp :=
  if hd_reqtstamp (number_at frame 0 4) =? 1
  then match ts_at frame 8 with Some t => t | None => t0 end
  else t0.

(** ** Building frames from flag lists *)

(** An item stops the construction with its own verdict; the first one counts *)
Fixpoint first_bad (l : list verdict) : verdict :=
  match l with
  | [] => Accept
  | Accept :: r => first_bad r
  | v :: _ => v
  end.

(** The flag [f] of header [h] has the value named [v] *)
Definition reads (T : tables) (h : N) (f v : string) : Prop :=
  exists fl n, lookup f (t_flags T) = Some fl /\ lookup v (f_opts fl) = Some n /\
               bit_field 32 (f_msb fl) (f_len fl) h = n.

(** The last setting of a flag counts *)
Definition last_setting (l : list (string * string)) (f : string) : option string := lookup f (rev l).

(** [h'] is [h] with exactly the given settings made *)
Definition set_exactly (T : tables) (h h' : N) (l : list (string * string)) : Prop :=
  h' < 2 ^ 32 /\
  (forall f v, last_setting l f = Some v -> reads T h' f v) /\
  (forall i, (forall f v fl, In (f, v) l -> lookup f (t_flags T) = Some fl ->
                             ~ in_field 32 (f_msb fl) (f_len fl) i) ->
             N.testbit h' i = N.testbit h i).

(** The flag exists and has this option *)
Definition known_option (T : tables) (f v : string) : bool :=
  match lookup f (t_flags T) with
  | Some fl => match lookup v (f_opts fl) with Some _ => true | None => false end
  | None => false
  end.
Definition setting_verdict (T : tables) (f v : string) : verdict := if known_option T f v then Accept else Kill.

Definition is_in (s : string) (l : list string) : bool := if in_dec String.string_dec s l then true else false.

(** Clocks between 2000 and 2106, on which every numeric type can be stamped *)
Definition good_now (now : gotime) : Prop :=
  (946684800 <= unix_secs now < 2 ^ 32 /\ 0 <= unix_nanos now < 1000000000)%Z.

Definition stamp_names : list string :=
  ["localinterp"; "posix32"; "posix64"; "posix32_32"; "posix64_32"; "epoch2000_32"].

(** [t'] is [t] stamped with the time [now], once for each requested type in turn *)
Fixpoint stamped (now : gotime) (t : timestamp) (types : list string) (t' : timestamp) : Prop :=
  match types with
  | [] => t' = t
  | ty :: r => exists t1, ts_new t ty now = Ret (t1, None) /\ stamped now t1 r t'
  end.

(** Data frames: what one item of the flag list does *)
Definition data_item_verdict (T : tables) (p : string * string) : verdict :=
  let (f, v) := p in
  if is_in f ["version"; "descriptor"; "reqstatus"; "eod"] then setting_verdict T f v
  else if String.eqb f "transfer" then if String.eqb v "bundle" then Reject else Accept
  else if String.eqb f "reqtstamp" then if is_in v ("no" :: "yes" :: stamp_names) then Accept else Reject
  else Reject.
(** ... which header settings it stands for *)
Definition data_settings (p : string * string) : list (string * string) :=
  let (f, v) := p in
  if String.eqb f "transfer" then []
  else if String.eqb f "reqtstamp" then [("reqtstamp", if String.eqb v "no" then "no" else "yes")]
  else [(f, v)].
(** ... and which kind of timestamp it requests *)
Definition data_stamp (p : string * string) : list string :=
  let (f, v) := p in
  if String.eqb f "reqtstamp" then
    if String.eqb v "no" then [] else if String.eqb v "yes" then ["posix32"] else [v]
  else [].
