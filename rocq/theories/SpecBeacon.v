(** * Specification vocabulary for beacons *)

From Verif Require Import GoBase Flags SpecFlags Shipped SpecWire Data Beacon SpecFrames.
Local Open Scope string_scope.
Local Open Scope N_scope.

(** Bytes of the free space field that header [h] announces; [None]: 128 bits, not supported *)
Definition space_width (h : N) : option nat :=
  if hd_freespace h =? 0 then Some 0%nat else descriptor_width (hd_freespaced h).

(** Header, free space, endpoint id up to the end *)
Definition beacon_wire (h : N) (w : nat) (n : N) (eid : string) : list byte :=
  (wire 4 h ++ wire w n ++ bytes_of eid)%list.

Definition beacon_verdict (frame : list byte) : verdict :=
  if Nat.ltb (length frame) 4 then Crash
  else match space_width (number_at frame 0 4) with
       | None => Reject
       | Some w => if Nat.ltb (length frame) (4 + w) then Crash else Accept
       end.

(** ** Building *)

(** The free space in kilobytes: what the caller says, or if that is 0 what the
    file system answers; [None] if it does not answer *)
Definition free_space (env : sysenv) (given : N) : option N :=
  if given =? 0
  then match se_statfs env with
       | Some (bsize, bavail) => Some ((bsize * bavail) mod 2 ^ 64 / 1024)
       | None => None
       end
  else Some given.

(** The width that is chosen for [n]: the first whose largest number exceeds [n] *)
Definition space_descriptor (n : N) : option string :=
  if n <? 2 ^ 16 - 1 then Some "d16"
  else if n <? 2 ^ 32 - 1 then Some "d32"
  else if n <? 2 ^ 64 - 1 then Some "d64"
  else None.
(** Bytes of a width, by its name *)
Definition width_named (d : string) : option nat :=
  lookup d [("d16", 2%nat); ("d32", 4%nat); ("d64", 8%nat)].

(** What one item of the flag list does *)
Definition beacon_item_verdict (T : tables) (p : string * string) : verdict :=
  let (f, v) := p in
  if is_in f ["descriptor"; "stream"; "txwilling"; "rxwilling"; "udplite"; "freespace"] then setting_verdict T f v
  else if String.eqb f "freespaced" then if is_in v ["d16"; "d32"; "d64"] then Accept else Reject
  else Reject.
Definition beacon_settings (p : string * string) : list (string * string) :=
  let (f, v) := p in
  if String.eqb f "freespaced" then [("freespace", "yes"); (f, v)] else [(f, v)].

(** Do the settings, made on header [h], ask for the free space? *)
Definition asks_space (h : N) (settings : list (string * string)) : bool :=
  match last_setting settings "freespace" with
  | Some v => String.eqb v "yes"
  | None => hd_freespace h =? 1
  end.

(** The outcome of building a beacon on header [h] with the given settings *)
Definition beacon_built (env : sysenv) (h : N) (settings : list (string * string)) (info : binfo)
    (r : outcome (beacon * error)) : Prop :=
  if asks_space h settings then
    match se_getwd env with
    | Some e => exists b', r = Ret (b', Some e)
    | None =>
        match free_space env (bi_freespace info) with
        | None => exists b', r = Ret (b', None) /\
            set_exactly sar h (b_header b') (settings ++ [("freespace", "no")]) /\
            b_freespace b' = 0 /\ b_eid b' = bi_eid info
        | Some n =>
            match space_descriptor n with
            | Some d => exists b', r = Ret (b', None) /\
                set_exactly sar h (b_header b') (settings ++ [("freespaced", d)]) /\
                b_freespace b' = n /\ b_eid b' = bi_eid info
            | None => exists b', r = Ret (b', Some "beacon.New: d128 not supported invalid beacon frame")
            end
        end
    end
  else exists b', r = Ret (b', None) /\ set_exactly sar h (b_header b') settings /\
         b_freespace b' = 0 /\ b_eid b' = bi_eid info.
