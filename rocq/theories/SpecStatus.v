(** * Specification vocabulary for status frames *)

From Verif Require Import GoBase Flags SpecFlags SpecWire Timestamp Holes Data SpecFrames.
Local Open Scope string_scope.
Local Open Scope N_scope.

(** A signed number as [k] bytes (two's complement) *)
Definition wireZ (k : nat) (z : Z) : list byte := wire k (Z.to_N (z mod 2 ^ (8 * Z.of_nat k))).
(** 64 bits read as a signed number *)
Definition signed64 (n : N) : Z := if n <? 2 ^ 63 then Z.of_N n else (Z.of_N n - 2 ^ 64)%Z.

(** Progress, in-response-to and the pairs of holes, all [w] bytes wide *)
Definition status_body (w : nat) (prog inresp : N) (hs : holes) : list byte :=
  (wire w prog ++ wire w inresp ++ flat_map (fun h => wireZ w (h_start h) ++ wireZ w (h_end h)) hs)%list.
Definition status_wire (h s : N) (w : nat) (prog inresp : N) (hs : holes) : list byte :=
  (wire 4 h ++ wire 4 s ++ status_body w prog inresp hs)%list.

(** The pair number [i] of the pairs that start at position [pos] *)
Definition hole_at (frame : list byte) (pos w i : nat) : hole :=
  {| h_start := signed64 (number_at frame (pos + i * (2 * w)) w);
     h_end := signed64 (number_at frame (pos + i * (2 * w) + w) w) |}.
(** All complete pairs from [pos] to the end of the frame *)
Definition holes_from (frame : list byte) (pos w : nat) : holes :=
  map (hole_at frame pos w) (seq 0 ((length frame - pos) / (2 * w))).

(** An offset that the descriptor width can carry *)
Definition offset_fits (w : nat) (z : Z) : Prop :=
  (- 2 ^ 63 <= z < 2 ^ 63 /\ (w = 8%nat \/ 0 <= z < 2 ^ (8 * Z.of_nat w)))%Z.

Definition status_verdict (frame : list byte) : verdict :=
  if Nat.ltb (length frame) 12 then Reject
  else
    let h := number_at frame 0 4 in
    match ts_verdict frame with
    | Accept =>
        match descriptor_width (hd_descriptor h) with
        | None => Reject
        | Some w => if Nat.ltb (length frame) (after_ts h + 2 * w) then Crash else Accept
        end
    | v => v
    end.

(** ** Building: what one item of the flag list does *)
Definition status_item_verdict (T : tables) (p : string * string) : verdict :=
  let (f, v) := p in
  if is_in f ["descriptor"; "stream"; "metadatarecvd"; "allholes"; "reqholes"; "errcode"; "reqtstamp"]
  then setting_verdict T f v
  else if is_in f ["localinterp"; "posix32"; "posix64"; "posix32_32"; "posix64_32"] then Accept
  else Reject.
(** A timestamp type given as a flag name requests a timestamp *)
Definition status_settings (p : string * string) : list (string * string) :=
  let (f, v) := p in
  if is_in f ["localinterp"; "posix32"; "posix64"; "posix32_32"; "posix64_32"] then [("reqtstamp", "yes")]
  else [(f, v)].
Definition status_stamp (p : string * string) : list string :=
  let (f, v) := p in
  if String.eqb f "reqtstamp" then if String.eqb v "yes" then ["posix32"] else []
  else if is_in f ["localinterp"; "posix32"; "posix64"; "posix32_32"; "posix64_32"] then [f]
  else [].
