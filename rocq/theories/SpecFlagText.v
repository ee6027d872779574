(** * Specification vocabulary: what a text of flags says *)

From Verif Require Import GoBase Flags SpecFlags SpecWire Timestamp SpecTime Data SpecFrames.
Local Open Scope string_scope.

(** The byte does not occur in the text. *)
Definition without (c : byte) (s : string) : Prop := ~ In c (bytes_of s).

(** What one item says: a name alone, or a name and a value.  Whatever follows a
    second equals sign is not looked at. *)
Inductive item_says : string -> string * option string -> Prop :=
| says_name : forall n, without "=" n -> item_says n (n, None)
| says_value : forall n v, without "=" n -> without "=" v -> item_says (n ++ "=" ++ v) (n, Some v)
| says_more : forall n v rest, without "=" n -> without "=" v ->
    item_says (n ++ "=" ++ v ++ "=" ++ rest) (n, Some v).

(** A text is cut at its commas into items. *)
Definition text_says (s : string) (l : list (string * option string)) : Prop :=
  exists items, items <> [] /\ (forall it, In it items -> without "," it) /\ s = String.concat "," items /\
    Forall2 item_says items l.

(** The same, when blanks do not count. *)
Definition blank_text_says (s : string) (l : list (string * option string)) : Prop :=
  exists t, bytes_of t = filter (fun c => negb (Ascii.eqb c " ")) (bytes_of s) /\ text_says t l.

(** The settings in a text; a name alone has the empty value. *)
Definition settings_in (l : list (string * option string)) : list (string * string) :=
  map (fun p => (fst p, match snd p with Some v => v | None => "" end)) l.

(** What the constructors make of a name alone.  Requests and beacons: *)
Definition bare_crash (n : string) : verdict := Crash.
(** The others refuse names they do not know. *)
Definition data_bare (n : string) : verdict :=
  if is_in n ["version"; "descriptor"; "reqstatus"; "eod"; "transfer"; "reqtstamp"] then Crash else Reject.
Definition status_bare (n : string) : verdict :=
  if is_in n ["descriptor"; "stream"; "metadatarecvd"; "allholes"; "reqholes"; "errcode"; "reqtstamp"] then Crash
  else if is_in n ["localinterp"; "posix32"; "posix64"; "posix32_32"; "posix64_32"] then Accept
  else Reject.
Definition dirent_bare (n : string) : verdict :=
  if is_in n ["descriptor"; "property"] then Crash else Reject.
Definition meta_bare (n : string) : verdict :=
  if is_in n ["descriptor"; "progress"; "transfer"; "reliability"; "csumtype"] then Crash else Reject.

(** The verdict on an item, given those on settings and on names alone. *)
Definition said_verdict (setting : string * string -> verdict) (bare : string -> verdict)
  (p : string * option string) : verdict :=
  match snd p with Some v => setting (fst p, v) | None => bare (fst p) end.

(** What an item becomes when flag [f] is given the value [v]; [None]: the item
    has no value to keep. *)
Definition after_replacing (f v : string) (p : string * option string) : option (string * string) :=
  if String.eqb (fst p) f then Some (f, v)
  else match snd p with Some w => Some (fst p, w) | None => None end.

(** What a text says apart from empty items at its end (one empty item is left of
    a text of nothing else). *)
Definition full_at_end (l : list (string * option string)) : Prop :=
  l = [("", None)] \/ exists l' p, l = (l' ++ [p])%list /\ p <> ("", None).
