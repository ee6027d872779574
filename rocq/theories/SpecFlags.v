(** * Specification vocabulary for header flags

    Independent of the model's own bit twiddling: a field is described by its
    position from the most significant end and its length, its value by division
    and remainder. *)

From Verif Require Import GoBase Flags.
Local Open Scope N_scope.

(** The value of the [len] bits that start [msb] bits below the most significant
    bit of the [w]-bit word [h]. *)
Definition bit_field (w msb len h : N) : N := (h / 2 ^ (w - msb - len)) mod 2 ^ len.

(** Bit number [i] (0 = least significant) belongs to that field. *)
Definition in_field (w msb len i : N) : Prop := w - msb - len <= i /\ i < w - msb.

(** Two fields share no bit. *)
Definition disjoint_fields (msb1 len1 msb2 len2 : N) : Prop :=
  msb1 + len1 <= msb2 \/ msb2 + len2 <= msb1.

(** [h'] is [h] with the field set to [v] and every other bit kept. *)
Definition field_replaced (w msb len h v h' : N) : Prop :=
  bit_field w msb len h' = v /\
  forall i, ~ in_field w msb len i -> N.testbit h' i = N.testbit h i.

(** A flag fits a [w]-bit word, its options fit the field, and neither names nor
    values of options are repeated (names are keys of a Go map). *)
Definition wf_flag (w : N) (f : ftype) : Prop :=
  f_msb f + f_len f <= w /\
  (forall n v, In (n, v) (f_opts f) -> v < 2 ^ f_len f) /\
  NoDup (keys (f_opts f)) /\ NoDup (map snd (f_opts f)).

(** Every flag of the three tables is well formed. *)
Definition wf_tables (T : tables) : Prop :=
  (forall n f, In (n, f) (t_flags T) -> wf_flag 32 f) /\
  (forall n f, In (n, f) (t_dirent T) -> wf_flag 16 f) /\
  wf_flag 8 (t_tstamps T).

(** The option [name] of flag [field] has value [v]. *)
Definition option_value (T : tables) (field name : string) (v : N) : Prop :=
  exists f, lookup field (t_flags T) = Some f /\ lookup name (f_opts f) = Some v.

(** The same finite map (a Go map) listed in another order. *)
Definition same_map {V} (m m' : list (string * V)) : Prop :=
  NoDup (keys m) /\ Permutation m m'.

(** ** Flag-list strings *)

(** A name without the separators of flag lists. *)
Definition clean (s : string) : Prop :=
  ~ In ","%char (bytes_of s) /\ ~ In "="%char (bytes_of s) /\ ~ In " "%char (bytes_of s).

(** The text "f1=v1,f2=v2,..." of a list of settings. *)
Definition flag_list (items : list (string * string)) : string :=
  String.concat "," (map (fun p : string * string => fst p ++ "=" ++ snd p)%string items).

(** Flag [f] exists and has an option [v]. *)
Definition valid_setting (T : tables) (p : string * string) : Prop :=
  exists n, option_value T (fst p) (snd p) n.
(** The same for directory entry flags. *)
Definition valid_dsetting (T : tables) (p : string * string) : Prop :=
  exists f n, lookup (fst p) (t_dirent T) = Some f /\ lookup (snd p) (f_opts f) = Some n.

(** No flag or option name of the tables contains a separator. *)
Definition clean_names (T : tables) : Prop :=
  (forall p, valid_setting T p -> clean (fst p) /\ clean (snd p)) /\
  (forall p, valid_dsetting T p -> clean (fst p) /\ clean (snd p)).

(** The value a list of settings gives to a flag: the first one wins. *)
Definition setting_of (items : list (string * string)) (f : string) : option string := lookup f items.

(** ** The header fields of the protocol: name, position from the most
    significant bit, length (saratoga/saratoga.json, "flags") *)
Definition documented_fields : list (string * N * N) :=
  [("version", 0, 3); ("frametype", 3, 5); ("descriptor", 8, 2); ("stream", 11, 1); ("transfer", 10, 2);
   ("reqtstamp", 12, 1); ("progress", 12, 1); ("txwilling", 12, 2); ("metadatarecvd", 13, 1);
   ("allholes", 14, 1); ("reqtype", 24, 8); ("rxwilling", 14, 2); ("reqholes", 15, 1); ("reqstatus", 15, 1);
   ("udplite", 16, 1); ("eod", 16, 1); ("freespace", 17, 1); ("freespaced", 18, 2); ("csumlen", 24, 4);
   ("csumtype", 28, 4); ("reliability", 13, 1); ("errcode", 24, 8)]%string.

(** Same flag with its option map listed in another order *)
Definition same_flag (f f' : ftype) : Prop :=
  f_msb f' = f_msb f /\ f_len f' = f_len f /\ Permutation (f_opts f) (f_opts f').

(** The frame types of the protocol *)
Definition frame_type_names : list string := ["beacon"; "request"; "metadata"; "data"; "status"]%string.
