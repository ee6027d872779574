(** * Specification vocabulary for reading the configuration file *)

From Verif Require Import GoBase Flags Config.
Local Open Scope string_scope.
Local Open Scope N_scope.

(** ** Looking into a document; what is absent is null, "" or 0 *)

Definition text (j : json) : string := match j with JStr s => s | _ => "" end.
Definition num (j : json) : N := match j with JNum n => n | _ => 0 end.
Definition members (j : json) : list (string * json) := match j with JObj l => l | _ => [] end.
Definition elements (j : json) : list json := match j with JArr l => l | _ => [] end.
Definition get (j : json) (k : string) : json := match lookup k (members j) with Some v => v | None => JNull end.

(** No object has a member twice (a parsed object is a map) *)
Fixpoint distinct (j : json) : Prop :=
  match j with
  | JObj l => NoDup (keys l) /\ fold_right (fun e P => distinct (snd e) /\ P) True l
  | JArr l => fold_right (fun v P => distinct v /\ P) True l
  | _ => True
  end.

(** ** The types the members must have *)

Definition is_text (j : json) : Prop := exists s, j = JStr s.
Definition is_num (j : json) : Prop := exists n, j = JNum n.
Definition list_of (P : json -> Prop) (j : json) : Prop := exists l, j = JArr l /\ forall v, In v l -> P v.
Definition object_of (P : string -> json -> Prop) (j : json) : Prop := exists l, j = JObj l /\ forall k v, In (k, v) l -> P k v.
Definition if_named (names : list string) (P : json -> Prop) (k : string) (v : json) : Prop := In k names -> P v.

Definition timers : list string := ["metadata"; "request"; "status"; "transfer"; "binterval"; "datacounter"].
Definition settings_texts : list string :=
  ["v4multicast"; "v6multicast"; "descriptor"; "csumtype"; "freespace"; "txwilling"; "rxwilling"; "stream"; "reqtstamp"; "reqstatus";
   "udplite"; "timestamp"; "timezone"; "sardir"; "prompt"].
Definition settings_numbers : list string := ["udpport"; "ppad"; "buffersize"; "bcount"].

Definition command_shape : json -> Prop := object_of (if_named ["help"; "usage"] is_text).
Definition small_flag_shape : json -> Prop :=
  object_of (fun k v => if_named ["len"; "msb"] is_num k v /\ if_named ["options"] (object_of (fun _ => is_num)) k v).
Definition flag_shape (j : json) : Prop :=
  small_flag_shape j /\ object_of (if_named ["frametypes"] (list_of is_text)) j.

(** A configuration with every member of the right type *)
Definition config_shape : json -> Prop :=
  object_of (fun k v =>
    if_named settings_texts is_text k v /\
    if_named settings_numbers is_num k v /\
    if_named ["timeout"] (object_of (if_named timers is_num)) k v /\
    if_named ["commands"] (object_of (fun _ => command_shape)) k v /\
    if_named ["frameflags"] (object_of (fun _ => list_of is_text)) k v /\
    if_named ["flags"] (object_of (fun _ => flag_shape)) k v /\
    if_named ["direntflags"] (object_of (fun _ => small_flag_shape)) k v /\
    if_named ["timestamps"] small_flag_shape k v).

(** ** What is read *)

(** [m] has the members of [j], each related to its member by [R] *)
Definition reads_map {V} (R : json -> V -> Prop) (j : json) (m : list (string * V)) : Prop :=
  forall k, match lookup k (members j) with
            | Some v => exists x, lookup k m = Some x /\ R v x
            | None => lookup k m = None
            end.
(** A flag with [w]-bit numbers *)
Definition reads_flag (w : N) (j : json) (f : ftype) : Prop :=
  f_len f = num (get j "len") mod 2 ^ w /\ f_msb f = num (get j "msb") mod 2 ^ w /\
  reads_map (fun v n => n = num v mod 2 ^ w) (get j "options") (f_opts f).
