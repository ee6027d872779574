(** * Specification: which window has the keyboard *)

From Coq Require Import List String Ascii Bool.
From Verif Require Import GoBase Screen SpecWords Focus.
Import ListNotations.
Local Open Scope string_scope.

(** The windows that can be cleared, by their names *)
Inductive called : string -> vname -> Prop :=
| called_msg : called "msg" VMsg
| called_err : called "err" VErr
| called_packet : called "packet" VPacket.
(** The windows that the words behind [clear] ask for: all three if there are no words, else those
    named, up to the first word that is not the name of one *)
Inductive named : list string -> list vname -> Prop :=
| named_all : named [] [VMsg; VErr; VPacket]
| named_some : forall good bad vs, (good ++ bad)%list <> [] -> Forall2 called good vs ->
    match bad with [] => True | w :: _ => forall v, ~ called w v end -> named (good ++ bad) vs.
(** The line asks for these windows to be cleared *)
Definition wants (line : string) (vs : list vname) : Prop := exists args, words_of line ("clear" :: args) /\ named args vs.

(** The user types a line and presses Enter *)
Definition type (line : string) : list dlabel := (map DKey (bytes_of line) ++ [DEnter])%list.
(** No command is at work *)
Definition idle (d : desk) : Prop := forall k, In k (d_clears d) -> k_left k = [].
(** The user does not touch the keyboard, or presses Ctrl-P at most *)
Definition unattended (l : dlabel) : Prop := match l with DStep _ | DPrint _ _ | DPackets => True | _ => False end.
(** The user enters lines, one after the other, and each time waits until no command is at work *)
Inductive waits : desk -> list string -> desk -> Prop :=
| waits_none : forall d, waits d [] d
| waits_one : forall d line ls lines d', line <> "" -> (forall l, In l ls -> unattended l) -> idle (drun d (type line ++ ls)) ->
    waits (drun d (type line ++ ls)) lines d' -> waits d (line :: lines) d'.
(** The texts that arrived for a window *)
Fixpoint printed (v : vname) (ls : list dlabel) : list string :=
  match ls with
  | [] => []
  | DPrint w t :: r => if vname_eqb w v then t :: printed v r else printed v r
  | _ :: r => printed v r
  end.
(** How often Ctrl-P was pressed *)
Definition ctrl_p (ls : list dlabel) : nat := List.length (filter (fun l => match l with DPackets => true | _ => false end) ls).
(** The window behind [v] in the round command, messages, (packets,) errors *)
Definition window_after (packets : bool) (v : vname) : vname :=
  match v, packets with
  | VCmd, _ => VMsg
  | VMsg, true => VPacket
  | VMsg, false | VPacket, _ => VErr
  | VErr, _ => VCmd
  end.
