(** * Specification vocabulary for request frames *)

From Verif Require Import GoBase Flags SpecFlags SpecWire Data SpecFrames.
Local Open Scope string_scope.
Local Open Scope N_scope.

(** Header, session, name, one zero byte, authentication bytes *)
Definition request_wire (h s : N) (name : string) (auth : list byte) : list byte :=
  (wire 4 h ++ wire 4 s ++ bytes_of name ++ [ascii_of_N 0] ++ auth)%list.

(** An ASCII byte of a name: not zero, below 0x80 *)
Definition ascii_name (s : string) : Prop := forall b, In b (bytes_of s) -> 0 < N_of_ascii b < 128.
(** No zero byte *)
Definition no_zero (s : string) : Prop := forall b, In b (bytes_of s) -> N_of_ascii b <> 0.

(** The bytes before the first zero byte, all of them if there is none *)
Fixpoint before_zero (l : list byte) : list byte :=
  match l with
  | [] => []
  | b :: r => if N_of_ascii b =? 0 then [] else b :: before_zero r
  end.
(** There is a zero byte *)
Definition has_zero (l : list byte) : Prop := exists b, In b l /\ N_of_ascii b = 0.
(** The bytes after the first zero byte *)
Definition after_zero (l : list byte) : list byte := skipn (S (length (before_zero l))) l.
(** How many bytes are 0x80 or above *)
Definition high_count (l : list byte) : nat := length (filter (fun b => 128 <=? N_of_ascii b) l).

(** The bytes as Latin-1 characters written in UTF-8: this is what a Go
    conversion of single bytes to strings gives *)
Definition latin1_utf8 (l : list byte) : list byte :=
  flat_map (fun b => let n := N_of_ascii b in
                     if n <? 128 then [b] else [ascii_of_N (192 + n / 64); ascii_of_N (128 + n mod 64)]) l.

(** Verdict on bytes decoded as a request into a receiver whose name has [k] bytes *)
Definition request_verdict (k : nat) (frame : list byte) : verdict :=
  if Nat.ltb (length frame) 9 then Reject
  else
    let name := before_zero (skipn 8 frame) in
    if Nat.leb (9 + k + length name + high_count name) (length frame) then Accept else Crash.

(** ** Building: the items of the flag list *)
Definition request_item_verdict (T : tables) (p : string * string) : verdict :=
  let (f, v) := p in
  if is_in f ["frametype"; "version"; "descriptor"; "stream"; "txwilling"; "rxwilling"; "fileordir"; "reqtype"; "udplite"]
  then setting_verdict T f v
  else Reject.

(** Any number of commas *)
Fixpoint commas (n : nat) : string := match n with O => "" | S n => String "," (commas n) end.
