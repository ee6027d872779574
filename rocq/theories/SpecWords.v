(** * Specification vocabulary for texts *)

From Verif Require Import GoBase.
Local Open Scope N_scope.

(** UTF-8 (characters below U+10000) *)
Definition utf8 (c : N) : list byte :=
  if c <? 0x80 then [ascii_of_N c]
  else if c <? 0x800 then [ascii_of_N (0xC0 + c / 64); ascii_of_N (0x80 + c mod 64)]
  else [ascii_of_N (0xE0 + c / 4096); ascii_of_N (0x80 + c / 64 mod 64); ascii_of_N (0x80 + c mod 64)].
(** Unicode's White Space property *)
Definition white_space : list N :=
  [9; 10; 11; 12; 13; 32; 0x85; 0xA0; 0x1680; 0x2000; 0x2001; 0x2002; 0x2003; 0x2004; 0x2005; 0x2006; 0x2007; 0x2008; 0x2009; 0x200A;
   0x2028; 0x2029; 0x202F; 0x205F; 0x3000].
Definition white (w : list byte) : Prop := exists c, In c white_space /\ w = utf8 c.
Definition spacing (l : list byte) : Prop := exists ws, Forall white ws /\ l = concat ws.
(** Nothing white anywhere in it *)
Definition plain (l : list byte) : Prop := forall a w b, l = (a ++ w ++ b)%list -> ~ white w.

(** The words of a text *)
Inductive words : list byte -> list (list byte) -> Prop :=
| words_none : forall s, spacing s -> words s []
| words_more : forall s w r ws, spacing s -> w <> [] -> plain w ->
    (r = [] \/ exists x r', white x /\ r = (x ++ r')%list) -> words r ws -> words (s ++ w ++ r) (w :: ws).
(** ... as strings *)
Definition words_of (text : string) (ws : list string) : Prop := words (bytes_of text) (map bytes_of ws).

(** [l] is a decimal number, most significant digit first *)
Inductive decimal : list byte -> N -> Prop :=
| dec_one : forall d, d < 10 -> decimal [ascii_of_N (48 + d)] d
| dec_more : forall l n d, decimal l n -> d < 10 -> decimal (l ++ [ascii_of_N (48 + d)])%list (10 * n + d).
(** An optionally signed decimal number *)
Inductive signed : list byte -> Z -> Prop :=
| sg_bare : forall l n, decimal l n -> signed l (Z.of_N n)
| sg_plus : forall l n, decimal l n -> signed ("+"%char :: l) (Z.of_N n)
| sg_minus : forall l n, decimal l n -> signed ("-"%char :: l) (- Z.of_N n)%Z.

(** What is typed after the prompt: the line up to its first colon is the prompt *)
Definition typed (line text : string) : Prop :=
  exists prompt, ~ In ":"%char (bytes_of prompt) /\ bytes_of line = (bytes_of prompt ++ ":"%char :: bytes_of text)%list.
