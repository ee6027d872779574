(** * Chars: the properties

    Statements only; the proofs are in CharsMain.v. *)
From Verif Require Import GoBase GoFacts Words SpecWords WordsFacts Table SpecTable TableFacts Chars CharsMain.
Local Open Scope string_scope.
Local Open Scope N_scope.

(** C67: TrimSpace, which looks at characters from the front and from the back, takes white space off both ends and nothing else,
    and leaves none there, whatever the bytes of the text are. *)
Theorem C67_trim : forall s, exists a b, bytes_of s = (a ++ bytes_of (trim_go s) ++ b)%list /\ spacing a /\ spacing b /\
  (forall w r, bytes_of (trim_go s) = (w ++ r)%list -> ~ white w) /\ (forall p w, bytes_of (trim_go s) = (p ++ w)%list -> ~ white w).
Proof. exact c67_trim. Qed.
Print Assumptions C67_trim.

(** C67: Fields of it, character by character, gives the words of the text, whatever its bytes are. *)
Theorem C67_characters : forall s ws, fields_go (trim_go s) = ws <-> words_of s ws.
Proof. exact c67_characters. Qed.
Print Assumptions C67_characters.

(** C67: which are the words that the other model of them finds. *)
Theorem C67_same : forall s, fields_go (trim_go s) = fields (trim_space s).
Proof. exact c67_same. Qed.
Print Assumptions C67_same.

(** A no-break space, an ideographic space and stray bytes around two words *)
Example C67_characters_ex :
  let nb := string_of (utf8 0xA0) in let id := string_of (utf8 0x3000) in let stray := string_of [ascii_of_N 0xE3; ascii_of_N 0x80] in
  trim_go (nb ++ "get" ++ stray ++ " " ++ stray ++ id ++ nb) = "get" ++ stray ++ " " ++ stray /\
  fields_go (trim_go (nb ++ "get" ++ stray ++ id ++ stray ++ id ++ nb)) = ["get" ++ stray; stray].
Proof. exact c67_characters_ex. Qed.
