(** * Specification vocabulary for JSON text (RFC 8259) *)

From Verif Require Import GoBase Config Json SpecWords SpecTable.
From Coq Require Import Permutation.
Local Open Scope string_scope.
Local Open Scope N_scope.

(** ** Strings *)

(** One of sixteen digits, and four of them, most significant first *)
Definition hex_digit (a : byte) (n : N) : Prop :=
  (n < 10 /\ a = ascii_of_N (48 + n)) \/ (10 <= n < 16 /\ (a = ascii_of_N (87 + n) \/ a = ascii_of_N (55 + n))).
Definition hex_word (h : list byte) (n : N) : Prop :=
  exists a b c d x y z w, h = [a; b; c; d] /\ hex_digit a x /\ hex_digit b y /\ hex_digit c z /\ hex_digit d w /\ n = 4096 * x + 256 * y + 16 * z + w.
(** The escapes of one letter and the character each stands for *)
Definition escapes : list (byte * N) :=
  [("""", 34); ("\", 92); ("/", 47); ("b", 8); ("f", 12); ("n", 10); ("r", 13); ("t", 9)]%char.
(** The two halves UTF-16 splits the characters above 0xFFFF into *)
Definition high_half (n : N) : Prop := 0xD800 <= n < 0xDC00.
Definition low_half (n : N) : Prop := 0xDC00 <= n < 0xE000.
Definition halves (c hi lo : N) : Prop := 0x10000 <= c < 0x110000 /\ hi = 0xD800 + (c - 0x10000) / 1024 /\ lo = 0xDC00 + (c - 0x10000) mod 1024.
(** The mark for what is not a character, U+FFFD *)
Definition not_a_character : list byte := map ascii_of_N [0xEF; 0xBF; 0xBD].

(** [string_body s v]: between quotes, [s] stands for the bytes [v] *)
Inductive string_body : list byte -> list byte -> Prop :=
| sb_end : string_body [] []
| sb_plain : forall c s v, character c -> 32 <= c -> c <> 34 -> c <> 92 -> string_body s v -> string_body (utf8_bytes c ++ s) (utf8_bytes c ++ v)
| sb_escape : forall e c s v, In (e, c) escapes -> string_body s v -> string_body ("\"%char :: e :: s) (ascii_of_N c :: v)
| sb_hex : forall h c s v, hex_word h c -> character c -> string_body s v -> string_body (bytes_of "\u" ++ h ++ s) (utf8_bytes c ++ v)
| sb_halves : forall h1 h2 hi lo c s v, hex_word h1 hi -> hex_word h2 lo -> halves c hi lo -> string_body s v ->
    string_body (bytes_of "\u" ++ h1 ++ bytes_of "\u" ++ h2 ++ s) (utf8_bytes c ++ v)
| sb_low : forall h n s v, hex_word h n -> low_half n -> string_body s v -> string_body (bytes_of "\u" ++ h ++ s) (not_a_character ++ v)
| sb_high : forall h n s v, hex_word h n -> high_half n -> (forall h2 m s', s = (bytes_of "\u" ++ h2 ++ s')%list -> hex_word h2 m -> ~ low_half m) ->
    string_body s v -> string_body (bytes_of "\u" ++ h ++ s) (not_a_character ++ v)
| sb_stray : forall b s v, 0x80 <= N_of_ascii b -> (forall c s', character c -> (b :: s)%list <> (utf8_bytes c ++ s')%list) ->
    string_body s v -> string_body (b :: s) (not_a_character ++ v).

(** ** Numbers *)
Definition digit (a : byte) : Prop := In a ["0"; "1"; "2"; "3"; "4"; "5"; "6"; "7"; "8"; "9"]%char.
Definition number_text (l : list byte) : Prop :=
  exists sign int frac exp, l = (sign ++ int ++ frac ++ exp)%list /\
    (sign = [] \/ sign = ["-"%char]) /\
    Forall digit int /\ int <> [] /\ (hd "1"%char int = "0"%char -> int = ["0"%char]) /\
    (frac = [] \/ exists ds, frac = ("."%char :: ds) /\ Forall digit ds /\ ds <> []) /\
    (exp = [] \/ exists e sg ds, exp = (e :: sg ++ ds)%list /\ In e ["e"; "E"]%char /\ In sg [[]; ["+"%char]; ["-"%char]] /\ Forall digit ds /\ ds <> []).

(** [says l neg m k x]: the number [l] stands for m * 10^k, or for minus that if [neg], and is written with the exponent [x] *)
Definition says (l : list byte) (neg : bool) (m : N) (k x : Z) : Prop :=
  exists int frac ds exp,
    l = ((if neg then ["-"%char] else []) ++ int ++ frac ++ exp)%list /\
    int <> [] /\ (hd "1"%char int = "0"%char -> int = ["0"%char]) /\
    (frac = [] /\ ds = [] \/ frac = "."%char :: ds /\ ds <> []) /\
    (exp = [] /\ x = 0%Z \/ exists e sds, In e ["e"; "E"]%char /\ exp = e :: sds /\ signed sds x) /\
    decimal (int ++ ds) m /\ k = (x - Z.of_nat (List.length ds))%Z.

(** *** The numbers of IEEE 754, binary64

    All positive ones are multiples of the smallest, 2^-1074; here they are counted in those.  [float64] puts no bound on them; a float64
    proper is less than 2^1024. *)
Definition one : N := 2 ^ 1074.
Definition float64 (f : N) : Prop := exists m k, m < 2 ^ 53 /\ f = m * 2 ^ k.
(** ... the last of its 53 bits, or of those it has if there are fewer, is 0 *)
Definition even_float (f : N) : Prop := exists m k, m < 2 ^ 53 /\ f = m * 2 ^ k /\ (2 ^ 52 <= m \/ k = 0) /\ N.even m = true.
(** How far a is from b *)
Definition gap (a b : N) : N := (a - b) + (b - a).
(** [closest p q f]: of all float64, no one is closer to p / q than [f] *)
Definition closest (p q f : N) : Prop := float64 f /\ forall g, float64 g -> gap (p * one) (q * f) <= gap (p * one) (q * g).
(** [rounds p q f]: [f] is what p / q is rounded to, to nearest, ties to even *)
Definition rounds (p q f : N) : Prop := closest p q f /\ forall g, closest p q g -> g = f \/ even_float f.
(** [value m k p q]: m * 10^k = p / q *)
Definition value (m : N) (k : Z) (p q : N) : Prop := 0 < q /\ p * 10 ^ Z.to_N (- k) = q * (m * 10 ^ Z.to_N k).
(** [reads l neg f]: the number [l] becomes the float64 [f] (or minus that) *)
Definition reads (l : list byte) (neg : bool) (f : N) : Prop :=
  exists m k x p q, says l neg m k x /\ (Z.abs x < 100000)%Z /\ value m k p q /\ rounds p q f.

(** A number that is too large for a float64 *)
Definition huge_number (l : list byte) : Prop := exists neg f, reads l neg f /\ 2 ^ 1024 * one <= f.
(** [whole_number l n]: a number that, as a float64, is more than -1 and less than 2^63, and its whole part *)
Definition whole_number (l : list byte) (n : N) : Prop :=
  exists neg f, reads l neg f /\ n * one <= f < (n + 1) * one /\ n < 2 ^ 63 /\ (neg = true -> n = 0).

(** ** Values *)
Definition blank (l : list byte) : Prop := Forall (fun a => In (N_of_ascii a) [9; 10; 13; 32]) l.
Definition quoted (s : list byte) : list byte := ("""" :: s ++ [""""])%char%list.

(** [text_of t l]: [l], which starts and ends with no white space, is a way to write [t].  [elements_text] and [members_text] are what
    stands between the brackets of an array and of an object that is not empty. *)
Inductive text_of : jtree -> list byte -> Prop :=
| to_null : text_of TNull (bytes_of "null")
| to_true : text_of (TBool true) (bytes_of "true")
| to_false : text_of (TBool false) (bytes_of "false")
| to_num : forall l, number_text l -> text_of (TNum l) l
| to_str : forall s v, string_body s v -> text_of (TStr v) (quoted s)
| to_arr0 : forall w, blank w -> text_of (TArr []) ("[" :: w ++ ["]"])%char%list
| to_arr : forall ts l, elements_text ts l -> text_of (TArr ts) ("[" :: l ++ ["]"])%char%list
| to_obj0 : forall w, blank w -> text_of (TObj []) ("{" :: w ++ ["}"])%char%list
| to_obj : forall ms l, members_text ms l -> text_of (TObj ms) ("{" :: l ++ ["}"])%char%list
with elements_text : list jtree -> list byte -> Prop :=
| el_one : forall t l w1 w2, blank w1 -> blank w2 -> text_of t l -> elements_text [t] (w1 ++ l ++ w2)
| el_more : forall t l w1 w2 ts l', blank w1 -> blank w2 -> text_of t l -> elements_text ts l' -> elements_text (t :: ts) (w1 ++ l ++ w2 ++ ","%char :: l')
with members_text : list (list byte * jtree) -> list byte -> Prop :=
| mb_one : forall s k t l w1 w2 w3 w4, blank w1 -> blank w2 -> blank w3 -> blank w4 -> string_body s k -> text_of t l ->
    members_text [(k, t)] (w1 ++ quoted s ++ w2 ++ ":"%char :: w3 ++ l ++ w4)
| mb_more : forall s k t l w1 w2 w3 w4 ms l', blank w1 -> blank w2 -> blank w3 -> blank w4 -> string_body s k -> text_of t l -> members_text ms l' ->
    members_text ((k, t) :: ms) (w1 ++ quoted s ++ w2 ++ ":"%char :: w3 ++ l ++ w4 ++ ","%char :: l').
(** A whole text *)
Definition document (l : list byte) (t : jtree) : Prop := exists w1 b w2, l = (w1 ++ b ++ w2)%list /\ blank w1 /\ blank w2 /\ text_of t b.
(** How deep arrays and objects are nested *)
Fixpoint depth (t : jtree) : nat :=
  match t with
  | TArr l => S (list_max (map depth l))
  | TObj l => S (list_max (map (fun kt => depth (snd kt)) l))
  | _ => O
  end.

(** ** What the program gets *)

(** [some_number P t]: there is a number in [t] with [P] *)
Fixpoint some_number (P : list byte -> Prop) (t : jtree) : Prop :=
  match t with
  | TNum l => P l
  | TArr l => fold_right (fun t Q => some_number P t \/ Q) False l
  | TObj l => fold_right (fun kt Q => some_number P (snd kt) \/ Q) False l
  | _ => False
  end.
(** The last member of that name *)
Definition last_member (ms : list (list byte * jtree)) (k : string) (t : jtree) : Prop :=
  exists before after, ms = (before ++ (bytes_of k, t) :: after)%list /\ ~ In (bytes_of k) (map fst after).
(** [stands_for t j]: where an object has members of the same name, the last one counts *)
Inductive stands_for : jtree -> json -> Prop :=
| sf_null : stands_for TNull JNull
| sf_bool : forall b, stands_for (TBool b) (JBool b)
| sf_num : forall l n, whole_number l n -> stands_for (TNum l) (JNum n)
| sf_str : forall s, stands_for (TStr s) (JStr (string_of s))
| sf_arr : forall ts js, Forall2 stands_for ts js -> stands_for (TArr ts) (JArr js)
| sf_obj : forall ms m,
    NoDup (keys m) ->
    (forall k, In k (keys m) <-> In k (map (fun kt => string_of (fst kt)) ms)) ->
    (forall k t, In (k, t) ms -> exists j, stands_for t j) ->
    (forall k j, In (k, j) m -> exists t, last_member ms k t /\ stands_for t j) ->
    stands_for (TObj ms) (JObj m).
