(** * Model of encoding/json: how the text of the configuration file becomes the map that ReadConfig reads

    sarflags/sarflags.go:339-343 calls json.Unmarshal into a map[string]interface{}.  The package is modelled from its source
    (scanner.go, decode.go) as one pass over the text; there it is a check of the whole text followed by decoding. *)

From Verif Require Import GoBase Config Table.
Local Open Scope string_scope.
Local Open Scope N_scope.

(** A value as the text has it: a number is its text, the members of an object are in order and may repeat a name
    (sarflags/sarflags.go:339-343 json.Unmarshal) *)
Inductive jtree :=
| TNull
| TBool (b : bool)
| TNum (lit : list byte)
| TStr (s : list byte)
| TArr (l : list jtree)
| TObj (l : list (list byte * jtree)).

(** Auxiliary, no code of its own: a byte as a number (encoding/json, called at sarflags/sarflags.go:339-343) *)
Definition code (a : byte) : N := N_of_ascii a.
(** Auxiliary, no code of its own: comparing a byte (encoding/json, called at sarflags/sarflags.go:339-343) *)
Definition is_char (n : N) (a : byte) : bool := code a =? n.
(** scanner.go isSpace (encoding/json, called at sarflags/sarflags.go:339-343) *)
Definition is_space (a : byte) : bool := is_char 32 a || is_char 9 a || is_char 13 a || is_char 10 a.
(** encoding/json isSpace, stateBeginValue and others that pass over white space (sarflags/sarflags.go:339-343) *)
Fixpoint skip (l : list byte) : list byte :=
  match l with a :: r => if is_space a then skip r else l | [] => [] end.

(** ** Strings *)
(** utf8.go EncodeRune (encoding/json, called at sarflags/sarflags.go:339-343) *)
Definition encode_rune (c : N) : list byte :=
  if c <=? 0x7F then [ascii_of_N c]
  else if c <=? 0x7FF then [ascii_of_N (N.lor 0xC0 (N.shiftr c 6)); ascii_of_N (N.lor 0x80 (N.land c 0x3F))]
  else if c <=? 0xFFFF then
    [ascii_of_N (N.lor 0xE0 (N.shiftr c 12)); ascii_of_N (N.lor 0x80 (N.land (N.shiftr c 6) 0x3F)); ascii_of_N (N.lor 0x80 (N.land c 0x3F))]
  else
    [ascii_of_N (N.lor 0xF0 (N.shiftr c 18)); ascii_of_N (N.lor 0x80 (N.land (N.shiftr c 12) 0x3F));
     ascii_of_N (N.lor 0x80 (N.land (N.shiftr c 6) 0x3F)); ascii_of_N (N.lor 0x80 (N.land c 0x3F))].
(** unicode.ReplacementChar (encoding/json unquote; sarflags/sarflags.go:339-343) *)
Definition replacement : N := 0xFFFD.
(** encoding/json getu4: one digit (sarflags/sarflags.go:339-343) *)
Definition hex_val (a : byte) : option N :=
  let c := code a in
  if (48 <=? c) && (c <=? 57) then Some (c - 48)
  else if (97 <=? c) && (c <=? 102) then Some (c - 97 + 10)
  else if (65 <=? c) && (c <=? 70) then Some (c - 65 + 10)
  else None.
(** decode.go getu4, behind the letter u: the number and what follows
    (encoding/json, called at sarflags/sarflags.go:339-343) *)
Definition hex4 (l : list byte) : option (N * list byte) :=
  match l with
  | a :: b :: c :: d :: r =>
      match hex_val a, hex_val b, hex_val c, hex_val d with
      | Some a, Some b, Some c, Some d => Some (((a * 16 + b) * 16 + c) * 16 + d, r)
      | _, _, _, _ => None
      end
  | _ => None
  end.
(** decode.go getu4 at the start of a text (encoding/json, called at sarflags/sarflags.go:339-343) *)
Definition escaped4 (l : list byte) : option (N * list byte) :=
  match l with
  | a :: b :: r => if is_char 92 a && is_char 117 b then hex4 r else None
  | _ => None
  end.
(** utf16 IsSurrogate, DecodeRune (encoding/json unquote; sarflags/sarflags.go:339-343) *)
Definition is_surrogate (c : N) : bool := (0xD800 <=? c) && (c <? 0xE000).
(** Utf16.DecodeRune (encoding/json unquote; sarflags/sarflags.go:339-343) *)
Definition join_surrogates (a b : N) : option N :=
  if (0xD800 <=? a) && (a <? 0xDC00) && (0xDC00 <=? b) && (b <? 0xE000) then Some ((a - 0xD800) * 1024 + (b - 0xDC00) + 0x10000) else None.
(** decode.go unquoteBytes: the escapes other than \u (encoding/json, called at sarflags/sarflags.go:339-343) *)
Definition simple_escape (a : byte) : option N :=
  if is_char 98 a then Some 8 else if is_char 102 a then Some 12 else if is_char 110 a then Some 10
  else if is_char 114 a then Some 13 else if is_char 116 a then Some 9
  else if is_char 34 a || is_char 92 a || is_char 47 a then Some (code a) else None.
(** scanner.go stateInString and following, decode.go unquoteBytes: a string after its opening quote, and what follows its
    closing quote (encoding/json, called at sarflags/sarflags.go:339-343) *)
Fixpoint parse_str (fuel : nat) (l : list byte) : option (list byte * list byte) :=
  match fuel with
  | O => None
  | S fuel =>
      let add (v : list byte) (rest : list byte) :=
        match parse_str fuel rest with Some (s, r) => Some ((v ++ s)%list, r) | None => None end in
      match l with
      | [] => None
      | a :: r =>
          if is_char 34 a then Some ([], r)
          else if is_char 92 a then
            match r with
            | [] => None
            | e :: r1 =>
                if is_char 117 e then
                  match hex4 r1 with
                  | None => None
                  | Some (c, r2) =>
                      if is_surrogate c then
                        match escaped4 r2 with
                        | Some (c2, r3) => match join_surrogates c c2 with Some u => add (encode_rune u) r3 | None => add (encode_rune replacement) r2 end
                        | None => add (encode_rune replacement) r2
                        end
                      else add (encode_rune c) r2
                  end
                else match simple_escape e with Some c => add [ascii_of_N c] r1 | None => None end
            end
          else if code a <? 32 then None
          else if code a <? 128 then add [a] r
          else
            let r' := rune_rest a r in
            if Nat.eqb (List.length r') (List.length r) then add (encode_rune replacement) r
            else add (a :: firstn (List.length r - List.length r') r) r'
      end
  end.

(** ** Numbers *)
(** '0' <= c && c <= '9' in encoding/json state1, stateDot, stateE (sarflags/sarflags.go:339-343 *)
Definition is_digit (a : byte) : bool := (48 <=? code a) && (code a <=? 57).
(** encoding/json state1, stateDot0, stateE0 (sarflags/sarflags.go:339-343) *)
Fixpoint digits (l : list byte) : list byte * list byte :=
  match l with
  | a :: r => if is_digit a then let (d, r') := digits r in (a :: d, r') else ([], l)
  | [] => ([], [])
  end.
(** scanner.go stateBeginValue for digits, state0, state1 (encoding/json, called at sarflags/sarflags.go:339-343) *)
Definition parse_int (l : list byte) : option (list byte * list byte) :=
  match l with
  | a :: r => if is_char 48 a then Some ([a], r) else if is_digit a then let (d, r') := digits r in Some (a :: d, r') else None
  | [] => None
  end.
(** stateDot (encoding/json; sarflags/sarflags.go:339-343) *)
Definition parse_frac (l : list byte) : option (list byte * list byte) :=
  match l with
  | a :: r =>
      if is_char 46 a then match digits r with ([], _) => None | (d, r') => Some (a :: d, r') end
      else Some ([], l)
  | [] => Some ([], [])
  end.
(** stateE, stateESign (encoding/json; sarflags/sarflags.go:339-343) *)
Definition parse_exp (l : list byte) : option (list byte * list byte) :=
  match l with
  | a :: r =>
      if is_char 101 a || is_char 69 a then
        let (sg, r1) := match r with b :: r' => if is_char 43 b || is_char 45 b then ([b], r') else ([], r) | [] => ([], []) end in
        match digits r1 with ([], _) => None | (d, r2) => Some ((a :: sg ++ d)%list, r2) end
      else Some ([], l)
  | [] => Some ([], [])
  end.
(** stateNeg (encoding/json; sarflags/sarflags.go:339-343) *)
Definition parse_num (l : list byte) : option (list byte * list byte) :=
  let (sg, l1) := match l with a :: r => if is_char 45 a then ([a], r) else ([], l) | [] => ([], []) end in
  match parse_int l1 with
  | None => None
  | Some (i, l2) =>
      match parse_frac l2 with
      | None => None
      | Some (f, l3) => match parse_exp l3 with Some (e, l4) => Some ((sg ++ i ++ f ++ e)%list, l4) | None => None end
      end
  end.

(** ** Values *)
(** encoding/json stateInString etc.: literal text such as true, null (sarflags/sarflags.go:339-343 *)
Fixpoint eat (word l : list byte) : option (list byte) :=
  match word, l with
  | [], _ => Some l
  | a :: w, b :: r => if Ascii.eqb a b then eat w r else None
  | _, [] => None
  end.
(** scanner.go maxNestingDepth (encoding/json, called at sarflags/sarflags.go:339-343) *)
Definition max_depth : nat := 10000.
(** scanner.go stateBeginValue, stateEndValue, stateBeginString and following; decode.go valueInterface, arrayInterface,
    objectInterface.  [d] is how much deeper arrays and objects may be nested.  The text does not start with white space.
    (encoding/json, called at sarflags/sarflags.go:339-343) *)
Fixpoint parse_value (fuel d : nat) (l : list byte) : option (jtree * list byte) :=
  match fuel with
  | O => None
  | S fuel =>
      match l with
      | [] => None
      | a :: r =>
          if is_char 34 a then match parse_str (S (List.length r)) r with Some (s, r') => Some (TStr s, r') | None => None end
          else if is_char 123 a then
            match d with
            | O => None
            | S d =>
                match skip r with
                | b :: r' => if is_char 125 b then Some (TObj [], r') else match parse_members fuel d (skip r) with Some (ms, r') => Some (TObj ms, r') | None => None end
                | [] => None
                end
            end
          else if is_char 91 a then
            match d with
            | O => None
            | S d =>
                match skip r with
                | b :: r' => if is_char 93 b then Some (TArr [], r') else match parse_elems fuel d (skip r) with Some (ts, r') => Some (TArr ts, r') | None => None end
                | [] => None
                end
            end
          else if is_char 116 a then match eat (bytes_of "true") l with Some r' => Some (TBool true, r') | None => None end
          else if is_char 102 a then match eat (bytes_of "false") l with Some r' => Some (TBool false, r') | None => None end
          else if is_char 110 a then match eat (bytes_of "null") l with Some r' => Some (TNull, r') | None => None end
          else match parse_num l with Some (n, r') => Some (TNum n, r') | None => None end
      end
  end
with parse_elems (fuel d : nat) (l : list byte) : option (list jtree * list byte) :=
  match fuel with
  | O => None
  | S fuel =>
      match parse_value fuel d l with
      | None => None
      | Some (t, r) =>
          match skip r with
          | a :: r' =>
              if is_char 44 a then match parse_elems fuel d (skip r') with Some (ts, r2) => Some (t :: ts, r2) | None => None end
              else if is_char 93 a then Some ([t], r') else None
          | [] => None
          end
      end
  end
with parse_members (fuel d : nat) (l : list byte) : option (list (list byte * jtree) * list byte) :=
  match fuel with
  | O => None
  | S fuel =>
      match l with
      | q :: r0 =>
          if is_char 34 q then
            match parse_str (S (List.length r0)) r0 with
            | None => None
            | Some (k, r1) =>
                match skip r1 with
                | c :: r2 =>
                    if is_char 58 c then
                      match parse_value fuel d (skip r2) with
                      | None => None
                      | Some (t, r3) =>
                          match skip r3 with
                          | a :: r' =>
                              if is_char 44 a then match parse_members fuel d (skip r') with Some (ms, r4) => Some ((k, t) :: ms, r4) | None => None end
                              else if is_char 125 a then Some ([(k, t)], r') else None
                          | [] => None
                          end
                      end
                    else None
                | [] => None
                end
            end
          else None
      | [] => None
      end
  end.
(** scanner.go checkValid, decode.go Unmarshal (encoding/json, called at sarflags/sarflags.go:339-343) *)
Definition parse_doc (depth : nat) (text : list byte) : option jtree :=
  match parse_value (2 * List.length text + 2) depth (skip text) with
  | Some (t, r) => match skip r with [] => Some t | _ => None end
  | None => None
  end.

(** ** From the text to the map *)
(** The value of a row of digits (strconv/atof.go readFloat; encoding/json convertNumber, called at sarflags/sarflags.go:339-343) *)
Definition digits_value (l : list byte) : N := fold_left (fun n a => 10 * n + (code a - 48)) l 0.
(** strconv/atof.go readFloat: the exponent behind its letter (encoding/json convertNumber; sarflags/sarflags.go:339-343) *)
Definition exponent (e : list byte) : Z :=
  match e with
  | _ :: a :: ds =>
      if is_char 45 a then (- Z.of_N (digits_value ds))%Z
      else if is_char 43 a then Z.of_N (digits_value ds)
      else Z.of_N (digits_value (a :: ds))
  | _ => 0%Z
  end.
(** strconv/atof.go readFloat, for a number of JSON: the sign, and m and k for the value m * 10^k.  It reads no exponent above
    99999 faithfully; [None] for those, which are not modelled.  (encoding/json convertNumber; sarflags/sarflags.go:339-343) *)
Definition read_float (lit : list byte) : option (bool * N * Z) :=
  let (neg, l1) := match lit with a :: r => if is_char 45 a then (true, r) else (false, lit) | [] => (false, []) end in
  match parse_int l1 with
  | None => None
  | Some (i, l2) =>
      match parse_frac l2 with
      | None => None
      | Some (f, l3) =>
          match parse_exp l3 with
          | Some (e, []) =>
              if (Z.abs (exponent e) <? 100000)%Z
              then Some (neg, digits_value (i ++ tl f), (exponent e - Z.of_nat (List.length (tl f)))%Z)
              else None
          | _ => None
          end
      end
  end.
(** The smallest positive float64 is 1 / [float_unit]; every finite one is a whole number of them
    (strconv/atof.go; encoding/json convertNumber, called at sarflags/sarflags.go:339-343) *)
Definition float_unit : N := 2 ^ 1074.
(** p / q to the nearest integer, a half to the even one (strconv/decimal.go RoundedInteger; sarflags/sarflags.go:339-343) *)
Definition half_even (p q : N) : N :=
  let (d, r) := N.div_eucl p q in
  if 2 * r <? q then d else if q <? 2 * r then d + 1 else if N.even d then d else d + 1.
(** strconv/atof.go floatBits: p / q as a float64, in [float_unit]s: 53 bits of it are kept, fewer where the numbers are no
    denser.  What is too large for a float64 is not cut off here.  (encoding/json convertNumber; sarflags/sarflags.go:339-343) *)
Definition round64 (p q : N) : N :=
  let k := N.log2 (p * float_unit / q) - 52 in
  half_even (p * 2 ^ (1074 - k)) (q * 2 ^ (k - 1074)) * 2 ^ k.
(** m * 10^k as a fraction (strconv/decimal.go Assign, Shift; sarflags/sarflags.go:339-343) *)
Definition numerator (m : N) (k : Z) : N := m * 10 ^ Z.to_N k.
(** ... its denominator (strconv/decimal.go Assign, Shift; sarflags/sarflags.go:339-343) *)
Definition denominator (k : Z) : N := 10 ^ Z.to_N (- k).
(** What a number of the text is for ReadConfig, which converts every number it uses to an integer, dropping the fraction
    (sarflags/sarflags.go:361, 389-393, 401-411, 461-469, 490-498, 510-518): that integer, or an error
    of json.Unmarshal, or a value whose conversion is not modelled, because it is negative or 2^63 and more *)
Inductive numeral := Whole (n : N) | TooLarge | Unsupported.
(** encoding/json convertNumber with strconv.ParseFloat (sarflags/sarflags.go:339-343), and the conversions above *)
Definition number (lit : list byte) : numeral :=
  match read_float lit with
  | None => Unsupported
  | Some (neg, m, k) =>
      let f := round64 (numerator m k) (denominator k) in
      let n := N.shiftr f 1074 in
      if 2 ^ 1024 <=? n then TooLarge
      else if (if neg then n =? 0 else n <? 2 ^ 63) then Whole n
      else Unsupported
  end.
(** convertNumber fails for a number that is too large, wherever it is in the text, and with it json.Unmarshal
    (encoding/json literalInterface, saveError; sarflags/sarflags.go:339-343) *)
Fixpoint too_large (t : jtree) : bool :=
  match t with
  | TNum lit => match number lit with TooLarge => true | _ => false end
  | TArr l => existsb too_large l
  | TObj l => existsb (fun kt => too_large (snd kt)) l
  | _ => false
  end.
(** objectInterface: of several members with a name the last one counts.  [None]: a number that is not modelled.
    (encoding/json; sarflags/sarflags.go:339-343) *)
Fixpoint value_of (t : jtree) : option json :=
  match t with
  | TNull => Some JNull
  | TBool b => Some (JBool b)
  | TNum lit => match number lit with Whole n => Some (JNum n) | _ => None end
  | TStr s => Some (JStr (string_of s))
  | TArr l =>
      option_map JArr ((fix go (l : list jtree) : option (list json) :=
        match l with
        | [] => Some []
        | t :: r => match value_of t, go r with Some j, Some js => Some (j :: js) | _, _ => None end
        end) l)
  | TObj l =>
      option_map JObj ((fix go (l : list (list byte * jtree)) (m : list (string * json)) : option (list (string * json)) :=
        match l with
        | [] => Some m
        | (k, t) :: r => match value_of t with Some j => go r (update (string_of k) j m) | None => None end
        end) l [])
  end.
(** json.Unmarshal into a map: null is accepted and gives an empty (nil) map.  [NotModelled]: the object has numbers
    that are [Unsupported]. (sarflags/sarflags.go:339-343) *)
Inductive unmarshalled := Map (m : list (string * json)) | NotMap | NotModelled.
(** sarflags/sarflags.go:339-343: json.Unmarshal of the text of the file *)
Definition unmarshal (text : list byte) : unmarshalled :=
  match parse_doc max_depth text with
  | Some (TObj ms) => if too_large (TObj ms) then NotMap else match value_of (TObj ms) with Some (JObj m) => Map m | _ => NotModelled end
  | Some TNull => Map []
  | _ => NotMap
  end.
