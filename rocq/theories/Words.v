(** * Model of the text functions of the Go library the command line uses *)

From Verif Require Import GoBase Sarnet.
Local Open Scope string_scope.
Local Open Scope N_scope.

(** Auxiliary, no code of its own: the byte of a number (for package strings, called in sarwin/sarwin.go:2497-2521)
    *)
Definition bt (n : N) : ascii := ascii_of_N n.
(** Auxiliary, no code of its own: comparing a byte (for package strings, called in sarwin/sarwin.go:2497-2521) *)
Definition is_byte (n : N) (a : ascii) : bool := Ascii.eqb a (bt n).
(** Auxiliary, no code of its own: a byte in a range (for package strings, called in sarwin/sarwin.go:2497-2521) *)
Definition in_range (lo hi : N) (a : ascii) : bool := (lo <=? N_of_ascii a) && (N_of_ascii a <=? hi).

(** unicode.IsSpace on the UTF-8 encoding of a character: U+0009..U+000D, U+0020; U+0085,
    U+00A0; U+1680, U+2000..U+200A, U+2028, U+2029, U+202F, U+205F, U+3000
    (strings.TrimSpace and Fields, called in sarwin/sarwin.go:575-607, 2497-2521) *)
Definition space1 (a : ascii) : bool := in_range 9 13 a || is_byte 32 a.
(** ... those of two bytes (as above, for sarwin/sarwin.go:575-607, 2497-2521) *)
Definition space2 (a b : ascii) : bool := is_byte 0xC2 a && (is_byte 0x85 b || is_byte 0xA0 b).
(** ... those of three bytes (as above, for sarwin/sarwin.go:575-607, 2497-2521) *)
Definition space3 (a b c : ascii) : bool :=
  (is_byte 0xE1 a && is_byte 0x9A b && is_byte 0x80 c) ||
  (is_byte 0xE2 a && is_byte 0x80 b && (in_range 0x80 0x8A c || is_byte 0xA8 c || is_byte 0xA9 c || is_byte 0xAF c)) ||
  (is_byte 0xE2 a && is_byte 0x81 b && is_byte 0x9F c) ||
  (is_byte 0xE3 a && is_byte 0x80 b && is_byte 0x80 c).

(** A text cut into white space characters (true) and other bytes.  Go decodes whole characters, from both ends;
    Chars.v does so, and its c67_same proves that the words are the same. (sarwin/sarwin.go:2506-2507) *)
Fixpoint chunks (l : list ascii) : list (bool * list ascii) :=
  match l with
  | [] => []
  | a :: r =>
      if space1 a then (true, [a]) :: chunks r
      else match r with
           | b :: r2 =>
               if space2 a b then (true, [a; b]) :: chunks r2
               else match r2 with
                    | c :: r3 => if space3 a b c then (true, [a; b; c]) :: chunks r3 else (false, [a]) :: chunks r
                    | [] => (false, [a]) :: chunks r
                    end
           | [] => (false, [a]) :: chunks r
           end
  end.

(** strings.TrimLeftFunc, TrimRightFunc with unicode.IsSpace
    (for strings.TrimSpace, called in sarwin/sarwin.go:2506) *)
Fixpoint trim_left_chunks (l : list (bool * list ascii)) : list (bool * list ascii) :=
  match l with
  | (true, _) :: r => trim_left_chunks r
  | _ => l
  end.
(** strings.TrimFunc (for strings.TrimSpace, called in sarwin/sarwin.go:2506) *)
Definition trim_chunks (l : list (bool * list ascii)) : list (bool * list ascii) :=
  rev (trim_left_chunks (rev (trim_left_chunks l))).
(** Auxiliary, no code of its own: characters back to bytes (for package strings, called in
    sarwin/sarwin.go:2497-2521) *)
Definition unchunk (l : list (bool * list ascii)) : list ascii := concat (map snd l).
(** strings.TrimSpace (called in sarwin/sarwin.go:2506) *)
Definition trim_space (s : string) : string := string_of (unchunk (trim_chunks (chunks (bytes_of s)))).

(** strings.Fields: the runs of other bytes.  [cur] is the current one. (called in sarwin/sarwin.go:2507) *)
Fixpoint fields_chunks (cur : list ascii) (l : list (bool * list ascii)) : list string :=
  let flush := match cur with [] => [] | _ => [string_of cur] end in
  match l with
  | [] => flush
  | (true, _) :: r => (flush ++ fields_chunks [] r)%list
  | (false, b) :: r => fields_chunks (cur ++ b)%list r
  end.
(** strings.Fields (called in sarwin/sarwin.go:2507) *)
Definition fields (s : string) : list string := fields_chunks [] (chunks (bytes_of s)).

(** strings.SplitN(s, ":", 2): one part if there is no separator, otherwise two (called in sarwin/sarwin.go:587) *)
Fixpoint split_two (c : ascii) (s : string) : list string :=
  match s with
  | EmptyString => [EmptyString]
  | String a r =>
      if Ascii.eqb a c then [EmptyString; r]
      else match split_two c r with
           | h :: t => String a h :: t
           | [] => [String a EmptyString]
           end
  end.

(** Decimal digits (package strconv, called in sarwin/sarwin.go:1712, 1745, 2243) *)
Definition digit (a : ascii) : option N :=
  if in_range 48 57 a then Some (N_of_ascii a - 48) else None.
(** The loop of strconv.ParseUint (called in sarwin/sarwin.go:2095) *)
Fixpoint digits_acc (acc : N) (l : list ascii) : option N :=
  match l with
  | [] => Some acc
  | a :: r => match digit a with Some d => digits_acc (acc * 10 + d) r | None => None end
  end.
(** At least one digit (package strconv, called in sarwin/sarwin.go:1712, 1745, 2243) *)
Definition digits (l : list ascii) : option N := match l with [] => None | _ => digits_acc 0 l end.
(** strconv.ParseUint(s, 10, bits): None for an error (called in sarwin/sarwin.go:2095) *)
Definition parse_uint (bits : N) (s : string) : option N :=
  match digits (bytes_of s) with
  | Some n => if n <? 2 ^ bits then Some n else None
  | None => None
  end.
(** strconv.Atoi, int of 64 bits: None for an error (called in sarwin/sarwin.go:1712, 1745, 2243) *)
Definition atoi (s : string) : option Z :=
  match bytes_of s with
  | a :: r =>
      if Ascii.eqb a "+" then
        match digits r with Some n => if n <? 2 ^ 63 then Some (Z.of_N n) else None | None => None end
      else if Ascii.eqb a "-" then
        match digits r with Some n => if n <=? 2 ^ 63 then Some (- Z.of_N n)%Z else None | None => None end
      else match digits (a :: r) with Some n => if n <? 2 ^ 63 then Some (Z.of_N n) else None | None => None end
  | [] => None
  end.
(** strconv.Itoa on an int (called in sarwin/sarwin.go:512, 1856) *)
Definition zitoa (z : Z) : string := if (z <? 0)%Z then "-" ++ itoa (Z.to_N (- z)) else itoa (Z.to_N z).

(** sort.Sort of a sort.StringSlice: any sorting algorithm gives the same list
    (called in sarwin/sarwin.go:1657-1679) *)
Fixpoint insert_string (s : string) (l : list string) : list string :=
  match l with
  | [] => [s]
  | x :: r => if String.leb s x then s :: l else x :: insert_string s r
  end.
(** sort.Sort of a sort.StringSlice (called in sarwin/sarwin.go:1657-1679) *)
Definition sort_strings (l : list string) : list string := fold_right insert_string [] l.
