(** * Model of the text functions of the Go library, character by character

    Words.v cuts a text into white space and other bytes; here strings.TrimSpace and strings.Fields decode UTF-8 the way package
    strings does, from the front and, for the white space at the end, from the back.  Simplification: the shorter ways that package
    strings has for ASCII are left out. *)

From Verif Require Import GoBase Words Table.
Local Open Scope string_scope.
Local Open Scope N_scope.

(** utf8.RuneError (for package strings, called in sarwin/sarwin.go:2506-2507) *)
Definition rune_error : N := 0xFFFD.
(** The bytes of the first character of a text (utf8.DecodeRuneInString, for sarwin/sarwin.go:2506-2507) *)
Definition rune_bytes (a : byte) (r : list byte) : list byte := firstn (S (List.length r) - List.length (rune_rest a r)) (a :: r).
(** The character that they are: the low bits of each (utf8.DecodeRuneInString, for sarwin/sarwin.go:2506-2507) *)
Definition rune_of (u : list byte) : N :=
  match u with
  | [a] => if N_of_ascii a <? 0x80 then N_of_ascii a else rune_error
  | [a; b] => N_of_ascii a mod 32 * 64 + N_of_ascii b mod 64
  | [a; b; c] => N_of_ascii a mod 16 * 4096 + N_of_ascii b mod 64 * 64 + N_of_ascii c mod 64
  | [a; b; c; d] => N_of_ascii a mod 8 * 262144 + N_of_ascii b mod 64 * 4096 + N_of_ascii c mod 64 * 64 + N_of_ascii d mod 64
  | _ => rune_error
  end.
(** unicode.IsSpace (for package strings, called in sarwin/sarwin.go:2506-2507) *)
Definition is_space (c : N) : bool :=
  if c <=? 0xFF then ((9 <=? c) && (c <=? 13)) || (c =? 32) || (c =? 0x85) || (c =? 0xA0)
  else (c =? 0x1680) || ((0x2000 <=? c) && (c <=? 0x200A)) || (c =? 0x2028) || (c =? 0x2029) || (c =? 0x202F) || (c =? 0x205F) || (c =? 0x3000).

(** range over a string: its characters (for package strings, called in sarwin/sarwin.go:2506-2507) *)
Fixpoint chars (fuel : nat) (l : list byte) : list (list byte) :=
  match fuel, l with
  | S fuel, a :: r => rune_bytes a r :: chars fuel (rune_rest a r)
  | _, _ => []
  end.
(** strings.FieldsFunc: the runs of characters that are no white space.  (called in sarwin/sarwin.go:2507) *)
Definition fields_go (s : string) : list string :=
  fields_chunks [] (map (fun u => (is_space (rune_of u), u)) (chars (slen s) (bytes_of s))).

(** strings.TrimLeftFunc (for strings.TrimSpace, called in sarwin/sarwin.go:2506) *)
Fixpoint trim_left_go (fuel : nat) (l : list byte) : list byte :=
  match fuel, l with
  | S fuel, a :: r => if is_space (rune_of (rune_bytes a r)) then trim_left_go fuel (rune_rest a r) else l
  | _, _ => l
  end.
(** utf8.RuneStart: no continuation byte (for strings.TrimSpace, called in sarwin/sarwin.go:2506) *)
Definition rune_starts (a : byte) : bool := negb ((0x80 <=? N_of_ascii a) && (N_of_ascii a <=? 0xBF)).
(** The loop of utf8.DecodeLastRuneInString: how far it goes back, at most [k] bytes that start no character and one more
    (for strings.TrimSpace, called in sarwin/sarwin.go:2506) *)
Fixpoint back (k : nat) (t : list byte) : nat :=
  match t with
  | [] => 0
  | x :: t => match k with O => 1 | S k => if rune_starts x then 1 else S (back k t) end
  end.
(** utf8.DecodeLastRuneInString: the number of bytes of the last character, and the character
    (for strings.TrimSpace, called in sarwin/sarwin.go:2506) *)
Definition last_rune (l : list byte) : nat * N :=
  match rev l with
  | [] => (O, rune_error)
  | b :: t =>
      if N_of_ascii b <? 0x80 then (1%nat, N_of_ascii b)
      else let n := S (back 3 t) in
           let u := rev (firstn n (b :: t)) in
           match u with
           | a :: r => match rune_rest a r with [] => (n, rune_of u) | _ => (1%nat, rune_error) end
           | [] => (1%nat, rune_error)
           end
  end.
(** strings.lastIndexFunc: where the last character begins that is no white space
    (for strings.TrimSpace, called in sarwin/sarwin.go:2506) *)
Fixpoint last_index (fuel : nat) (l : list byte) : option nat :=
  match fuel with
  | O => None
  | S fuel =>
      match l with
      | [] => None
      | _ =>
          let '(size, c) := last_rune l in
          if is_space c then last_index fuel (firstn (List.length l - size) l) else Some (List.length l - size)%nat
      end
  end.
(** strings.TrimRightFunc (for strings.TrimSpace, called in sarwin/sarwin.go:2506) *)
Definition trim_right_go (l : list byte) : list byte :=
  match last_index (List.length l) l with
  | None => []
  | Some i =>
      match skipn i l with
      | a :: r => firstn (i + (if N_of_ascii a <? 0x80 then 1 else List.length (rune_bytes a r))) l
      | [] => firstn (i + 1) l
      end
  end.
(** strings.TrimSpace (called in sarwin/sarwin.go:2506) *)
Definition trim_go (s : string) : string := string_of (trim_right_go (trim_left_go (slen s) (bytes_of s))).
