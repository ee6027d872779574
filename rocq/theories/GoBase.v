(** * Go semantics shared by the whole model

    Values, slices, strings and outcomes of Go functions.  Nothing here is
    specific to saratoga; it models the parts of the Go language and of its
    standard library the code of /repo relies on.  *)

From Coq Require Export String Ascii NArith ZArith Bool Arith Lia Permutation List.
Export ListNotations.

(** A Go byte.  Using [ascii] (eight booleans) means that every [list byte] is a
    possible Go [[]byte]: no side condition "element < 256" is ever needed. *)
Notation byte := ascii.

(** ** Outcomes
    [Ret a]  : the function returned [a];
    [Panic]  : run-time panic (index or slice out of range, nil dereference,
               division by zero, failed type assertion);
    [Fatal]  : log.Fatal / log.Fatalln, i.e. os.Exit(1). *)
(** Go semantics, e.g. sarwin/sarwin.go:981 panic, sarflags/sarflags.go:588 log.Fatalln. *)
Inductive outcome (A : Type) : Type :=
| Ret (a : A)
| Panic
| Fatal.
Arguments Ret {A} a.
Arguments Panic {A}.
Arguments Fatal {A}.

(** Go semantics, no code of its own: sequencing; a panic or log.Fatal (e.g. sarwin/sarwin.go:981) ends it *)
Definition obind {A B} (m : outcome A) (k : A -> outcome B) : outcome B :=
  match m with Ret a => k a | Panic => Panic | Fatal => Fatal end.

Notation "'do' x <- m ; k" := (obind m (fun x => k))
  (at level 200, x name, m at level 100, k at level 200, right associativity).
Notation "'do' ' p <- m ; k" := (obind m (fun x => match x with p => k end))
  (at level 200, p pattern, m at level 100, k at level 200, right associativity).

(** Go's [error] interface: [None] is nil. (e.g. timestamp/timestamp.go:25-87 New) *)
Definition error := option string.

(** Sequencing of steps of a method with a pointer receiver: each step returns
    the receiver's new contents and an error; [if err != nil { return err }]
    stops with the receiver as it is at that point.
    (e.g. timestamp/timestamp.go:130-169 Get, status/status.go:238-322 Decode.) *)
Definition ebind {S} (m : outcome (S * error)) (k : S -> outcome (S * error))
  : outcome (S * error) :=
  match m with
  | Ret (s, None) => k s
  | Ret (s, Some e) => Ret (s, Some e)
  | Panic => Panic
  | Fatal => Fatal
  end.
Notation "'try' x <- m ; k" := (ebind m (fun x => k))
  (at level 200, x name, m at level 100, k at level 200, right associativity).

(** ** Fixed-width unsigned arithmetic (Go spec: wrap-around modulo 2^w) *)
(** Go's conversion to an unsigned type of [w] bits (e.g. sarflags/sarflags.go:677-679 *)
Definition wrap (w n : N) : N := (n mod 2 ^ w)%N.
(** Go semantics: conversion to uint8 (e.g. sarflags/sarflags.go:487-521) *)
Definition u8 (n : N) : N := wrap 8 n.
(** Go semantics: conversion to uint16 (e.g. sarflags/sarflags.go:487-521) *)
Definition u16 (n : N) : N := wrap 16 n.
(** Go semantics: conversion to uint32 (e.g. data/data.go:214-267 Encode, sarwin/sarwin.go:741) *)
Definition u32 (n : N) : N := wrap 32 n.
(** Go semantics: conversion to uint64 (e.g. timestamp/timestamp.go:25-87 New) *)
Definition u64 (n : N) : N := wrap 64 n.

(** a - b on w-bit unsigned operands (e.g. sarsys/sys_linux.go:44-46 Used) *)
Definition go_sub (w a b : N) : N := ((a + 2 ^ w - b) mod 2 ^ w)%N.
(** x << s : a shift count >= w gives 0 (e.g. sarflags/sarflags.go:677-679, 719-723) *)
Definition go_shl (w x s : N) : N :=
  if (s <? w)%N then (N.shiftl x s mod 2 ^ w)%N else 0%N.
(** x >> s (e.g. sarflags/sarflags.go:677-679, 719-723) *)
Definition go_shr (w x s : N) : N :=
  if (s <? w)%N then N.shiftr x s else 0%N.
(** ^x (e.g. sarflags/sarflags.go:677-679, 719-723) *)
Definition go_not (w x : N) : N := N.lxor x (N.ones w).

(** Conversions between signed (int, int64 on a 64-bit platform) and unsigned.
    (e.g. timestamp/timestamp.go:25-87 New, sarsys/sys_linux.go:29-46) *)
Definition u64_of_Z (z : Z) : N := Z.to_N (z mod 2 ^ 64)%Z.
(** Go semantics: conversion to int64 (e.g. timestamp/timestamp.go:177-197 Print) *)
Definition i64_of_N (n : N) : Z :=
  let m := (n mod 2 ^ 64)%N in
  if (m <? 2 ^ 63)%N then Z.of_N m else (Z.of_N m - 2 ^ 64)%Z.
(** Go semantics: arithmetic on int and int64 wraps (e.g. sarwin/sarwin.go:776-847) *)
Definition i64_of_Z (z : Z) : Z := i64_of_N (u64_of_Z z).

(** ** encoding/binary.BigEndian *)
(** e.g. timestamp/timestamp.go:90-117 Put; here the least significant byte of a number *)
Definition byte_of_N (n : N) : byte := ascii_of_N (n mod 256).

(** The k bytes of PutUint16/32/64 (k = 2, 4, 8), most significant first. (e.g. timestamp/timestamp.go:90-117 Put) *)
Fixpoint be_bytes (k : nat) (v : N) : list byte :=
  match k with
  | O => []
  | S k' => byte_of_N (v / 256 ^ N.of_nat k') :: be_bytes k' v
  end.

(** Uint16/32/64: most significant byte first. (e.g. timestamp/timestamp.go:130-169 Get) *)
Fixpoint be_value_acc (acc : N) (l : list byte) : N :=
  match l with
  | [] => acc
  | b :: r => be_value_acc (acc * 256 + N_of_ascii b)%N r
  end.
(** encoding/binary.BigEndian Uint16, Uint32, Uint64 (e.g. timestamp/timestamp.go:130-169 Get) *)
Definition be_value (l : list byte) : N := be_value_acc 0 l.

(** ** Slices
    A slice is modelled by the list of its elements.  Simplification: spare
    capacity and sharing of the backing array are not represented here (see
    HolesAlias.v for a model with backing arrays); a slice expression is
    therefore checked against the length.  The frames handed to the decoders by
    saratoga.go:205 are made with capacity equal to length, where both agree;
    Part.v models the decoders on slices with spare capacity. *)

(** l[i:j] (Go semantics, e.g. data/data.go:152-211 Decode) *)
Definition slice {A} (l : list A) (i j : nat) : outcome (list A) :=
  if (i <=? j) && (j <=? length l) then Ret (firstn (j - i) (skipn i l)) else Panic.
(** l[i:] (Go semantics, e.g. data/data.go:152-211 Decode) *)
Definition slice_from {A} (l : list A) (i : nat) : outcome (list A) :=
  if i <=? length l then Ret (skipn i l) else Panic.
(** l[i] (Go semantics, e.g. metadata/metadata.go:269-288 Decode) *)
Definition index {A} (l : list A) (i : nat) : outcome A :=
  match nth_error l i with Some x => Ret x | None => Panic end.

(** overwrite the elements from position [pos] with [src] (Go's copy, e.g. timestamp/timestamp.go:90-117 Put) *)
Definition overwrite {A} (buf : list A) (pos : nat) (src : list A) : list A :=
  firstn pos buf ++ src ++ skipn (pos + length src) buf.

(** copy(buf[i:j], src) : copies min(j-i, len(src)) elements (Go semantics, e.g. data/data.go:214-267 Encode) *)
Definition copy_range {A} (buf : list A) (i j : nat) (src : list A) : outcome (list A) :=
  if (i <=? j) && (j <=? length buf)
  then Ret (overwrite buf i (firstn (j - i) src)) else Panic.
(** copy(buf[i:], src) (Go semantics, e.g. data/data.go:214-267 Encode) *)
Definition copy_from {A} (buf : list A) (i : nat) (src : list A) : outcome (list A) :=
  if i <=? length buf
  then Ret (overwrite buf i (firstn (length buf - i) src)) else Panic.

(** binary.BigEndian.PutUint(8k)(buf[i:j], v): panics if the slice is out of
    range or shorter than k bytes (e.g. timestamp/timestamp.go:90-117 Put) *)
Definition put_uint (k : nat) (buf : list byte) (i j : nat) (v : N) : outcome (list byte) :=
  if (i <=? j) && (j <=? length buf) && (k <=? j - i)
  then Ret (overwrite buf i (be_bytes k v)) else Panic.
(** binary.BigEndian.Uint(8k)(buf[i:j]) (e.g. timestamp/timestamp.go:130-169 Get) *)
Definition get_uint (k : nat) (buf : list byte) (i j : nat) : outcome N :=
  do s <- slice buf i j;
  if k <=? length s then Ret (be_value (firstn k s)) else Panic.

(** make([]byte, n) (Go semantics, e.g. timestamp/timestamp.go:90-117 Put) *)
Definition zero_byte : byte := Ascii.zero.
(** make([]byte, n) (Go semantics, e.g. timestamp/timestamp.go:90-117 Put) *)
Definition make_bytes (n : nat) : list byte := repeat zero_byte n.

(** Strings: a Go string is a sequence of bytes, which is what Coq's [string] is.
    (e.g. request/request.go:104-119 Encode) *)
Definition bytes_of (s : string) : list byte := list_ascii_of_string s.
(** string(b) (Go semantics, e.g. request/request.go:122-145 Decode) *)
Definition string_of (l : list byte) : string := string_of_list_ascii l.
(** len(s) (Go semantics, e.g. request/request.go:104-119 Encode) *)
Definition slen (s : string) : nat := String.length s.

(** string(b) for b a byte: Go converts the integer to the UTF-8 encoding of the
    code point, so bytes >= 0x80 become two bytes.
    (dirent/dirent.go:245, request/request.go:134) *)
Definition utf8_of_byte (b : byte) : list byte :=
  let n := N_of_ascii b in
  if (n <? 128)%N then [b]
  else [byte_of_N (192 + n / 64); byte_of_N (128 + n mod 64)].

(** ** Maps: association lists with the first binding for a key taken *)
(** Go semantics, e.g. sarflags/sarflags.go:587-783 *)
Fixpoint lookup {V} (k : string) (m : list (string * V)) : option V :=
  match m with
  | [] => None
  | (k', v) :: r => if String.eqb k k' then Some v else lookup k r
  end.
(** m[k] = v (Go semantics, e.g. sarwin/sarwin.go:1386) *)
Fixpoint update {V} (k : string) (v : V) (m : list (string * V)) : list (string * V) :=
  match m with
  | [] => [(k, v)]
  | (k', v') :: r => if String.eqb k k' then (k, v) :: r else (k', v') :: update k v r
  end.
(** The keys of a map (range loops, e.g. sarflags/sarflags.go:649-655, 775-779) *)
Definition keys {V} (m : list (string * V)) : list string := map fst m.
(** _, ok := m[k] (Go semantics, e.g. sarflags/sarflags.go:587-783) *)
Definition has_key {V} (k : string) (m : list (string * V)) : bool :=
  match lookup k m with Some _ => true | None => false end.

(** ** strings package *)
(** strings.Replace(s, " ", "", -1) (e.g. sarflags/sarflags.go:595, timestamp/timestamp.go:30) *)
Fixpoint remove_spaces (s : string) : string :=
  match s with
  | EmptyString => EmptyString
  | String a r => if Ascii.eqb a " " then remove_spaces r else String a (remove_spaces r)
  end.
(** strings.Split(s, c) for a one-byte separator: never empty (e.g. sarflags/sarflags.go:597, 599) *)
Fixpoint split_on (c : ascii) (s : string) : list string :=
  match s with
  | EmptyString => [EmptyString]
  | String a r =>
      if Ascii.eqb a c then EmptyString :: split_on c r
      else match split_on c r with
           | h :: t => String a h :: t
           | [] => [String a EmptyString]
           end
  end.
(** strings.TrimRight(s, c) for a one-byte cutset (request/request.go:55, sarflags/sarflags.go:782) *)
Fixpoint trim_right (c : ascii) (s : string) : string :=
  match s with
  | EmptyString => EmptyString
  | String a r =>
      match trim_right c r with
      | EmptyString => if Ascii.eqb a c then EmptyString else String a EmptyString
      | t => String a t
      end
  end.

(** case "a", "b", ...: of a Go switch (e.g. fileio/fileio.go:30-74) *)
Definition one_of (s : string) (l : list string) : bool := existsb (String.eqb s) l.

(** An instant (time.Time): seconds since 1970 and nanoseconds within the second.
    (package time, e.g. timestamp/timestamp.go:25-87) *)
Record gotime := { unix_secs : Z; unix_nanos : Z }.
(** ts.Unix() (timestamp/timestamp.go:25-87 New) *)
Definition time_Unix (t : gotime) : Z := i64_of_Z (unix_secs t).
(** ts.UnixNano() : int64, wraps silently outside 1678..2262 (timestamp/timestamp.go:25-87 New) *)
Definition time_UnixNano (t : gotime) : Z := i64_of_Z (unix_secs t * 1000000000 + unix_nanos t).
