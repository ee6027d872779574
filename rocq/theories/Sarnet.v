(** * Model of sarnet/sarnet.go and of the disk usage arithmetic of sarsys/sys_linux.go *)

From Coq Require Import DecimalString.
From Verif Require Import GoBase Trans.
From Verif Require Export Itoa.
Local Open Scope string_scope.
Local Open Scope N_scope.

(** ** The net package *)

(** strings.Count(s, c) for a one-byte substring (sarnet/sarnet.go:31-38) *)
Fixpoint count_byte (c : ascii) (s : string) : nat :=
  match s with
  | EmptyString => O
  | String a r => if Ascii.eqb a c then S (count_byte c r) else count_byte c r
  end.

(** net.UDPAddr.String: net.JoinHostPort of the address, followed by its zone if it
    has one, and the port; a host with a colon or a percent sign gets brackets.
    Simplification: the address is not nil and its IP is not empty. (called in sarwin/sarwin.go:913, 1805-1886) *)
Definition udpaddr_string (a : udpaddr) : string :=
  let host := ua_ip a ++ (if String.eqb (ua_zone a) "" then "" else "%" ++ ua_zone a) in
  let port := itoa (ua_port a) in
  if Nat.ltb 0 (count_byte ":" host) || Nat.ltb 0 (count_byte "%" host)
  then "[" ++ host ++ "]:" ++ port
  else host ++ ":" ++ port.

(** ** sarnet.go *)

(** sarnet.go:18 Port *)
Definition saratoga_port : N := 7542.

(** sarnet.go:31-33 isIPv4 *)
Definition is_ipv4 (address : string) : bool := Nat.eqb (count_byte "." address) 3.
(** sarnet.go:36-38 isIPv6 *)
Definition is_ipv6 (address : string) : bool := Nat.leb 2 (count_byte ":" address).

(** sarnet.go:42-57 UDPAddress.  [resolve] is net.ResolveUDPAddr("udp", _): its answer,
    or None for an error. *)
Definition udp_address (resolve : string -> option udpaddr) (s : string) : option udpaddr * error :=
  let a := if is_ipv6 s then Some ("[" ++ s ++ "]") else if is_ipv4 s then Some s else None in
  match a with
  | None => (None, Some ("Invalid IPAddress:" ++ s))
  | Some a =>
      let a := a ++ ":" ++ itoa saratoga_port in
      match resolve a with
      | Some udpad => (Some udpad, None)
      | None => (None, Some ("Cannot ResolveUDPAddr: " ++ a))
      end
  end.

(** sarnet.go:60-65 UDPinfo; None is a nil pointer *)
Definition udpinfo (addr : option udpaddr) : string :=
  match addr with None => "" | Some a => udpaddr_string a end.

(** ** Removing an address from a list, with backing arrays

    The functions work on slices, and the property says what happens to the slice of
    the caller, so memory is modelled: the heap is a list of arrays, a slice is an array,
    an offset into it and a length; its capacity reaches to the end of the array. *)
(** The backing arrays of []net.UDPAddr (sarnet/sarnet.go:67-82) *)
Definition aheap := list (list udpaddr).
Bind Scope list_scope with aheap.
(** A slice []net.UDPAddr (sarnet/sarnet.go:67-82): array, offset, length *)
Record aslice := { as_arr : nat; as_off : nat; as_len : nat }.

(** The elements of a slice (sarnet/sarnet.go:67-82) *)
Definition aview (H : aheap) (s : aslice) : list udpaddr :=
  firstn (as_len s) (skipn (as_off s) (nth (as_arr s) H [])).
(** cap(a) of such a slice (append in sarnet/sarnet.go:67-71) *)
Definition acap (H : aheap) (s : aslice) : nat := (length (nth (as_arr s) H []) - as_off s)%nat.

(** a[i:j] of a slice: j may go up to the capacity (sarnet/sarnet.go:67-71) *)
Definition aslice_sub (H : aheap) (s : aslice) (i j : nat) : outcome aslice :=
  if Nat.leb i j && Nat.leb j (acap H s)
  then Ret {| as_arr := as_arr s; as_off := as_off s + i; as_len := j - i |} else Panic.

(** Replace array number [n] of the heap (append in sarnet/sarnet.go:67-71 stores in place) *)
Fixpoint aset (H : aheap) (n : nat) (x : list udpaddr) : aheap :=
  match H, n with
  | [], _ => []
  | _ :: r, O => x :: r
  | y :: r, S n' => y :: aset r n' x
  end.

(** append(s, elems...): in place if the capacity suffices, otherwise into a new array with
    [grow] elements to spare.  [junk] fills the spare elements (Go: zero UDPAddrs). (sarnet/sarnet.go:67-71) *)
Definition junk : udpaddr := {| ua_ip := ""; ua_port := 0; ua_zone := "" |}.
(** append(a[:i], a[i+1:]...) (sarnet/sarnet.go:67-71) *)
Definition aappend (grow : nat -> nat) (H : aheap) (s : aslice) (elems : list udpaddr) : aheap * aslice :=
  let n := (as_len s + length elems)%nat in
  if Nat.leb n (acap H s)
  then (aset H (as_arr s) (overwrite (nth (as_arr s) H []) (as_off s + as_len s) elems),
        {| as_arr := as_arr s; as_off := as_off s; as_len := n |})
  else ((H ++ [aview H s ++ elems ++ repeat junk (grow n)])%list,
        {| as_arr := length H; as_off := 0; as_len := n |}).

(** sarnet.go:67-71 removeUDPAddrIndex *)
Definition remove_index (grow : nat -> nat) (H : aheap) (a : aslice) (index : nat) : outcome (aheap * aslice) :=
  let ret := {| as_arr := length H; as_off := 0; as_len := 0 |} in
  let H := (H ++ [[]])%list in
  do lo <- aslice_sub H a 0 index;
  let '(H, ret) := aappend grow H ret (aview H lo) in
  do hi <- aslice_sub H a (S index) (as_len a);
  Ret (aappend grow H ret (aview H hi)).

(** sarnet.go:75-80: the loop, at index [i]; [steps] bounds the iterations, None is out
    of fuel (C68 shows that it does not happen) *)
Fixpoint remove_loop (rec : aheap -> aslice -> outcome (option (aheap * aslice))) (grow : nat -> nat)
    (val : udpaddr) (steps : nat) (H : aheap) (a : aslice) (i : nat) : outcome (option (aheap * aslice)) :=
  match steps with
  | O => Ret None
  | S steps' =>
      if Nat.ltb i (as_len a) then
        do x <- index (aview H a) i;
        if String.eqb (udpaddr_string x) (udpaddr_string val) then
          do ' (H1, a1) <- remove_index grow H a i;
          do r <- rec H1 a1;
          match r with
          | Some (H2, a2) => remove_loop rec grow val steps' H2 a2 (S i)
          | None => Ret None
          end
        else remove_loop rec grow val steps' H a (S i)
      else Ret (Some (H, a))
  end.
(** sarnet.go:74-82 RemoveUDPAddrValue; [fuel] bounds the depth of the recursion *)
Fixpoint remove_value (fuel : nat) (grow : nat -> nat) (val : udpaddr) (H : aheap) (a : aslice)
  : outcome (option (aheap * aslice)) :=
  match fuel with
  | O => Ret None
  | S fuel' => remove_loop (fun H a => remove_value fuel' grow val H a) grow val (S (as_len a)) H a 0
  end.
(** sarnet/sarnet.go:74-82 RemoveUDPAddrValue *)
Definition remove_udpaddr_value (grow : nat -> nat) (val : udpaddr) (H : aheap) (a : aslice) :=
  remove_value (S (as_len a)) grow val H a.

(** ** sarsys/sys_linux.go: disk usage in bytes, uint64 arithmetic *)

(** syscall.Statfs_t, the members that are used; bsize is an int64 (sarsys/sys_linux.go:14-26) *)
Record statfs := { sf_bsize : Z; sf_blocks : N; sf_bfree : N; sf_bavail : N }.

(** sys_linux.go:29-31 Free, and sys_darwin.go:29-31 *)
Definition du_free (s : statfs) : N := u64 (sf_bfree s * u64_of_Z (sf_bsize s)).
(** sys_linux.go:34-36 Available, and sys_darwin.go:34-36 *)
Definition du_available (s : statfs) : N := u64 (sf_bavail s * u64_of_Z (sf_bsize s)).
(** sys_linux.go:39-41 Size, and sys_darwin.go:39-41 *)
Definition du_size (s : statfs) : N := u64 (sf_blocks s * u64_of_Z (sf_bsize s)).
(** sys_linux.go:44-46 Used, and sys_darwin.go:44-46 *)
Definition du_used (s : statfs) : N := go_sub 64 (du_size s) (du_free s).
