(** * Specification vocabulary for addresses, address lists and disk usage *)

From Verif Require Import GoBase Trans Sarnet.
Local Open Scope string_scope.
Local Open Scope N_scope.

(** How often a character occurs in a text *)
Definition occurrences (c : ascii) (s : string) : nat := count_occ ascii_dec (bytes_of s) c.
Definition occurs (c : ascii) (s : string) : Prop := In c (bytes_of s).

(** What a caller may pass as an address: at least two colons make it IPv6, three dots
    IPv4; the text that is resolved *)
Definition dialled (s : string) : option string :=
  if Nat.leb 2 (occurrences ":" s) then Some ("[" ++ s ++ "]:7542")
  else if Nat.eqb (occurrences "." s) 3 then Some (s ++ ":7542")
  else None.

(** A slice that Go can hold: it lies within its array *)
Definition slice_ok (H : aheap) (s : aslice) : Prop :=
  (as_arr s < length H /\ as_off s + as_len s <= length (nth (as_arr s) H []))%nat.

(** Addresses as the net package makes them: an IPv4 address has no zone and none of the
    characters of the notation, an IPv6 address contains a colon *)
Definition proper_address (a : udpaddr) : Prop :=
  (~ occurs "%" (ua_ip a) /\ ~ occurs "[" (ua_ip a) /\ ~ occurs "]" (ua_ip a)) /\
  ((~ occurs ":" (ua_ip a) /\ ua_zone a = "") \/ (occurs ":" (ua_ip a) /\ ~ occurs "]" (ua_zone a))).
