(** * Specification vocabulary for OutboundIP *)

From Verif Require Import GoBase Outbound.
Local Open Scope string_scope.
Local Open Scope N_scope.

(** The four bytes [a] are the IPv4 address that the bytes [ip] stand for: themselves, or
    mapped into IPv6 behind ten zeros and two bytes 255 *)
Definition is_v4 (ip a : list N) : Prop :=
  List.length a = 4%nat /\ (ip = a \/ ip = ([0; 0; 0; 0; 0; 0; 0; 0; 0; 0; 255; 255] ++ a)%list).
(** The addresses that the host has by its own name *)
Definition own_addresses (hostname : option string) (lookup : string -> option (list (list N))) : list (list N) :=
  match lookup match hostname with Some h => h | None => "" end with Some l => l | None => [] end.
(** What a resolver answers: addresses of 4 or 16 bytes *)
Definition resolver_ok (l : list (list N)) : Prop := forall ip, In ip l -> List.length ip = 4%nat \/ List.length ip = 16%nat.
