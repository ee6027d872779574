(** * Model of sarnet.go OutboundIP *)

From Verif Require Import GoBase.
Local Open Scope string_scope.
Local Open Scope N_scope.

(** net.IP: a slice of bytes, each a number (sarnet/sarnet.go:86-99) *)
Definition ipbytes := list N.
(** net.v4InV6Prefix (for sarnet/sarnet.go:89-96) *)
Definition v4_prefix : list N := [0; 0; 0; 0; 0; 0; 0; 0; 0; 0; 255; 255].
(** Bytes.Equal (net.IP.To4, called in sarnet/sarnet.go:89-96) *)
Fixpoint same_bytes (a b : list N) : bool :=
  match a, b with
  | [], [] => true
  | x :: a, y :: b => (x =? y) && same_bytes a b
  | _, _ => false
  end.
(** net.IP.To4: None for nil (called in sarnet/sarnet.go:89-96) *)
Definition to4 (ip : ipbytes) : option ipbytes :=
  if Nat.eqb (List.length ip) 4 then Some ip
  else if Nat.eqb (List.length ip) 16 && same_bytes (firstn 12 ip) v4_prefix then Some (skipn 12 ip)
  else None.
(** net.IP.To16 (called in sarnet/sarnet.go:89-96) *)
Definition to16 (ip : ipbytes) : option ipbytes :=
  if Nat.eqb (List.length ip) 4 then Some (v4_prefix ++ ip)%list
  else if Nat.eqb (List.length ip) 16 then Some ip
  else None.
(** sarnet.go:89-96 the loop of OutboundIP.  [typ] is compared first here, which makes no
    difference: To4 and To16 have no effects. *)
Fixpoint outbound_loop (typ : string) (addrs : list ipbytes) : option ipbytes :=
  match addrs with
  | [] => None
  | addr :: rest =>
      match (if String.eqb typ "IPv4" then to4 addr else None) with
      | Some ipv4 => Some ipv4
      | None =>
          match (if String.eqb typ "IPv6" then to16 addr else None) with
          | Some ipv6 => Some ipv6
          | None => outbound_loop typ rest
          end
      end
  end.
(** sarnet.go:86-99 OutboundIP.  [hostname] is os.Hostname and [lookup] net.LookupIP; their
    errors are ignored by the code, which then goes on with "" and no addresses. *)
Definition outbound_ip (hostname : option string) (lookup : string -> option (list ipbytes)) (typ : string) : outcome ipbytes :=
  let host := match hostname with Some h => h | None => "" end in
  let addrs := match lookup host with Some l => l | None => [] end in
  match outbound_loop typ addrs with
  | Some ip => Ret ip
  | None => Fatal
  end.
