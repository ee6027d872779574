(** * Outbound: the properties

    Statements only; the proofs are in OutboundMain.v. *)
From Verif Require Import GoBase Outbound SpecOutbound OutboundMain.
Local Open Scope string_scope.
Local Open Scope N_scope.

(** C118: asked for IPv4, it answers the first of the addresses of the host that is one, in four bytes, and
    ends the program if there is none. *)
Theorem C118_v4 : forall hostname lookup,
  (forall a, outbound_ip hostname lookup "IPv4" = Ret a <->
     exists pre ip post, own_addresses hostname lookup = (pre ++ ip :: post)%list /\ is_v4 ip a /\ forall i b, In i pre -> ~ is_v4 i b) /\
  (outbound_ip hostname lookup "IPv4" = Fatal <-> forall ip a, In ip (own_addresses hostname lookup) -> ~ is_v4 ip a) /\
  outbound_ip hostname lookup "IPv4" <> Panic.
Proof. exact c118_v4. Qed.
Print Assumptions C118_v4.

(** C118 (defect): asked for IPv6, it answers the first address whatever its kind: an IPv4 address, mapped into
    IPv6, if that one comes first. *)
Theorem C118_v6 : forall hostname lookup, resolver_ok (own_addresses hostname lookup) ->
  match own_addresses hostname lookup with
  | [] => outbound_ip hostname lookup "IPv6" = Fatal
  | ip :: _ => exists a, outbound_ip hostname lookup "IPv6" = Ret a /\ List.length a = 16%nat /\
                 (List.length ip = 16%nat -> a = ip) /\
                 (List.length ip = 4%nat -> is_v4 a ip)
  end.
Proof. exact c118_v6. Qed.
Print Assumptions C118_v6.

(** C118: any other word ends the program *)
Theorem C118_other : forall hostname lookup typ, typ <> "IPv4" -> typ <> "IPv6" -> outbound_ip hostname lookup typ = Fatal.
Proof. exact c118_other. Qed.
Print Assumptions C118_other.
Example C118_v4_ex : outbound_ip (Some "host") (ex_lookup [ex_v6; [10; 0; 0; 1]]) "IPv4" = Ret [10; 0; 0; 1] /\
  outbound_ip (Some "host") (ex_lookup [ex_v6]) "IPv4" = Fatal /\ is_v4 [10; 0; 0; 1] [10; 0; 0; 1].
Proof. exact c118_v4_ex. Qed.
Example C118_v6_ex : resolver_ok (own_addresses (Some "host") (ex_lookup [[10; 0; 0; 1]; ex_v6])) /\
  outbound_ip (Some "host") (ex_lookup [[10; 0; 0; 1]; ex_v6]) "IPv6" = Ret [0; 0; 0; 0; 0; 0; 0; 0; 0; 0; 255; 255; 10; 0; 0; 1] /\
  outbound_ip (Some "host") (ex_lookup [ex_v6; [10; 0; 0; 1]]) "IPv6" = Ret ex_v6.
Proof. exact c118_v6_ex. Qed.
Example C118_other_ex : outbound_ip (Some "host") (ex_lookup [ex_v6; [10; 0; 0; 1]]) "ipv4" = Fatal /\ "ipv4" <> "IPv4".
Proof. exact c118_other_ex. Qed.
