(** * Sarnet: the properties

    Statements only; the proofs are in SarnetMain.v. *)
From Verif Require Import GoBase GoFacts Trans Sarnet SpecSarnet SarnetMain.
From Coq Require Import DecimalString DecimalN.
Local Open Scope string_scope.
Local Open Scope N_scope.

(** C77: an address text is accepted exactly when it has two colons or three dots and the
    resolver knows it; the resolver is asked for exactly that text with port 7542. *)
Theorem C77_udp_address : forall resolve s,
  match dialled s with
  | None => exists e, udp_address resolve s = (None, Some e)
  | Some text => match resolve text with
                 | Some a => udp_address resolve s = (Some a, None)
                 | None => exists e, udp_address resolve s = (None, Some e)
                 end
  end.
Proof. exact c77_udp_address. Qed.
Print Assumptions C77_udp_address.
Example C77_ex : forall a,
  udp_address (fun t => if String.eqb t "[fe80::1]:7542" then Some a else None) "fe80::1" = (Some a, None) /\
  udp_address (fun t => if String.eqb t "10.0.0.1:7542" then Some a else None) "10.0.0.1" = (Some a, None) /\
  (exists e, udp_address (fun _ => Some a) "myhost" = (None, Some e)).
Proof. exact c77_ex. Qed.

(** C68: removing an address gives the list without any entry that reads the same, in the
    same order; all memory that existed before, with the list of the caller, is unchanged. *)
Theorem C68_remove : forall grow val H a, slice_ok H a ->
  exists T a', remove_udpaddr_value grow val H a = Ret (Some ((H ++ T)%list, a')) /\
    aview (H ++ T) a' = filter (fun x => negb (String.eqb (udpaddr_string x) (udpaddr_string val))) (aview H a) /\
    aview (H ++ T) a = aview H a.
Proof. exact c68_remove. Qed.
Print Assumptions C68_remove.

(** C68: for the addresses the net package makes, "reads the same" means equal. *)
Theorem C68_same_text : forall a b, proper_address a -> proper_address b ->
  (udpaddr_string a = udpaddr_string b <-> a = b).
Proof. exact c68_same_text. Qed.
Print Assumptions C68_same_text.
Example C68_ex : let a1 := {| ua_ip := "10.0.0.1"; ua_port := 7542; ua_zone := "" |} in
  let a2 := {| ua_ip := "fe80::1"; ua_port := 7542; ua_zone := "eth0" |} in
  let s := {| as_arr := 0; as_off := 0; as_len := 4 |} in
  proper_address a1 /\ proper_address a2 /\ slice_ok [[a1; a2; a1; a1]] s /\
  exists H s', remove_udpaddr_value (fun n => n) a1 [[a1; a2; a1; a1]] s = Ret (Some (H, s')) /\ aview H s' = [a2].
Proof. exact c68_ex. Qed.

(** C78: sizes are exact as long as the file system has fewer than 2^64 bytes; used and
    free always add up to the size modulo 2^64. *)
Theorem C78_usage : forall s, (0 <= sf_bsize s < 2 ^ 63)%Z ->
  let b := Z.to_N (sf_bsize s) in
  (sf_blocks s * b < 2 ^ 64 -> sf_bfree s <= sf_blocks s -> sf_bavail s <= sf_bfree s ->
     du_size s = sf_blocks s * b /\ du_free s = sf_bfree s * b /\ du_available s = sf_bavail s * b /\
     du_used s = (sf_blocks s - sf_bfree s) * b) /\
  (du_used s + du_free s) mod 2 ^ 64 = du_size s /\
  du_size s = (sf_blocks s * b) mod 2 ^ 64 /\ du_free s = (sf_bfree s * b) mod 2 ^ 64 /\
  du_available s = (sf_bavail s * b) mod 2 ^ 64.
Proof. exact c78_usage. Qed.
Print Assumptions C78_usage.
Example C78_ex : let s := {| sf_bsize := 4096; sf_blocks := 1000; sf_bfree := 400; sf_bavail := 300 |} in
  du_used s = 2457600 /\ du_available s = 1228800.
Proof. exact c78_ex. Qed.
