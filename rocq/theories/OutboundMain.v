From Verif Require Import GoBase Outbound SpecOutbound.
Local Open Scope string_scope.
Local Open Scope N_scope.

Lemma same_bytes_eq : forall a b, same_bytes a b = true <-> a = b.
Proof.
  induction a as [|x a IH]; intros [|y b]; cbn [same_bytes]; try (split; (discriminate || reflexivity)).
  rewrite andb_true_iff, N.eqb_eq, IH. split; [intros [-> ->]; reflexivity|intros E; inversion E; auto].
Qed.
Lemma to4_spec : forall ip a, to4 ip = Some a <-> is_v4 ip a.
Proof.
  intros ip a. unfold to4, is_v4. change [0; 0; 0; 0; 0; 0; 0; 0; 0; 0; 255; 255] with v4_prefix.
  destruct (Nat.eqb_spec (List.length ip) 4) as [L|L].
  - split; [intros E; inversion E; subst; auto|]. intros (LA & [->| ->]); [reflexivity|]. rewrite app_length in L. cbn [v4_prefix List.length] in L. lia.
  - destruct (Nat.eqb_spec (List.length ip) 16) as [L6|L6]; cbn [andb].
    + destruct (same_bytes (firstn 12 ip) v4_prefix) eqn:S.
      * apply same_bytes_eq in S. split.
        -- intros E. assert (E1 : a = skipn 12 ip) by congruence. rewrite E1. split; [rewrite skipn_length; lia|]. right. rewrite <- S. symmetry. apply firstn_skipn.
        -- intros (LA & [->| ->]); [lia|]. reflexivity.
      * split; [discriminate|]. intros (LA & [->| ->]); [lia|]. change (firstn 12 (v4_prefix ++ a)) with v4_prefix in S.
        rewrite (proj2 (same_bytes_eq _ _) eq_refl) in S. discriminate.
    + split; [discriminate|]. intros (LA & [->| ->]); [lia|]. rewrite app_length in L6. cbn [v4_prefix List.length] in L6. lia.
Qed.
Lemma outbound_eq : forall hostname lookup typ, outbound_ip hostname lookup typ =
  match outbound_loop typ (own_addresses hostname lookup) with Some ip => Ret ip | None => Fatal end.
Proof. reflexivity. Qed.
(** C118: asked for IPv4, it answers the first of the addresses of the host that is one, in four bytes, and
    ends the program if there is none. *)
Lemma c118_v4 : forall hostname lookup,
  (forall a, outbound_ip hostname lookup "IPv4" = Ret a <->
     exists pre ip post, own_addresses hostname lookup = (pre ++ ip :: post)%list /\ is_v4 ip a /\ forall i b, In i pre -> ~ is_v4 i b) /\
  (outbound_ip hostname lookup "IPv4" = Fatal <-> forall ip a, In ip (own_addresses hostname lookup) -> ~ is_v4 ip a) /\
  outbound_ip hostname lookup "IPv4" <> Panic.
Proof.
  intros hostname lookup. setoid_rewrite outbound_eq. set (l := own_addresses hostname lookup). clearbody l.
  assert (G : match outbound_loop "IPv4" l with
              | Some a => exists pre ip post, l = (pre ++ ip :: post)%list /\ is_v4 ip a /\ forall i b, In i pre -> ~ is_v4 i b
              | None => forall ip a, In ip l -> ~ is_v4 ip a
              end).
  { induction l as [|x l IH]; [intros ip a []|]. cbn [outbound_loop]. rewrite String.eqb_refl. change (String.eqb "IPv4" "IPv6") with false.
    destruct (to4 x) as [a|] eqn:T.
    - apply to4_spec in T. exists [], x, l. split; [reflexivity|]. split; [exact T|]. intros i b [].
    - assert (NX : forall b, ~ is_v4 x b) by (intros b V; apply to4_spec in V; congruence).
      destruct (outbound_loop "IPv4" l) as [a|].
      + destruct IH as (pre & ip & post & -> & V & N). exists (x :: pre), ip, post. split; [reflexivity|]. split; [exact V|].
        intros i b [<-|I]; [apply NX|apply N; exact I].
      + intros ip a [<-|I]; [apply NX|apply IH; exact I]. }
  destruct (outbound_loop "IPv4" l) as [a0|].
  - destruct G as (pre & ip & post & E & V & N). split; [|split; [|intros X; discriminate]].
    + intros a. split.
      * intros H. inversion H; subst a. exists pre, ip, post. auto.
      * intros (pre' & ip' & post' & E' & V' & N'). f_equal.
        assert (U : forall p1 i1 q1 p2 i2 q2 a1 a2, (p1 ++ i1 :: q1 = p2 ++ i2 :: q2)%list -> is_v4 i1 a1 -> is_v4 i2 a2 ->
                    (forall i b, In i p1 -> ~ is_v4 i b) -> (forall i b, In i p2 -> ~ is_v4 i b) -> a1 = a2).
        { clear. induction p1 as [|y p1 IH]; intros i1 q1 [|z p2] i2 q2 a1 a2 E V1 V2 N1 N2; cbn [app] in E; inversion E; subst.
          - apply to4_spec in V1. apply to4_spec in V2. congruence.
          - exfalso. apply (N2 z a1); [left; reflexivity|exact V1].
          - exfalso. apply (N1 i2 a2); [left; reflexivity|exact V2].
          - eapply IH; eauto; intros; [apply N1|apply N2]; right; auto. }
        rewrite E in E'. exact (U _ _ _ _ _ _ _ _ E' V V' N N').
    + split; [discriminate|]. intros H. exfalso. apply (H ip a0); [rewrite E; apply in_elt|exact V].
  - split; [|split; [split; auto|discriminate]]. intros a. split; [discriminate|]. intros (pre & ip & post & E & V & N). exfalso. apply (G ip a); [rewrite E; apply in_elt|exact V].
Qed.
(** C118 (defect): asked for IPv6, it answers the first address whatever its kind: an IPv4 address, mapped into
    IPv6, if that one comes first. *)
Lemma c118_v6 : forall hostname lookup, resolver_ok (own_addresses hostname lookup) ->
  match own_addresses hostname lookup with
  | [] => outbound_ip hostname lookup "IPv6" = Fatal
  | ip :: _ => exists a, outbound_ip hostname lookup "IPv6" = Ret a /\ List.length a = 16%nat /\
                 (List.length ip = 16%nat -> a = ip) /\
                 (List.length ip = 4%nat -> is_v4 a ip)
  end.
Proof.
  intros hostname lookup R. rewrite !outbound_eq. destruct (own_addresses hostname lookup) as [|ip l]; [reflexivity|].
  cbn [outbound_loop]. change (String.eqb "IPv6" "IPv4") with false. rewrite String.eqb_refl. unfold to16.
  destruct (R ip) as [L|L]; [left; reflexivity| |]; rewrite L; cbn [Nat.eqb]; eexists; (split; [reflexivity|]).
  - split; [rewrite app_length, L; reflexivity|]. split; [intros; lia|]. intros _. split; [exact L|]. right. reflexivity.
  - split; [exact L|]. split; [reflexivity|intros; lia].
Qed.
(** C118: any other word ends the program *)
Lemma c118_other : forall hostname lookup typ, typ <> "IPv4" -> typ <> "IPv6" -> outbound_ip hostname lookup typ = Fatal.
Proof.
  intros hostname lookup typ A B. rewrite outbound_eq. generalize (own_addresses hostname lookup).
  intros l. assert (G : outbound_loop typ l = None); [|rewrite G; reflexivity].
  induction l as [|x l IH]; [reflexivity|]. cbn [outbound_loop]. rewrite (proj2 (String.eqb_neq _ _) A), (proj2 (String.eqb_neq _ _) B). exact IH.
Qed.
(** a host with two addresses: in one order the IPv6 address is found, in the other not *)
Definition ex_v6 : list N := [253; 0; 0; 0; 0; 0; 0; 0; 0; 0; 0; 0; 0; 0; 0; 7].
Definition ex_lookup (l : list (list N)) (h : string) : option (list (list N)) := if String.eqb h "host" then Some l else None.
Example c118_v4_ex : outbound_ip (Some "host") (ex_lookup [ex_v6; [10; 0; 0; 1]]) "IPv4" = Ret [10; 0; 0; 1] /\
  outbound_ip (Some "host") (ex_lookup [ex_v6]) "IPv4" = Fatal /\ is_v4 [10; 0; 0; 1] [10; 0; 0; 1].
Proof. split; [reflexivity|]. split; [reflexivity|]. split; [reflexivity|left; reflexivity]. Qed.
Example c118_v6_ex : resolver_ok (own_addresses (Some "host") (ex_lookup [[10; 0; 0; 1]; ex_v6])) /\
  outbound_ip (Some "host") (ex_lookup [[10; 0; 0; 1]; ex_v6]) "IPv6" = Ret [0; 0; 0; 0; 0; 0; 0; 0; 0; 0; 255; 255; 10; 0; 0; 1] /\
  outbound_ip (Some "host") (ex_lookup [ex_v6; [10; 0; 0; 1]]) "IPv6" = Ret ex_v6.
Proof. split; [|split; reflexivity]. intros ip [<-|[<-|[]]]; cbn; auto. Qed.
Example c118_other_ex : outbound_ip (Some "host") (ex_lookup [ex_v6; [10; 0; 0; 1]]) "ipv4" = Fatal /\ "ipv4" <> "IPv4".
Proof. split; [reflexivity|discriminate]. Qed.
