(** * Specification vocabulary for the sockets and files that are open *)

From Verif Require Import GoBase Config Trans Fileio Transfer Sockets.
Local Open Scope string_scope.
Local Open Scope N_scope.

(** The program has just been started *)
Definition fresh (s : ledger) : Prop := is_table (lg_i s) = [] /\ lg_socks s = 0%nat /\ lg_files s = 0%nat /\ lg_beacons s = 0%nat.

(** Transfers with a connection, and with an open file *)
Definition connected (l : list transfer) : nat := List.length (filter (fun t => match tr_conn t with Some _ => true | None => false end) l).
Definition with_file (l : list transfer) : nat := List.length (filter (fun t => match tr_fp t with Some _ => true | None => false end) l).

(** The garbage collector does not run *)
Definition no_collection (hs : list happening) : Prop := forall k m, ~ In (HCollect k m) hs.
(** Beacons are not sent *)
Definition no_beacons (hs : list happening) : Prop := forall h, In h hs -> h <> HBeaconsEnd /\ h <> HBeacons true.

(** The system has [limit] sockets: whoever dials when they are all open does not get one *)
Fixpoint limited (limit : nat) (sardir : string) (hs : list happening) (s : ledger) : Prop :=
  match hs with
  | [] => True
  | h :: r =>
      (match h with
       | HStart E _ _ peer _ => (limit <= lg_socks s)%nat -> ie_dial E peer = false
       | HBeacons dialled => (limit <= lg_socks s)%nat -> dialled = false
       | _ => True
       end) /\
      forall s' l, ld_step sardir s h = Ret (s', l) -> limited limit sardir r s'
  end.
