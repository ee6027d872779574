(** * Torn: the properties

    Statements only; the proofs are in TornMain.v. *)
From Verif Require Import GoBase Flags Config Shipped Transfer Words Cli Shared SpecShared Torn SpecTorn TornFacts TornMain.
From Coq Require Import Lia PeanoNat.
Local Open Scope string_scope.
Local Open Scope N_scope.

(** C164: undisturbed, the command line sets the type that [stamp_set] says, and no other leaves another type *)
Theorem C164_sets : forall args c,
  cl_timestamp (after_command ("timestamp" :: args) c) = match stamp_set ("timestamp" :: args) with Some v => v | None => cl_timestamp c end.
Proof. exact c164_sets. Qed.
Print Assumptions C164_sets.

(** C164: the types that a transfer may take which is started while commands change the type are exactly these: the bytes at the
    place of one of the types that were set, as many as another of them has, the two being restricted only by the order in which
    the two words are accessed *)
Theorem C164_exact : forall mem first_w first_r at_ p0 v0 cmds t,
  (exists sched, copied_text mem (copy_run sched (copy_begin first_w first_r at_ {| sh_ptr := p0; sh_len := String.length v0 |} cmds)) = Some t) <->
  (exists i j p v, nth_error (places p0 at_ v0 cmds) i = Some p /\ nth_error (types_set v0 cmds) j = Some v /\ together first_w first_r i j /\
     t = bytes_of mem {| sh_ptr := p; sh_len := String.length v |}).
Proof. exact c164_exact. Qed.
Print Assumptions C164_exact.

(** C164: with a length that is not above that of the type which is there, the transfer takes the first bytes of that type; with a
    greater one it takes all of it and then whatever the memory has behind *)
Theorem C164_bytes : forall mem p v n, has_text mem p v ->
  let t := bytes_of mem {| sh_ptr := p; sh_len := n |} in
  ((n <= String.length v)%nat -> exists rest, v = t ++ rest) /\
  ((String.length v <= n)%nat -> t = v ++ bytes_of mem {| sh_ptr := p + String.length v; sh_len := n - String.length v |}).
Proof. exact c164_bytes. Qed.
Print Assumptions C164_bytes.

(** C164: if all the types that are set are of one length, the transfer takes one of them *)
Theorem C164_equal : forall mem first_w first_r at_ p0 v0 cmds sched t,
  has_text mem p0 v0 -> (forall v, In v (tl (types_set v0 cmds)) -> has_text mem (at_ v) v /\ String.length v = String.length v0) ->
  copied_text mem (copy_run sched (copy_begin first_w first_r at_ {| sh_ptr := p0; sh_len := String.length v0 |} cmds)) = Some t ->
  In t (types_set v0 cmds).
Proof. exact c164_equal. Qed.
Print Assumptions C164_equal.

(** C164: in whatever order the words are accessed, one change between 32-bit seconds and 64-bit seconds with nanoseconds lets a
    transfer take 64-bit seconds, which is a type that nobody set *)
Theorem C164_foreign : forall mem at_ first_w first_r,
  (forall v, In v ["posix32"; "posix64_32"] -> has_text mem (at_ v) v) ->
  exists v0 cmd sched, In v0 ["posix32"; "posix64_32"] /\ In cmd ["32"; "64_32"] /\ ~ In "posix64" (types_set v0 [["timestamp"; cmd]]) /\
    copied_text mem (copy_run sched (copy_begin first_w first_r at_ (literal at_ v0) [["timestamp"; cmd]])) = Some "posix64".
Proof. exact c164_foreign. Qed.
Print Assumptions C164_foreign.
Example C164_foreign_ex :
  (forall v, In v ["posix32"; "posix64_32"] -> has_text ex_mem (ex_at v) v) /\
  copied_text ex_mem (copy_run [true; false; true; false] (copy_begin Size Where ex_at (literal ex_at "posix64_32") [["timestamp"; "32"]])) = Some "posix64".
Proof. exact c164_foreign_ex. Qed.
Example C164_exact_ex :
  copied_text ex_mem (copy_run [false; true; true; true; true; false] (copy_begin Size Where ex_at (literal ex_at "posix32") [["timestamp"; "64_32"]; ["timestamp"; "?"]; ["timestamp"; "local"]])) = Some "posix32posi".
Proof. exact c164_exact_ex. Qed.
Example C164_equal_ex :
  has_text ex_mem 0 "posix32" /\ (forall v, In v (tl (types_set "posix32" [["timestamp"; "32"]; ["timestamp"; "off"]])) -> has_text ex_mem (ex_at v) v /\ String.length v = String.length "posix32").
Proof. exact c164_equal_ex. Qed.
