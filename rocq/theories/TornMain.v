(** * A string that is read while it is assigned *)

From Verif Require Import GoBase Flags Config Shipped Transfer Words Cli Shared SpecShared Torn SpecTorn TornFacts.
From Coq Require Import Lia PeanoNat.
Local Open Scope string_scope.
Local Open Scope N_scope.

(** C164: undisturbed, the command line sets the type that [stamp_set] says, and no other leaves another type *)
Lemma c164_sets : forall args c,
  cl_timestamp (after_command ("timestamp" :: args) c) = match stamp_set ("timestamp" :: args) with Some v => v | None => cl_timestamp c end.
Proof.
  intros args c. unfold after_command. replace (lookup "timestamp" setting_commands) with (Some cmd_timestamp) by (vm_compute; reflexivity).
  destruct args as [|a [|]]; try reflexivity. unfold cmd_timestamp, stamp_set, lookup.
  repeat match goal with |- context [String.eqb a ?x] => destruct (String.eqb_spec a x); [subst a; reflexivity|] end. reflexivity.
Qed.

Lemma nth_hdr_types p0 at_ v0 cmds i : (i <= List.length (values cmds))%nat ->
  exists v p, nth_error (types_set v0 cmds) i = Some v /\ nth_error (places p0 at_ v0 cmds) i = Some p /\
    nth_hdr {| sh_ptr := p0; sh_len := String.length v0 |} (map (literal at_) (values cmds)) i = {| sh_ptr := p; sh_len := String.length v |}.
Proof.
  intros L. unfold types_set, places, nth_hdr. fold (values cmds). destruct i as [|i]; [exists v0, p0; auto|].
  cbn [nth_error tl nth]. unfold types_set. cbn [tl]. fold (values cmds).
  destruct (nth_error (values cmds) i) as [v|] eqn:E; [|apply nth_error_None in E; lia].
  exists v, (at_ v). split; [reflexivity|]. split; [now apply map_nth_error|].
  erewrite nth_error_nth; [|now apply map_nth_error, E]. reflexivity.
Qed.
(** C164: the types that a transfer may take which is started while commands change the type are exactly these: the bytes at the
    place of one of the types that were set, as many as another of them has, the two being restricted only by the order in which
    the two words are accessed *)
Lemma c164_exact : forall mem first_w first_r at_ p0 v0 cmds t,
  (exists sched, copied_text mem (copy_run sched (copy_begin first_w first_r at_ {| sh_ptr := p0; sh_len := String.length v0 |} cmds)) = Some t) <->
  (exists i j p v, nth_error (places p0 at_ v0 cmds) i = Some p /\ nth_error (types_set v0 cmds) j = Some v /\ together first_w first_r i j /\
     t = bytes_of mem {| sh_ptr := p; sh_len := String.length v |}).
Proof.
  intros mem first_w first_r at_ p0 v0 cmds t. set (h0 := {| sh_ptr := p0; sh_len := String.length v0 |}). set (hs := map (literal at_) (values cmds)).
  assert (LH : List.length hs = List.length (values cmds)) by apply map_length.
  assert (B : copy_begin first_w first_r at_ h0 cmds = at_step first_w h0 hs 0 (both first_r) {| sh_ptr := 0; sh_len := 0 |}).
  { unfold copy_begin, at_step. rewrite to_write_values. cbn [skipn]. f_equal. destruct first_w; reflexivity. }
  rewrite B. pose proof (fun r => copies first_w h0 hs first_r {| sh_ptr := 0; sh_len := 0 |} r) as C. cbn zeta in C. split.
  - intros (sched & E). unfold copied_text in E. destruct (cy_read _) eqn:R in E; [|discriminate]. inversion E as [T].
    destruct (proj1 (C _) (ex_intro _ sched (conj R eq_refl))) as (i & j & I & J & G & ->).
    rewrite LH in I, J. destruct (nth_hdr_types p0 at_ v0 cmds i I) as (v & p & _ & P & N). destruct (nth_hdr_types p0 at_ v0 cmds j J) as (w & q & W & _ & M).
    exists i, j, p, w. split; [exact P|]. split; [exact W|]. split; [exact G|]. unfold hs, h0. rewrite N, M. reflexivity.
  - intros (i & j & p & w & P & W & G & ->).
    assert (I : (i <= List.length (values cmds))%nat).
    { assert (X : nth_error (places p0 at_ v0 cmds) i <> None) by congruence. apply nth_error_Some in X. unfold places in X. cbn [List.length] in X. rewrite map_length in X.
      unfold types_set in X. cbn [tl] in X. fold (values cmds) in X. lia. }
    assert (J : (j <= List.length (values cmds))%nat).
    { assert (X : nth_error (types_set v0 cmds) j <> None) by congruence. apply nth_error_Some in X. unfold types_set in X. cbn [List.length] in X. fold (values cmds) in X. lia. }
    destruct (nth_hdr_types p0 at_ v0 cmds i I) as (v & p' & _ & P' & N). destruct (nth_hdr_types p0 at_ v0 cmds j J) as (w' & q & W' & _ & M).
    assert (p' = p) as -> by congruence. assert (w' = w) as -> by congruence.
    destruct (proj2 (C {| sh_ptr := p; sh_len := String.length w |})) as (sched & R & E).
    { exists i, j. rewrite LH. split; [exact I|]. split; [exact J|]. split; [exact G|]. fold h0 hs in N, M. now rewrite N, M. }
    exists sched. unfold copied_text. now rewrite R, E.
Qed.

Lemma bytes_length mem h : String.length (bytes_of mem h) = sh_len h.
Proof.
  unfold bytes_of. replace (sh_len h) with (List.length (map (fun i => mem (sh_ptr h + i)%nat) (seq 0 (sh_len h)))) at 2 by (now rewrite map_length, seq_length).
  generalize (map (fun i => mem (sh_ptr h + i)%nat) (seq 0 (sh_len h))). induction l as [|a r IH]; cbn; [reflexivity|now rewrite IH].
Qed.
Lemma bytes_app mem p a b : bytes_of mem {| sh_ptr := p; sh_len := a + b |} = bytes_of mem {| sh_ptr := p; sh_len := a |} ++ bytes_of mem {| sh_ptr := p + a; sh_len := b |}.
Proof.
  unfold bytes_of. cbn [sh_ptr sh_len]. rewrite seq_app, map_app. cbn [Nat.add].
  assert (A : forall l r, string_of_list_ascii (l ++ r)%list = string_of_list_ascii l ++ string_of_list_ascii r).
  { induction l as [|x l IH]; intros r; [reflexivity|]. cbn. now rewrite IH. }
  rewrite A. f_equal. f_equal.
  assert (M : forall s, map (fun i => a + i)%nat (seq s b) = seq (a + s) b).
  { induction b as [|b IH]; intros s; [reflexivity|]. cbn [seq map]. rewrite IH. now rewrite Nat.add_succ_r. }
  rewrite <- (Nat.add_0_r a) at 1. rewrite <- M, map_map. apply map_ext. intros i. f_equal. lia.
Qed.
Lemma append_prefix : forall a b c d, a ++ b = c ++ d -> String.length a = String.length c -> a = c.
Proof.
  induction a as [|x a IH]; intros b [|y c] d E L; cbn in *; try discriminate; [reflexivity|]. inversion E; subst y. f_equal. eapply IH; eauto.
Qed.
(** C164: with a length that is not above that of the type which is there, the transfer takes the first bytes of that type; with a
    greater one it takes all of it and then whatever the memory has behind *)
Lemma c164_bytes : forall mem p v n, has_text mem p v ->
  let t := bytes_of mem {| sh_ptr := p; sh_len := n |} in
  ((n <= String.length v)%nat -> exists rest, v = t ++ rest) /\
  ((String.length v <= n)%nat -> t = v ++ bytes_of mem {| sh_ptr := p + String.length v; sh_len := n - String.length v |}).
Proof.
  intros mem p v n H t. unfold has_text in H. split; intros L.
  - exists (bytes_of mem {| sh_ptr := p + n; sh_len := String.length v - n |}). unfold t. rewrite <- bytes_app. replace (n + (String.length v - n))%nat with (String.length v) by lia. now symmetry.
  - unfold t. replace n with (String.length v + (n - String.length v))%nat at 1 by lia. rewrite bytes_app, H. reflexivity.
Qed.
(** C164: if all the types that are set are of one length, the transfer takes one of them *)
Lemma c164_equal : forall mem first_w first_r at_ p0 v0 cmds sched t,
  has_text mem p0 v0 -> (forall v, In v (tl (types_set v0 cmds)) -> has_text mem (at_ v) v /\ String.length v = String.length v0) ->
  copied_text mem (copy_run sched (copy_begin first_w first_r at_ {| sh_ptr := p0; sh_len := String.length v0 |} cmds)) = Some t ->
  In t (types_set v0 cmds).
Proof.
  intros mem first_w first_r at_ p0 v0 cmds sched t H0 H E.
  destruct (proj1 (c164_exact mem first_w first_r at_ p0 v0 cmds t) (ex_intro _ sched E)) as (i & j & p & v & P & V & _ & ->).
  assert (LV : String.length v = String.length v0).
  { destruct j as [|j]; [cbn in V; congruence|]. apply (H v). cbn in V. eapply nth_error_In, V. }
  rewrite LV. destruct i as [|i].
  - cbn in P. inversion P; subst p. rewrite H0. now left.
  - cbn [places nth_error] in P. destruct (nth_error (tl (types_set v0 cmds)) i) as [w|] eqn:W.
    + rewrite (map_nth_error at_ _ _ W) in P. inversion P; subst p. apply nth_error_In in W. destruct (H w W) as [T L]. rewrite <- L, T. now right.
    + apply nth_error_None in W. assert (X : nth_error (map at_ (tl (types_set v0 cmds))) i <> None) by congruence. apply nth_error_Some in X. rewrite map_length in X. lia.
Qed.
(** C164: in whatever order the words are accessed, one change between 32-bit seconds and 64-bit seconds with nanoseconds lets a
    transfer take 64-bit seconds, which is a type that nobody set *)
Lemma c164_foreign : forall mem at_ first_w first_r,
  (forall v, In v ["posix32"; "posix64_32"] -> has_text mem (at_ v) v) ->
  exists v0 cmd sched, In v0 ["posix32"; "posix64_32"] /\ In cmd ["32"; "64_32"] /\ ~ In "posix64" (types_set v0 [["timestamp"; cmd]]) /\
    copied_text mem (copy_run sched (copy_begin first_w first_r at_ (literal at_ v0) [["timestamp"; cmd]])) = Some "posix64".
Proof.
  intros mem at_ first_w first_r H.
  assert (T : bytes_of mem {| sh_ptr := at_ "posix64_32"; sh_len := 7 |} = "posix64").
  { assert (X : has_text mem (at_ "posix64_32") "posix64_32") by (apply H; right; now left).
    destruct (proj1 (c164_bytes mem _ _ 7%nat X) ltac:(cbn; lia)) as (rest & R).
    symmetry. apply (append_prefix "posix64" "_32" _ rest); [exact R|]. now rewrite bytes_length. }
  destruct first_w, first_r.
  1, 2, 4: exists "posix32", "64_32";
    match goal with |- context [copy_begin ?w ?r _ _ _] => destruct (proj2 (c164_exact mem w r at_ (at_ "posix32") "posix32" [["timestamp"; "64_32"]] "posix64")) as (sched & S) end;
    [exists 1%nat, 0%nat, (at_ "posix64_32"), "posix32"; split; [reflexivity|]; split; [reflexivity|]; split; [cbn [together]; lia|symmetry; exact T]|
     exists sched; split; [now left|]; split; [right; now left|]; split; [|exact S]; cbn; intros [X|[X|[]]]; discriminate].
  exists "posix64_32", "32". destruct (proj2 (c164_exact mem Size Where at_ (at_ "posix64_32") "posix64_32" [["timestamp"; "32"]] "posix64")) as (sched & S).
  - exists 0%nat, 1%nat, (at_ "posix64_32"), "posix32". split; [reflexivity|]. split; [reflexivity|]. split; [cbn [together]; lia|symmetry; exact T].
  - exists sched. split; [right; now left|]. split; [now left|]. split; [|exact S]. cbn. intros [X|[X|[]]]; discriminate.
Qed.
(** A memory with two of the types, and what a transfer may take from it *)
Definition ex_mem (a : nat) : byte := nth a (list_ascii_of_string "posix32posix64_32localinterp") zero.
Definition ex_at (v : string) : nat := if String.eqb v "posix64_32" then 7%nat else if String.eqb v "localinterp" then 17%nat else 0%nat.
Example c164_foreign_ex :
  (forall v, In v ["posix32"; "posix64_32"] -> has_text ex_mem (ex_at v) v) /\
  copied_text ex_mem (copy_run [true; false; true; false] (copy_begin Size Where ex_at (literal ex_at "posix64_32") [["timestamp"; "32"]])) = Some "posix64".
Proof. split; [intros v [<-|[<-|[]]]; vm_compute; reflexivity|vm_compute; reflexivity]. Qed.
Example c164_exact_ex :
  copied_text ex_mem (copy_run [false; true; true; true; true; false] (copy_begin Size Where ex_at (literal ex_at "posix32") [["timestamp"; "64_32"]; ["timestamp"; "?"]; ["timestamp"; "local"]])) = Some "posix32posi".
Proof. vm_compute. reflexivity. Qed.
Example c164_equal_ex :
  has_text ex_mem 0 "posix32" /\ (forall v, In v (tl (types_set "posix32" [["timestamp"; "32"]; ["timestamp"; "off"]])) -> has_text ex_mem (ex_at v) v /\ String.length v = String.length "posix32").
Proof. split; [vm_compute; reflexivity|]. intros v [<-|[]]. split; vm_compute; reflexivity. Qed.
