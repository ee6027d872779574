(** * Power: the properties

    Statements only; the proofs are in PowerMain.v. *)
From Verif Require Import GoBase GoFacts Timestamp Fileio SpecFileio FileioFacts FileioMain SpecHandles HandlesFacts Partial PartialMain Crash SpecCrash CrashMain Power SpecPower DirentMain PowerMain.
Local Open Scope string_scope.
Local Open Scope N_scope.

(** C163: when the power fails, at any moment, a byte of the file on the disk is one that the file had there at some moment of receiving,
    or a zero behind the end of what was there before; and the file is no shorter than before and no longer than received. *)
Theorem C163_sound : forall now cwd evs fs f l c fs' p d, receives fs f c -> in_bounds l -> never_fails (calls evs) ->
  power_run now cwd (of_path f) evs ((fs, Between f l), c) = ((fs', p), d) ->
  (List.length c <= List.length d)%nat /\ (exists c', content_of fs' (of_path f) = Some c' /\ (List.length d <= List.length c')%nat) /\
  forall i b, nth_error d i = Some b ->
    (exists l', cut_off l l' /\ nth_error (written_all c l') i = Some b) \/ ((List.length c <= i)%nat /\ b = ascii_of_N 0).
Proof. exact c163_sound. Qed.
Print Assumptions C163_sound.

(** C163: even after all of the chunks were written without an error and the file was closed, the disk may hold any of them and none of
    the others: all, none, or the later ones without the earlier. *)
Theorem C163_lost : forall now cwd fs f l l' c, receives fs f c -> in_bounds l -> some_of l l' ->
  exists evs fs', never_fails (calls evs) /\ content_of fs' (of_path f) = Some (written_all c l) /\
    power_run now cwd (of_path f) evs ((fs, Between f l), c) = ((fs', Through), written_all c l').
Proof. exact c163_lost. Qed.
Print Assumptions C163_lost.

(** C163: a file whose bytes are all written back after the last call is on the disk as it was received. *)
Theorem C163_kept : forall now cwd evs fs f l c fs' p d c', receives fs f c -> in_bounds l -> never_fails (calls evs) ->
  power_run now cwd (of_path f) evs ((fs, Between f l), c) = ((fs', p), d) -> content_of fs' (of_path f) = Some c' ->
  power_run now cwd (of_path f) (evs ++ map EBack (seq 0 (List.length c'))) ((fs, Between f l), c) = ((fs', p), c').
Proof. exact c163_kept. Qed.
Print Assumptions C163_kept.
Example C163_ex :
  receives exw_fs exw_file [] /\ in_bounds exw_chunks /\ some_of exw_chunks [(2, bytes_of "cd")] /\
  (let evs := [ECall (Did 1); ECall (Did 2); ECall (Did 1); ECall (Did 2); EBack 3; EBack 2; ECall (Did 1)] in
   never_fails (calls evs) /\
   exists fs', power_run ex_time [] ["a"] evs (exw_fs, Between exw_file exw_chunks, []) =
                 (fs', Through, (repeat (ascii_of_N 0) 2 ++ bytes_of "cd")%list) /\ content_of fs' ["a"] = Some (bytes_of "abcd")) /\
  written_all [] [(2, bytes_of "cd")] = (repeat (ascii_of_N 0) 2 ++ bytes_of "cd")%list.
Proof. exact c163_ex. Qed.
