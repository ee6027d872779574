(** * Handles: the properties

    Statements only; the proofs are in HandlesMain.v. *)
From Verif Require Import GoBase GoFacts Flags Timestamp TimeMain Holes SpecHoles SpecWire Dirent SpecDirent DirentMain Fileio SpecFileio FileioFacts FileioMain Handles SpecHandles HandlesFacts HandlesMain.
Local Open Scope string_scope.
Local Open Scope N_scope.

(** C149: after any history of calls - opening, reading, writing, closing and removing, through
    any handles - the content of the file of a handle is what it was, changed by the writes that
    succeeded through handles of that file and emptied by the openings for receiving that gave
    another handle of that file, in this order, and by nothing else. *)
Theorem C149_history : forall sardir w l w' rs i c, came_about sardir w -> Forall uint64_op l -> hrun sardir w l = Ret (w', rs) ->
  contents w i = Some c ->
  contents w' i = Some (fold_left (told (one_file w' i)) (combine l rs) c).
Proof. exact c149_history. Qed.
Print Assumptions C149_history.

(** C149: two handles are of one file for ever or never. *)
Theorem C149_same : forall sardir w l w' rs i j, came_about sardir w -> Forall uint64_op l -> hrun sardir w l = Ret (w', rs) ->
  (i < handed_out w)%nat -> (j < handed_out w)%nat -> one_file w' i j = one_file w i j.
Proof. exact c149_same. Qed.
Print Assumptions C149_same.

(** C149: a read through an open handle gives the bytes at the position asked for, whatever the
    handle, or another handle of the file, was used for before, and changes nothing. *)
Theorem C149_read : forall sardir w i pos blen c, is_open w i = true -> contents w i = Some c -> pos < 2 ^ 63 ->
  exists w', hstep sardir w (HRead (Some i) pos (Z.of_nat blen)) =
    Ret (w', RRead (if Nat.eqb blen 0 then Some []
                    else if Nat.ltb (N.to_nat pos) (List.length c) then Some (firstn blen (skipn (N.to_nat pos) c))
                    else None)) /\
    (forall j, contents w' j = contents w j) /\ w_fs w' = w_fs w.
Proof. exact c149_read. Qed.
Print Assumptions C149_read.

(** C149: a write succeeds exactly through an open handle that was opened for receiving, at a
    position below 2^63; then all handles of that file, and no others, have the new content;
    otherwise nothing has changed. *)
Theorem C149_write : forall sardir w i pos buf c, came_about sardir w -> contents w i = Some c -> pos < 2 ^ 64 ->
  let ok := is_open w i && writable w i && (pos <? 2 ^ 63) in
  exists w', hstep sardir w (HWrite (Some i) pos buf) = Ret (w', RWrote (if ok then Some (List.length buf) else None)) /\
    forall j, contents w' j = if ok && one_file w i j then Some (written c (N.to_nat pos) buf) else contents w j.
Proof. exact c149_write. Qed.
Print Assumptions C149_write.

(** C149: a file opened for receiving that was not there, or was a regular file, is empty, and
    a file opened for sending has the content it has on the disk; the handle is a new one. *)
Theorem C149_opened : forall sardir w now ok fname ttype w' j e, hstep sardir w (HOpen now ok fname ttype) = Ret (w', ROpened (Some j) e) ->
  e = false /\ j = handed_out w /\ handed_out w' = Datatypes.S j /\ is_open w' j = true /\ name_of w' j = Some (sardir ++ "/" ++ fname) /\
  exists p, named w' j p /\ resolve_follow (w_fs w) (w_cwd w) (sardir ++ "/" ++ fname) = inl p /\
    ((In ttype ["get"; "take"] /\ writable w' j = true /\
      (content_of (w_fs w) p <> None \/ fs_get p (w_fs w) = None -> contents w' j = Some [])) \/
     (In ttype ["put"; "give"] /\ writable w' j = false /\ contents w' j = content_of (w_fs w) p)).
Proof. exact c149_opened. Qed.
Print Assumptions C149_opened.

(** C150: a handle that was handed out is open as long as it was not closed, through FileClose or
    FileDelete, however often anything else was done. *)
Theorem C150_open : forall sardir w l w' rs i, came_about sardir w -> Forall uint64_op l -> hrun sardir w l = Ret (w', rs) ->
  (i < handed_out w)%nat -> is_open w' i = is_open w i && negb (existsb (closes i) l).
Proof. exact c150_open. Qed.
Print Assumptions C150_open.

(** C150: every read, write and close through a handle that is closed reports an error, for ever. *)
Theorem C150_closed : forall sardir l w w' rs i, came_about sardir w -> Forall uint64_op l -> hrun sardir w l = Ret (w', rs) ->
  (i < handed_out w)%nat -> is_open w i = false ->
  forall o r, In (o, r) (combine l rs) -> uses i o = true -> error_res r.
Proof. exact c150_closed. Qed.
Print Assumptions C150_closed.

(** C150: closing reports success exactly if the handle is open; nothing else changes. *)
Theorem C150_close : forall sardir w i, exists w', hstep sardir w (HClose (Some i)) = Ret (w', RDone (is_open w i)) /\
  w_fs w' = w_fs w /\ is_open w' i = false /\ (forall j, j <> i -> is_open w' j = is_open w j) /\
  (came_about sardir w -> forall j, contents w' j = contents w j).
Proof. exact c150_close. Qed.
Print Assumptions C150_close.

(** C150: with nil in place of a file everything is an error and nothing changes; a read of fewer
    than 0 bytes panics even then. *)
Theorem C150_nil : forall sardir w pos blen buf,
  hstep sardir w (HRead None pos blen) = (if (blen <? 0)%Z then Panic else Ret (w, RRead None)) /\
  hstep sardir w (HWrite None pos buf) = Ret (w, RWrote None) /\
  hstep sardir w (HClose None) = Ret (w, RDone false) /\
  hstep sardir w (HDelete None) = Ret (w, RDone false).
Proof. exact c150_nil. Qed.
Print Assumptions C150_nil.

(** C150: removing a name that leads to a file leaves the open handles of the file open and with
    their content, but without a name. *)
Theorem C150_removed : forall sardir w fname w', came_about sardir w -> hstep sardir w (HRm fname) = Ret (w', RDone true) ->
  exists p, resolve (w_fs w) (w_cwd w) (sardir ++ "/" ++ fname) = inl p /\ fs_get p (w_fs w') = None /\ unchanged_except p (w_fs w) (w_fs w') /\
    (forall i, contents w' i = contents w i /\ is_open w' i = is_open w i) /\
    (forall i, named w i p -> nameless w' i) /\ (forall i q, q <> p -> (named w' i q <-> named w i q)).
Proof. exact c150_removed. Qed.
Print Assumptions C150_removed.

(** C150: a file without a name never gets one again: it stays so, no handle opened later is of that
    file, and writing to it changes no file that has a name. *)
Theorem C150_nameless : forall sardir l w w' rs i, came_about sardir w -> Forall uint64_op l -> hrun sardir w l = Ret (w', rs) -> nameless w i ->
  nameless w' i /\ (forall j, (handed_out w <= j)%nat -> one_file w' i j = false) /\
  (forall pos buf w2 r, hstep sardir w (HWrite (Some i) pos buf) = Ret (w2, r) -> w_fs w2 = w_fs w).
Proof. exact c150_nameless. Qed.
Print Assumptions C150_nameless.

(** C150: FileDelete of a file that was opened by a name is FileClose and then FileRm of the name
    fp.Name() gives, whatever happened in between - and that is sardir/name, so FileRm looks for
    sardir/sardir/name. *)
Theorem C150_delete : forall sardir w now ok fname ttype w1 i e l w2 rs w3 r, came_about sardir w ->
  hstep sardir w (HOpen now ok fname ttype) = Ret (w1, ROpened (Some i) e) -> Forall uint64_op l -> hrun sardir w1 l = Ret (w2, rs) ->
  hstep sardir w2 (HDelete (Some i)) = Ret (w3, r) ->
  exists r1, hrun sardir w2 [HClose (Some i); HRm (sardir ++ "/" ++ fname)] = Ret (w3, [r1; r]).
Proof. exact c150_delete. Qed.
Print Assumptions C150_delete.

(** C150: so with an ordinary absolute sardir FileDelete always reports an error and removes
    nothing, but the file is closed. *)
Theorem C150_delete_never : forall c1 rest w now ok fname ttype w1 i e l w2 rs,
  let sardir := abs_name (c1 :: rest) in
  (forall c, In c (c1 :: rest) -> plain c) -> came_about sardir w ->
  hstep sardir w (HOpen now ok fname ttype) = Ret (w1, ROpened (Some i) e) -> Forall uint64_op l -> hrun sardir w1 l = Ret (w2, rs) ->
  fs_get ((c1 :: rest) ++ [c1])%list (w_fs w2) = None ->
  exists w3, hstep sardir w2 (HDelete (Some i)) = Ret (w3, RDone false) /\ w_fs w3 = w_fs w2 /\ is_open w3 i = false.
Proof. exact c150_delete_never. Qed.
Print Assumptions C150_delete_never.

(** C150: opening for receiving a name whose file is open empties that file under the handle. *)
Theorem C150_emptied : forall sardir w now ok fname ttype p i c, came_about sardir w -> In ttype ["get"; "take"] ->
  resolve_follow (w_fs w) (w_cwd w) (sardir ++ "/" ++ fname) = inl p -> doubled_exists (w_fs w) (w_cwd w) sardir fname = false ->
  named w i p -> contents w i = Some c ->
  exists w', hstep sardir w (HOpen now ok fname ttype) = Ret (w', ROpened (Some (handed_out w)) false) /\
    contents w' i = Some [] /\ one_file w' i (handed_out w) = true.
Proof. exact c150_emptied. Qed.
Print Assumptions C150_emptied.
Example C149_ex : came_about ex_sar ex_world /\ contents ex_world 0 = Some (bytes_of "ab" ++ [ascii_of_N 0] ++ bytes_of "xy")%list /\
  contents ex_world 2 = Some [] /\ one_file ex_world 0 1 = true /\ one_file ex_world 0 2 = false /\
  map (is_open ex_world) [0%nat; 1%nat; 2%nat] = [false; false; true] /\ writable ex_world 2 = true.
Proof. exact c149_ex. Qed.
Example C150_ex : nameless ex_world 0 /\ named ex_world 2 ["Users"; "chas"; "sardir"; "new"] /\
  (forall c, In c ["Users"; "chas"; "sardir"] -> plain c) /\ ex_sar = abs_name ["Users"; "chas"; "sardir"] /\
  fs_get ["Users"; "chas"; "sardir"; "Users"] (w_fs ex_world) = None /\
  resolve_follow (w_fs ex_world) (w_cwd ex_world) (ex_sar ++ "/new") = inl ["Users"; "chas"; "sardir"; "new"] /\
  doubled_exists (w_fs ex_world) (w_cwd ex_world) ex_sar "new" = false.
Proof. exact c150_ex. Qed.
