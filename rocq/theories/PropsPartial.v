(** * Partial: the properties

    Statements only; the proofs are in PartialMain.v. *)
From Verif Require Import GoBase GoFacts Fileio SpecFileio FileioFacts SpecHoles Handles SpecHandles HandlesFacts Partial SpecPartial PartialMain.
Local Open Scope string_scope.
Local Open Scope N_scope.

(** C156: whatever the system does, a write through an open file changes at most a prefix of the bytes in their place, and the number
    it returns is the length of this prefix; without an error this is all of them, with an error (and bytes to write) it is fewer. *)
Theorem C156_write : forall answers f pos buf c, opened f c -> pf_write f = true -> pos < 2 ^ 63 ->
  exists f' n e, p_filewrite answers f pos buf = (f', (n, e)) /\ (n <= List.length buf)%nat /\
    opened f' (written c (N.to_nat pos) (firstn n buf)) /\ pf_write f' = true /\
    (e = false -> n = List.length buf) /\ (e = true -> buf <> [] -> (n < List.length buf)%nat).
Proof. exact c156_write. Qed.
Print Assumptions C156_write.

(** C156: a system that does what it is asked to lets every write succeed; one that fails at once, or writes nothing, lets every write
    of one byte or more fail without a change. *)
Theorem C156_extremes : forall f pos buf c, opened f c -> pf_write f = true -> pos < 2 ^ 63 ->
  (exists f', p_filewrite [] f pos buf = (f', (List.length buf, false)) /\ opened f' (written c (N.to_nat pos) buf)) /\
  (forall a rest, a = Failed \/ a = Did 0 -> buf <> [] ->
     exists f', p_filewrite (a :: rest) f pos buf = (f', (0%nat, true)) /\ opened f' c).
Proof. exact c156_extremes. Qed.
Print Assumptions C156_extremes.

(** C156: a file that is closed, not opened for writing, or a position of 2^63 or more: nothing is written and there is an error. *)
Theorem C156_refused : forall answers f pos buf, pf_open f = false \/ pf_write f = false \/ 2 ^ 63 <= pos -> pos < 2 ^ 64 ->
  exists f', p_filewrite answers f pos buf = (f', (0%nat, true)) /\ pf_content f' = pf_content f.
Proof. exact c156_refused. Qed.
Print Assumptions C156_refused.

(** C156: after an error, writing what was not written behind what was, as often as there is an error, leaves in the file exactly what
    one write without an error would have left, whatever the system did. *)
Theorem C156_persists : forall f pos buf f' c, persists f pos buf f' -> opened f c -> pf_write f = true ->
  pos + N.of_nat (List.length buf) < 2 ^ 64 -> opened f' (written c (N.to_nat pos) buf).
Proof. exact c156_persists. Qed.
Print Assumptions C156_persists.

(** C156: whatever the system does, a read of an open file gives bytes of the file from the position on, at most as many as were asked
    for and at least one (unless none were asked for), and there is an error exactly if the system fails or the position is at the
    end or behind it.  The file does not change.  It may be fewer than were asked for although there are more. *)
Theorem C156_read : forall a f pos blen c, opened f c -> pos < 2 ^ 63 ->
  exists f' r, p_fileread a f pos (Z.of_nat blen) = Ret (f', r) /\ opened f' c /\ pf_write f' = pf_write f /\
    (r = None <-> (0 < blen)%nat /\ (a = Failed \/ (List.length c <= N.to_nat pos)%nat)) /\
    forall b, r = Some b -> b = firstn (List.length b) (skipn (N.to_nat pos) c) /\ (List.length b <= blen)%nat /\ ((0 < blen)%nat -> b <> []) /\
      forall k, a = Did k -> List.length b = Nat.min (Nat.max 1 k) (Nat.min blen (List.length c - N.to_nat pos)).
Proof. exact c156_read. Qed.
Print Assumptions C156_read.

(** C156: reading on behind what was read, whatever the sizes asked for and given, until there is an error, gives the bytes of the file
    in order: up to some point; up to the end if the system did not fail. *)
Theorem C156_reads : forall f pos got c, reads_on f pos got -> opened f c -> N.of_nat (List.length c) < 2 ^ 63 -> pos < 2 ^ 63 ->
  exists n, got = firstn n (skipn (N.to_nat pos) c).
Proof. exact c156_reads. Qed.
Print Assumptions C156_reads.

(** C156: without failing system calls, reading on until there is an error gives all the rest of the file. *)
Theorem C156_reads_all : forall f pos got c, reads_well f pos got -> opened f c -> N.of_nat (List.length c) < 2 ^ 63 -> pos < 2 ^ 63 ->
  got = skipn (N.to_nat pos) c.
Proof. exact c156_reads_all. Qed.
Print Assumptions C156_reads_all.

(** C156: chunks of a source written to an open file, each once, in any order, on a system that may fail or write less: every byte that
    was reported as written is that of the source, whatever became of the others. *)
Theorem C156_collects : forall src f l rs f' c, collects f l rs f' -> opened f c -> pf_write f = true ->
  (forall k, In k l -> true_chunk src k /\ fst k < 2 ^ 63) ->
  exists c', opened f' c' /\ (forall i, received rs (Z.of_nat i) -> nth_error c' i = nth_error src i) /\
    forall i, ~ received rs (Z.of_nat i) -> (i < List.length c)%nat -> nth_error c' i = nth_error c i.
Proof. exact c156_collects. Qed.
Print Assumptions C156_collects.

(** C157: two calls on one open file at once, each a read or a write.  When both are at their end, what is in the file and what they
    returned is as if one had come after the other, each at its own place - or one after the other, but both at the place that one
    of them (whichever) had asked for: the first there, the second right behind the first.  There is a schedule for each of these. *)
Theorem C157_two : forall f c x y c' rx ry, opened f c -> in_reach x -> in_reach y ->
  ((exists sched f', two_calls x y sched (f, (Before, Before)) = (f', (Ended rx, Ended ry)) /\ opened f' c') <->
   in_turn (pf_write f) x y c c' rx ry \/ in_turn (pf_write f) y x c c' ry rx \/
   exists p, (p = place_of x \/ p = place_of y) /\ (behind (pf_write f) p x y c c' rx ry \/ behind (pf_write f) p y x c c' ry rx)).
Proof. exact c157_two. Qed.
Print Assumptions C157_two.

(** C157: two writes at once on one open file both report that all was written.  But the file may hold the bytes of both one behind the
    other, at the place of either of them, in either order, and nothing of them at the place of the other (defect). *)
Theorem C157_writes : forall f c p1 b1 p2 b2 c', opened f c -> pf_write f = true -> p1 < 2 ^ 63 -> p2 < 2 ^ 63 ->
  ((exists sched f' r1 r2, two_calls (CWrite p1 b1) (CWrite p2 b2) sched (f, (Before, Before)) = (f', (Ended r1, Ended r2)) /\ opened f' c') <->
   let at1 := N.to_nat p1 in let at2 := N.to_nat p2 in
   In c' [written (written c at1 b1) at2 b2; written (written c at2 b2) at1 b1;
          written c at1 (b1 ++ b2); written c at1 (b2 ++ b1); written c at2 (b1 ++ b2); written c at2 (b2 ++ b1)]) /\
  forall sched f' r1 r2, two_calls (CWrite p1 b1) (CWrite p2 b2) sched (f, (Before, Before)) = (f', (Ended r1, Ended r2)) ->
    r1 = RPut (List.length b1) false /\ r2 = RPut (List.length b2) false.
Proof. exact c157_writes. Qed.
Print Assumptions C157_writes.

(** A disk that becomes full after three bytes, and has room later *)
Example C156_ex :
  let f := {| pf_content := bytes_of "abcdef"; pf_pos := 0; pf_write := true; pf_open := true |} in
  let g := {| pf_content := bytes_of "abcXYZ"; pf_pos := 6; pf_write := true; pf_open := true |} in
  opened f (bytes_of "abcdef") /\
  p_filewrite [Did 2; Did 1; Failed] f 3 (bytes_of "XYZWV") = (g, (3%nat, true)) /\
  persists f 3 (bytes_of "XYZWV") {| pf_content := bytes_of "abcXYZWV"; pf_pos := 8; pf_write := true; pf_open := true |} /\
  p_fileread (Did 2) g 1 4 = Ret ({| pf_content := bytes_of "abcXYZ"; pf_pos := 3; pf_write := true; pf_open := true |}, Some (bytes_of "bc")) /\
  reads_well g 1 (bytes_of "bcXYZ") /\
  (exists f', collects f [(3, bytes_of "XYZ"); (0, bytes_of "uv")] [(3, 4); (0, 2)]%Z f') /\
  true_chunk (bytes_of "uv XYZ") (3, bytes_of "XYZ").
Proof. exact c156_ex. Qed.

(** C157: a call for a place that no file has is refused, and the other call goes on as if it was not there *)
Theorem C157_refused : forall x y sched f, out_of_reach y ->
  let '(f', (p, _)) := two_calls x y (filter (fun b => b) sched) (f, (Before, Before)) in
  two_calls x y sched (f, (Before, Before)) = (f', (p, if forallb (fun b => b) sched then Before else Ended (refusal y))).
Proof. exact c157_refused. Qed.
Print Assumptions C157_refused.
Example C157_refused_ex :
  let f := {| pf_content := bytes_of "......"; pf_pos := 0; pf_write := true; pf_open := true |} in
  out_of_reach (CWrite (2 ^ 63) (bytes_of "BB")) /\
  two_calls (CWrite 1 (bytes_of "AA")) (CWrite (2 ^ 63) (bytes_of "BB")) [true; false; true] (f, (Before, Before)) =
    ({| pf_content := bytes_of ".AA..."; pf_pos := 3; pf_write := true; pf_open := true |}, (Ended (RPut 2 false), Ended (RPut 0 true))).
Proof. exact c157_refused_ex. Qed.

(** Two goroutines write the first and the last third of a file *)
Example C157_ex :
  let f := {| pf_content := bytes_of "......"; pf_pos := 0; pf_write := true; pf_open := true |} in
  let run sched := pf_content (fst (two_calls (CWrite 0 (bytes_of "AA")) (CWrite 4 (bytes_of "BB")) sched (f, (Before, Before)))) in
  opened f (bytes_of "......") /\
  map run [[true; true; false; false]; [true; false; true; false]; [false; true; false; true]] =
    map bytes_of ["AA..BB"; "....AABB"; "BBAA.."] /\
  two_calls (CRead 0 2) (CWrite 4 (bytes_of "BB")) [true; false; true; false] (f, (Before, Before)) =
    ({| pf_content := bytes_of "......BB"; pf_pos := 8; pf_write := true; pf_open := true |}, (Ended (RGot (Some (bytes_of ".."))), Ended (RPut 2 false))).
Proof. exact c157_ex. Qed.
