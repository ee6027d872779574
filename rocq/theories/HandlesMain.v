(** * The properties of open files *)

From Verif Require Import GoBase GoFacts Flags Timestamp TimeMain Holes SpecHoles SpecWire Dirent SpecDirent DirentMain Fileio SpecFileio FileioFacts FileioMain Handles SpecHandles HandlesFacts.
Local Open Scope string_scope.
Local Open Scope N_scope.

(** ** C149: what is read through a handle *)

Lemma at_small : forall pos, pos < 2 ^ 63 -> i64_of_N pos = Z.of_N pos.
Proof.
  intros pos H. unfold i64_of_N. rewrite N.mod_small by (change (2 ^ 64) with 18446744073709551616; change (2 ^ 63) with 9223372036854775808 in H; lia).
  replace (pos <? 2 ^ 63) with true by (symmetry; apply N.ltb_lt; auto). reflexivity.
Qed.
Lemma at_large : forall pos, 2 ^ 63 <= pos < 2 ^ 64 -> (i64_of_N pos < 0)%Z.
Proof.
  intros pos [H1 H2]. unfold i64_of_N. rewrite N.mod_small by auto.
  replace (pos <? 2 ^ 63) with false by (symmetry; apply N.ltb_ge; auto).
  change (2 ^ 64) with 18446744073709551616 in H2. change (2 ^ 64)%Z with 18446744073709551616%Z. lia.
Qed.
Lemma seek_open : forall w i f pos, nth_error (w_files w) i = Some f -> h_open f = true -> pos < 2 ^ 63 ->
  w_fileseek w (Some i) pos = Some (h_moved f (Z.of_N pos)).
Proof.
  intros w i f pos F O P. unfold w_fileseek. cbn [file_of]. rewrite F, at_small by auto.
  replace (Z.of_N pos <? 0)%Z with false by (symmetry; apply Z.ltb_ge; lia). rewrite O. reflexivity.
Qed.

(** C149: after any history of calls - opening, reading, writing, closing and removing, through
    any handles - the content of the file of a handle is what it was, changed by the writes that
    succeeded through handles of that file and emptied by the openings for receiving that gave
    another handle of that file, in this order, and by nothing else. *)
Lemma c149_history : forall sardir w l w' rs i c, came_about sardir w -> Forall uint64_op l -> hrun sardir w l = Ret (w', rs) ->
  contents w i = Some c ->
  contents w' i = Some (fold_left (told (one_file w' i)) (combine l rs) c).
Proof. intros sardir w l w' rs i c CA U H. apply came_sound in CA. destruct (run_all _ _ _ _ _ CA U H) as (_ & _ & _ & _ & _ & _ & C). apply C. Qed.
(** C149: two handles are of one file for ever or never. *)
Lemma c149_same : forall sardir w l w' rs i j, came_about sardir w -> Forall uint64_op l -> hrun sardir w l = Ret (w', rs) ->
  (i < handed_out w)%nat -> (j < handed_out w)%nat -> one_file w' i j = one_file w i j.
Proof. intros sardir w l w' rs i j CA U H. apply came_sound in CA. destruct (run_all _ _ _ _ _ CA U H) as (_ & _ & O & _). apply O. Qed.
(** C149: a read through an open handle gives the bytes at the position asked for, whatever the
    handle, or another handle of the file, was used for before, and changes nothing. *)
Lemma c149_read : forall sardir w i pos blen c, is_open w i = true -> contents w i = Some c -> pos < 2 ^ 63 ->
  exists w', hstep sardir w (HRead (Some i) pos (Z.of_nat blen)) =
    Ret (w', RRead (if Nat.eqb blen 0 then Some []
                    else if Nat.ltb (N.to_nat pos) (List.length c) then Some (firstn blen (skipn (N.to_nat pos) c))
                    else None)) /\
    (forall j, contents w' j = contents w j) /\ w_fs w' = w_fs w.
Proof.
  intros sardir w i pos blen c O CO P. cbn [hstep].
  unfold is_open in O. destruct (nth_error (w_files w) i) as [f|] eqn:F; [|discriminate].
  assert (FS : forall w' r, w_fileread w (Some i) pos (Z.of_nat blen) = Ret (w', r) -> w_fs w' = w_fs w).
  { intros w' r E. unfold w_fileread in E. destruct (Z.of_nat blen <? 0)%Z; [discriminate|]. rewrite (seek_open w i f pos F O P) in E.
    destruct (node_at _ _) as [n|]; [|injection E as <- <-; reflexivity]. destruct (n_kind n); try (injection E as <- <-; reflexivity).
    destruct (Z.of_nat blen =? 0)%Z; [injection E as <- <-; reflexivity|]. cbv zeta in E. destruct (firstn _ _); injection E as <- <-; reflexivity. }
  destruct (w_fileread w (Some i) pos (Z.of_nat blen)) as [[w1 x]| |] eqn:E.
  - cbn [obind]. exists w1. pose proof (read_quiet _ _ _ _ _ _ E) as Q. split; [|split; [apply quiet_contents; exact Q|eapply FS; eauto]].
    unfold w_fileread in E. replace (Z.of_nat blen <? 0)%Z with false in E by (symmetry; apply Z.ltb_ge; lia).
    rewrite (seek_open w i f pos F O P) in E. cbn [h_at h_moved h_pos] in E. change (node_at (update _ _ _) (h_at f)) with (node_at w (h_at f)) in E.
    unfold contents in CO. rewrite F in CO. destruct (node_at w (h_at f)) as [n|]; [|discriminate]. destruct (n_kind n); try discriminate. injection CO as ->.
    replace (Z.to_nat (Z.of_N pos)) with (N.to_nat pos) in E by lia. rewrite Nat2Z.id in E.
    destruct (Nat.eqb_spec blen 0) as [->|NZ]; [injection E as <- <-; reflexivity|].
    replace (Z.of_nat blen =? 0)%Z with false in E by (symmetry; apply Z.eqb_neq; lia). cbv zeta in E.
    destruct (Nat.ltb_spec (N.to_nat pos) (length c)) as [L|L].
    + destruct (firstn blen (skipn (N.to_nat pos) c)) eqn:FN; [|injection E as <- <-; reflexivity].
      apply (f_equal (@length byte)) in FN. rewrite firstn_length, skipn_length in FN. cbn in FN. lia.
    + rewrite skipn_all2 in E by lia. rewrite firstn_nil in E. injection E as <- <-. reflexivity.
  - exfalso. unfold w_fileread in E. replace (Z.of_nat blen <? 0)%Z with false in E by (symmetry; apply Z.ltb_ge; lia).
    rewrite (seek_open w i f pos F O P) in E. destruct (node_at _ _) as [n|]; [|discriminate]. destruct (n_kind n); try discriminate.
    destruct (Z.of_nat blen =? 0)%Z; [discriminate|]. cbv zeta in E. destruct (firstn _ _); discriminate.
  - exfalso. unfold w_fileread in E. replace (Z.of_nat blen <? 0)%Z with false in E by (symmetry; apply Z.ltb_ge; lia).
    rewrite (seek_open w i f pos F O P) in E. destruct (node_at _ _) as [n|]; [|discriminate]. destruct (n_kind n); try discriminate.
    destruct (Z.of_nat blen =? 0)%Z; [discriminate|]. cbv zeta in E. destruct (firstn _ _); discriminate.
Qed.
(** C149: a write succeeds exactly through an open handle that was opened for receiving, at a
    position below 2^63; then all handles of that file, and no others, have the new content;
    otherwise nothing has changed. *)
Lemma c149_write : forall sardir w i pos buf c, came_about sardir w -> contents w i = Some c -> pos < 2 ^ 64 ->
  let ok := is_open w i && writable w i && (pos <? 2 ^ 63) in
  exists w', hstep sardir w (HWrite (Some i) pos buf) = Ret (w', RWrote (if ok then Some (List.length buf) else None)) /\
    forall j, contents w' j = if ok && one_file w i j then Some (written c (N.to_nat pos) buf) else contents w j.
Proof.
  intros sardir w i pos buf c CA CO P ok. apply came_sound in CA. cbn [hstep].
  destruct (w_filewrite w (Some i) pos buf) as [w1 x] eqn:E.
  assert (X : x = if ok then Some (length buf) else None).
  { unfold ok, is_open, writable, contents in *. destruct (nth_error (w_files w) i) as [f|] eqn:F; [|discriminate].
    unfold w_filewrite in E. destruct (h_open f) eqn:O.
    - destruct (N.ltb_spec pos (2 ^ 63)) as [PS|PL].
      + rewrite (seek_open w i f pos F O PS) in E. cbn [h_write h_moved h_at h_pos] in E.
        destruct (h_write f); [|injection E as <- <-; reflexivity].
        change (node_at (update _ _ _) (h_at f)) with (node_at w (h_at f)) in E.
        destruct (node_at w (h_at f)) as [n|]; [|discriminate]. destruct (n_kind n); try discriminate.
        cbv zeta in E. apply pair_equal_spec in E as [_ <-]. reflexivity.
      + rewrite andb_false_r. unfold w_fileseek in E. cbn [file_of] in E. rewrite F in E.
        replace (i64_of_N pos <? 0)%Z with true in E by (symmetry; apply Z.ltb_lt; apply at_large; lia). injection E as <- <-. reflexivity.
    - cbn [andb]. unfold w_fileseek in E. cbn [file_of] in E. rewrite F, O in E. destruct (i64_of_N pos <? 0)%Z; injection E as <- <-; reflexivity. }
  subst x. exists w1. split; [reflexivity|]. intros j.
  pose proof (step_write w (Some i) pos buf w1 _ CA P E) as [S1 L1 O1 C1 P1 W1 N1 _].
  assert (LI : (i < length (w_files w))%nat).
  { apply nth_error_Some. unfold contents in CO. destruct (nth_error (w_files w) i); discriminate. }
  assert (LEN : length (w_files w1) = length (w_files w)).
  { pose proof (write_at_of _ _ _ _ _ _ E) as A. apply Nat.le_antisymm; [|exact L1].
    destruct (Nat.leb_spec (length (w_files w1)) (length (w_files w))) as [|LL]; [auto|]. exfalso.
    specialize (A (length (w_files w))). unfold at_of in A. rewrite (proj2 (nth_error_None (w_files w) _)) in A by auto.
    destruct (nth_lt _ _ _ LL) as (g & G). rewrite G in A. discriminate. }
  destruct (contents w j) as [cj|] eqn:CJ.
  - assert (LJ : (j < length (w_files w))%nat).
    { apply nth_error_Some. unfold contents in CJ. destruct (nth_error (w_files w) j); discriminate. }
    rewrite (C1 j cj CJ). cbn [told]. rewrite O1 by auto. assert (SY : one_file w j i = one_file w i j).
    { unfold one_file. destruct (nth_error (w_files w) i) as [f|], (nth_error (w_files w) j) as [g|]; try reflexivity.
      destruct (place_eqb (h_at g) (h_at f)) eqn:PE; symmetry; [apply place_eqb_true in PE; rewrite PE; apply place_eqb_refl|].
      apply place_eqb_false. apply place_eqb_false in PE. congruence. }
    rewrite SY. destruct ok; cbn [andb]; [|reflexivity]. destruct (one_file w i j) eqn:OF; [|reflexivity].
    replace cj with c; [reflexivity|]. unfold one_file, contents in *. destruct (nth_error (w_files w) i) as [f|]; [|discriminate].
    destruct (nth_error (w_files w) j) as [g|]; [|discriminate]. apply place_eqb_true in OF. rewrite OF in CO. congruence.
  - replace (ok && one_file w i j) with false.
    + (* no regular file behind j: it stays so *)
      unfold contents in CJ |- *. pose proof (write_at_of _ _ _ _ _ _ E j) as A. unfold at_of in A.
      destruct (nth_error (w_files w1) j) as [g'|], (nth_error (w_files w) j) as [g|] eqn:G; cbn in A; try discriminate; [|reflexivity]. injection A as A. rewrite A.
      unfold w_filewrite in E. destruct (w_fileseek w (Some i) pos) as [f0|] eqn:SK; [|apply pair_equal_spec in E as [<- _]; exact CJ].
      apply seek_some in SK as (f & F & OP & PP & ->). cbn [h_write h_moved h_at h_pos] in E.
      destruct (h_write f); [|apply pair_equal_spec in E as [<- _]; exact CJ].
      set (w2 := update w (Some i) (h_moved f (i64_of_N pos))) in E.
      destruct (node_at w2 (h_at f)) as [n|] eqn:ND; [|apply pair_equal_spec in E as [<- _]; exact CJ].
      destruct (n_kind n) eqn:K; try (apply pair_equal_spec in E as [<- _]; exact CJ).
      cbv zeta in E. apply pair_equal_spec in E as [<- _].
      match goal with |- context [node_at (update ?a ?b ?d) ?e] => change (node_at (update a b d) e) with (node_at a e) end.
      erewrite put_node by exact ND. destruct (place_eqb (h_at g) (h_at f)) eqn:PE; [|exact CJ].
      apply place_eqb_true in PE. rewrite PE in CJ. change (node_at w2 (h_at f)) with (node_at w (h_at f)) in ND. rewrite ND, K in CJ. discriminate.
    + symmetry. apply andb_false_iff. right. unfold one_file, contents in *. destruct (nth_error (w_files w) i) as [f|]; [|discriminate].
      destruct (nth_error (w_files w) j) as [g|]; [|reflexivity]. apply place_eqb_false. intros AE. rewrite AE in CO. rewrite CO in CJ. discriminate.
Qed.
(** C149: a file opened for receiving that was not there, or was a regular file, is empty, and
    a file opened for sending has the content it has on the disk; the handle is a new one. *)
Lemma c149_opened : forall sardir w now ok fname ttype w' j e, hstep sardir w (HOpen now ok fname ttype) = Ret (w', ROpened (Some j) e) ->
  e = false /\ j = handed_out w /\ handed_out w' = Datatypes.S j /\ is_open w' j = true /\ name_of w' j = Some (sardir ++ "/" ++ fname) /\
  exists p, named w' j p /\ resolve_follow (w_fs w) (w_cwd w) (sardir ++ "/" ++ fname) = inl p /\
    ((In ttype ["get"; "take"] /\ writable w' j = true /\
      (content_of (w_fs w) p <> None \/ fs_get p (w_fs w) = None -> contents w' j = Some [])) \/
     (In ttype ["put"; "give"] /\ writable w' j = false /\ contents w' j = content_of (w_fs w) p)).
Proof.
  intros sardir w now ok fname ttype w' j e H. cbn [hstep] in H.
  destruct (w_fileopen now ok sardir w fname ttype) as [w1 [h e1]] eqn:E. injection H as <- -> ->.
  destruct (open_cases _ _ _ _ _ _ _ _ _ E) as (GO & TH & [(X & _)|(f & p & X & FI & AT & OP & NM & NN & RF & -> & CASES)]); [discriminate|]. injection X as ->.
  assert (LAST : nth_error (w_files w1) (length (w_files w)) = Some f).
  { rewrite FI, nth_error_app2, Nat.sub_diag by auto. reflexivity. }
  unfold handed_out, is_open, name_of, writable. rewrite LAST. split; [reflexivity|]. split; [reflexivity|].
  split; [rewrite FI, app_length; cbn; lia|]. split; [exact OP|]. split; [cbn; rewrite NM; reflexivity|].
  exists p. split; [exists f; auto|]. split; [exact RF|]. rewrite (contents_at _ _ _ LAST), AT.
  destruct CASES as [(TT & WR & OT & EM & KP)|(TT & WR & EQ)]; [left|right]; (split; [exact TT|]; split; [exact WR|]).
  - exact EM.
  - rewrite EQ. reflexivity.
Qed.

(** ** C150: closing and removing *)

(** C150: a handle that was handed out is open as long as it was not closed, through FileClose or
    FileDelete, however often anything else was done. *)
Lemma c150_open : forall sardir w l w' rs i, came_about sardir w -> Forall uint64_op l -> hrun sardir w l = Ret (w', rs) ->
  (i < handed_out w)%nat -> is_open w' i = is_open w i && negb (existsb (closes i) l).
Proof. intros sardir w l w' rs i CA U H. apply came_sound in CA. destruct (run_all _ _ _ _ _ CA U H) as (_ & _ & _ & O & _). apply O. Qed.
(** C150: every read, write and close through a handle that is closed reports an error, for ever. *)
Lemma c150_closed : forall sardir l w w' rs i, came_about sardir w -> Forall uint64_op l -> hrun sardir w l = Ret (w', rs) ->
  (i < handed_out w)%nat -> is_open w i = false ->
  forall o r, In (o, r) (combine l rs) -> uses i o = true -> error_res r.
Proof.
  intros sardir l. induction l as [|o l IH]; intros w w' rs i CA U H L O o' r' I US; [destruct I|].
  apply hrun_cons in H as (w1 & x & xs & ST & RU & ->). inversion U as [|? ? U1 U2]; subst.
  pose proof (came_sound _ _ CA) as S. pose proof (step_all _ _ _ _ _ S U1 ST) as [S1 L1 O1 C1 P1 W1 N1 R1].
  cbn [combine] in I. destruct I as [I|I].
  - injection I as <- <-. eapply R1; eauto.
  - assert (CA1 : came_about sardir w1).
    { eapply (came_run sardir w [o]); [exact CA|repeat constructor; exact U1|]. cbn [hrun]. rewrite ST. reflexivity. }
    eapply (IH w1 w' xs i CA1 U2 RU); eauto.
    + unfold handed_out in *. lia.
    + rewrite P1, O by auto. reflexivity.
Qed.
(** C150: closing reports success exactly if the handle is open; nothing else changes. *)
Lemma c150_close : forall sardir w i, exists w', hstep sardir w (HClose (Some i)) = Ret (w', RDone (is_open w i)) /\
  w_fs w' = w_fs w /\ is_open w' i = false /\ (forall j, j <> i -> is_open w' j = is_open w j) /\
  (came_about sardir w -> forall j, contents w' j = contents w j).
Proof.
  intros sardir w i. cbn [hstep]. destruct (w_fileclose w (Some i)) as [w1 b] eqn:E. exists w1.
  destruct (close_kept _ _ _ _ E) as (K & O & _ & FS & _).
  assert (B : b = is_open w i).
  { unfold w_fileclose, is_open in *. cbn [file_of] in E. destruct (nth_error (w_files w) i) as [f|]; [|injection E as _ <-; reflexivity].
    destruct (h_open f); apply pair_equal_spec in E as [_ <-]; reflexivity. }
  rewrite B. split; [reflexivity|]. split; [exact FS|]. split.
  - rewrite O. cbn [closes]. rewrite Nat.eqb_refl. apply andb_false_r.
  - split; [|intros CA; apply (k_contents _ _ K); apply (came_sound _ _ CA)].
    intros j NE. rewrite O. cbn [closes]. replace (Nat.eqb j i) with false by (symmetry; apply Nat.eqb_neq; exact NE). apply andb_true_r.
Qed.
(** C150: with nil in place of a file everything is an error and nothing changes; a read of fewer
    than 0 bytes panics even then. *)
Lemma c150_nil : forall sardir w pos blen buf,
  hstep sardir w (HRead None pos blen) = (if (blen <? 0)%Z then Panic else Ret (w, RRead None)) /\
  hstep sardir w (HWrite None pos buf) = Ret (w, RWrote None) /\
  hstep sardir w (HClose None) = Ret (w, RDone false) /\
  hstep sardir w (HDelete None) = Ret (w, RDone false).
Proof.
  intros. cbn [hstep]. unfold w_fileread. split; [destruct (blen <? 0)%Z; reflexivity|]. repeat split; reflexivity.
Qed.
(** C150: removing a name that leads to a file leaves the open handles of the file open and with
    their content, but without a name. *)
Lemma c150_removed : forall sardir w fname w', came_about sardir w -> hstep sardir w (HRm fname) = Ret (w', RDone true) ->
  exists p, resolve (w_fs w) (w_cwd w) (sardir ++ "/" ++ fname) = inl p /\ fs_get p (w_fs w') = None /\ unchanged_except p (w_fs w) (w_fs w') /\
    (forall i, contents w' i = contents w i /\ is_open w' i = is_open w i) /\
    (forall i, named w i p -> nameless w' i) /\ (forall i q, q <> p -> (named w' i q <-> named w i q)).
Proof.
  intros sardir w fname w' CA H. cbn [hstep] in H. destruct (w_filerm sardir w fname) as [w1 b] eqn:E. injection H as <- ->.
  destruct (rm_kept _ _ _ _ _ E) as (K & O). apply came_sound in CA.
  destruct (rm_cases _ _ _ _ _ E) as [(X & _)|(_ & p & n & RE & G & _ & ->)]; [discriminate|].
  exists p. split; [exact RE|]. split; [apply fs_get_del_same|]. split; [intros q NQ; apply fs_get_del_other; exact NQ|].
  split; [intros i; split; [apply (k_contents _ _ K); exact CA|apply O]|]. split.
  - intros i (f & F & A). apply nameless_at. exists (length (w_gone w)). unfold at_of. cbn [w_files]. rewrite nth_error_map, F. cbn.
    unfold h_unnamed. rewrite A, place_eqb_refl. reflexivity.
  - intros i q NQ. unfold named. cbn [w_files]. rewrite nth_error_map. destruct (nth_error (w_files w) i) as [f|]; cbn.
    + split; intros (g & G1 & G2); injection G1 as <-; (eexists; split; [reflexivity|]); unfold h_unnamed in *.
      * destruct (place_eqb (h_at f) (Named p)); [discriminate G2|exact G2].
      * destruct (place_eqb (h_at f) (Named p)) eqn:PE; [|exact G2]. apply place_eqb_true in PE. congruence.
    + split; intros (g & G1 & _); discriminate.
Qed.
(** C150: a file without a name never gets one again: it stays so, no handle opened later is of that
    file, and writing to it changes no file that has a name. *)
Lemma c150_nameless : forall sardir l w w' rs i, came_about sardir w -> Forall uint64_op l -> hrun sardir w l = Ret (w', rs) -> nameless w i ->
  nameless w' i /\ (forall j, (handed_out w <= j)%nat -> one_file w' i j = false) /\
  (forall pos buf w2 r, hstep sardir w (HWrite (Some i) pos buf) = Ret (w2, r) -> w_fs w2 = w_fs w).
Proof.
  intros sardir l w w' rs i CA U H NL. split; [|split].
  - apply nameless_at in NL as (k & A). apply nameless_at. exists k. clear CA U. revert w w' rs H A. induction l as [|o l IH]; intros w w' rs H A.
    + injection H as <- <-. exact A.
    + apply hrun_cons in H as (w1 & x & xs & ST & RU & ->). eapply IH; [exact RU|]. eapply step_gone; eauto.
  - revert w w' rs CA U H NL. induction l as [|o l IH]; intros w w' rs CA U H NL j LJ.
    + injection H as <- <-. unfold one_file, handed_out in *. rewrite (proj2 (nth_error_None (w_files w) j)) by exact LJ. destruct (nth_error (w_files w) i); reflexivity.
    + apply hrun_cons in H as (w1 & x & xs & ST & RU & ->). inversion U as [|? ? U1 U2]; subst.
      assert (CA1 : came_about sardir w1).
      { eapply (came_run sardir w [o]); [exact CA|repeat constructor; exact U1|]. cbn [hrun]. rewrite ST. reflexivity. }
      assert (NL1 : nameless w1 i).
      { apply nameless_at in NL as (k & A). apply nameless_at. exists k. eapply step_gone; eauto. }
      destruct (Nat.ltb_spec j (handed_out w1)) as [LT|GE]; [|eapply IH; eauto].
      pose proof (came_sound _ _ CA1) as S1. destruct (run_all _ _ _ _ _ S1 U2 RU) as (_ & _ & O & _).
      rewrite O; [|apply (proj1 NL1)|exact LT].
      (* j was handed out by this step *)
      apply nameless_at in NL1 as (k & A). unfold one_file, at_of in *. destruct (nth_error (w_files w1) i) as [f|]; [|discriminate]. cbn in A. injection A as A.
      destruct (nth_error (w_files w1) j) as [g|] eqn:G; [|reflexivity]. rewrite A. apply place_eqb_false.
      destruct o as [now ok fname ttype|h pos blen|h pos buf|h|fname|h]; cbn [hstep] in ST.
      * destruct (w_fileopen now ok sardir w fname ttype) as [w2 [h e]] eqn:E. injection ST as <- <-.
        destruct (open_cases _ _ _ _ _ _ _ _ _ E) as (_ & _ & [(_ & FI & _)|(f' & p & _ & FI & AT & _)]).
        -- unfold handed_out in *. rewrite FI in LT. lia.
        -- rewrite FI, nth_error_app2 in G by exact LJ. unfold handed_out in *. destruct (j - length (w_files w))%nat as [|m]; cbn in G; [injection G as <-; rewrite AT; discriminate|].
           destruct m; discriminate.
      * exfalso. destruct (w_fileread w h pos blen) as [[w2 y]| |] eqn:E; cbn in ST; try discriminate. injection ST as <- <-.
        pose proof (quiet_length _ _ (read_quiet _ _ _ _ _ _ E)). unfold handed_out in *. lia.
      * exfalso. destruct (w_filewrite w h pos buf) as [w2 y] eqn:E. injection ST as <- <-. pose proof (write_at_of _ _ _ _ _ _ E j) as B.
        unfold at_of in B. rewrite G, (proj2 (nth_error_None (w_files w) j)) in B by exact LJ. discriminate.
      * exfalso. destruct (w_fileclose w h) as [w2 y] eqn:E. injection ST as <- <-. destruct (close_kept _ _ _ _ E) as (K & _). pose proof (k_length _ _ K). unfold handed_out in *. lia.
      * exfalso. destruct (w_filerm sardir w fname) as [w2 y] eqn:E. injection ST as <- <-. destruct (rm_kept _ _ _ _ _ E) as (K & _). pose proof (k_length _ _ K). unfold handed_out in *. lia.
      * exfalso. destruct (w_filedelete sardir w h) as [w2 y] eqn:E. injection ST as <- <-. destruct (delete_kept _ _ _ _ _ E) as (K & _). pose proof (k_length _ _ K). unfold handed_out in *. lia.
  - intros pos buf w2 r ST. cbn [hstep] in ST. apply nameless_at in NL as (k & A). unfold at_of in A.
    destruct (w_filewrite w (Some i) pos buf) as [w3 y] eqn:E. injection ST as <- <-. unfold w_filewrite in E.
    destruct (w_fileseek w (Some i) pos) as [f0|] eqn:SK; [|apply pair_equal_spec in E as [<- _]; reflexivity].
    apply seek_some in SK as (f & F & OP & PP & ->). cbn [file_of] in F. rewrite F in A. cbn in A. injection A as A. cbn [h_write h_moved h_at h_pos] in E.
    destruct (h_write f); [|apply pair_equal_spec in E as [<- _]; reflexivity]. rewrite A in E.
    destruct (node_at _ _) as [n|]; [|apply pair_equal_spec in E as [<- _]; reflexivity].
    destruct (n_kind n); cbv zeta in E; apply pair_equal_spec in E as [<- _]; reflexivity.
Qed.
(** C150: FileDelete of a file that was opened by a name is FileClose and then FileRm of the name
    fp.Name() gives, whatever happened in between - and that is sardir/name, so FileRm looks for
    sardir/sardir/name. *)
Lemma c150_delete : forall sardir w now ok fname ttype w1 i e l w2 rs w3 r, came_about sardir w ->
  hstep sardir w (HOpen now ok fname ttype) = Ret (w1, ROpened (Some i) e) -> Forall uint64_op l -> hrun sardir w1 l = Ret (w2, rs) ->
  hstep sardir w2 (HDelete (Some i)) = Ret (w3, r) ->
  exists r1, hrun sardir w2 [HClose (Some i); HRm (sardir ++ "/" ++ fname)] = Ret (w3, [r1; r]).
Proof.
  intros sardir w now ok fname ttype w1 i e l w2 rs w3 r CA OP U RU DE.
  destruct (c149_opened _ _ _ _ _ _ _ _ _ OP) as (_ & EI & LN & _ & NM & _).
  assert (CA1 : came_about sardir w1).
  { eapply (came_run sardir w [HOpen now ok fname ttype]); [exact CA|repeat constructor|]. cbn [hrun]. rewrite OP. reflexivity. }
  apply came_sound in CA1. destruct (run_all _ _ _ _ _ CA1 U RU) as (_ & LL & _ & _ & _ & NN & _).
  specialize (NN i). rewrite NM in NN. specialize (NN ltac:(unfold handed_out in *; lia)).
  unfold name_of in NN. destruct (nth_error (w_files w2) i) as [f|] eqn:F; [|discriminate]. assert (NN' : h_name f = sardir ++ "/" ++ fname) by (injection NN; auto).
  cbn [hrun hstep] in *. unfold w_filedelete in DE. cbn [file_of] in DE. rewrite F in DE. rewrite <- NN'.
  destruct (w_fileclose w2 (Some i)) as [wc bc]. cbn [obind fst] in *. destruct (w_filerm sardir wc (h_name f)) as [wr br]. cbn [obind]. injection DE as <- <-. eauto.
Qed.
(** C150: so with an ordinary absolute sardir FileDelete always reports an error and removes
    nothing, but the file is closed. *)
Lemma c150_delete_never : forall c1 rest w now ok fname ttype w1 i e l w2 rs,
  let sardir := abs_name (c1 :: rest) in
  (forall c, In c (c1 :: rest) -> plain c) -> came_about sardir w ->
  hstep sardir w (HOpen now ok fname ttype) = Ret (w1, ROpened (Some i) e) -> Forall uint64_op l -> hrun sardir w1 l = Ret (w2, rs) ->
  fs_get ((c1 :: rest) ++ [c1])%list (w_fs w2) = None ->
  exists w3, hstep sardir w2 (HDelete (Some i)) = Ret (w3, RDone false) /\ w_fs w3 = w_fs w2 /\ is_open w3 i = false.
Proof.
  intros c1 rest w now ok fname ttype w1 i e l w2 rs sardir PL CA OP U RU G.
  destruct (w_filedelete sardir w2 (Some i)) as [w3 b] eqn:DE. exists w3.
  assert (D : hstep sardir w2 (HDelete (Some i)) = Ret (w3, RDone b)) by (cbn [hstep]; rewrite DE; reflexivity).
  destruct (c150_delete _ _ _ _ _ _ _ _ _ _ _ _ _ _ CA OP U RU D) as (r1 & H).
  destruct (delete_kept _ _ _ _ _ DE) as (_ & O).
  cbn [hrun hstep] in H. destruct (w_fileclose w2 (Some i)) as [wc bc] eqn:C. cbn [obind] in H.
  destruct (close_kept _ _ _ _ C) as (_ & _ & _ & FS & CW).
  destruct (w_filerm sardir wc (sardir ++ "/" ++ fname)) as [wr br] eqn:R. cbn [obind] in H. injection H as -> _ ->.
  destruct (rm_cases _ _ _ _ _ R) as [(-> & -> & _)|(_ & p & n & RE & _)].
  - rewrite D, FS, O. split; [reflexivity|]. split; [reflexivity|]. cbn [closes]. rewrite Nat.eqb_refl. apply andb_false_r.
  - exfalso. rewrite FS in RE. destruct (doubled_missing (w_fs w2) (w_cwd wc) c1 rest fname PL G) as [er X]. assert (inl p = @inr path oserr er) as Y by (rewrite <- RE; exact X). discriminate Y.
Qed.
(** C150: opening for receiving a name whose file is open empties that file under the handle. *)
Lemma c150_emptied : forall sardir w now ok fname ttype p i c, came_about sardir w -> In ttype ["get"; "take"] ->
  resolve_follow (w_fs w) (w_cwd w) (sardir ++ "/" ++ fname) = inl p -> doubled_exists (w_fs w) (w_cwd w) sardir fname = false ->
  named w i p -> contents w i = Some c ->
  exists w', hstep sardir w (HOpen now ok fname ttype) = Ret (w', ROpened (Some (handed_out w)) false) /\
    contents w' i = Some [] /\ one_file w' i (handed_out w) = true.
Proof.
  intros sardir w now ok fname ttype p i c CA TT RF DE (f & F & A) CO. rewrite (contents_at _ _ _ F), A in CO.
  cbn [hstep]. destruct (w_fileopen now ok sardir w fname ttype) as [w' [h e]] eqn:E. exists w'.
  destruct (c52_get_destroys now ok (w_fs w) (w_cwd w) sardir fname ttype p c) as (OE & OC & _ & (g & OF & GP & _)); auto.
  { destruct TT as [<-|[<-|[]]]; auto. }
  unfold w_fileopen in E. rewrite OF in E. apply pair_equal_spec in E as [E1 E2]. apply pair_equal_spec in E2 as [<- <-]. rewrite OE. split; [reflexivity|].
  assert (L : (i < length (w_files w))%nat) by (apply nth_error_Some; congruence).
  assert (F' : nth_error (w_files w') i = Some f) by (rewrite <- E1; cbn [w_files]; rewrite nth_error_app1; auto).
  split.
  - rewrite (contents_at _ _ _ F'), A, <- E1. exact OC.
  - unfold one_file. rewrite F'. rewrite <- E1. cbn [w_files]. unfold handed_out. rewrite nth_error_app2, Nat.sub_diag by auto. cbn [nth_error h_at]. rewrite A, GP. apply place_eqb_refl.
Qed.

(** ** Concrete cases *)
Definition ex_sar : string := "/Users/chas/sardir".
Definition ex_ops : list hop :=
  [HOpen ex_time true "new" "get"; HWrite (Some 0%nat) 0 (bytes_of "hello"); HOpen ex_time true "new" "take"; HWrite (Some 0%nat) 3 (bytes_of "xy");
   HRead (Some 1%nat) 1 10; HRm "new"; HWrite (Some 1%nat) 0 (bytes_of "ab"); HRead (Some 0%nat) 0 10; HOpen ex_time true "new" "get"; HRead (Some 2%nat) 0 1;
   HClose (Some 0%nat); HClose (Some 0%nat); HRead (Some 0%nat) 0 1; HDelete (Some 1%nat); HDelete None].
Definition ex_res : list hres :=
  [ROpened (Some 0%nat) false; RWrote (Some 5%nat); ROpened (Some 1%nat) false; RWrote (Some 2%nat);
   RRead (Some [ascii_of_N 0; ascii_of_N 0; "x"%char; "y"%char]); RDone true; RWrote (Some 2%nat); RRead (Some (bytes_of "ab" ++ [ascii_of_N 0] ++ bytes_of "xy")%list);
   ROpened (Some 2%nat) false; RRead None; RDone true; RDone false; RRead None; RDone false; RDone false].
Definition ex_world : world := match hrun ex_sar (no_files ex_tree []) ex_ops with Ret (w, _) => w | _ => no_files ex_tree [] end.
Lemma ex_ran : hrun ex_sar (no_files ex_tree []) ex_ops = Ret (ex_world, ex_res).
Proof. vm_compute. reflexivity. Qed.
Lemma ex_u64 : Forall uint64_op ex_ops.
Proof. repeat constructor. Qed.
Example c149_ex : came_about ex_sar ex_world /\ contents ex_world 0 = Some (bytes_of "ab" ++ [ascii_of_N 0] ++ bytes_of "xy")%list /\
  contents ex_world 2 = Some [] /\ one_file ex_world 0 1 = true /\ one_file ex_world 0 2 = false /\
  map (is_open ex_world) [0%nat; 1%nat; 2%nat] = [false; false; true] /\ writable ex_world 2 = true.
Proof.
  split; [exists ex_tree, [], ex_ops, ex_res; split; [exact ex_u64|exact ex_ran]|].
  repeat (split; [vm_compute; reflexivity|]). vm_compute. reflexivity.
Qed.
Example c150_ex : nameless ex_world 0 /\ named ex_world 2 ["Users"; "chas"; "sardir"; "new"] /\
  (forall c, In c ["Users"; "chas"; "sardir"] -> plain c) /\ ex_sar = abs_name ["Users"; "chas"; "sardir"] /\
  fs_get ["Users"; "chas"; "sardir"; "Users"] (w_fs ex_world) = None /\
  resolve_follow (w_fs ex_world) (w_cwd ex_world) (ex_sar ++ "/new") = inl ["Users"; "chas"; "sardir"; "new"] /\
  doubled_exists (w_fs ex_world) (w_cwd ex_world) ex_sar "new" = false.
Proof.
  split.
  { apply nameless_at. exists 0%nat. vm_compute. reflexivity. }
  split; [eexists; split; vm_compute; reflexivity|]. split; [exact ex_plain|]. repeat (split; [vm_compute; reflexivity|]). vm_compute. reflexivity.
Qed.
