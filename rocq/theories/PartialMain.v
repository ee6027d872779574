(** * C156, C157: files when the system does less than it is asked to, and two calls at once on one open file *)

From Verif Require Import GoBase GoFacts Fileio SpecFileio FileioFacts SpecHoles Handles SpecHandles HandlesFacts Partial SpecPartial.
Local Open Scope string_scope.
Local Open Scope N_scope.

(** ** Contents *)
Lemma content_ext (c d : list byte) : (forall i, nth_error c i = nth_error d i) -> c = d.
Proof.
  revert d. induction c as [|x c IH]; intros [|y d] H; [reflexivity|discriminate (H 0%nat)|discriminate (H 0%nat)|].
  pose proof (H 0%nat) as H0. cbn in H0. inversion H0. f_equal. apply IH. intros i. apply (H (S i)).
Qed.
Lemma written_nth c pos buf i : buf <> [] -> nth_error (written c pos buf) i = byte_after c pos buf i.
Proof. intros. rewrite <- written_content. apply write_content_nth. assumption. Qed.
Lemma written_length c pos buf : buf <> [] -> List.length (written c pos buf) = Nat.max (List.length c) (pos + List.length buf).
Proof. intros. rewrite <- written_content. apply write_content_length. assumption. Qed.
Lemma written_app c pos a b : written (written c pos a) (pos + List.length a) b = written c pos (a ++ b).
Proof.
  destruct a as [|x a]; [cbn [List.length app]; rewrite Nat.add_0_r; reflexivity|].
  destruct b as [|y b]; [rewrite app_nil_r; reflexivity|].
  set (aa := x :: a). set (bb := y :: b). assert (A : aa <> []) by discriminate. assert (B : bb <> []) by discriminate.
  assert (AB : (aa ++ bb)%list <> []) by discriminate. apply content_ext. intros i. rewrite !written_nth by assumption.
  unfold byte_after. rewrite written_length, app_length, written_nth by assumption. unfold byte_after.
  destruct (Nat.leb_spec (pos + List.length aa + List.length bb) i), (Nat.leb_spec (pos + (List.length aa + List.length bb)) i),
    (Nat.leb_spec (pos + List.length aa) i), (Nat.leb_spec pos i), (Nat.ltb_spec i (Nat.max (List.length c) (pos + List.length aa))),
    (Nat.ltb_spec i (List.length c)); try lia; try reflexivity.
  - rewrite nth_error_app2 by lia. f_equal. lia.
  - rewrite nth_error_app2 by lia. f_equal. lia.
  - rewrite nth_error_app1 by lia. reflexivity.
  - rewrite nth_error_app1 by lia. reflexivity.
Qed.

(** ** Writing *)
Lemma firstn_plus {A} (l : list A) n m : firstn (n + m) l = (firstn n l ++ firstn m (skipn n l))%list.
Proof. revert l. induction n as [|n IH]; intros l; [reflexivity|]. destruct l; cbn; [destruct m; reflexivity|]. f_equal. apply IH. Qed.
Lemma os_write_spec answers : forall c pos buf n, exists k e,
  os_write answers c pos buf n = (written c pos (firstn k buf), ((n + k)%nat, e)) /\ (k <= List.length buf)%nat /\
  (e = false -> k = List.length buf) /\ (e = true -> buf <> [] -> (k < List.length buf)%nat).
Proof.
  induction answers as [|a r IH]; intros c pos buf n; cbn [os_write].
  - exists (List.length buf), false. rewrite firstn_all, written_content. repeat split; auto; try lia; discriminate.
  - destruct a as [k|].
    + destruct (skipn k buf) as [|y rest] eqn:R.
      * assert (L : (List.length buf <= k)%nat).
        { apply (f_equal (@List.length byte)) in R. rewrite skipn_length in R. cbn in R. lia. }
        exists (List.length buf), false. rewrite !firstn_all2 by lia. rewrite written_content. repeat split; auto; try lia; discriminate.
      * assert (L : (k < List.length buf)%nat).
        { apply (f_equal (@List.length byte)) in R. rewrite skipn_length in R. cbn in R. lia. }
        destruct (firstn k buf) as [|x done] eqn:D.
        -- exists 0%nat, true. rewrite Nat.add_0_r. repeat split; try lia; try discriminate.
        -- assert (LD : List.length (x :: done) = k) by (rewrite <- D, firstn_length; lia).
           destruct (IH (write_content c pos (x :: done)) (pos + List.length (x :: done))%nat (y :: rest) (n + List.length (x :: done))%nat)
             as (j & e & H & LJ & E1 & E2).
           exists (k + j)%nat, e. rewrite H. rewrite <- R in LJ, E1, E2 |- *. rewrite skipn_length in LJ, E1, E2.
           split; [|split; [lia|split]].
           ++ rewrite written_content, written_app, LD. f_equal; [|f_equal; lia]. f_equal.
              rewrite <- D. symmetry. apply firstn_plus.
           ++ intros Q. specialize (E1 Q). lia.
           ++ intros Q _. specialize (E2 Q). assert ((j < List.length buf - k)%nat); [apply E2; rewrite R; discriminate|lia].
    + exists 0%nat, true. cbn [firstn]. rewrite Nat.add_0_r. repeat split; try lia; try discriminate. intros _ B. destruct buf; [congruence|cbn; lia].
Qed.
Lemma seek_ok f pos : pf_open f = true -> pos < 2 ^ 63 -> p_seek f pos = Some (pf_now f (pf_content f) (N.to_nat pos)).
Proof.
  intros O P. unfold p_seek. rewrite i64_of_N_small by exact P. replace (Z.of_N pos <? 0)%Z with false by (symmetry; apply Z.ltb_ge; lia).
  rewrite O. do 2 f_equal. lia.
Qed.
Lemma seek_no f pos : pf_open f = false \/ 2 ^ 63 <= pos < 2 ^ 64 -> p_seek f pos = None.
Proof.
  intros [O|P]; unfold p_seek; [rewrite O; destruct (_ <? _)%Z; reflexivity|].
  rewrite i64_of_N_neg by exact P. replace (Z.of_N pos - 2 ^ 64 <? 0)%Z with true by (symmetry; apply Z.ltb_lt; lia). reflexivity.
Qed.

(** C156: whatever the system does, a write through an open file changes at most a prefix of the bytes in their place, and the number
    it returns is the length of this prefix; without an error this is all of them, with an error (and bytes to write) it is fewer. *)
Lemma c156_write : forall answers f pos buf c, opened f c -> pf_write f = true -> pos < 2 ^ 63 ->
  exists f' n e, p_filewrite answers f pos buf = (f', (n, e)) /\ (n <= List.length buf)%nat /\
    opened f' (written c (N.to_nat pos) (firstn n buf)) /\ pf_write f' = true /\
    (e = false -> n = List.length buf) /\ (e = true -> buf <> [] -> (n < List.length buf)%nat).
Proof.
  intros answers f pos buf c (O & C) W P. unfold p_filewrite. rewrite seek_ok by assumption. unfold p_write_on. cbn [pf_now pf_write pf_content pf_pos].
  rewrite W, C. destruct (os_write_spec answers c (N.to_nat pos) buf 0) as (k & e & H & L & E1 & E2). rewrite H. cbn [Nat.add].
  do 3 eexists. split; [reflexivity|]. split; [exact L|]. split; [split; [exact O|reflexivity]|]. split; [exact W|]. split; assumption.
Qed.
(** C156: a system that does what it is asked to lets every write succeed; one that fails at once, or writes nothing, lets every write
    of one byte or more fail without a change. *)
Lemma c156_extremes : forall f pos buf c, opened f c -> pf_write f = true -> pos < 2 ^ 63 ->
  (exists f', p_filewrite [] f pos buf = (f', (List.length buf, false)) /\ opened f' (written c (N.to_nat pos) buf)) /\
  (forall a rest, a = Failed \/ a = Did 0 -> buf <> [] ->
     exists f', p_filewrite (a :: rest) f pos buf = (f', (0%nat, true)) /\ opened f' c).
Proof.
  intros f pos buf c (O & C) W P. unfold p_filewrite. rewrite seek_ok by assumption. unfold p_write_on. cbn [pf_now pf_write pf_content pf_pos]. rewrite W, C. split.
  - cbn [os_write]. rewrite written_content. eexists. split; [reflexivity|]. split; [exact O|reflexivity].
  - intros a rest [->| ->] B; cbn [os_write]; [|destruct buf as [|b buf]; [congruence|]; cbn [firstn skipn]]; (eexists; split; [reflexivity|split; [exact O|reflexivity]]).
Qed.
(** C156: a file that is closed, not opened for writing, or a position of 2^63 or more: nothing is written and there is an error. *)
Lemma c156_refused : forall answers f pos buf, pf_open f = false \/ pf_write f = false \/ 2 ^ 63 <= pos -> pos < 2 ^ 64 ->
  exists f', p_filewrite answers f pos buf = (f', (0%nat, true)) /\ pf_content f' = pf_content f.
Proof.
  intros answers f pos buf H P. unfold p_filewrite. destruct (pf_open f) eqn:O.
  - destruct (N.lt_ge_cases pos (2 ^ 63)) as [L|L].
    + rewrite seek_ok by assumption. destruct H as [H|[H|H]]; [discriminate| |lia]. unfold p_write_on. cbn [pf_now pf_write]. rewrite H.
      eexists. split; reflexivity.
    + rewrite seek_no by (right; lia). eexists. split; reflexivity.
  - rewrite seek_no by (left; exact O). eexists. split; reflexivity.
Qed.
Lemma persists_large f pos buf f' : persists f pos buf f' -> 2 ^ 63 <= pos -> pos + N.of_nat (List.length buf) < 2 ^ 64 -> False.
Proof.
  intros H. induction H as [answers f pos buf f' n H|answers f pos buf f1 n f' H PE IH]; intros P B.
  - destruct (c156_refused answers f pos buf) as (f2 & H2 & _); [right; right; exact P|lia|]. rewrite H in H2. discriminate.
  - destruct (c156_refused answers f pos buf) as (f2 & H2 & _); [right; right; exact P|lia|]. rewrite H in H2. inversion H2; subst.
    apply IH; [lia|]. cbn [skipn]. lia.
Qed.
(** C156: after an error, writing what was not written behind what was, as often as there is an error, leaves in the file exactly what
    one write without an error would have left, whatever the system did. *)
Lemma c156_persists : forall f pos buf f' c, persists f pos buf f' -> opened f c -> pf_write f = true ->
  pos + N.of_nat (List.length buf) < 2 ^ 64 -> opened f' (written c (N.to_nat pos) buf).
Proof.
  intros f pos buf f' c H. revert c. induction H as [answers f pos buf f' n H|answers f pos buf f1 n f' H PE IH]; intros c OP W B.
  - destruct (N.lt_ge_cases pos (2 ^ 63)) as [P|P].
    + destruct (c156_write answers f pos buf c OP W P) as (f2 & k & e & H2 & L & O2 & _ & E & _). rewrite H in H2. inversion H2; subst.
      specialize (E eq_refl). subst k. rewrite firstn_all in O2. exact O2.
    + destruct (c156_refused answers f pos buf) as (f2 & H2 & _); [right; right; exact P|lia|]. rewrite H in H2. discriminate.
  - destruct (N.lt_ge_cases pos (2 ^ 63)) as [P|P].
    + destruct (c156_write answers f pos buf c OP W P) as (f2 & k & e & H2 & L & O2 & W2 & _ & _). rewrite H in H2. inversion H2; subst.
      specialize (IH _ O2 W2). assert (LF : List.length (firstn k buf) = k) by (rewrite firstn_length; lia).
      replace (N.to_nat (pos + N.of_nat k)) with (N.to_nat pos + List.length (firstn k buf))%nat in IH by (rewrite LF; lia).
      rewrite written_app, firstn_skipn in IH. apply IH. rewrite skipn_length. lia.
    + exfalso. destruct (c156_refused answers f pos buf) as (f2 & H2 & _); [right; right; exact P|lia|]. rewrite H in H2. inversion H2; subst.
      apply (persists_large _ _ _ _ PE); [lia|]. cbn [skipn]. lia.
Qed.

(** ** Reading *)
Lemma os_read_spec a c pos blen :
  (os_read a c pos blen = None /\ (0 < blen)%nat /\ (a = Failed \/ (List.length c <= pos)%nat)) \/
  (exists n, os_read a c pos blen = Some (firstn n (skipn pos c)) /\ (n <= blen)%nat /\ (n <= List.length c - pos)%nat /\ ((0 < blen)%nat -> (0 < n)%nat) /\
     (a = Failed -> blen = 0%nat) /\ (forall k, a = Did k -> n = Nat.min (Nat.max 1 k) (Nat.min blen (List.length c - pos)))).
Proof.
  unfold os_read. destruct (Nat.eqb_spec blen 0) as [->|NZ].
  - right. exists 0%nat. repeat split; try lia. 
  - destruct a as [k|]; [|left; repeat split; auto; lia].
    assert (SL : List.length (skipn pos c) = (List.length c - pos)%nat) by apply skipn_length.
    rewrite firstn_firstn. set (m := Nat.min (Nat.max 1 k) blen). destruct (firstn m (skipn pos c)) as [|x l] eqn:F.
    + left. repeat split; [lia|]. right. apply (f_equal (@List.length byte)) in F. rewrite firstn_length, SL in F. cbn [List.length] in F. subst m. lia.
    + right. exists (Nat.min m (List.length c - pos)). rewrite <- F. assert (LF : (0 < Nat.min m (List.length c - pos))%nat).
      { rewrite <- SL, <- firstn_length, F. cbn. lia. }
      split; [|subst m; repeat split; try lia; [discriminate|]; intros k' E; inversion E; subst; lia].
      f_equal. destruct (Nat.le_ge_cases m (List.length c - pos)) as [L|L]; [rewrite Nat.min_l by exact L; reflexivity|].
      rewrite Nat.min_r by exact L. rewrite !firstn_all2 by lia. reflexivity.
Qed.
(** C156: whatever the system does, a read of an open file gives bytes of the file from the position on, at most as many as were asked
    for and at least one (unless none were asked for), and there is an error exactly if the system fails or the position is at the
    end or behind it.  The file does not change.  It may be fewer than were asked for although there are more. *)
Lemma c156_read : forall a f pos blen c, opened f c -> pos < 2 ^ 63 ->
  exists f' r, p_fileread a f pos (Z.of_nat blen) = Ret (f', r) /\ opened f' c /\ pf_write f' = pf_write f /\
    (r = None <-> (0 < blen)%nat /\ (a = Failed \/ (List.length c <= N.to_nat pos)%nat)) /\
    forall b, r = Some b -> b = firstn (List.length b) (skipn (N.to_nat pos) c) /\ (List.length b <= blen)%nat /\ ((0 < blen)%nat -> b <> []) /\
      forall k, a = Did k -> List.length b = Nat.min (Nat.max 1 k) (Nat.min blen (List.length c - N.to_nat pos)).
Proof.
  intros a f pos blen c (O & C) P. unfold p_fileread. replace (Z.of_nat blen <? 0)%Z with false by (symmetry; apply Z.ltb_ge; lia).
  rewrite seek_ok by assumption. unfold p_read_on. cbn [pf_now pf_content pf_pos]. rewrite C, Nat2Z.id.
  destruct (os_read_spec a c (N.to_nat pos) blen) as [(H & B & E)|(n & H & L1 & L2 & L3 & E & K)]; rewrite H.
  - do 2 eexists. split; [reflexivity|]. split; [split; [exact O|reflexivity]|]. split; [reflexivity|]. split; [tauto|]. intros b X; discriminate.
  - assert (LF : List.length (firstn n (skipn (N.to_nat pos) c)) = n) by (rewrite firstn_length, skipn_length; lia).
    do 2 eexists. split; [reflexivity|]. split; [split; [exact O|reflexivity]|]. split; [reflexivity|]. split.
    + split; [discriminate|]. intros (B & [X|X]); [specialize (E X); lia|]. specialize (L3 B). lia.
    + intros b X. injection X as <-. rewrite LF. repeat split; auto.
      intros B Y. apply (f_equal (@List.length byte)) in Y. rewrite LF in Y. cbn in Y. specialize (L3 B). lia.
Qed.
Lemma skipn_plus {A} (l : list A) n m : skipn m (skipn n l) = skipn (n + m) l.
Proof. revert l. induction n as [|n IH]; intros l; [reflexivity|]. destruct l; cbn; [destruct m; reflexivity|]. apply IH. Qed.
(** C156: reading on behind what was read, whatever the sizes asked for and given, until there is an error, gives the bytes of the file
    in order: up to some point; up to the end if the system did not fail. *)
Lemma c156_reads : forall f pos got c, reads_on f pos got -> opened f c -> N.of_nat (List.length c) < 2 ^ 63 -> pos < 2 ^ 63 ->
  exists n, got = firstn n (skipn (N.to_nat pos) c).
Proof.
  intros f pos got c H. induction H as [a f pos blen f' H|a f pos blen f' b got B H RO IH]; intros OP LC P; [exists 0%nat; reflexivity|].
  destruct (c156_read a f pos blen c OP P) as (f2 & r & H2 & O2 & _ & _ & G). rewrite H in H2. inversion H2; subst.
  destruct (G b eq_refl) as (E & L & NE & _). assert (BL : (List.length b <= List.length c - N.to_nat pos)%nat).
  { apply (f_equal (@List.length byte)) in E. rewrite firstn_length, skipn_length in E. lia. }
  assert (LB : (0 < List.length b)%nat) by (destruct b; [destruct (NE B); reflexivity|cbn; lia]).
  destruct (IH O2 LC) as (m & M); [lia|]. exists (List.length b + m)%nat. rewrite firstn_plus, <- E, M, skipn_plus. do 2 f_equal. f_equal. lia.
Qed.
(** C156: without failing system calls, reading on until there is an error gives all the rest of the file. *)
Lemma c156_reads_all : forall f pos got c, reads_well f pos got -> opened f c -> N.of_nat (List.length c) < 2 ^ 63 -> pos < 2 ^ 63 ->
  got = skipn (N.to_nat pos) c.
Proof.
  intros f pos got c H. induction H as [k f pos blen f' H|k f pos blen f' b got B H RO IH]; intros OP LC P;
    destruct (c156_read (Did k) f pos blen c OP P) as (f2 & r & H2 & O2 & _ & N & G); rewrite H in H2; inversion H2; subst.
  - destruct (proj1 N eq_refl) as (_ & [X|X]); [discriminate|]. rewrite skipn_all2 by exact X. reflexivity.
  - destruct (G b eq_refl) as (E & L & NE & _). assert (BL : (List.length b <= List.length c - N.to_nat pos)%nat).
    { apply (f_equal (@List.length byte)) in E. rewrite firstn_length, skipn_length in E. lia. }
    assert (LB : (0 < List.length b)%nat) by (destruct b; [destruct (NE B); reflexivity|cbn; lia]).
    rewrite IH by (auto; lia). rewrite E at 1. replace (N.to_nat (pos + N.of_nat (List.length b))) with (N.to_nat pos + List.length b)%nat by lia.
    rewrite <- skipn_plus. apply firstn_skipn.
Qed.

(** ** Reassembly *)
(** C156: chunks of a source written to an open file, each once, in any order, on a system that may fail or write less: every byte that
    was reported as written is that of the source, whatever became of the others. *)
Lemma c156_collects : forall src f l rs f' c, collects f l rs f' -> opened f c -> pf_write f = true ->
  (forall k, In k l -> true_chunk src k /\ fst k < 2 ^ 63) ->
  exists c', opened f' c' /\ (forall i, received rs (Z.of_nat i) -> nth_error c' i = nth_error src i) /\
    forall i, ~ received rs (Z.of_nat i) -> (i < List.length c)%nat -> nth_error c' i = nth_error c i.
Proof.
  intros src f l rs f' c H. 
  assert (G : forall done c, opened f c -> pf_write f = true -> (forall k, In k l -> true_chunk src k /\ fst k < 2 ^ 63) ->
    (forall i, received done (Z.of_nat i) -> (i < List.length c)%nat /\ nth_error c i = nth_error src i) ->
    exists c', opened f' c' /\ (forall i, received done (Z.of_nat i) \/ received rs (Z.of_nat i) -> nth_error c' i = nth_error src i) /\
      forall i, ~ received rs (Z.of_nat i) -> (i < List.length c)%nat -> nth_error c' i = nth_error c i).
  { clear c. induction H as [f|answers f pos buf f1 n e l rs f' H CO IH]; intros done c OP W TC D.
    - exists c. split; [exact OP|]. split; [|auto]. intros i [R|(s & e & [] & _)]. apply D, R.
    - destruct (TC _ (or_introl eq_refl)) as (T & P). cbn [fst] in P.
      destruct (c156_write answers f pos buf c OP W P) as (f2 & k & e2 & H2 & L & O2 & W2 & _). rewrite H in H2. inversion H2; subst.
      assert (LF : List.length (firstn k buf) = k) by (rewrite firstn_length; lia).
      assert (LEN : (List.length c <= List.length (written c (N.to_nat pos) (firstn k buf)))%nat /\ (0 < k -> N.to_nat pos + k <= List.length (written c (N.to_nat pos) (firstn k buf)))%nat).
      { destruct (firstn k buf) as [|x y] eqn:F; [cbn [written List.length] in *; lia|]. rewrite written_length by discriminate. lia. }
      destruct LEN as (LEN & LEN2).
      assert (TRUE : forall i, (N.to_nat pos <= i < N.to_nat pos + k)%nat -> nth_error (written c (N.to_nat pos) (firstn k buf)) i = nth_error src i).
      { intros i I. assert (NE : firstn k buf <> []) by (intros X; rewrite X in LF; cbn in LF; lia). rewrite written_nth by exact NE. unfold byte_after.
        rewrite LF. destruct (Nat.leb_spec (N.to_nat pos + k) i); [lia|]. destruct (Nat.leb_spec (N.to_nat pos) i); [|lia].
        rewrite nth_error_firstn' by lia. specialize (T (i - N.to_nat pos)%nat). cbn [fst snd] in T. rewrite <- T by lia. f_equal. lia. }
      assert (KEEP : forall i, ~ (N.to_nat pos <= i < N.to_nat pos + k)%nat -> (i < List.length c)%nat ->
        nth_error (written c (N.to_nat pos) (firstn k buf)) i = nth_error c i).
      { intros i I LI. destruct (firstn k buf) as [|x y] eqn:F; [reflexivity|]. rewrite written_nth by discriminate. unfold byte_after. rewrite LF.
        destruct (Nat.leb_spec (N.to_nat pos + k) i); [reflexivity|]. destruct (Nat.leb_spec (N.to_nat pos) i); [lia|].
        destruct (Nat.ltb_spec i (List.length c)); [reflexivity|lia]. }
      destruct (IH ((Z.of_N pos, (Z.of_N pos + Z.of_nat k)%Z) :: done) _ O2 W2) as (c' & O' & R' & K').
      { intros q Q. apply TC. right. exact Q. }
      { intros i (s & e & [X|X] & B).
        - inversion X; subst. split; [lia|]. apply TRUE. lia.
        - assert (R : received done (Z.of_nat i)) by (exists s, e; split; assumption). destruct (D i R) as (LI & DI). split; [lia|].
          destruct (Nat.lt_ge_cases i (N.to_nat pos)) as [A|A]; [|destruct (Nat.lt_ge_cases i (N.to_nat pos + k)) as [A'|A']; [apply TRUE; lia|]];
            rewrite <- DI; apply KEEP; lia. }
      exists c'. split; [exact O'|]. split.
      + intros i [(s & e & X & B)|(s & e & [X|X] & B)]; apply R'.
        * left. exists s, e. split; [right; exact X|exact B].
        * left. exists s, e. split; [left; exact X|exact B].
        * right. exists s, e. split; assumption.
      + intros i NR LI. rewrite K'.
        * apply KEEP; [|exact LI]. intros I. apply NR. exists (Z.of_N pos), (Z.of_N pos + Z.of_nat k)%Z. split; [left; reflexivity|lia].
        * intros (s & e & X & B). apply NR. exists s, e. split; [right; exact X|exact B].
        * lia. }
  intros OP W TC. destruct (G [] c OP W TC) as (c' & O' & R' & K'); [intros i (s & e & [] & _)|].
  exists c'. split; [exact O'|]. split; [|exact K']. intros i R. apply R'. right. exact R.
Qed.

(** ** Two calls at once *)
Lemma go_works k f c : opened f c -> exists f' c' r, call_go f k = (f', Ended r) /\ works (pf_write f) k c (pf_pos f) c' (pf_pos f') r /\
  opened f' c' /\ pf_write f' = pf_write f.
Proof.
  intros (O & C). destruct k as [pos blen|pos buf]; cbn [call_go].
  - unfold p_read_on. rewrite C. destruct (os_read_spec (Did blen) c (pf_pos f) blen) as [(H & B & [E|E])|(n & H & L1 & L2 & L3 & _ & K)]; [discriminate| |]; rewrite H.
    + do 3 eexists. split; [reflexivity|]. split; [apply wk_end; [exact E|lia]|]. split; [split; assumption|reflexivity].
    + assert (LN : n = Nat.min blen (List.length c - pf_pos f)) by (rewrite (K blen eq_refl); lia).
      assert (FN : firstn n (skipn (pf_pos f) c) = firstn blen (skipn (pf_pos f) c)).
      { destruct (Nat.le_ge_cases blen (List.length c - pf_pos f)) as [X|X]; [f_equal; lia|].
        rewrite !firstn_all2 by (rewrite skipn_length; lia). reflexivity. }
      rewrite FN. do 3 eexists. split; [reflexivity|]. split; [apply wk_read; destruct (Nat.eq_dec blen 0); [right; assumption|left; lia]|]. split; [split; [exact O|reflexivity]|reflexivity].
  - unfold p_write_on. destruct (pf_write f) eqn:W.
    + cbn [os_write]. rewrite C, written_content. cbn [Nat.add]. do 3 eexists. split; [reflexivity|]. split; [apply wk_write; reflexivity|]. split; [split; [exact O|reflexivity]|exact W].
    + do 3 eexists. split; [reflexivity|]. split; [apply wk_refused; reflexivity|]. split; [split; assumption|exact W].
Qed.
Lemma seek_works k f c : opened f c -> in_reach k -> exists f', call_seek f k = (f', Sought) /\ opened f' c /\ pf_pos f' = place_of k /\ pf_write f' = pf_write f.
Proof.
  intros (O & C) R. destruct k as [pos n|pos buf]; cbn [call_seek in_reach place_of] in *; rewrite seek_ok by assumption;
    (eexists; split; [reflexivity|]; split; [split; assumption|split; reflexivity]).
Qed.
Lemma works_one w k c off c1 o1 r1 c2 o2 r2 : works w k c off c1 o1 r1 -> works w k c off c2 o2 r2 -> c1 = c2 /\ o1 = o2 /\ r1 = r2.
Proof. intros A B. inversion A; subst; inversion B; subst; try congruence; try (repeat split; congruence); exfalso; lia. Qed.

(** What the two calls of [x] and [y] may come to *)
Definition outcomes (w : bool) (x y : pcall) (c c' : list byte) (rx ry : pres) : Prop :=
  in_turn w x y c c' rx ry \/ in_turn w y x c c' ry rx \/
  exists p, (p = place_of x \/ p = place_of y) /\ (behind w p x y c c' rx ry \/ behind w p y x c c' ry rx).
Inductive amidst (x y : pcall) (w : bool) (c : list byte) (f : pfile) : phase -> phase -> Prop :=
| am_bb : opened f c -> amidst x y w c f Before Before
| am_sb : opened f c -> pf_pos f = place_of x -> amidst x y w c f Sought Before
| am_bs : opened f c -> pf_pos f = place_of y -> amidst x y w c f Before Sought
| am_eb : forall c1 o1 r, works w x c (place_of x) c1 o1 r -> opened f c1 -> amidst x y w c f (Ended r) Before
| am_be : forall c1 o1 r, works w y c (place_of y) c1 o1 r -> opened f c1 -> amidst x y w c f Before (Ended r)
| am_ss : opened f c -> pf_pos f = place_of x \/ pf_pos f = place_of y -> amidst x y w c f Sought Sought
| am_es : forall p c1 o1 r, works w x c p c1 o1 r -> opened f c1 ->
    (p = place_of x /\ pf_pos f = place_of y) \/ ((p = place_of x \/ p = place_of y) /\ pf_pos f = o1) -> amidst x y w c f (Ended r) Sought
| am_se : forall p c1 o1 r, works w y c p c1 o1 r -> opened f c1 ->
    (p = place_of y /\ pf_pos f = place_of x) \/ ((p = place_of x \/ p = place_of y) /\ pf_pos f = o1) -> amidst x y w c f Sought (Ended r)
| am_ee : forall c' rx ry, outcomes w x y c c' rx ry -> opened f c' -> amidst x y w c f (Ended rx) (Ended ry).
Lemma amidst_left x y w c f p q : in_reach x -> pf_write f = w -> amidst x y w c f p q ->
  exists f' p', call_step f x p = (f', p') /\ amidst x y w c f' p' q /\ pf_write f' = w.
Proof.
  intros R W H. destruct p as [| |r]; cbn [call_step].
  - inversion H as [O| |O E| |c1 o1 r K O| | | |]; subst;
      (edestruct seek_works as (f' & -> & O' & P' & W'); [exact O|exact R|]; exists f', Sought; split; [reflexivity|]; split; [|congruence]).
    + apply am_sb; assumption.
    + apply am_ss; auto.
    + eapply am_se; [exact K|exact O'|]. left. auto.
  - inversion H as [|O E| | | |O E| |p c1 o1 r K O E|]; subst;
      (edestruct go_works as (f' & c' & r' & -> & K' & O' & W'); [exact O|]; do 2 eexists; split; [reflexivity|]; split; [|exact W']).
    + rewrite E in K'. eapply am_eb; eassumption.
    + eapply am_es; [exact K'|exact O'|]. right. auto.
    + apply am_ee with c'; [|exact O']. destruct E as [(-> & E)|(E1 & E2)].
      * right. left. rewrite E in K'. do 3 eexists. split; eassumption.
      * right. right. exists p. split; [exact E1|]. right. rewrite E2 in K'. do 3 eexists. split; eassumption.
  - do 2 eexists. split; [reflexivity|]. split; assumption.
Qed.
Lemma amidst_right x y w c f p q : in_reach y -> pf_write f = w -> amidst x y w c f p q ->
  exists f' q', call_step f y q = (f', q') /\ amidst x y w c f' p q' /\ pf_write f' = w.
Proof.
  intros R W H. destruct q as [| |r]; cbn [call_step].
  - inversion H as [O|O E| |c1 o1 r K O| | | | |]; subst;
      (edestruct seek_works as (f' & -> & O' & P' & W'); [exact O|exact R|]; exists f', Sought; split; [reflexivity|]; split; [|congruence]).
    + apply am_bs; assumption.
    + apply am_ss; auto.
    + eapply am_es; [exact K|exact O'|]. left. auto.
  - inversion H as [| |O E| | |O E|p1 c1 o1 r K O E| |]; subst;
      (edestruct go_works as (f' & c' & r' & -> & K' & O' & W'); [exact O|]; do 2 eexists; split; [reflexivity|]; split; [|exact W']).
    + rewrite E in K'. eapply am_be; eassumption.
    + eapply am_se; [exact K'|exact O'|]. right. auto.
    + apply am_ee with c'; [|exact O']. destruct E as [(-> & E)|(E1 & E2)].
      * left. rewrite E in K'. do 3 eexists. split; eassumption.
      * right. right. exists p1. split; [exact E1|]. left. rewrite E2 in K'. do 3 eexists. split; eassumption.
  - do 2 eexists. split; [reflexivity|]. split; assumption.
Qed.
Lemma amidst_run x y w c : in_reach x -> in_reach y -> forall sched f p q, pf_write f = w -> amidst x y w c f p q ->
  exists f' p' q', two_calls x y sched (f, (p, q)) = (f', (p', q')) /\ amidst x y w c f' p' q'.
Proof.
  intros RX RY. induction sched as [|b r IH]; intros f p q W A; [exists f, p, q; split; [reflexivity|exact A]|]. cbn [two_calls]. destruct b.
  - destruct (amidst_left x y w c f p q RX W A) as (f1 & p1 & -> & A1 & W1). apply IH; assumption.
  - destruct (amidst_right x y w c f p q RY W A) as (f1 & q1 & -> & A1 & W1). apply IH; assumption.
Qed.

(** C157: two calls on one open file at once, each a read or a write.  When both are at their end, what is in the file and what they
    returned is as if one had come after the other, each at its own place - or one after the other, but both at the place that one
    of them (whichever) had asked for: the first there, the second right behind the first.  There is a schedule for each of these. *)
Lemma c157_two : forall f c x y c' rx ry, opened f c -> in_reach x -> in_reach y ->
  ((exists sched f', two_calls x y sched (f, (Before, Before)) = (f', (Ended rx, Ended ry)) /\ opened f' c') <->
   in_turn (pf_write f) x y c c' rx ry \/ in_turn (pf_write f) y x c c' ry rx \/
   exists p, (p = place_of x \/ p = place_of y) /\ (behind (pf_write f) p x y c c' rx ry \/ behind (pf_write f) p y x c c' ry rx)).
Proof.
  intros f c x y c' rx ry O RX RY. split.
  - intros (sched & f' & H & O').
    destruct (amidst_run x y (pf_write f) c RX RY sched f Before Before eq_refl (am_bb _ _ _ _ _ O)) as (f1 & p1 & q1 & H1 & A).
    rewrite H in H1. inversion H1; subst. inversion A as [| | | | | | | |c2 a b OC O2]; subst. destruct O' as (_ & <-), O2 as (_ & <-). exact OC.
  - assert (SX : forall f c, opened f c -> exists f', call_seek f x = (f', Sought) /\ opened f' c /\ pf_pos f' = place_of x /\ pf_write f' = pf_write f)
      by (intros; apply seek_works; assumption).
    assert (SY : forall f c, opened f c -> exists f', call_seek f y = (f', Sought) /\ opened f' c /\ pf_pos f' = place_of y /\ pf_write f' = pf_write f)
      by (intros; apply seek_works; assumption).
    assert (GO : forall k f c off c2 o2 r, opened f c -> pf_pos f = off -> works (pf_write f) k c off c2 o2 r ->
      exists f', call_go f k = (f', Ended r) /\ opened f' c2 /\ pf_pos f' = o2 /\ pf_write f' = pf_write f).
    { intros k g d off c2 o2 r OG <- K. destruct (go_works k g d OG) as (g' & d' & r' & H & K' & O' & W').
      destruct (works_one _ _ _ _ _ _ _ _ _ _ K K') as (-> & -> & ->). exists g'. repeat split; auto; apply O'. }
    intros [(c1 & o1 & o2 & A & B)|[(c1 & o1 & o2 & A & B)|(p & P & [(c1 & o1 & o2 & A & B)|(c1 & o1 & o2 & A & B)])]].
    + destruct (SX f c O) as (f1 & E1 & O1 & P1 & W1). rewrite <- W1 in A, B. destruct (GO x f1 c _ _ _ _ O1 P1 A) as (f2 & E2 & O2 & P2 & W2).
      rewrite <- W2 in B. destruct (SY f2 c1 O2) as (f3 & E3 & O3 & P3 & W3). rewrite <- W3 in B. destruct (GO y f3 c1 _ _ _ _ O3 P3 B) as (f4 & E4 & O4 & _).
      exists [true; true; false; false], f4. cbn [two_calls call_step]. rewrite E1. cbn [call_step]. rewrite E2, E3. cbn [call_step]. rewrite E4. auto.
    + destruct (SY f c O) as (f1 & E1 & O1 & P1 & W1). rewrite <- W1 in A, B. destruct (GO y f1 c _ _ _ _ O1 P1 A) as (f2 & E2 & O2 & P2 & W2).
      rewrite <- W2 in B. destruct (SX f2 c1 O2) as (f3 & E3 & O3 & P3 & W3). rewrite <- W3 in B. destruct (GO x f3 c1 _ _ _ _ O3 P3 B) as (f4 & E4 & O4 & _).
      exists [false; false; true; true], f4. cbn [two_calls call_step]. rewrite E1. cbn [call_step]. rewrite E2, E3. cbn [call_step]. rewrite E4. auto.
    + destruct P as [->| ->].
      * destruct (SY f c O) as (f1 & E1 & O1 & _ & W1). destruct (SX f1 c O1) as (f2 & E2 & O2 & P2 & W2). rewrite <- W1, <- W2 in A, B.
        destruct (GO x f2 c _ _ _ _ O2 P2 A) as (f3 & E3 & O3 & P3 & W3). rewrite <- W3 in B. destruct (GO y f3 c1 _ _ _ _ O3 P3 B) as (f4 & E4 & O4 & _).
        exists [false; true; true; false], f4. cbn [two_calls call_step]. rewrite E1, E2. cbn [call_step]. rewrite E3, E4. auto.
      * destruct (SX f c O) as (f1 & E1 & O1 & _ & W1). destruct (SY f1 c O1) as (f2 & E2 & O2 & P2 & W2). rewrite <- W1, <- W2 in A, B.
        destruct (GO x f2 c _ _ _ _ O2 P2 A) as (f3 & E3 & O3 & P3 & W3). rewrite <- W3 in B. destruct (GO y f3 c1 _ _ _ _ O3 P3 B) as (f4 & E4 & O4 & _).
        exists [true; false; true; false], f4. cbn [two_calls call_step]. rewrite E1, E2. cbn [call_step]. rewrite E3, E4. auto.
    + destruct P as [->| ->].
      * destruct (SY f c O) as (f1 & E1 & O1 & _ & W1). destruct (SX f1 c O1) as (f2 & E2 & O2 & P2 & W2). rewrite <- W1, <- W2 in A, B.
        destruct (GO y f2 c _ _ _ _ O2 P2 A) as (f3 & E3 & O3 & P3 & W3). rewrite <- W3 in B. destruct (GO x f3 c1 _ _ _ _ O3 P3 B) as (f4 & E4 & O4 & _).
        exists [false; true; false; true], f4. cbn [two_calls call_step]. rewrite E1, E2. cbn [call_step]. rewrite E3. cbn [call_step]. rewrite E4. auto.
      * destruct (SX f c O) as (f1 & E1 & O1 & _ & W1). destruct (SY f1 c O1) as (f2 & E2 & O2 & P2 & W2). rewrite <- W1, <- W2 in A, B.
        destruct (GO y f2 c _ _ _ _ O2 P2 A) as (f3 & E3 & O3 & P3 & W3). rewrite <- W3 in B. destruct (GO x f3 c1 _ _ _ _ O3 P3 B) as (f4 & E4 & O4 & _).
        exists [true; false; false; true], f4. cbn [two_calls call_step]. rewrite E1, E2. cbn [call_step]. rewrite E3. cbn [call_step]. rewrite E4. auto.
Qed.
Lemma writes_works pos buf c off c' o r : works true (CWrite pos buf) c off c' o r -> c' = written c off buf /\ o = (off + List.length buf)%nat /\ r = RPut (List.length buf) false.
Proof. intros H. inversion H; subst; [auto|discriminate]. Qed.
(** C157: two writes at once on one open file both report that all was written.  But the file may hold the bytes of both one behind the
    other, at the place of either of them, in either order, and nothing of them at the place of the other (defect). *)
Lemma c157_writes : forall f c p1 b1 p2 b2 c', opened f c -> pf_write f = true -> p1 < 2 ^ 63 -> p2 < 2 ^ 63 ->
  ((exists sched f' r1 r2, two_calls (CWrite p1 b1) (CWrite p2 b2) sched (f, (Before, Before)) = (f', (Ended r1, Ended r2)) /\ opened f' c') <->
   let at1 := N.to_nat p1 in let at2 := N.to_nat p2 in
   In c' [written (written c at1 b1) at2 b2; written (written c at2 b2) at1 b1;
          written c at1 (b1 ++ b2); written c at1 (b2 ++ b1); written c at2 (b1 ++ b2); written c at2 (b2 ++ b1)]) /\
  forall sched f' r1 r2, two_calls (CWrite p1 b1) (CWrite p2 b2) sched (f, (Before, Before)) = (f', (Ended r1, Ended r2)) ->
    r1 = RPut (List.length b1) false /\ r2 = RPut (List.length b2) false.
Proof.
  intros f c p1 b1 p2 b2 c' O W P1 P2.
  assert (T : forall c' r1 r2, _) by (intros c2 r1 r2; exact (c157_two f c (CWrite p1 b1) (CWrite p2 b2) c2 r1 r2 O P1 P2)). cbv beta in T. rewrite W in T. cbn [place_of] in T.
  assert (WR : forall pos buf c off, works true (CWrite pos buf) c off (written c off buf) (off + List.length buf) (RPut (List.length buf) false)) by (intros; apply wk_write; reflexivity).
  assert (ALL : forall c' r1 r2, (in_turn true (CWrite p1 b1) (CWrite p2 b2) c c' r1 r2 \/ in_turn true (CWrite p2 b2) (CWrite p1 b1) c c' r2 r1 \/
     exists p, (p = N.to_nat p1 \/ p = N.to_nat p2) /\ (behind true p (CWrite p1 b1) (CWrite p2 b2) c c' r1 r2 \/ behind true p (CWrite p2 b2) (CWrite p1 b1) c c' r2 r1)) ->
     r1 = RPut (List.length b1) false /\ r2 = RPut (List.length b2) false /\
     In c' [written (written c (N.to_nat p1) b1) (N.to_nat p2) b2; written (written c (N.to_nat p2) b2) (N.to_nat p1) b1;
          written c (N.to_nat p1) (b1 ++ b2); written c (N.to_nat p1) (b2 ++ b1); written c (N.to_nat p2) (b1 ++ b2); written c (N.to_nat p2) (b2 ++ b1)]).
  { intros c2 r1 r2 [(d & o1 & o2 & A & B)|[(d & o1 & o2 & A & B)|(p & [->| ->] & [(d & o1 & o2 & A & B)|(d & o1 & o2 & A & B)])]];
      apply writes_works in A; apply writes_works in B; destruct A as (-> & -> & ->), B as (-> & -> & ->); (split; [reflexivity|]; split; [reflexivity|]);
      cbn [place_of]; rewrite ?written_app; cbn [In]; tauto. }
  split.
  - cbv zeta. split.
    + intros (sched & f' & r1 & r2 & H & O'). apply (ALL c' r1 r2). apply T. eauto.
    + intros I. destruct (proj2 (T c' (RPut (List.length b1) false) (RPut (List.length b2) false))) as (sched & f' & H); [|do 4 eexists; exact H].
      cbn [In] in I. destruct I as [<-|[<-|[<-|[<-|[<-|[<-|[]]]]]]].
      * left. do 3 eexists. split; apply WR.
      * right. left. do 3 eexists. split; apply WR.
      * right. right. exists (N.to_nat p1). split; [auto|]. left. rewrite <- written_app. do 3 eexists. split; apply WR.
      * right. right. exists (N.to_nat p1). split; [auto|]. right. rewrite <- written_app. do 3 eexists. split; apply WR.
      * right. right. exists (N.to_nat p2). split; [auto|]. left. rewrite <- written_app. do 3 eexists. split; apply WR.
      * right. right. exists (N.to_nat p2). split; [auto|]. right. rewrite <- written_app. do 3 eexists. split; apply WR.
  - intros sched f' r1 r2 H.
    destruct (amidst_run (CWrite p1 b1) (CWrite p2 b2) (pf_write f) c P1 P2 sched f Before Before eq_refl (am_bb _ _ _ _ _ O)) as (f1 & q1 & q2 & H1 & A).
    rewrite H in H1. inversion H1; subst. inversion A as [| | | | | | | |c2 a b OC O2]; subst. rewrite W in OC. destruct (ALL _ _ _ OC) as (X & Y & _). auto.
Qed.

(** A disk that becomes full after three bytes, and has room later *)
Example c156_ex :
  let f := {| pf_content := bytes_of "abcdef"; pf_pos := 0; pf_write := true; pf_open := true |} in
  let g := {| pf_content := bytes_of "abcXYZ"; pf_pos := 6; pf_write := true; pf_open := true |} in
  opened f (bytes_of "abcdef") /\
  p_filewrite [Did 2; Did 1; Failed] f 3 (bytes_of "XYZWV") = (g, (3%nat, true)) /\
  persists f 3 (bytes_of "XYZWV") {| pf_content := bytes_of "abcXYZWV"; pf_pos := 8; pf_write := true; pf_open := true |} /\
  p_fileread (Did 2) g 1 4 = Ret ({| pf_content := bytes_of "abcXYZ"; pf_pos := 3; pf_write := true; pf_open := true |}, Some (bytes_of "bc")) /\
  reads_well g 1 (bytes_of "bcXYZ") /\
  (exists f', collects f [(3, bytes_of "XYZ"); (0, bytes_of "uv")] [(3, 4); (0, 2)]%Z f') /\
  true_chunk (bytes_of "uv XYZ") (3, bytes_of "XYZ").
Proof.
  cbv zeta. split; [split; reflexivity|]. split; [vm_compute; reflexivity|]. split.
  { eapply (pe_again [Did 2; Did 1; Failed]); [vm_compute; reflexivity|]. eapply (pe_done []). vm_compute. reflexivity. }
  split; [vm_compute; reflexivity|]. split.
  { change (bytes_of "bcXYZ") with (bytes_of "bc" ++ bytes_of "XYZ" ++ [])%list. eapply (rw_more 2 _ _ 4); [lia|vm_compute; reflexivity|].
    eapply (rw_more 9 _ _ 9); [lia|vm_compute; reflexivity|]. eapply (rw_end 9 _ _ 9). vm_compute. reflexivity. }
  split.
  { eexists. change [(3, 4); (0, 2)]%Z with [(Z.of_N 3, (Z.of_N 3 + Z.of_nat 1)%Z); (Z.of_N 0, (Z.of_N 0 + Z.of_nat 2)%Z)]. eapply (co_cons [Did 1; Failed] _ _ _ _ 1); [vm_compute; reflexivity|]. eapply (co_cons [] _ _ _ _ 2); [vm_compute; reflexivity|]. constructor. }
  intros i I. cbn [fst snd] in *. cbn in I. destruct i as [|[|[|i]]]; [reflexivity|reflexivity|reflexivity|lia].
Qed.
(** C157: a call for a place that no file has is refused, and the other call goes on as if it was not there *)
Lemma c157_refused : forall x y sched f, out_of_reach y ->
  let '(f', (p, _)) := two_calls x y (filter (fun b => b) sched) (f, (Before, Before)) in
  two_calls x y sched (f, (Before, Before)) = (f', (p, if forallb (fun b => b) sched then Before else Ended (refusal y))).
Proof.
  intros x y sched f R.
  assert (SY : forall f, call_step f y Before = (f, Ended (refusal y))).
  { intros g. cbn [call_step]. destruct y as [pos n|pos b]; cbn [call_seek refusal out_of_reach] in *; rewrite seek_no by (right; exact R); reflexivity. }
  assert (E : forall sched f p r, let '(f', (p', _)) := two_calls x y (filter (fun b => b) sched) (f, (p, Before)) in two_calls x y sched (f, (p, Ended r)) = (f', (p', Ended r))).
  { induction sched0 as [|b l IH]; intros g p r; [reflexivity|]. destruct b; cbn [filter two_calls].
    - destruct (call_step g x p) as [g1 p1]. apply IH.
    - cbn [call_step]. apply IH. }
  generalize Before at 1 3 as p. revert f. induction sched as [|b l IH]; intros f p; [reflexivity|]. destruct b; cbn [filter two_calls forallb andb].
  - destruct (call_step f x p) as [f1 p1]. apply IH.
  - rewrite SY. apply E.
Qed.
Example c157_refused_ex :
  let f := {| pf_content := bytes_of "......"; pf_pos := 0; pf_write := true; pf_open := true |} in
  out_of_reach (CWrite (2 ^ 63) (bytes_of "BB")) /\
  two_calls (CWrite 1 (bytes_of "AA")) (CWrite (2 ^ 63) (bytes_of "BB")) [true; false; true] (f, (Before, Before)) =
    ({| pf_content := bytes_of ".AA..."; pf_pos := 3; pf_write := true; pf_open := true |}, (Ended (RPut 2 false), Ended (RPut 0 true))).
Proof. cbv zeta. split; [cbn; lia|vm_compute; reflexivity]. Qed.
(** Two goroutines write the first and the last third of a file *)
Example c157_ex :
  let f := {| pf_content := bytes_of "......"; pf_pos := 0; pf_write := true; pf_open := true |} in
  let run sched := pf_content (fst (two_calls (CWrite 0 (bytes_of "AA")) (CWrite 4 (bytes_of "BB")) sched (f, (Before, Before)))) in
  opened f (bytes_of "......") /\
  map run [[true; true; false; false]; [true; false; true; false]; [false; true; false; true]] =
    map bytes_of ["AA..BB"; "....AABB"; "BBAA.."] /\
  two_calls (CRead 0 2) (CWrite 4 (bytes_of "BB")) [true; false; true; false] (f, (Before, Before)) =
    ({| pf_content := bytes_of "......BB"; pf_pos := 8; pf_write := true; pf_open := true |}, (Ended (RGot (Some (bytes_of ".."))), Ended (RPut 2 false))).
Proof. cbv zeta. split; [split; reflexivity|]. split; vm_compute; reflexivity. Qed.
