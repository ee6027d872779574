(** * C163: a machine that loses power while, or after, it receives a file *)

From Verif Require Import GoBase GoFacts Timestamp Fileio SpecFileio FileioFacts FileioMain SpecHandles HandlesFacts Partial PartialMain Crash SpecCrash CrashMain Power SpecPower DirentMain.
Local Open Scope string_scope.
Local Open Scope N_scope.

Lemma calls_app a b : calls (a ++ b) = (calls a ++ calls b)%list.
Proof. apply flat_map_app. Qed.
Lemma power_process now cwd q : forall evs m d, fst (power_run now cwd q evs (m, d)) = proc_run now cwd (calls evs) m.
Proof.
  induction evs as [|[a|i] evs IH]; intros m d; unfold power_run in *; cbn [fold_left power_step calls flat_map app proc_run]; [reflexivity|apply IH|apply IH].
Qed.
Lemma power_app now cwd q a b s : power_run now cwd q (a ++ b) s = power_run now cwd q b (power_run now cwd q a s).
Proof. apply fold_left_app. Qed.

(** A file that is being received never gets shorter *)
Definition fits (p : proc) (q : path) : Prop :=
  uses_file p q /\ in_bounds (match p with Between _ l => l | Amid _ _ l => l | _ => [] end).
Lemma written_longer c pos buf : (List.length c <= List.length (written c pos buf))%nat.
Proof. destruct buf as [|x buf]; [reflexivity|]. rewrite written_length by discriminate. lia. Qed.
Lemma step_grows now cwd q a fs p c : fits p q -> content_of fs q = Some c ->
  fits (snd (proc_step now cwd a (fs, p))) q /\
  exists c', content_of (fst (proc_step now cwd a (fs, p))) q = Some c' /\ (List.length c <= List.length c')%nat.
Proof.
  intros (U & B) C. destruct p as [sd fn tt l|f l|f buf l|]; [destruct U| | |].
  - destruct U as (W & Q). destruct l as [|(pos, buf) l]; cbn [proc_step].
    + cbn [fst snd]. split; [split; [exact I|intros k []]|]. exists c. auto.
    + rewrite seek_at by (apply (B (pos, buf)); left; reflexivity). cbn [fst snd]. split; [|exists c; auto].
      split; [cbn [uses_file of_at of_write of_path of_pos]; repeat split; auto; lia|]. intros k I. apply B. right. exact I.
  - destruct U as (W & Q & P). subst q. cbn [proc_step]. destruct (write_step a fs f buf l c W C P) as (k & fs1 & p1 & E & C1 & _ & _ & D). rewrite E. cbn [fst snd].
    split; [|eexists; split; [exact C1|apply written_longer]].
    destruct D as [(-> & _)| ->]; (split; [|exact B]); cbn [uses_file of_at of_write of_path of_pos]; repeat split; auto; lia.
  - cbn [proc_step fst snd]. split; [split; [exact I|intros k []]|]. exists c. auto.
Qed.
Lemma power_grows now cwd q : forall evs fs p c d fs' p' d', fits p q -> content_of fs q = Some c -> (List.length d <= List.length c)%nat ->
  power_run now cwd q evs ((fs, p), d) = ((fs', p'), d') ->
  exists c', content_of fs' q = Some c' /\ (List.length d' <= List.length c')%nat.
Proof.
  induction evs as [|[a|i] evs IH]; intros fs p c d fs' p' d' F C L H.
  - cbn in H. inversion H; subst. exists c. auto.
  - unfold power_run in H. cbn [fold_left power_step] in H. destruct (step_grows now cwd q a fs p c F C) as (F1 & c1 & C1 & L1).
    destruct (proc_step now cwd a (fs, p)) as [fs1 p1]. cbn [fst snd] in *. eapply (IH fs1 p1 c1 d); eauto. lia.
  - unfold power_run in H. cbn [fold_left power_step fst] in H. rewrite C in H. destruct (nth_error c i) as [x|] eqn:X.
    + apply (IH fs p c (write_content d i [x]) fs' p' d' F C); [|exact H]. rewrite written_content, written_length by discriminate. cbn [List.length].
      assert (i < List.length c)%nat by (apply nth_error_Some; congruence). lia.
    + apply (IH fs p c d fs' p' d' F C L H).
Qed.

(** C163: when the power fails, at any moment, a byte of the file on the disk is one that the file had there at some moment of receiving,
    or a zero behind the end of what was there before; and the file is no shorter than before and no longer than received. *)
Lemma c163_sound : forall now cwd evs fs f l c fs' p d, receives fs f c -> in_bounds l -> never_fails (calls evs) ->
  power_run now cwd (of_path f) evs ((fs, Between f l), c) = ((fs', p), d) ->
  (List.length c <= List.length d)%nat /\ (exists c', content_of fs' (of_path f) = Some c' /\ (List.length d <= List.length c')%nat) /\
  forall i b, nth_error d i = Some b ->
    (exists l', cut_off l l' /\ nth_error (written_all c l') i = Some b) \/ ((List.length c <= i)%nat /\ b = ascii_of_N 0).
Proof.
  intros now cwd evs fs f l c fs' p d R B N H.
  cut ((List.length c <= List.length d)%nat /\ forall i b, nth_error d i = Some b ->
    (exists l', cut_off l l' /\ nth_error (written_all c l') i = Some b) \/ ((List.length c <= i)%nat /\ b = ascii_of_N 0)).
  { intros (X & Y). split; [exact X|]. split; [|exact Y]. destruct R as (W & C).
    apply (power_grows now cwd (of_path f) evs fs (Between f l) c c fs' p d); auto. split; [split; auto|exact B]. }
  revert fs f l c fs' p d R B N H. induction evs as [|e evs IH] using rev_ind; intros fs f l c fs' p d R B N H.
  - cbn in H. inversion H; subst. split; [lia|]. intros i b X. left. exists []. split; [constructor|exact X].
  - rewrite calls_app in N. assert (N0 : never_fails (calls evs)) by (intros a I; apply N; apply in_or_app; left; exact I).
    rewrite power_app in H. destruct (power_run now cwd (of_path f) evs (fs, Between f l, c)) as [[fs1 p1] d1] eqn:H1.
    destruct (IH _ _ _ _ _ _ _ R B N0 H1) as (L1 & S1). unfold power_run in H. cbn [fold_left power_step] in H.
    destruct e as [a|i].
    { inversion H; subst. split; [exact L1|exact S1]. }
    assert (M : exists l', cut_off l l' /\ content_of fs1 (of_path f) = Some (written_all c l')).
    { pose proof (power_process now cwd (of_path f) evs (fs, Between f l) c) as PP. rewrite H1 in PP. cbn [fst] in PP. destruct R as (W & C).
      destruct (run_sound now cwd (of_path f) (calls evs) fs (Between f l) fs1 p1 c (conj W eq_refl) C) as (_ & l' & _ & X & Y); auto.
      - intros k I. apply B. cbn [pend] in I. destruct l; [destruct I|right; exact I].
      - exists l'. split; [apply X, N0|exact Y]. }
    destruct M as (l2 & K2 & C2). cbn [fst] in H. rewrite C2 in H. destruct (nth_error (written_all c l2) i) as [x|] eqn:NX.
    2:{ inversion H; subst. split; [exact L1|exact S1]. }
    rewrite written_content in H. assert (d = written d1 i [x]) as -> by congruence. clear H. assert (NE : [x] <> []) by discriminate.
    rewrite (written_length _ _ _ NE). cbn [List.length]. assert (IL : (i < List.length (written_all c l2))%nat) by (apply nth_error_Some; congruence).
    split; [lia|]. intros j b X. rewrite (written_nth _ _ _ _ NE) in X. unfold byte_after in X. cbn [List.length] in X.
    destruct (Nat.leb_spec (i + 1) j); [apply S1; exact X|]. destruct (Nat.leb_spec i j).
    + assert (j = i) as -> by lia. rewrite Nat.sub_diag in X. cbn in X. inversion X; subst. left. exists l2. auto.
    + destruct (Nat.ltb_spec j (List.length d1)); [apply S1; exact X|right; split; [lia|congruence]].
Qed.

(** Writing back a stretch of the file *)
Lemma back_stretch now cwd q m c : content_of (fst m) q = Some c -> forall buf pos d,
  (forall j, (j < List.length buf)%nat -> nth_error c (pos + j) = nth_error buf j) ->
  power_run now cwd q (map EBack (seq pos (List.length buf))) (m, d) = (m, written d pos buf).
Proof.
  intros C. induction buf as [|x buf IH]; intros pos d H; [reflexivity|]. cbn [List.length seq map]. unfold power_run. cbn [fold_left power_step].
  rewrite C. pose proof (H 0%nat ltac:(cbn; lia)) as H0. rewrite Nat.add_0_r in H0. cbn [nth_error] in H0. rewrite H0, written_content.
  change (power_run now cwd q (map EBack (seq (S pos) (List.length buf))) (m, written d pos [x]) = (m, written d pos (x :: buf))).
  rewrite IH.
  - replace (S pos) with (pos + List.length [x])%nat by (cbn; lia). rewrite written_app. reflexivity.
  - intros j J. change (nth_error buf j) with (nth_error (x :: buf) (S j)). rewrite <- (H (S j)) by (cbn; lia). f_equal. lia.
Qed.
Lemma stretch_there c pos buf j : (j < List.length buf)%nat -> nth_error (written c pos buf) (pos + j) = nth_error buf j.
Proof.
  intros J. destruct buf as [|x buf]; [cbn in J; lia|]. rewrite written_nth by discriminate. unfold byte_after.
  destruct (Nat.leb_spec (pos + List.length (x :: buf)) (pos + j)); [lia|].
  destruct (Nat.leb_spec pos (pos + j)); [|lia]. f_equal. lia.
Qed.
Lemma power_calls now cwd q answers m d : power_run now cwd q (map ECall answers) (m, d) = (proc_run now cwd answers m, d).
Proof. revert m. unfold power_run. induction answers as [|a r IH]; intros m; cbn [map fold_left power_step proc_run]; [reflexivity|apply IH]. Qed.
Lemma calls_calls answers : calls (map ECall answers) = answers.
Proof. induction answers as [|a r IH]; [reflexivity|]. unfold calls in *. cbn [map flat_map app]. rewrite IH. reflexivity. Qed.
Lemma calls_back s : calls (map EBack s) = [].
Proof. induction s as [|a r IH]; [reflexivity|]. exact IH. Qed.

Lemma some_reached now cwd q : forall l l', some_of l l' -> forall fs f c d, of_path f = q -> receives fs f c -> in_bounds l ->
  exists evs fs', never_fails (calls evs) /\ power_run now cwd q evs ((fs, Between f l), d) = ((fs', Through), written_all d l') /\
    content_of fs' q = Some (written_all c l).
Proof.
  induction 1 as [|[pos buf] l l' H IH|[pos buf] l l' H IH]; intros fs f c d Q R B.
  - exists [ECall (Did 1)], fs. split; [intros a [<-|[]]; exists 1%nat; auto|]. split; [reflexivity|]. destruct R as (_ & C). rewrite <- Q. exact C.
  - destruct (run_chunk now cwd fs f l pos buf c R (in_bounds_hd _ _ _ B)) as (fs1 & f1 & E & P & R1).
    destruct (IH fs1 f1 (written c (N.to_nat pos) buf) (written d (N.to_nat pos) buf)) as (evs & fs' & N & X & Y); [congruence|exact R1|exact (in_bounds_tl _ _ B)|].
    exists (map ECall [Did 1; Did (S (List.length buf))] ++ map EBack (seq (N.to_nat pos) (List.length buf)) ++ evs)%list, fs'.
    split; [|split].
    + rewrite !calls_app, calls_calls, calls_back. cbn [app]. intros a [<-|[<-|I]]; [exists 1%nat; auto|exists (S (List.length buf)); split; [lia|reflexivity]|apply N; exact I].
    + rewrite power_app. etransitivity; [exact (f_equal (power_run now cwd q _) (eq_trans (power_calls _ _ _ _ _ _) (f_equal (fun m => (m, d)) E)))|].
      rewrite power_app. rewrite (back_stretch now cwd q (fs1, Between f1 l) (written c (N.to_nat pos) buf)); [exact X| |].
      * cbn [fst]. destruct R1 as (_ & C1). rewrite <- Q, <- P. exact C1.
      * intros j J. apply stretch_there. exact J.
    + exact Y.
  - destruct (run_chunk now cwd fs f l pos buf c R (in_bounds_hd _ _ _ B)) as (fs1 & f1 & E & P & R1).
    destruct (IH fs1 f1 (written c (N.to_nat pos) buf) d) as (evs & fs' & N & X & Y); [congruence|exact R1|exact (in_bounds_tl _ _ B)|].
    exists (map ECall [Did 1; Did (S (List.length buf))] ++ evs)%list, fs'. split; [|split].
    + rewrite !calls_app, calls_calls. cbn [app]. intros a [<-|[<-|I]]; [exists 1%nat; auto|exists (S (List.length buf)); split; [lia|reflexivity]|apply N; exact I].
    + rewrite power_app. etransitivity; [exact (f_equal (power_run now cwd q _) (eq_trans (power_calls _ _ _ _ _ _) (f_equal (fun m => (m, d)) E)))|]. exact X.
    + exact Y.
Qed.
(** C163: even after all of the chunks were written without an error and the file was closed, the disk may hold any of them and none of
    the others: all, none, or the later ones without the earlier. *)
Lemma c163_lost : forall now cwd fs f l l' c, receives fs f c -> in_bounds l -> some_of l l' ->
  exists evs fs', never_fails (calls evs) /\ content_of fs' (of_path f) = Some (written_all c l) /\
    power_run now cwd (of_path f) evs ((fs, Between f l), c) = ((fs', Through), written_all c l').
Proof.
  intros now cwd fs f l l' c R B S0. destruct (some_reached now cwd (of_path f) l l' S0 fs f c c eq_refl R B) as (evs & fs' & N & X & Y).
  exists evs, fs'. auto.
Qed.
(** C163: a file whose bytes are all written back after the last call is on the disk as it was received. *)
Lemma c163_kept : forall now cwd evs fs f l c fs' p d c', receives fs f c -> in_bounds l -> never_fails (calls evs) ->
  power_run now cwd (of_path f) evs ((fs, Between f l), c) = ((fs', p), d) -> content_of fs' (of_path f) = Some c' ->
  power_run now cwd (of_path f) (evs ++ map EBack (seq 0 (List.length c'))) ((fs, Between f l), c) = ((fs', p), c').
Proof.
  intros now cwd evs fs f l c fs' p d c' R B N H C'. assert (L : (List.length d <= List.length c')%nat).
  { destruct (c163_sound _ _ _ _ _ _ _ _ _ _ R B N H) as (_ & (k & K & L) & _). congruence. }
  rewrite power_app, H.
  rewrite (back_stretch now cwd (of_path f) (fs', p) c' C'); [|reflexivity]. f_equal.
  destruct c' as [|x c']; [destruct d; [reflexivity|cbn in L; lia]|]. apply content_ext. intros i. rewrite written_nth by discriminate. unfold byte_after.
  destruct (Nat.leb_spec (0 + List.length (x :: c')) i).
  - rewrite (proj2 (nth_error_None (x :: c') i)) by lia. apply nth_error_None. lia.
  - destruct (Nat.leb_spec 0 i); [|lia]. f_equal. lia.
Qed.

(** Two chunks are received and the file is closed: each of these may be on the disk *)
Definition exw_file : ofile := {| of_path := ["a"]; of_name := "/a"; of_pos := 0; of_write := true |}.
Definition exw_fs : fsys := [([], {| n_kind := KDir; n_size := 4096; n_mtime := ex_time; n_ctime := ex_time |});
  (["a"], {| n_kind := KFile []; n_size := 0; n_mtime := ex_time; n_ctime := ex_time |})].
Definition exw_chunks : list chunk := [(0, bytes_of "ab"); (2, bytes_of "cd")].
Example c163_ex :
  receives exw_fs exw_file [] /\ in_bounds exw_chunks /\ some_of exw_chunks [(2, bytes_of "cd")] /\
  (let evs := [ECall (Did 1); ECall (Did 2); ECall (Did 1); ECall (Did 2); EBack 3; EBack 2; ECall (Did 1)] in
   never_fails (calls evs) /\
   exists fs', power_run ex_time [] ["a"] evs (exw_fs, Between exw_file exw_chunks, []) =
                 (fs', Through, (repeat (ascii_of_N 0) 2 ++ bytes_of "cd")%list) /\ content_of fs' ["a"] = Some (bytes_of "abcd")) /\
  written_all [] [(2, bytes_of "cd")] = (repeat (ascii_of_N 0) 2 ++ bytes_of "cd")%list.
Proof.
  split; [split; reflexivity|]. split; [intros k [<-|[<-|[]]]; reflexivity|]. split; [apply some_lost, some_kept, some_none|].
  split; [|reflexivity]. split; [intros a I; repeat (destruct I as [<-|I]; [eexists; split; [|reflexivity]; lia|]); destruct I|].
  eexists. split; vm_compute; reflexivity.
Qed.
