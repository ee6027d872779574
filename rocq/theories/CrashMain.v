(** * C160: a program that is killed while it receives a file *)

From Verif Require Import GoBase GoFacts Timestamp Fileio SpecFileio FileioFacts FileioMain SpecHandles HandlesFacts Partial PartialMain Crash SpecCrash DirentMain.
Local Open Scope string_scope.
Local Open Scope N_scope.

(** What a process still has to write *)
Definition pend (p : proc) : list chunk :=
  match p with
  | Opening _ _ _ l => l
  | Between _ l => l
  | Amid f buf l => (Z.to_N (of_pos f), buf) :: l
  | Through => []
  end.
(** Its file is [f], perhaps at another offset *)
Definition uses_file (p : proc) (q : path) : Prop :=
  match p with
  | Opening _ _ _ _ => False
  | Between f _ => of_write f = true /\ of_path f = q
  | Amid f _ _ => of_write f = true /\ of_path f = q /\ (0 <= of_pos f)%Z
  | Through => True
  end.

Lemma run_app now cwd a b s : proc_run now cwd (a ++ b) s = proc_run now cwd b (proc_run now cwd a s).
Proof. revert s. induction a; intros s; cbn [app proc_run]; auto. Qed.
Lemma through_stays now cwd answers fs : proc_run now cwd answers (fs, Through) = (fs, Through).
Proof. induction answers; cbn [proc_run proc_step]; auto. Qed.
Lemma content_set q n fs c : n_kind n = KFile c -> content_of (fs_set q n fs) q = Some c.
Proof. intros H. unfold content_of. rewrite fs_get_set_same, H. reflexivity. Qed.

(** One write(2) *)
Lemma write_step a fs f buf l c : of_write f = true -> content_of fs (of_path f) = Some c -> (0 <= of_pos f)%Z ->
  exists k fs' p', write_call a fs f buf l = (fs', p') /\ content_of fs' (of_path f) = Some (written c (Z.to_nat (of_pos f)) (firstn k buf)) /\
    unchanged_except (of_path f) fs fs' /\ (k <= List.length buf)%nat /\
    ((p' = Between f l /\ (forall j, a = Did j -> (0 < j)%nat -> k = List.length buf)) \/
     (p' = Amid (of_at f (of_pos f + Z.of_nat k)) (skipn k buf) l)).
Proof.
  intros W C P. unfold write_call. rewrite W. destruct a as [k|].
  - destruct (content_node _ _ _ C) as (n & G & K). rewrite G, K. cbv zeta.
    set (n' := {| n_kind := KFile (write_content c (Z.to_nat (of_pos f)) (firstn k buf)); n_size := n_size n; n_mtime := n_mtime n; n_ctime := n_ctime n |}).
    assert (R : content_of (fs_set (of_path f) n' fs) (of_path f) = Some (written c (Z.to_nat (of_pos f)) (firstn k buf)))
      by (erewrite content_set by reflexivity; rewrite written_content; reflexivity).
    assert (U : unchanged_except (of_path f) fs (fs_set (of_path f) n' fs)) by (intros q NQ; apply fs_get_set_other; exact NQ).
    destruct (skipn k buf) as [|y rest] eqn:S.
    + exists (List.length buf). do 2 eexists. split; [reflexivity|].
      assert (L : (List.length buf <= k)%nat) by (apply (f_equal (@List.length byte)) in S; rewrite skipn_length in S; cbn in S; lia).
      rewrite firstn_all2 in R by lia. rewrite firstn_all. split; [exact R|]. split; [exact U|]. split; [lia|]. left. auto.
    + assert (L : (k < List.length buf)%nat) by (apply (f_equal (@List.length byte)) in S; rewrite skipn_length in S; cbn in S; lia).
      destruct (firstn k buf) as [|x done] eqn:D.
      * exists 0%nat. do 2 eexists. split; [reflexivity|]. split; [exact R|]. split; [exact U|]. split; [lia|].
        left. split; [reflexivity|]. intros j [= <-] J. exfalso. apply (f_equal (@List.length byte)) in D. rewrite firstn_length in D. cbn in D. lia.
      * exists k. do 2 eexists. split; [reflexivity|]. rewrite D. split; [exact R|]. split; [exact U|]. split; [lia|].
        right. rewrite S. do 3 f_equal. rewrite <- D, firstn_length. lia.
  - exists 0%nat. do 2 eexists. split; [reflexivity|]. split; [exact C|]. split; [intros q _; reflexivity|]. split; [lia|].
    left. split; [reflexivity|]. intros j [=].
Qed.
Lemma written_more c pos buf k j : (0 <= pos)%Z -> (k <= List.length buf)%nat ->
  written (written c (Z.to_nat pos) (firstn k buf)) (N.to_nat (Z.to_N (pos + Z.of_nat k))) (firstn j (skipn k buf)) =
  written c (N.to_nat (Z.to_N pos)) (firstn (k + j) buf).
Proof.
  intros P L. rewrite firstn_plus, <- written_app. f_equal; [f_equal; lia|]. rewrite firstn_length. lia.
Qed.
Lemma written_rest c pos buf k : (0 <= pos)%Z -> (k <= List.length buf)%nat ->
  written (written c (Z.to_nat pos) (firstn k buf)) (N.to_nat (Z.to_N (pos + Z.of_nat k))) (skipn k buf) = written c (N.to_nat (Z.to_N pos)) buf.
Proof.
  intros P L. rewrite <- (firstn_all (skipn k buf)), written_more by assumption. f_equal. apply firstn_all2. rewrite skipn_length. lia.
Qed.
Lemma seek_at f pos : pos < 2 ^ 63 -> file_seek (Some f) pos = Some (of_at f (Z.of_N pos)).
Proof. intros P. rewrite seek_small by exact P. reflexivity. Qed.

(** ** What is left *)
Lemma run_sound now cwd q : forall answers fs p fs' p' c, uses_file p q -> content_of fs q = Some c -> in_bounds (tl (pend p)) ->
  (match p with Between _ l => in_bounds l | _ => True end) ->
  proc_run now cwd answers (fs, p) = (fs', p') ->
  unchanged_except q fs fs' /\
  exists l', parts_of (pend p) l' /\ (never_fails answers -> cut_off (pend p) l') /\ content_of fs' q = Some (written_all c l').
Proof.
  induction answers as [|a r IH]; intros fs p fs' p' c U C B B' H.
  - cbn in H. inversion H; subst. split; [intros x _; reflexivity|]. exists []. split; [constructor|]. split; [constructor|exact C].
  - cbn [proc_run] in H.
    assert (NF : never_fails (a :: r) -> never_fails r) by (intros N x I; apply N; right; exact I).
    destruct p as [sd fn tt l|f l|f buf l|].
    + destruct U.
    + destruct U as (W & Q). destruct l as [|(pos, buf) l]; cbn [proc_step] in H.
      * rewrite through_stays in H. inversion H; subst. split; [intros x _; reflexivity|]. exists []. split; [constructor|]. split; [constructor|exact C].
      * assert (P : pos < 2 ^ 63) by (apply (B' (pos, buf)); left; reflexivity). rewrite seek_at in H by exact P.
        apply (IH _ _ _ _ c) in H; [| | exact C| |exact I].
        -- cbn [pend of_at of_pos] in H. rewrite N2Z.id in H. destruct H as (H1 & l' & H2 & H3 & H4). split; [exact H1|]. exists l'. auto.
        -- cbn [uses_file of_at of_write of_path of_pos]. repeat split; auto. lia.
        -- intros k I. apply B'. right. exact I.
    + destruct U as (W & Q & PZ). cbn [proc_step] in H. subst q.
      destruct (write_step a fs f buf l c W C PZ) as (k & fs1 & p1 & E & C1 & U1 & L & D). rewrite E in H.
      destruct D as [(-> & F)| ->].
      * apply (IH _ (Between f l) _ _ _ (conj W eq_refl) C1) in H; [| intros x I; apply B; destruct l; [destruct I|right; exact I]|exact B].
        destruct H as (H1 & l' & H2 & H3 & H4). split; [intros x NX; rewrite H1, U1 by exact NX; reflexivity|].
        exists ((Z.to_N (of_pos f), firstn k buf) :: l'). cbn [pend]. split; [constructor; exact H2|]. split.
        -- intros N. destruct (N a (or_introl eq_refl)) as (j & J & ->). rewrite (F j eq_refl J), firstn_all. apply cut_later. apply H3. auto.
        -- rewrite H4. unfold written_all. cbn [fold_left fst snd]. do 3 f_equal. lia.
      * apply (IH _ _ _ _ (written c (Z.to_nat (of_pos f)) (firstn k buf))) in H; [| |exact C1|exact B|exact I].
        2:{ cbn [uses_file of_at of_write of_path of_pos]. repeat split; auto. lia. }
        destruct H as (H1 & l' & H2 & H3 & H4). split; [intros x NX; rewrite H1, U1 by exact NX; reflexivity|].
        cbn [pend of_at of_pos] in *. inversion H2 as [l0 El|pos0 buf0 l0 j l0' H2' El]; subst.
        -- exists [(Z.to_N (of_pos f), firstn k buf)]. split; [constructor; constructor|]. split; [constructor|].
           rewrite H4. unfold written_all. cbn [fold_left fst snd]. do 2 f_equal. lia.
        -- exists ((Z.to_N (of_pos f), firstn (k + j) buf) :: l0'). split; [constructor; exact H2'|]. split.
           ++ intros N. specialize (H3 (NF N)). inversion H3; subst; [constructor|].
              match goal with E : skipn k buf = firstn j (skipn k buf) |- _ => rewrite firstn_plus, <- E, firstn_skipn | E : firstn j (skipn k buf) = skipn k buf |- _ => rewrite firstn_plus, E, firstn_skipn end.
              apply cut_later. assumption.
           ++ rewrite H4. unfold written_all. cbn [fold_left fst snd]. do 2 f_equal. apply written_more; assumption.
    + cbn [proc_step] in H. rewrite through_stays in H. inversion H; subst.
      split; [intros x _; reflexivity|]. exists []. split; [constructor|]. split; [constructor|exact C].
Qed.

(** One chunk, of which [k] bytes are written: [k = 0] bytes by a failure *)
Lemma run_chunk now cwd fs f l pos buf c : receives fs f c -> pos < 2 ^ 63 ->
  exists fs', (exists f', proc_run now cwd [Did 1; Did (S (List.length buf))] (fs, Between f ((pos, buf) :: l)) = (fs', Between f' l) /\
    of_path f' = of_path f /\ receives fs' f' (written c (N.to_nat pos) buf)).
Proof.
  intros (W & C) P. cbn [proc_run proc_step]. rewrite seek_at by exact P. cbn [proc_run proc_step].
  destruct (write_step (Did (S (List.length buf))) fs (of_at f (Z.of_N pos)) buf l c W C) as (k & fs1 & p1 & E & C1 & _ & L & D); [cbn; lia|].
  rewrite E. exists fs1, (of_at f (Z.of_N pos)).
  assert (Q : p1 = Between (of_at f (Z.of_N pos)) l /\ k = List.length buf).
  { unfold write_call in E. cbn [of_at of_write of_path] in E. rewrite W in E. destruct (content_node _ _ _ C) as (n & G & K). rewrite G, K in E.
    rewrite (skipn_all2 (n := S (List.length buf))) in E by lia. inversion E; subst. split; [reflexivity|].
    destruct D as [(_ & F)|D]; [apply (F _ eq_refl); lia|discriminate]. }
  destruct Q as (-> & ->). rewrite firstn_all in C1. cbn [of_at of_path of_pos] in *. split; [reflexivity|]. split; [reflexivity|].
  split; [exact W|]. cbn [of_at of_path]. rewrite C1. do 2 f_equal. lia.
Qed.
Lemma run_part now cwd fs f l pos buf c k : receives fs f c -> pos < 2 ^ 63 -> (0 < k < List.length buf)%nat ->
  exists fs' f', proc_run now cwd [Did 1; Did k] (fs, Between f ((pos, buf) :: l)) = (fs', Amid f' (skipn k buf) l) /\
    of_path f' = of_path f /\ receives fs' f' (written c (N.to_nat pos) (firstn k buf)).
Proof.
  intros (W & C) P L. cbn [proc_run proc_step]. rewrite seek_at by exact P. cbn [proc_run proc_step]. unfold write_call. cbn [of_at of_write of_path of_pos]. rewrite W.
  destruct (content_node _ _ _ C) as (n & G & K). rewrite G, K. cbv zeta.
  destruct (skipn k buf) as [|y rest] eqn:S; [exfalso; apply (f_equal (@List.length byte)) in S; rewrite skipn_length in S; cbn in S; lia|].
  destruct (firstn k buf) as [|x done] eqn:D; [exfalso; apply (f_equal (@List.length byte)) in D; rewrite firstn_length in D; cbn in D; lia|].
  do 2 eexists. split; [reflexivity|]. split; [reflexivity|]. split; [exact W|]. cbn [of_at of_path].
  erewrite content_set by reflexivity. rewrite written_content. do 2 f_equal. lia.
Qed.

Lemma in_bounds_tl x l : in_bounds (x :: l) -> in_bounds l.
Proof. intros H k I. apply H. right. exact I. Qed.
Lemma in_bounds_hd pos buf l : in_bounds ((pos, buf) :: l) -> pos < 2 ^ 63.
Proof. intros H. apply (H (pos, buf)). left. reflexivity. Qed.

(** C160: killed at any moment, with a system that does what it is asked to (in one call or in several), the process leaves exactly the
    chunks up to some byte, in the order they were written: every such cut can happen, and nothing else. *)
Lemma c160_killed : forall now cwd fs f l c c', receives fs f c -> in_bounds l ->
  ((exists answers fs', never_fails answers /\ leaves now cwd answers fs f l fs' /\ content_of fs' (of_path f) = Some c') <->
   exists l', cut_off l l' /\ c' = written_all c l').
Proof.
  intros now cwd fs f l c c' R B. split.
  - intros (answers & fs' & N & (p & H) & C'). destruct R as (W & C).
    destruct (run_sound now cwd (of_path f) answers fs (Between f l) fs' p c (conj W eq_refl) C) as (_ & l' & _ & H2 & H3); auto.
    { intros k I. apply B. cbn [pend] in I. destruct l; [destruct I|right; exact I]. }
    exists l'. split; [apply H2; exact N|congruence].
  - intros (l' & CU & ->). revert fs f c R B. induction CU as [l|pos buf l k|(pos, buf) l l' CU IH]; intros fs f c R B.
    + exists [], fs. split; [intros a []|]. split; [exists (Between f l); reflexivity|]. apply R.
    + apply in_bounds_hd in B. destruct (Nat.eq_dec k 0) as [->|K].
      * exists [], fs. split; [intros a []|]. split; [eexists; reflexivity|]. cbn. apply R.
      * destruct (Nat.lt_ge_cases k (List.length buf)) as [L|L].
        -- destruct (run_part now cwd fs f l pos buf c k R B) as (fs' & f' & H & Q & W & C); [lia|].
           exists [Did 1; Did k], fs'. split; [intros a [<-|[<-|[]]]; eexists; split; [|reflexivity| |reflexivity]; lia|].
           split; [eexists; exact H|]. rewrite <- Q. exact C.
        -- destruct (run_chunk now cwd fs f l pos buf c R B) as (fs' & f' & H & Q & W & C).
           exists [Did 1; Did (S (List.length buf))], fs'. split; [intros a [<-|[<-|[]]]; eexists; split; [|reflexivity| |reflexivity]; lia|].
           split; [eexists; exact H|]. rewrite firstn_all2 by lia. rewrite <- Q. exact C.
    + destruct (run_chunk now cwd fs f l pos buf c R (in_bounds_hd _ _ _ B)) as (fs1 & f1 & H & Q & R1).
      destruct (IH fs1 f1 _ R1 (in_bounds_tl _ _ B)) as (answers & fs' & N & (p & H2) & C').
      exists ([Did 1; Did (S (List.length buf))] ++ answers)%list, fs'.
      split; [intros a I; apply in_app_iff in I; destruct I as [[<-|[<-|[]]]|I]; [eexists; split; [|reflexivity]; lia|eexists; split; [|reflexivity]; lia|apply N; exact I]|].
      split; [exists p; rewrite run_app; etransitivity; [apply f_equal; exact H|exact H2]|]. rewrite <- Q. exact C'.
Qed.
(** C160: when writes can also fail (a full disk, an error of the device) and the caller goes on with the next chunk: exactly the
    chunks up to some chunk, of each a prefix. *)
Lemma c160_failing : forall now cwd fs f l c c', receives fs f c -> in_bounds l ->
  ((exists answers fs', leaves now cwd answers fs f l fs' /\ content_of fs' (of_path f) = Some c') <->
   exists l', parts_of l l' /\ c' = written_all c l').
Proof.
  intros now cwd fs f l c c' R B. split.
  - intros (answers & fs' & (p & H) & C'). destruct R as (W & C).
    destruct (run_sound now cwd (of_path f) answers fs (Between f l) fs' p c (conj W eq_refl) C) as (_ & l' & H1 & _ & H3); auto.
    { intros k I. apply B. cbn [pend] in I. destruct l; [destruct I|right; exact I]. }
    exists l'. split; [exact H1|congruence].
  - intros (l' & PO & ->). revert fs f c R B. induction PO as [l|pos buf l k l' PO IH]; intros fs f c R B.
    + exists [], fs. split; [exists (Between f l); reflexivity|]. apply R.
    + assert (ST : exists a fs1 f1, proc_run now cwd a (fs, Between f ((pos, buf) :: l)) = (fs1, Between f1 l) /\ of_path f1 = of_path f /\
          receives fs1 f1 (written c (N.to_nat pos) (firstn k buf))).
      { pose proof (in_bounds_hd _ _ _ B) as P. destruct (Nat.lt_ge_cases k (List.length buf)) as [L|L].
        - destruct (Nat.eq_dec k 0) as [->|K].
          + exists [Did 1; Failed], fs, (of_at f (Z.of_N pos)). cbn [proc_run proc_step]. rewrite seek_at by exact P. cbn [proc_run proc_step]. unfold write_call.
            cbn [of_at of_write of_path]. destruct R as (W & C). rewrite W. split; [reflexivity|]. split; [reflexivity|]. split; [exact W|exact C].
          + destruct (run_part now cwd fs f l pos buf c k R P) as (fs1 & f1 & H & Q & W & C); [lia|].
            exists ([Did 1; Did k] ++ [Failed])%list, fs1, f1. rewrite run_app, H. cbn [proc_run proc_step]. unfold write_call. rewrite W.
            split; [reflexivity|]. split; [exact Q|]. split; assumption.
        - destruct (run_chunk now cwd fs f l pos buf c R P) as (fs1 & f1 & H & Q & R1). do 3 eexists. split; [exact H|]. split; [exact Q|].
          rewrite firstn_all2 by lia. exact R1. }
      destruct ST as (a & fs1 & f1 & H & Q & R1). destruct (IH fs1 f1 _ R1 (in_bounds_tl _ _ B)) as (answers & fs' & (p & H2) & C').
      exists (a ++ answers)%list, fs'. split; [exists p; rewrite run_app; etransitivity; [apply f_equal; exact H|exact H2]|]. rewrite <- Q. exact C'.
Qed.
(** C160: in either case no other file is touched. *)
Lemma c160_others : forall now cwd answers fs f l fs' c, receives fs f c -> in_bounds l -> leaves now cwd answers fs f l fs' ->
  unchanged_except (of_path f) fs fs' /\ exists c', content_of fs' (of_path f) = Some c'.
Proof.
  intros now cwd answers fs f l fs' c (W & C) B (p & H).
  destruct (run_sound now cwd (of_path f) answers fs (Between f l) fs' p c (conj W eq_refl) C) as (U & l' & _ & _ & H3); auto.
  { intros k I. apply B. cbn [pend] in I. destruct l; [destruct I|right; exact I]. }
  split; [exact U|]. exists (written_all c l'). exact H3.
Qed.

(** ** Starting again *)
(** A file in place of nothing or of another file does not change where names lead to *)
Lemma walk_kept fs fs' q : unchanged_except q fs fs' -> (forall n, fs_get q fs = Some n -> is_dir n = false) ->
  forall comps cur p, walk fs cur comps = inl p -> walk fs' cur comps = inl p.
Proof.
  intros U Q. induction comps as [|x r IH]; intros cur p H; cbn [walk] in *; [exact H|].
  destruct (fs_get cur fs) as [n|] eqn:G; [|discriminate]. destruct (is_dir n) eqn:D; [|discriminate].
  assert (NQ : cur <> q) by (intros ->; rewrite (Q n G) in D; discriminate). rewrite (U cur NQ), G, D.
  destruct (String.eqb x "" || String.eqb x "."); [apply IH; exact H|]. destruct (String.eqb x ".."); apply IH; exact H.
Qed.
Lemma resolve_kept fs fs' q : unchanged_except q fs fs' -> (forall n, fs_get q fs = Some n -> is_dir n = false) ->
  forall cwd s p, resolve fs cwd s = inl p -> resolve fs' cwd s = inl p.
Proof.
  intros U Q cwd s p H. unfold resolve in *. destruct (String.eqb s ""); [discriminate|]. destruct (has_nul s); [discriminate|].
  apply (walk_kept fs fs' q U Q). exact H.
Qed.
Lemma follow_kept fs fs' q : unchanged_except q fs fs' -> (forall n, fs_get q fs = Some n -> is_regular n = true) -> 
  (exists n, fs_get q fs' = Some n /\ is_regular n = true) ->
  forall fuel p r, follow fuel fs p = inl r -> follow fuel fs' p = inl r.
Proof.
  intros U Q (n' & Q' & R'). assert (ND : forall n, fs_get q fs = Some n -> is_dir n = false).
  { intros n G. specialize (Q n G). unfold is_regular in Q. unfold is_dir. destruct (n_kind n); congruence. }
  induction fuel as [|fuel IH]; intros p r H; cbn [follow] in *.
  - destruct (list_eq_dec String.string_dec p q) as [->|NQ].
    + rewrite Q'. unfold is_regular in R'. destruct (n_kind n'); try discriminate.
      destruct (fs_get q fs) as [n|] eqn:G; [|exact H]. specialize (Q n eq_refl). unfold is_regular in Q. destruct (n_kind n); try discriminate. exact H.
    + rewrite (U p NQ). exact H.
  - destruct (list_eq_dec String.string_dec p q) as [->|NQ].
    + rewrite Q'. unfold is_regular in R'. destruct (n_kind n'); try discriminate.
      destruct (fs_get q fs) as [n|] eqn:G; [|exact H]. specialize (Q n eq_refl). unfold is_regular in Q. destruct (n_kind n); try discriminate. exact H.
    + rewrite (U p NQ). destruct (fs_get p fs) as [n|]; [|exact H]. destruct (n_kind n); try exact H.
      destruct (resolve fs (removelast p) target) as [x|] eqn:RS; [|discriminate]. rewrite (resolve_kept fs fs' q U ND _ _ _ RS). apply IH. exact H.
Qed.
Lemma resolve_follow_kept fs fs' q : unchanged_except q fs fs' -> (forall n, fs_get q fs = Some n -> is_regular n = true) -> 
  (exists n, fs_get q fs' = Some n /\ is_regular n = true) ->
  forall cwd s p, resolve_follow fs cwd s = inl p -> resolve_follow fs' cwd s = inl p.
Proof.
  intros U Q E cwd s p H. unfold resolve_follow in *. destruct (resolve fs cwd s) as [x|] eqn:RS; [|discriminate].
  rewrite (resolve_kept fs fs' q U) with (p := x); [apply (follow_kept fs fs' q U Q E); exact H| |exact RS].
  intros n G. specialize (Q n G). unfold is_regular in Q. unfold is_dir. destruct (n_kind n); congruence.
Qed.
Lemma get_or_take ttype : ttype = "get" \/ ttype = "take" -> one_of ttype ["get"; "take"] = true.
Proof. intros [->| ->]; reflexivity. Qed.
(** What an opening that succeeds has done *)
Lemma opened_get now ok fs cwd sardir fname ttype f : ttype = "get" \/ ttype = "take" ->
  let o := file_open now ok fs cwd sardir fname ttype in
  or_fp o = Some f -> content_of (or_fs o) (of_path f) = Some [] ->
  resolve_follow fs cwd (full sardir fname) = inl (of_path f) /\ of_write f = true /\ unchanged_except (of_path f) fs (or_fs o) /\
  (forall n, fs_get (of_path f) fs = Some n -> is_regular n = true).
Proof.
  intros T. unfold file_open. cbv zeta. rewrite (get_or_take _ T). destruct (file_exists _ _ _ _); [discriminate|].
  unfold os_create. destruct (resolve_follow fs cwd (full sardir fname)) as [p|e]; [|discriminate].
  destruct (fs_get p fs) as [n|] eqn:G.
  - destruct (n_kind n) as [c| | |t| ] eqn:K; cbn [or_fp or_fs]; try discriminate; intros [= <-] C; cbn [of_path of_write] in *;
      try (unfold content_of in C; rewrite G, K in C; discriminate).
    repeat split; [intros q NQ; apply fs_get_set_other; exact NQ|]. intros n0 G0. rewrite G in G0. inversion G0; subst. unfold is_regular. rewrite K. reflexivity.
  - cbn [or_fp or_fs]. intros [= <-] C. cbn [of_path of_write] in *. repeat split; [intros q NQ; apply fs_get_set_other; exact NQ|].
    intros n0 G0. congruence.
Qed.
Lemma left_by now cwd answers fs sardir fname ttype l fs' p now1 f : ttype = "get" \/ ttype = "take" -> in_bounds l ->
  let o := file_open now1 false fs cwd sardir fname ttype in
  or_fp o = Some f -> content_of (or_fs o) (of_path f) = Some [] -> proc_run now cwd answers (or_fs o, Between f l) = (fs', p) ->
  unchanged_except (of_path f) fs fs' /\ resolve_follow fs' cwd (sardir ++ "/" ++ fname) = inl (of_path f) /\
  exists c, content_of fs' (of_path f) = Some c.
Proof.
  intros T B o F C H. destruct (opened_get now1 false fs cwd sardir fname ttype f T F C) as (R & W & U & RG).
  destruct (c160_others now cwd answers (or_fs o) f l fs' [] (conj W C) B (ex_intro _ p H)) as (U' & c' & C').
  assert (UU : unchanged_except (of_path f) fs fs') by (intros q NQ; rewrite U', U by exact NQ; reflexivity).
  split; [exact UU|]. split; [|exists c'; exact C'].
  apply (resolve_follow_kept fs fs' (of_path f) UU RG); [|exact R]. destruct (content_node _ _ _ C') as (n & G & K). exists n. split; [exact G|].
  unfold is_regular. rewrite K. reflexivity.
Qed.
(** C160: the process opened a file to receive into, wrote to it, and was killed at some moment.  Started again with the same name, it
    opens the same file and empties it, whatever was received; only if the file is seen at the second place (sardir twice) opening is
    refused. *)
Lemma c160_again : forall now now1 now2 ok cwd answers fs sardir fname ttype ttype' l f fs' p,
  ttype = "get" \/ ttype = "take" -> ttype' = "get" \/ ttype' = "take" -> in_bounds l ->
  let o := file_open now1 false fs cwd sardir fname ttype in
  or_fp o = Some f -> content_of (or_fs o) (of_path f) = Some [] -> proc_run now cwd answers (or_fs o, Between f l) = (fs', p) ->
  let o' := file_open now2 ok fs' cwd sardir fname ttype' in
  (doubled_exists fs' cwd sardir fname = false ->
     or_err o' = false /\ content_of (or_fs o') (of_path f) = Some [] /\ unchanged_except (of_path f) fs' (or_fs o') /\
     exists f', or_fp o' = Some f' /\ of_path f' = of_path f /\ of_write f' = true) /\
  (doubled_exists fs' cwd sardir fname = true -> or_err o' = true /\ or_fp o' = None /\ or_fs o' = fs').
Proof.
  intros now now1 now2 ok cwd answers fs sardir fname ttype ttype' l f fs' p T T' B o F C H o'.
  destruct (left_by now cwd answers fs sardir fname ttype l fs' p now1 f T B F C H) as (_ & R & c' & C'). split; intros D.
  - exact (c52_get_destroys now2 ok fs' cwd sardir fname ttype' (of_path f) c' T' R C' D).
  - unfold o'. rewrite (proj1 (c52_doubled now2 ok fs' cwd sardir fname) D ttype'); [auto|]. destruct T'; auto.
Qed.
(** C160: with a directory of transfers that has an absolute name and does not contain a directory of its own first name, this is always
    so: all that was received is lost. *)
Lemma c160_lost : forall now now1 now2 ok cwd answers fs c1 rest fname ttype ttype' l f fs' p,
  ttype = "get" \/ ttype = "take" -> ttype' = "get" \/ ttype' = "take" -> in_bounds l -> (forall c, In c (c1 :: rest) -> plain c) ->
  fs_get ((c1 :: rest) ++ [c1])%list fs = None ->
  let o := file_open now1 false fs cwd (abs_name (c1 :: rest)) fname ttype in
  or_fp o = Some f -> content_of (or_fs o) (of_path f) = Some [] -> of_path f <> ((c1 :: rest) ++ [c1])%list ->
  proc_run now cwd answers (or_fs o, Between f l) = (fs', p) ->
  let o' := file_open now2 ok fs' cwd (abs_name (c1 :: rest)) fname ttype' in
  or_err o' = false /\ content_of (or_fs o') (of_path f) = Some [].
Proof.
  intros now now1 now2 ok cwd answers fs c1 rest fname ttype ttype' l f fs' p T T' B PL N o F C NP H o'.
  destruct (left_by now cwd answers fs _ fname ttype l fs' p now1 f T B F C H) as (U & _ & _).
  destruct (c160_again now now1 now2 ok cwd answers fs _ fname ttype ttype' l f fs' p T T' B F C H) as (A & _).
  destruct A as (A1 & A2 & _); [|split; assumption].
  apply c52_ordinary; [exact PL|]. rewrite U by (intros E; apply NP; symmetry; exact E). exact N.
Qed.
(** C160: the file does not tell what was received: bytes that were never received, in front of some that were, are zeros, and so are
    zeros that were received. *)
Lemma c160_gap : forall n buf, buf <> [] ->
  written_all [] [(N.of_nat n, buf)] = written_all [] [(0, repeat (ascii_of_N 0) n); (N.of_nat n, buf)].
Proof.
  intros n buf NE. unfold written_all. cbn [fold_left fst snd]. rewrite !Nat2N.id. apply content_ext. intros i.
  rewrite !written_nth by exact NE. destruct n as [|n]; [reflexivity|]. assert (NR : repeat (ascii_of_N 0) (S n) <> []) by discriminate.
  unfold byte_after. rewrite written_length, repeat_length by exact NR. change (N.to_nat 0) with 0%nat. cbn [Nat.max List.length Nat.add].
  destruct (Nat.leb_spec (S (n + List.length buf)) i).
  - rewrite written_nth by exact NR. unfold byte_after. rewrite repeat_length. cbn [Nat.add].
    destruct (Nat.leb_spec (S n) i); [reflexivity|lia].
  - destruct (Nat.leb_spec (S n) i); [reflexivity|]. destruct (Nat.ltb_spec i 0); [lia|]. destruct (Nat.ltb_spec i (S n)); [|lia].
    rewrite written_nth by exact NR. unfold byte_after. rewrite repeat_length. cbn [Nat.add]. destruct (Nat.leb_spec (S n) i); [lia|].
    cbn [Nat.leb]. rewrite nth_error_repeat' by lia. reflexivity.
Qed.

(** ** A case *)
(** A file of six bytes in two chunks, killed after one of the bytes of the second *)
Definition ex_killed : fsys * proc :=
  proc_run ex_time [] [Did 1; Did 1; Did 9; Did 9; Did 1] (ex_tree, Opening "/Users/chas/sardir" "new" "get" [(3, bytes_of "def"); (0, bytes_of "abc")]).
Example c160_ex :
  content_of (fst ex_killed) ["Users"; "chas"; "sardir"; "new"] = Some (bytes_of "a" ++ repeat (ascii_of_N 0) 2 ++ bytes_of "def")%list /\
  receives (or_fs (file_open ex_time false ex_tree [] "/Users/chas/sardir" "new" "get")) (ex_open ["Users"; "chas"; "sardir"; "new"]) [] /\
  in_bounds [(3, bytes_of "def"); (0, bytes_of "abc")] /\
  cut_off [(3, bytes_of "def"); (0, bytes_of "abc")] [(3, bytes_of "def"); (0, firstn 1 (bytes_of "abc"))] /\
  content_of (or_fs (file_open ex_time false (fst ex_killed) [] "/Users/chas/sardir" "new" "get")) ["Users"; "chas"; "sardir"; "new"] = Some [].
Proof.
  split; [vm_compute; reflexivity|]. split; [vm_compute; split; reflexivity|]. split; [|split; [apply cut_later; apply cut_in|vm_compute; reflexivity]].
  intros k [<-|[<-|[]]]; reflexivity.
Qed.
(** With "." for the directory of transfers the second opening is refused *)
Example c160_refused_ex :
  let s := proc_run ex_time ["Users"] [Did 1; Did 1; Did 9] (ex_tree, Opening "." "new" "get" [(0, bytes_of "abc")]) in
  content_of (fst s) ["Users"; "new"] = Some (bytes_of "abc") /\ doubled_exists (fst s) ["Users"] "." "new" = true /\
  or_err (file_open ex_time false (fst s) ["Users"] "." "new" "get") = true.
Proof. vm_compute. repeat split; reflexivity. Qed.
