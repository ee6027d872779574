(** * Facts about the file system model *)

From Verif Require Import GoBase GoFacts Flags SpecFlags FlagsFacts FlagStrFacts SpecWire Holes SpecHoles Timestamp Fileio SpecFileio.
Local Open Scope string_scope.
Local Open Scope N_scope.

Lemma path_eqb_true : forall p q, path_eqb p q = true <-> p = q.
Proof. intros. unfold path_eqb. destruct (list_eq_dec string_dec p q); split; congruence. Qed.
Lemma path_eqb_refl : forall p, path_eqb p p = true.
Proof. intros. apply path_eqb_true; auto. Qed.
Lemma path_eqb_false : forall p q, path_eqb p q = false <-> p <> q.
Proof. intros. unfold path_eqb. destruct (list_eq_dec string_dec p q); split; congruence. Qed.

Lemma fs_get_del_same : forall p fs, fs_get p (fs_del p fs) = None.
Proof.
  intros p fs. unfold fs_del. induction fs as [|[q n] r IH]; [reflexivity|]. cbn [filter fst].
  destruct (path_eqb p q) eqn:E; cbn [negb]; [exact IH|]. cbn [fs_get]. rewrite E. exact IH.
Qed.
Lemma fs_get_del_other : forall p q fs, q <> p -> fs_get q (fs_del p fs) = fs_get q fs.
Proof.
  intros p q fs N. unfold fs_del. induction fs as [|[x n] r IH]; [reflexivity|]. cbn [filter fst fs_get].
  destruct (path_eqb p x) eqn:E; cbn [negb].
  - apply path_eqb_true in E. subst x. apply path_eqb_false in N. rewrite N. exact IH.
  - cbn [fs_get]. rewrite IH. reflexivity.
Qed.
Lemma fs_get_set_same : forall p n fs, fs_get p (fs_set p n fs) = Some n.
Proof. intros. unfold fs_set. cbn [fs_get]. rewrite path_eqb_refl. reflexivity. Qed.
Lemma fs_get_set_other : forall p q n fs, q <> p -> fs_get q (fs_set p n fs) = fs_get q fs.
Proof.
  intros. unfold fs_set. cbn [fs_get]. pose proof H as H'. apply path_eqb_false in H'. rewrite H'. apply fs_get_del_other; auto.
Qed.

(** ** Contents *)
Lemma nth_error_skipn' : forall (A : Type) (l : list A) n i, nth_error (skipn n l) i = nth_error l (n + i).
Proof. induction l as [|a l IH]; intros [|n] i; try reflexivity; [destruct i; reflexivity|]. cbn. apply IH. Qed.
Lemma nth_error_firstn' : forall (A : Type) (l : list A) n i, (i < n)%nat -> nth_error (firstn n l) i = nth_error l i.
Proof. induction l as [|a l IH]; intros [|n] [|i] H; try reflexivity; try lia. cbn. apply IH; lia. Qed.
Lemma nth_error_repeat' : forall (A : Type) (a : A) n i, (i < n)%nat -> nth_error (repeat a n) i = Some a.
Proof. induction n as [|n IH]; intros [|i] H; try lia; try reflexivity. cbn. apply IH; lia. Qed.
Lemma write_content_nth : forall c pos buf i, buf <> [] -> nth_error (write_content c pos buf) i = byte_after c pos buf i.
Proof.
  intros c pos buf i NE. unfold write_content, byte_after. destruct buf as [|b0 buf0]; [congruence|]. set (buf := b0 :: buf0) in *.
  destruct (Nat.leb_spec pos (length c)) as [L|L].
  - unfold overwrite. assert (LF : length (firstn pos c) = pos) by (rewrite firstn_length; lia).
    destruct (Nat.leb_spec (pos + length buf) i) as [A|A].
    + rewrite !nth_error_app2 by lia. rewrite LF. rewrite nth_error_skipn'. f_equal. lia.
    + destruct (Nat.leb_spec pos i) as [B|B].
      * rewrite nth_error_app2 by lia. rewrite LF. rewrite nth_error_app1 by lia. reflexivity.
      * rewrite nth_error_app1 by lia. rewrite nth_error_firstn' by lia.
        replace (Nat.ltb i (length c)) with true by (symmetry; apply Nat.ltb_lt; lia). reflexivity.
  - assert (LM : length (make_bytes (pos - length c)) = (pos - length c)%nat) by apply repeat_length.
    destruct (Nat.leb_spec (pos + length buf) i) as [A|A].
    + rewrite (proj2 (nth_error_None c i)) by lia. apply nth_error_None. rewrite !app_length, LM. lia.
    + destruct (Nat.leb_spec pos i) as [B|B].
      * rewrite !nth_error_app2 by lia. rewrite LM. f_equal. lia.
      * destruct (Nat.ltb_spec i (length c)) as [D|D].
        -- rewrite nth_error_app1 by lia. reflexivity.
        -- rewrite nth_error_app2 by lia. rewrite nth_error_app1 by lia. unfold make_bytes.
           rewrite nth_error_repeat' by lia. reflexivity.
Qed.
Lemma write_content_length : forall c pos buf, buf <> [] -> length (write_content c pos buf) = Nat.max (length c) (pos + length buf).
Proof.
  intros c pos buf NE. unfold write_content. destruct buf as [|b0 buf0]; [congruence|]. set (buf := b0 :: buf0) in *.
  destruct (Nat.leb_spec pos (length c)) as [L|L].
  - unfold overwrite. rewrite !app_length, firstn_length, skipn_length. lia.
  - rewrite !app_length. unfold make_bytes. rewrite repeat_length. lia.
Qed.

(** ** Splitting paths *)
Lemma split_cat : forall c s t, split_on c (s ++ String c t) = (split_on c s ++ split_on c t)%list.
Proof.
  induction s as [|a s IH]; intros t.
  - cbn [append split_on]. rewrite Ascii.eqb_refl. reflexivity.
  - cbn [append split_on]. destruct (Ascii.eqb a c); [cbn [app]; f_equal; apply IH|].
    rewrite IH. pose proof (split_on_nil c s). destruct (split_on c s) as [|h r]; [congruence|]. reflexivity.
Qed.
Lemma split_concat : forall l, l <> [] -> (forall c, In c l -> ~ In "/"%char (bytes_of c)) -> split_on "/" (String.concat "/" l) = l.
Proof.
  induction l as [|c l IH]; intros NE H; [congruence|]. destruct l as [|d l].
  - cbn [String.concat]. apply split_on_none. apply H; left; auto.
  - change (String.concat "/" (c :: d :: l)) with (c ++ String "/" (String.concat "/" (d :: l))).
    rewrite split_on_app by (apply H; left; auto). rewrite IH; [reflexivity|discriminate|]. intros; apply H; right; auto.
Qed.
Lemma has_nul_app : forall s t, has_nul (s ++ t) = has_nul s || has_nul t.
Proof. intros. unfold has_nul. rewrite bytes_of_app, existsb_app. reflexivity. Qed.
Lemma has_nul_none : forall s, ~ In (ascii_of_N 0) (bytes_of s) -> has_nul s = false.
Proof.
  intros s H. unfold has_nul. destruct (existsb _ _) eqn:E; [|reflexivity]. apply existsb_exists in E. destruct E as (x & I & Q).
  apply Ascii.eqb_eq in Q. subst x. exfalso. apply H. exact I.
Qed.
Lemma has_nul_concat : forall l, (forall c, In c l -> has_nul c = false) -> has_nul (String.concat "/" l) = false.
Proof.
  induction l as [|c l IH]; intros H; [reflexivity|]. destruct l as [|d l]; [apply H; left; auto|].
  change (String.concat "/" (c :: d :: l)) with (c ++ "/" ++ String.concat "/" (d :: l)).
  rewrite !has_nul_app, IH by (intros; apply H; right; auto). rewrite (H c) by (left; auto). reflexivity.
Qed.

Lemma walk_app : forall fs a b cur, walk fs cur (a ++ b)%list = match walk fs cur a with inl p => walk fs p b | inr e => inr e end.
Proof.
  induction a as [|c a IH]; intros b cur; [reflexivity|]. cbn [app walk].
  destruct (fs_get cur fs) as [n|]; [|reflexivity]. destruct (is_dir n); [|reflexivity].
  destruct (String.eqb c "" || String.eqb c "."); [apply IH|]. destruct (String.eqb c ".."); apply IH.
Qed.

Lemma is_abs_full : forall s t, is_abs (s ++ "/" ++ t) = is_abs (s ++ "/").
Proof. destruct s; reflexivity. Qed.
Lemma full_nonempty : forall s t, String.eqb (s ++ "/" ++ t) "" = false.
Proof. destruct s; reflexivity. Qed.
Lemma resolve_full : forall fs cwd sardir name,
  resolve fs cwd (sardir ++ "/" ++ name) =
    if has_nul sardir || has_nul name then inr EINVAL
    else match walk fs (if is_abs (sardir ++ "/") then [] else cwd) (split_on "/" sardir) with
         | inl d => walk fs d (split_on "/" name)
         | inr e => inr e
         end.
Proof.
  intros. unfold resolve. rewrite full_nonempty, is_abs_full. rewrite !has_nul_app. change (has_nul "/") with false. cbn [orb].
  destruct (has_nul sardir || has_nul name); [reflexivity|].
  change (sardir ++ "/" ++ name) with (sardir ++ String "/" name). rewrite split_cat, walk_app. reflexivity.
Qed.

Lemma tree_prefix : forall fs, tree fs -> forall q p n, fs_get (p ++ q)%list fs = Some n -> q <> [] -> exists d, fs_get p fs = Some d /\ is_dir d = true.
Proof.
  intros fs [_ T] q. induction q as [|x q IH] using rev_ind; intros p n G NE; [congruence|].
  rewrite app_assoc in G. destruct (T _ _ _ G) as (_ & d & D & DD).
  destruct q as [|y q].
  - rewrite app_nil_r in D. eauto.
  - eapply IH; [exact D|discriminate].
Qed.
Lemma tree_plain : forall fs, tree fs -> forall p n, fs_get p fs = Some n -> forall c, In c p -> plain c.
Proof.
  intros fs TT p. pose proof TT as [_ T]. induction p as [|x p IH] using rev_ind; intros n G c I; [destruct I|].
  destruct (T _ _ _ G) as (P & d & D & _). apply in_app_or in I. destruct I as [I|[<-|[]]]; [|exact P]. eapply IH; eauto.
Qed.

Lemma walk_plain : forall fs c cur r, c <> "" -> c <> "." -> c <> ".." ->
  walk fs cur (c :: r) = match fs_get cur fs with
                         | None => inr ENOENT
                         | Some n => if is_dir n then walk fs (cur ++ [c])%list r else inr ENOTDIR end.
Proof.
  intros fs c cur r N1 N2 N3. cbn [walk]. rewrite (proj2 (String.eqb_neq c "")), (proj2 (String.eqb_neq c ".")), (proj2 (String.eqb_neq c "..")) by auto.
  reflexivity.
Qed.
Lemma walk_down : forall fs, tree fs -> forall q p n, fs_get (p ++ q)%list fs = Some n -> walk fs p q = inl (p ++ q)%list.
Proof.
  intros fs T. induction q as [|c q IH]; intros p n G; [rewrite app_nil_r; reflexivity|].
  destruct (tree_prefix fs T _ _ _ G) as (d & D & DD); [discriminate|].
  destruct (tree_plain fs T _ _ G c) as (P1 & P2 & P3 & _); [apply in_or_app; right; left; auto|].
  rewrite walk_plain by auto. rewrite D, DD.
  change (c :: q) with ([c] ++ q)%list in G. rewrite app_assoc in G. rewrite (IH _ _ G). rewrite <- app_assoc. reflexivity.
Qed.
Lemma walk_up : forall fs, tree fs -> forall d n, fs_get d fs = Some n -> is_dir n = true -> walk fs d (repeat ".." (length d)) = inl [].
Proof.
  intros fs T d. induction d as [|x d IH] using rev_ind; intros n G DD; [reflexivity|].
  rewrite app_length. cbn [length]. rewrite Nat.add_1_r. cbn [repeat walk]. rewrite G, DD.
  change (String.eqb ".." "" || String.eqb ".." ".") with false. change (String.eqb ".." "..") with true. cbv iota.
  rewrite removelast_last. pose proof T as [_ T']. destruct (T' _ _ _ G) as (_ & m & M & MD). eapply IH; eauto.
Qed.
Lemma walk_below : forall fs l cur p, ~ In ".." l -> walk fs cur l = inl p -> exists r, p = (cur ++ r)%list.
Proof.
  induction l as [|c l IH]; intros cur p N W.
  - inversion W; subst. exists []. rewrite app_nil_r. reflexivity.
  - cbn [walk] in W. destruct (fs_get cur fs) as [n|]; [|discriminate]. destruct (is_dir n); [|discriminate].
    assert (N' : ~ In ".." l) by (intro; apply N; right; auto).
    destruct (String.eqb c "" || String.eqb c "."); [apply (IH _ _ N' W)|].
    destruct (String.eqb_spec c "..") as [->|]; [exfalso; apply N; left; auto|].
    destruct (IH _ _ N' W) as [r ->]. exists (c :: r). rewrite <- app_assoc. reflexivity.
Qed.

(** ** The doubled look-up with an ordinary absolute sardir *)
Lemma walk_abs_prefix : forall fs comps cur rest, (forall c, In c comps -> plain c) ->
  (exists e, walk fs cur (comps ++ rest)%list = inr e) \/ walk fs cur (comps ++ rest)%list = walk fs (cur ++ comps)%list rest.
Proof.
  induction comps as [|c comps IH]; intros cur rest P.
  - right. rewrite app_nil_r. reflexivity.
  - destruct (P c) as (P1 & P2 & P3 & _); [left; auto|]. cbn [app]. rewrite walk_plain by auto.
    destruct (fs_get cur fs) as [n|]; [|left; eauto]. destruct (is_dir n); [|left; eauto].
    destruct (IH (cur ++ [c])%list rest) as [X|X]; [intros; apply P; right; auto|left; exact X|right].
    rewrite X, <- app_assoc. reflexivity.
Qed.
Lemma walk_blank : forall fs cur r, walk fs cur ("" :: r) =
  match fs_get cur fs with None => inr ENOENT | Some n => if is_dir n then walk fs cur r else inr ENOTDIR end.
Proof. reflexivity. Qed.
Lemma walk_missing : forall fs cur l, fs_get cur fs = None -> l <> [] -> walk fs cur l = inr ENOENT.
Proof. intros fs cur [|c l] G NE; [congruence|]. cbn [walk]. rewrite G. reflexivity. Qed.

Lemma split_abs : forall comps, comps <> [] -> (forall c, In c comps -> plain c) -> split_on "/" (abs_name comps) = "" :: comps.
Proof.
  intros comps NE P. unfold abs_name. change ("/" ++ String.concat "/" comps) with (String "/" (String.concat "/" comps)).
  cbn [split_on]. change (Ascii.eqb "/" "/") with true. cbv iota. rewrite split_concat by (auto; intros c I; destruct (P c I) as (_ & _ & _ & X & _); exact X). reflexivity.
Qed.
Lemma nul_abs : forall comps, (forall c, In c comps -> plain c) -> has_nul (abs_name comps) = false.
Proof.
  intros comps P. unfold abs_name. rewrite has_nul_app. change (has_nul "/") with false. cbn [orb]. apply has_nul_concat.
  intros c I. apply has_nul_none. destruct (P c I) as (_ & _ & _ & _ & X). exact X.
Qed.

Lemma doubled_missing : forall fs cwd c1 rest fname, (forall c, In c (c1 :: rest) -> plain c) ->
  fs_get ((c1 :: rest) ++ [c1])%list fs = None -> exists e, resolve fs cwd (abs_name (c1 :: rest) ++ "/" ++ (abs_name (c1 :: rest) ++ "/" ++ fname)) = inr e.
Proof.
  intros fs cwd c1 rest fname P G. rewrite resolve_full. destruct (_ || _); [eauto|].
  rewrite split_abs by (auto; discriminate). change (is_abs (abs_name (c1 :: rest) ++ "/")) with true. cbv iota.
  rewrite walk_blank. destruct (fs_get [] fs) as [n|]; [|eauto]. destruct (is_dir n); [|eauto].
  destruct (walk_abs_prefix fs (c1 :: rest) [] [] P) as [[e X]|X]; rewrite app_nil_r in X; rewrite X; [eauto|]. cbn [app walk].
  change (abs_name (c1 :: rest) ++ "/" ++ fname) with (abs_name (c1 :: rest) ++ String "/" fname). rewrite split_cat, split_abs by (auto; discriminate).
  cbn [app]. rewrite walk_blank. destruct (fs_get (c1 :: rest) fs) as [m|] eqn:M; [|eauto]. destruct (is_dir m) eqn:MD; [|eauto].
  destruct (P c1) as (P1 & P2 & P3 & _); [left; auto|]. rewrite walk_plain by auto. rewrite M, MD.
  rewrite walk_missing; [eauto|exact G|]. pose proof (split_on_nil "/" fname). destruct rest; [exact H|discriminate].
Qed.

Lemma nth_error_ext : forall {A} (l l' : list A), (forall i, nth_error l i = nth_error l' i) -> l = l'.
Proof.
  induction l as [|a l IH]; intros [|b l'] H; [reflexivity|discriminate (H 0%nat)|discriminate (H 0%nat)|].
  pose proof (H 0%nat) as X. cbn in X. injection X as ->. f_equal. apply IH. intros i. exact (H (S i)).
Qed.
