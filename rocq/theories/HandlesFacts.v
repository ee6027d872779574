(** * Facts about open files *)

From Verif Require Import GoBase GoFacts Flags Timestamp Holes SpecHoles SpecWire Fileio SpecFileio FileioFacts FileioMain Handles SpecHandles.
Local Open Scope string_scope.
Local Open Scope N_scope.

Lemma place_eqb_true : forall a b, place_eqb a b = true <-> a = b.
Proof.
  intros [p|i] [q|j]; cbn [place_eqb]; split; intros H; try discriminate.
  - apply path_eqb_true in H. congruence.
  - injection H as ->. apply path_eqb_refl.
  - apply Nat.eqb_eq in H. congruence.
  - injection H as ->. apply Nat.eqb_refl.
Qed.
Lemma place_eqb_refl : forall a, place_eqb a a = true.
Proof. intros a. apply place_eqb_true. reflexivity. Qed.
Lemma place_eqb_false : forall a b, place_eqb a b = false <-> a <> b.
Proof.
  intros a b. split; intros H.
  - intros ->. rewrite place_eqb_refl in H. discriminate.
  - destruct (place_eqb a b) eqn:E; [|reflexivity]. apply place_eqb_true in E. contradiction.
Qed.
Lemma set_at_length : forall (A : Type) (l : list A) i a, length (set_at l i a) = length l.
Proof. induction l as [|x l IH]; intros [|i] a; cbn; auto. Qed.
Lemma set_at_same : forall (A : Type) (l : list A) i a, (i < length l)%nat -> nth_error (set_at l i a) i = Some a.
Proof. induction l as [|x l IH]; intros [|i] a H; cbn in *; try lia; auto. apply IH. lia. Qed.
Lemma set_at_other : forall (A : Type) (l : list A) i j a, i <> j -> nth_error (set_at l i a) j = nth_error l j.
Proof. induction l as [|x l IH]; intros [|i] [|j] a H; cbn; try congruence; auto. Qed.
Lemma set_at_map : forall (A B : Type) (g : A -> B) (l : list A) i a f, nth_error l i = Some f -> g a = g f -> map g (set_at l i a) = map g l.
Proof. induction l as [|x l IH]; intros [|i] a f H E; cbn in *; try congruence. f_equal. eapply IH; eauto. Qed.

(** There is a file behind every handle *)
Definition sound (w : world) : Prop :=
  forall f, In f (w_files w) -> node_at w (h_at f) <> None.

(** What matters of a handle *)
Definition core (f : hfile) : place * string * bool * bool := (h_at f, h_name f, h_write f, h_open f).
Definition quiet (w w' : world) : Prop :=
  (forall a, node_at w' a = node_at w a) /\ map core (w_files w') = map core (w_files w).
Lemma quiet_refl : forall w, quiet w w.
Proof. split; auto. Qed.
Lemma quiet_trans : forall a b c, quiet a b -> quiet b c -> quiet a c.
Proof. intros a b c [H1 H2] [H3 H4]. split; [intros x; rewrite H3; apply H1|congruence]. Qed.
Lemma quiet_nth : forall w w', quiet w w' -> forall i, option_map core (nth_error (w_files w') i) = option_map core (nth_error (w_files w) i).
Proof. intros w w' [_ H] i. rewrite <- !nth_error_map, H. reflexivity. Qed.
Lemma quiet_length : forall w w', quiet w w' -> length (w_files w') = length (w_files w).
Proof. intros w w' [_ H]. rewrite <- (map_length core (w_files w')), H. apply map_length. Qed.
Ltac quiet_cases Q i :=
  let H := fresh in pose proof (quiet_nth _ _ Q i) as H;
  repeat match type of H with
  | context [nth_error (w_files ?w) i] => destruct (nth_error (w_files w) i) eqn:?
  end; cbn in H; try discriminate H; try (unfold core in H; injection H; clear H; intros).
Lemma quiet_contents : forall w w', quiet w w' -> forall i, contents w' i = contents w i.
Proof.
  intros w w' Q i. unfold contents. quiet_cases Q i; [|reflexivity]. destruct Q as [N _]. match goal with H : h_at _ = h_at _ |- _ => rewrite H, N end. reflexivity.
Qed.
Lemma quiet_one : forall w w', quiet w w' -> forall i j, one_file w' i j = one_file w i j.
Proof.
  intros w w' Q i j. unfold one_file. quiet_cases Q i; [|reflexivity]. quiet_cases Q j; [|reflexivity]. congruence.
Qed.
Lemma quiet_open : forall w w', quiet w w' -> forall i, is_open w' i = is_open w i.
Proof. intros w w' Q i. unfold is_open. quiet_cases Q i; congruence. Qed.
Lemma quiet_writable : forall w w', quiet w w' -> forall i, writable w' i = writable w i.
Proof. intros w w' Q i. unfold writable. quiet_cases Q i; congruence. Qed.
Lemma quiet_name : forall w w', quiet w w' -> forall i, name_of w' i = name_of w i.
Proof. intros w w' Q i. unfold name_of. quiet_cases Q i; cbn; congruence. Qed.
Lemma quiet_sound : forall w w', quiet w w' -> sound w -> sound w'.
Proof.
  intros w w' [N C] H f I. rewrite N.
  apply (in_map core) in I. rewrite C in I. apply in_map_iff in I as (g & E & I).
  unfold core in E. injection E as E _ _ _. rewrite <- E. apply H. exact I.
Qed.
Lemma quiet_update : forall w h f g, file_of w h = Some f -> core g = core f -> quiet w (update w h g).
Proof.
  intros w [i|] f g F C; [|apply quiet_refl]. cbn [update file_of] in *. split; [reflexivity|]. cbn [w_files with_files].
  eapply set_at_map; eauto.
Qed.
Lemma core_moved : forall f z, core (h_moved f z) = core f.
Proof. reflexivity. Qed.
Lemma file_update : forall w h f g, file_of w h = Some f -> file_of (update w h g) h = Some g.
Proof.
  intros w [i|] f g F; [|discriminate]. cbn [file_of update w_files with_files] in *. apply set_at_same. apply nth_error_Some. congruence.
Qed.

Lemma seek_some : forall w h pos g, w_fileseek w h pos = Some g ->
  exists f, file_of w h = Some f /\ h_open f = true /\ (0 <= i64_of_N pos)%Z /\ g = h_moved f (i64_of_N pos).
Proof.
  intros w h pos g. unfold w_fileseek. destruct (file_of w h) as [f|]; [|discriminate].
  destruct (Z.ltb_spec (i64_of_N pos) 0); [discriminate|]. destruct (h_open f) eqn:O; [|discriminate]. intros E. injection E as <-.
  exists f. auto.
Qed.
Lemma read_quiet : forall w h pos blen w' r, w_fileread w h pos blen = Ret (w', r) -> quiet w w'.
Proof.
  intros w h pos blen w' r. unfold w_fileread. destruct (blen <? 0)%Z; [discriminate|].
  destruct (w_fileseek w h pos) as [g|] eqn:S; [|intros E; injection E as <- <-; apply quiet_refl].
  apply seek_some in S as (f & F & O & P & ->).
  assert (Q1 : quiet w (update w h (h_moved f (i64_of_N pos)))) by (eapply quiet_update; [eassumption|reflexivity]).
  destruct (node_at _ _) as [n|]; [|intros E; injection E as <- <-; auto].
  destruct (n_kind n); try (intros E; injection E as <- <-; auto).
  destruct (blen =? 0)%Z; [intros E; injection E as <- <-; auto|].
  cbv zeta. destruct (firstn _ _) as [|b l] eqn:FN; intros E; injection E as <- <-; auto.
  eapply quiet_trans; [exact Q1|]. eapply quiet_update; [eapply file_update; eauto|reflexivity].
Qed.
Lemma put_node : forall w a n x m, node_at w a = Some m -> node_at (put_at w a n) x = if place_eqb x a then Some n else node_at w x.
Proof.
  intros w [p|k] n x m H; cbn [put_at]; destruct x as [q|j]; cbn [node_at w_fs w_gone place_eqb]; try reflexivity.
  - destruct (path_eqb q p) eqn:E.
    + apply path_eqb_true in E. subst. apply fs_get_set_same.
    + apply path_eqb_false in E. apply fs_get_set_other. auto.
  - cbn in H. destruct (Nat.eqb_spec j k) as [->|NE].
    + apply set_at_same. apply nth_error_Some. congruence.
    + apply set_at_other. auto.
Qed.
Lemma put_files : forall w a n, w_files (put_at w a n) = w_files w.
Proof. intros w [p|k] n; reflexivity. Qed.

Lemma nth_error_ext_len : forall (l l' : list byte), (forall i, nth_error l i = nth_error l' i) -> l = l'.
Proof. apply (@nth_error_ext byte). Qed.
Lemma written_content : forall c pos buf, write_content c pos buf = written c pos buf.
Proof.
  intros c pos buf. destruct buf as [|b buf']; [reflexivity|]. set (buf := b :: buf'). assert (NE : buf <> []) by discriminate.
  apply nth_error_ext. intros i. rewrite write_content_nth by auto.
  unfold written. fold buf. change (match buf with [] => c | _ :: _ => _ end) with
    (map (fun i0 => match byte_after c pos buf i0 with Some b0 => b0 | None => ascii_of_N 0 end) (seq 0 (Nat.max (List.length c) (pos + List.length buf)))).
  set (m := Nat.max (length c) (pos + length buf)).
  destruct (Nat.ltb_spec i m) as [L|L].
  - rewrite nth_error_map, (nth_error_nth' _ 0%nat) by (rewrite seq_length; auto). rewrite seq_nth by auto. cbn [option_map plus].
    destruct (byte_after c pos buf i) eqn:B; [reflexivity|]. exfalso.
    rewrite <- write_content_nth in B by auto. apply nth_error_None in B. rewrite write_content_length in B by auto. unfold m in L. lia.
  - rewrite <- write_content_nth by auto.
    transitivity (@None byte); [|symmetry]; apply nth_error_None; [rewrite write_content_length by auto|rewrite map_length, seq_length]; unfold m in *; lia.
Qed.

(** The step of a history, all at once *)
Record step_ok (w w' : world) (o : hop) (r : hres) : Prop := {
  so_sound : sound w';
  so_length : (length (w_files w) <= length (w_files w'))%nat;
  so_one : forall i j, (i < length (w_files w))%nat -> (j < length (w_files w))%nat -> one_file w' i j = one_file w i j;
  so_contents : forall i c, contents w i = Some c -> contents w' i = Some (told (one_file w' i) c (o, r));
  so_open : forall i, (i < length (w_files w))%nat -> is_open w' i = is_open w i && negb (closes i o);
  so_write : forall i, (i < length (w_files w))%nat -> writable w' i = writable w i;
  so_name : forall i, (i < length (w_files w))%nat -> name_of w' i = name_of w i;
  so_res : forall i, (i < length (w_files w))%nat -> is_open w i = false -> uses i o = true -> error_res r
}.
Lemma quiet_step : forall w w' o r, sound w -> quiet w w' ->
  (forall mine c, told mine c (o, r) = c) -> (forall i, closes i o = true -> is_open w i = false) ->
  (forall i, (i < length (w_files w))%nat -> is_open w i = false -> uses i o = true -> error_res r) -> step_ok w w' o r.
Proof.
  intros w w' o r S Q T C U. constructor.
  - eapply quiet_sound; eauto.
  - rewrite (quiet_length _ _ Q). auto.
  - intros i j _ _. apply quiet_one; auto.
  - intros i c H. rewrite T, (quiet_contents _ _ Q). auto.
  - intros i _. rewrite (quiet_open _ _ Q). destruct (closes i o) eqn:E; [rewrite (C _ E); reflexivity|]. rewrite andb_true_r. reflexivity.
  - intros i _. apply quiet_writable; auto.
  - intros i _. apply quiet_name; auto.
  - auto.
Qed.
Lemma nth_lt : forall (A : Type) (l : list A) i, (i < length l)%nat -> exists x, nth_error l i = Some x.
Proof. intros A l i H. destruct (nth_error l i) eqn:E; [eauto|]. apply nth_error_None in E. lia. Qed.

Lemma step_write : forall w h pos buf w' r, sound w -> pos < 2 ^ 64 -> w_filewrite w h pos buf = (w', r) -> step_ok w w' (HWrite h pos buf) (RWrote r).
Proof.
  intros w h pos buf w' r S U64. unfold w_filewrite.
  destruct (w_fileseek w h pos) as [g|] eqn:SK.
  2:{ intros E. injection E as <- <-. apply quiet_step; auto using quiet_refl; destruct h; try reflexivity; discriminate. }
  apply seek_some in SK as (f & F & O & P & ->).
  assert (Q1 : quiet w (update w h (h_moved f (i64_of_N pos)))) by (eapply quiet_update; [eassumption|reflexivity]).
  destruct h as [k|]; [|discriminate F]. cbn [file_of] in F.
  assert (U : forall i, is_open w i = false -> uses i (HWrite (Some k) pos buf) = true -> False).
  { intros i IO UI. cbn in UI. apply Nat.eqb_eq in UI. subst i. unfold is_open in IO. rewrite F in IO. congruence. }
  assert (TN : forall mine c, told mine c (HWrite (Some k) pos buf, RWrote None) = c) by reflexivity.
  cbn [h_write h_moved h_at h_pos].
  destruct (h_write f) eqn:W.
  2:{ intros E. injection E as <- <-. apply quiet_step; auto; [discriminate|]. intros i _ IO UI. destruct (U i IO UI). }
  set (w1 := update w (Some k) (h_moved f (i64_of_N pos))) in *.
  destruct (node_at w1 (h_at f)) as [n|] eqn:N.
  2:{ intros E. injection E as <- <-. apply quiet_step; auto; [discriminate|]. intros i _ IO UI. destruct (U i IO UI). }
  destruct (n_kind n) as [cc| | | |] eqn:K.
  2-5: intros E; injection E as <- <-; apply quiet_step; auto; [discriminate|]; intros i _ IO UI; destruct (U i IO UI).
  set (n' := {| n_kind := KFile _; n_size := _; n_mtime := _; n_ctime := _ |}).
  cbv zeta. set (w2 := put_at w1 (h_at f) n').
  intros E. apply pair_equal_spec in E as [<- <-].
  match goal with |- step_ok _ ?x _ _ => set (w3 := x) end.
  assert (F2 : file_of w2 (Some k) = Some (h_moved f (i64_of_N pos))).
  { unfold w2. cbn [file_of]. rewrite put_files. apply (file_update w (Some k) f). exact F. }
  assert (Q3 : quiet w2 w3) by (eapply quiet_update; [exact F2|reflexivity]).
  assert (NA : forall a, node_at w3 a = if place_eqb a (h_at f) then Some n' else node_at w a).
  { intros a. destruct Q3 as [Q3 _]. rewrite Q3. unfold w2. erewrite put_node by eassumption. destruct Q1 as [Q1 _]. rewrite Q1. reflexivity. }
  assert (MC : map core (w_files w3) = map core (w_files w)).
  { destruct Q3 as [_ Q3]. rewrite Q3. unfold w2. rewrite put_files. apply Q1. }
  assert (CN : forall i, option_map core (nth_error (w_files w3) i) = option_map core (nth_error (w_files w) i)).
  { intros i. rewrite <- !nth_error_map, MC. reflexivity. }
  assert (LEN : length (w_files w3) = length (w_files w)).
  { rewrite <- (map_length core (w_files w3)), MC. apply map_length. }
  assert (ONE : forall i j, one_file w3 i j = one_file w i j).
  { intros i j. unfold one_file. pose proof (CN i) as Ci. pose proof (CN j) as Cj.
    destruct (nth_error (w_files w3) i), (nth_error (w_files w) i); cbn in Ci; try discriminate; [|reflexivity].
    destruct (nth_error (w_files w3) j), (nth_error (w_files w) j); cbn in Cj; try discriminate; [|reflexivity].
    unfold core in *. congruence. }
  constructor.
  - intros x I. rewrite NA. destruct (place_eqb (h_at x) (h_at f)); [discriminate|].
    apply (in_map core) in I. rewrite MC in I. apply in_map_iff in I as (y & E & I). unfold core in E. injection E as E _ _ _.
    rewrite <- E. apply S. exact I.
  - rewrite LEN. auto.
  - intros i j _ _. apply ONE.
  - intros i c CO. cbn [told]. rewrite ONE. unfold contents in *. unfold one_file. rewrite F. pose proof (CN i) as Ci.
    destruct (nth_error (w_files w3) i) as [fi'|], (nth_error (w_files w) i) as [fi|]; cbn in Ci; try discriminate.
    unfold core in Ci. injection Ci as E1 E2 E3 E4. rewrite E1, NA.
    destruct (place_eqb (h_at fi) (h_at f)) eqn:PE; [|exact CO].
    apply place_eqb_true in PE. rewrite PE in CO. destruct Q1 as [Q1 _]. rewrite <- Q1 in CO. fold w1 in CO. rewrite N, K in CO. injection CO as <-.
    unfold n'. cbn [n_kind]. rewrite written_content.
    f_equal. f_equal. unfold i64_of_N in *. rewrite N.mod_small in * by auto. destruct (N.ltb_spec pos (2 ^ 63)); [lia|].
    exfalso. change (2 ^ 64)%Z with 18446744073709551616%Z in P. change (2 ^ 64) with 18446744073709551616 in *. lia.
  - intros i _. unfold is_open. pose proof (CN i) as Ci. cbn [closes negb]. rewrite andb_true_r.
    destruct (nth_error (w_files w3) i), (nth_error (w_files w) i); cbn in Ci; try discriminate; unfold core in *; congruence.
  - intros i _. unfold writable. pose proof (CN i) as Ci.
    destruct (nth_error (w_files w3) i), (nth_error (w_files w) i); cbn in Ci; try discriminate; unfold core in *; congruence.
  - intros i _. unfold name_of. pose proof (CN i) as Ci.
    destruct (nth_error (w_files w3) i), (nth_error (w_files w) i); cbn in Ci |- *; try discriminate; unfold core in *; congruence.
  - intros i _ IO UI. destruct (U i IO UI).
Qed.
Lemma step_read : forall w h pos blen w' r, sound w -> w_fileread w h pos blen = Ret (w', r) -> step_ok w w' (HRead h pos blen) (RRead r).
Proof.
  intros w h pos blen w' r S H. apply quiet_step; auto.
  - eapply read_quiet; eauto.
  - discriminate.
  - intros i _ IO UI. destruct h as [k|]; [|discriminate UI]. cbn in UI. apply Nat.eqb_eq in UI. subst k.
    unfold w_fileread in H. destruct (blen <? 0)%Z; [discriminate|].
    replace (w_fileseek w (Some i) pos) with (@None hfile) in H; [injection H as <- <-; reflexivity|].
    unfold w_fileseek, is_open in *. cbn [file_of]. destruct (nth_error (w_files w) i) as [f|]; [|reflexivity]. rewrite IO.
    destruct (i64_of_N pos <? 0)%Z; reflexivity.
Qed.

(** Everything but who is open stays *)
Record kept (w w' : world) : Prop := {
  k_sound : sound w -> sound w';
  k_length : length (w_files w') = length (w_files w);
  k_one : sound w -> forall i j, one_file w' i j = one_file w i j;
  k_contents : sound w -> forall i, contents w' i = contents w i;
  k_write : forall i, writable w' i = writable w i;
  k_name : forall i, name_of w' i = name_of w i
}.
Lemma kept_refl : forall w, kept w w.
Proof. constructor; auto. Qed.
Lemma kept_trans : forall a b c, kept a b -> kept b c -> kept a c.
Proof.
  intros a b c [] []. constructor; auto; intros; try congruence.
  - rewrite k_one1; auto.
  - rewrite k_contents1; auto.
Qed.
Lemma close_kept : forall w h w' b, w_fileclose w h = (w', b) ->
  kept w w' /\ (forall i, is_open w' i = is_open w i && negb (closes i (HClose h))) /\
  (forall i, is_open w i = false -> uses i (HClose h) = true -> b = false) /\ w_fs w' = w_fs w /\ w_cwd w' = w_cwd w.
Proof.
  intros w h w' b. unfold w_fileclose. destruct (file_of w h) as [f|] eqn:F.
  2:{ intros E. injection E as <- <-. split; [apply kept_refl|]. split; [|auto]. intros i. destruct h as [k|]; cbn [closes negb]; [|rewrite andb_true_r; reflexivity].
      unfold is_open. destruct (Nat.eqb_spec i k) as [->|NE]; [|rewrite andb_true_r; reflexivity]. cbn in F. rewrite F. reflexivity. }
  destruct h as [k|]; [|discriminate]. cbn [file_of] in F.
  destruct (h_open f) eqn:O.
  2:{ intros E. injection E as <- <-. split; [apply kept_refl|]. split; [|auto]. intros i. cbn [closes].
      unfold is_open. destruct (Nat.eqb_spec i k) as [->|NE]; cbn [negb]; [rewrite F, O; reflexivity|rewrite andb_true_r; reflexivity]. }
  intros E. injection E as <- <-. cbn [update].
  assert (LT : (k < length (w_files w))%nat) by (apply nth_error_Some; congruence).
  set (w' := with_files w _).
  assert (NTH : forall i, nth_error (w_files w') i = if Nat.eqb i k then Some (h_closed f) else nth_error (w_files w) i).
  { intros i. unfold w'. cbn [w_files with_files]. destruct (Nat.eqb_spec i k) as [->|NE]; [apply set_at_same|apply set_at_other]; auto. }
  split; [|split; [|split; [|auto]]].
  - assert (ATS : forall i, option_map h_at (nth_error (w_files w') i) = option_map h_at (nth_error (w_files w) i)).
    { intros i. rewrite NTH. destruct (Nat.eqb_spec i k) as [->|NE]; [rewrite F; reflexivity|reflexivity]. }
    constructor.
    + intros S x I. change (node_at w' (h_at x)) with (node_at w (h_at x)). apply In_nth_error in I as (i & I). pose proof (ATS i) as A. rewrite I in A.
      destruct (nth_error (w_files w) i) as [y|] eqn:Y; [|discriminate]. cbn in A. injection A as ->. apply S. eapply nth_error_In; eauto.
    + unfold w'. cbn [w_files with_files]. apply set_at_length.
    + intros _ i j. unfold one_file. pose proof (ATS i) as Ai. pose proof (ATS j) as Aj.
      destruct (nth_error (w_files w') i), (nth_error (w_files w) i); cbn in Ai; try discriminate; [|reflexivity].
      destruct (nth_error (w_files w') j), (nth_error (w_files w) j); cbn in Aj; try discriminate; [|reflexivity]. congruence.
    + intros _ i. unfold contents. pose proof (ATS i) as Ai.
      destruct (nth_error (w_files w') i), (nth_error (w_files w) i); cbn in Ai; try discriminate; [|reflexivity]. injection Ai as ->. reflexivity.
    + intros i. unfold writable. rewrite NTH. destruct (Nat.eqb_spec i k) as [->|NE]; [rewrite F|]; reflexivity.
    + intros i. unfold name_of. rewrite NTH. destruct (Nat.eqb_spec i k) as [->|NE]; [rewrite F|]; reflexivity.
  - intros i. unfold is_open. rewrite NTH. cbn [closes]. destruct (Nat.eqb_spec i k) as [->|NE]; cbn [negb]; rewrite ?andb_true_r, ?andb_false_r; reflexivity.
  - intros i IO UI. cbn in UI. apply Nat.eqb_eq in UI. subst i. unfold is_open in IO. rewrite F in IO. congruence.
Qed.

Lemma rm_cases : forall sardir w fname w' b, w_filerm sardir w fname = (w', b) ->
  (b = false /\ w' = w /\ (exists e, file_rm (w_fs w) (w_cwd w) sardir fname = inr e)) \/
  (b = true /\ exists p n, resolve (w_fs w) (w_cwd w) (full sardir fname) = inl p /\ fs_get p (w_fs w) = Some n /\
     file_rm (w_fs w) (w_cwd w) sardir fname = inl (fs_del p (w_fs w)) /\
     w' = {| w_fs := fs_del p (w_fs w); w_cwd := w_cwd w; w_gone := (w_gone w ++ [n])%list;
             w_files := map (h_unnamed p (length (w_gone w))) (w_files w) |}).
Proof.
  intros sardir w fname w' b. unfold w_filerm, file_rm, os_remove.
  destruct (resolve (w_fs w) (w_cwd w) (full sardir fname)) as [p|e]; [|intros E; injection E as <- <-; left; eauto].
  destruct (fs_get p (w_fs w)) as [n|] eqn:G; [|intros E; injection E as <- <-; left; eauto].
  destruct (is_dir n && has_child p (w_fs w)); [intros E; injection E as <- <-; left; eauto|].
  intros E. injection E as <- <-. right. split; [reflexivity|]. exists p, n. auto.
Qed.
Lemma unlink_kept : forall w p n, fs_get p (w_fs w) = Some n ->
  let w' := {| w_fs := fs_del p (w_fs w); w_cwd := w_cwd w; w_gone := (w_gone w ++ [n])%list;
               w_files := map (h_unnamed p (length (w_gone w))) (w_files w) |} in
  kept w w' /\ (forall i, is_open w' i = is_open w i).
Proof.
  intros w p n G w'.
  set (mv := fun a => if place_eqb a (Named p) then Gone (length (w_gone w)) else a).
  assert (AT : forall f, h_at (h_unnamed p (length (w_gone w)) f) = mv (h_at f)).
  { intros f. unfold h_unnamed, mv. destruct (place_eqb (h_at f) (Named p)); reflexivity. }
  assert (NODE : forall a, node_at w a <> None -> node_at w' (mv a) = node_at w a).
  { intros a NA. unfold mv. destruct (place_eqb a (Named p)) eqn:E.
    - apply place_eqb_true in E. subst a. cbn [node_at w' w_gone]. rewrite nth_error_app2, Nat.sub_diag by auto. cbn. auto.
    - apply place_eqb_false in E. destruct a as [q|k]; cbn [node_at w' w_fs w_gone] in *.
      + apply fs_get_del_other. congruence.
      + apply nth_error_app1. apply nth_error_Some. auto. }
  assert (INJ : forall a b, node_at w a <> None -> node_at w b <> None -> place_eqb (mv a) (mv b) = place_eqb a b).
  { assert (FR : forall k, node_at w (Gone k) <> None -> k <> length (w_gone w)).
    { intros k H. cbn in H. apply nth_error_Some in H. lia. }
    intros a b NA NB. unfold mv. destruct (place_eqb a (Named p)) eqn:EA, (place_eqb b (Named p)) eqn:EB; try reflexivity.
    - apply place_eqb_true in EA, EB. subst. cbn. rewrite Nat.eqb_refl, path_eqb_refl. reflexivity.
    - apply place_eqb_true in EA. subst a. apply place_eqb_false in EB. transitivity false; [|symmetry; apply place_eqb_false; auto].
      apply place_eqb_false. intros E. subst b. apply (FR _ NB). reflexivity.
    - apply place_eqb_true in EB. subst b. rewrite EA. apply place_eqb_false. intros E. subst a. apply (FR _ NA). reflexivity. }
  assert (NTH : forall i, nth_error (w_files w') i = option_map (h_unnamed p (length (w_gone w))) (nth_error (w_files w) i)).
  { intros i. apply nth_error_map. }
  assert (SN : sound w -> forall i f, nth_error (w_files w) i = Some f -> node_at w (h_at f) <> None).
  { intros S i f F. apply S. eapply nth_error_In; eauto. }
  split; [constructor|].
  - intros S x I. cbn [w' w_files] in I. apply in_map_iff in I as (y & <- & I). rewrite AT, NODE; apply S; exact I.
  - apply map_length.
  - intros S i j. unfold one_file. rewrite !NTH. destruct (nth_error (w_files w) i) as [f|] eqn:Fi; [|reflexivity].
    destruct (nth_error (w_files w) j) as [g|] eqn:Fj; [|reflexivity]. cbn [option_map]. rewrite !AT. apply INJ; eapply SN; eauto.
  - intros S i. unfold contents. rewrite NTH. destruct (nth_error (w_files w) i) as [f|] eqn:Fi; [|reflexivity]. cbn [option_map]. rewrite AT, NODE; [reflexivity|]. eapply SN; eauto.
  - intros i. unfold writable. rewrite NTH. destruct (nth_error (w_files w) i) as [f|]; [|reflexivity]. cbn [option_map].
    unfold h_unnamed. destruct (place_eqb _ _); reflexivity.
  - intros i. unfold name_of. rewrite NTH. destruct (nth_error (w_files w) i) as [f|]; [|reflexivity]. cbn [option_map].
    unfold h_unnamed. destruct (place_eqb _ _); reflexivity.
  - intros i. unfold is_open. rewrite NTH. destruct (nth_error (w_files w) i) as [f|]; [|reflexivity]. cbn [option_map].
    unfold h_unnamed. destruct (place_eqb _ _); reflexivity.
Qed.
Lemma rm_kept : forall sardir w fname w' b, w_filerm sardir w fname = (w', b) -> kept w w' /\ (forall i, is_open w' i = is_open w i).
Proof.
  intros sardir w fname w' b H. destruct (rm_cases _ _ _ _ _ H) as [(_ & -> & _)|(_ & p & n & _ & G & _ & ->)].
  - split; [apply kept_refl|auto].
  - apply unlink_kept. exact G.
Qed.
Lemma kept_step : forall w w' o r, sound w -> kept w w' -> (forall mine c, told mine c (o, r) = c) ->
  (forall i, is_open w' i = is_open w i && negb (closes i o)) ->
  (forall i, is_open w i = false -> uses i o = true -> error_res r) -> step_ok w w' o r.
Proof.
  intros w w' o r S [] T O U. constructor; auto.
  - lia.
  - intros i c H. rewrite T, k_contents0; auto.
  - intros i _. apply U.
Qed.
Lemma delete_kept : forall sardir w h w' b, w_filedelete sardir w h = (w', b) ->
  kept w w' /\ (forall i, is_open w' i = is_open w i && negb (closes i (HDelete h))).
Proof.
  intros sardir w h w' b. unfold w_filedelete. destruct (file_of w h) as [f|] eqn:F.
  2:{ intros E. injection E as <- <-. split; [apply kept_refl|]. intros i. destruct h as [k|]; cbn [closes negb]; [|rewrite andb_true_r; reflexivity].
      unfold is_open. destruct (Nat.eqb_spec i k) as [->|NE]; [|rewrite andb_true_r; reflexivity]. cbn in F. rewrite F. reflexivity. }
  destruct (w_fileclose w h) as [w1 b1] eqn:C. cbn [fst]. intros R.
  destruct (close_kept _ _ _ _ C) as (K1 & O1 & _ & _). destruct (rm_kept _ _ _ _ _ R) as (K2 & O2).
  split; [eapply kept_trans; eauto|]. intros i. rewrite O2, O1. destruct h; reflexivity.
Qed.

(** Opening *)
Lemma open_cases : forall now ok sardir w fname ttype w' h e, w_fileopen now ok sardir w fname ttype = (w', (h, e)) ->
  w_gone w' = w_gone w /\
  (forall p, fs_get p (w_fs w) <> None -> fs_get p (w_fs w') <> None) /\
  ((h = None /\ w_files w' = w_files w /\ forall p, fs_get p (w_fs w) <> None -> fs_get p (w_fs w') = fs_get p (w_fs w)) \/
   (exists f p, h = Some (length (w_files w)) /\ w_files w' = (w_files w ++ [f])%list /\ h_at f = Named p /\ h_open f = true /\
      h_name f = full sardir fname /\ fs_get p (w_fs w') <> None /\ resolve_follow (w_fs w) (w_cwd w) (full sardir fname) = inl p /\ e = false /\
      ((In ttype ["get"; "take"] /\ h_write f = true /\
        (forall q, q <> p -> fs_get q (w_fs w') = fs_get q (w_fs w)) /\
        (content_of (w_fs w) p <> None \/ fs_get p (w_fs w) = None -> content_of (w_fs w') p = Some []) /\
        (content_of (w_fs w) p = None /\ fs_get p (w_fs w) <> None -> fs_get p (w_fs w') = fs_get p (w_fs w))) \/
       (In ttype ["put"; "give"] /\ h_write f = false /\ w_fs w' = w_fs w)))).
Proof.
  intros now ok sardir w fname ttype w' h e. unfold w_fileopen, file_open.
  assert (NONE : forall r : bool, ({| w_fs := w_fs w; w_cwd := w_cwd w; w_gone := w_gone w; w_files := w_files w |}, (@None nat, r)) = (w', (h, e)) ->
    w_gone w' = w_gone w /\ (forall p, fs_get p (w_fs w) <> None -> fs_get p (w_fs w') <> None) /\
    (h = None /\ w_files w' = w_files w /\ forall p, fs_get p (w_fs w) <> None -> fs_get p (w_fs w') = fs_get p (w_fs w))).
  { intros r E. injection E as <- <- <-. cbn. auto. }
  destruct (one_of ttype ["get"; "take"]) eqn:T1.
  { destruct (file_exists _ _ _ _). { cbn [or_fp or_fs or_cwd or_err]. intros E. destruct (NONE _ E) as (A & B & C). auto. }
    unfold os_create. destruct (resolve_follow _ _ _) as [p|er] eqn:RF.
    2:{ cbn [or_fp or_fs or_cwd or_err]. intros E. destruct (NONE _ E) as (A & B & C). auto. }
    assert (TT : In ttype ["get"; "take"]).
    { cbn [one_of existsb] in T1. rewrite !orb_true_iff, !String.eqb_eq in T1. destruct T1 as [->|[->|]]; cbn; auto; discriminate. }
    assert (NEW : ({| w_fs := fs_set p {| n_kind := KFile []; n_size := 0; n_mtime := now; n_ctime := now |} (w_fs w); w_cwd := w_cwd w; w_gone := w_gone w;
              w_files := (w_files w ++ [{| h_at := Named p; h_name := full sardir fname; h_pos := 0; h_write := true; h_open := true |}])%list |},
              (Some (length (w_files w)), false)) = (w', (h, e)) -> (content_of (w_fs w) p <> None \/ fs_get p (w_fs w) = None) -> 
      w_gone w' = w_gone w /\
  (forall p, fs_get p (w_fs w) <> None -> fs_get p (w_fs w') <> None) /\
  ((h = None /\ w_files w' = w_files w /\ forall p, fs_get p (w_fs w) <> None -> fs_get p (w_fs w') = fs_get p (w_fs w)) \/
   (exists f p0, h = Some (length (w_files w)) /\ w_files w' = (w_files w ++ [f])%list /\ h_at f = Named p0 /\ h_open f = true /\
      h_name f = full sardir fname /\ fs_get p0 (w_fs w') <> None /\ @inl path oserr p = inl p0 /\ e = false /\
      ((In ttype ["get"; "take"] /\ h_write f = true /\
        (forall q, q <> p0 -> fs_get q (w_fs w') = fs_get q (w_fs w)) /\
        (content_of (w_fs w) p0 <> None \/ fs_get p0 (w_fs w) = None -> content_of (w_fs w') p0 = Some []) /\
        (content_of (w_fs w) p0 = None /\ fs_get p0 (w_fs w) <> None -> fs_get p0 (w_fs w') = fs_get p0 (w_fs w))) \/
       (In ttype ["put"; "give"] /\ h_write f = false /\ w_fs w' = w_fs w))))).
    { intros E CC. injection E as <- <- <-. cbn [w_fs w_gone w_files]. split; [reflexivity|]. split.
      - intros q NQ. destruct (path_eqb q p) eqn:PE.
        + apply path_eqb_true in PE. subst. rewrite fs_get_set_same. discriminate.
        + apply path_eqb_false in PE. rewrite fs_get_set_other; auto.
      - right. eexists. exists p. repeat (split; [reflexivity|]). split; [rewrite fs_get_set_same; discriminate|].
        split; [reflexivity|]. split; [reflexivity|]. left. split; [exact TT|]. split; [reflexivity|]. split; [intros q NQ; apply fs_get_set_other; auto|].
        split; [intros _; unfold content_of; rewrite fs_get_set_same; reflexivity|]. intros [A B]. destruct CC; contradiction. }
    assert (OLD : forall n, fs_get p (w_fs w) = Some n -> content_of (w_fs w) p = None -> ({| w_fs := w_fs w; w_cwd := w_cwd w; w_gone := w_gone w;
              w_files := (w_files w ++ [{| h_at := Named p; h_name := full sardir fname; h_pos := 0; h_write := true; h_open := true |}])%list |},
              (Some (length (w_files w)), false)) = (w', (h, e)) -> 
      w_gone w' = w_gone w /\
  (forall p, fs_get p (w_fs w) <> None -> fs_get p (w_fs w') <> None) /\
  ((h = None /\ w_files w' = w_files w /\ forall p, fs_get p (w_fs w) <> None -> fs_get p (w_fs w') = fs_get p (w_fs w)) \/
   (exists f p0, h = Some (length (w_files w)) /\ w_files w' = (w_files w ++ [f])%list /\ h_at f = Named p0 /\ h_open f = true /\
      h_name f = full sardir fname /\ fs_get p0 (w_fs w') <> None /\ @inl path oserr p = inl p0 /\ e = false /\
      ((In ttype ["get"; "take"] /\ h_write f = true /\
        (forall q, q <> p0 -> fs_get q (w_fs w') = fs_get q (w_fs w)) /\
        (content_of (w_fs w) p0 <> None \/ fs_get p0 (w_fs w) = None -> content_of (w_fs w') p0 = Some []) /\
        (content_of (w_fs w) p0 = None /\ fs_get p0 (w_fs w) <> None -> fs_get p0 (w_fs w') = fs_get p0 (w_fs w))) \/
       (In ttype ["put"; "give"] /\ h_write f = false /\ w_fs w' = w_fs w))))).
    { intros n G CC E. injection E as <- <- <-. cbn [w_fs w_gone w_files]. split; [reflexivity|]. split; [auto|].
      right. eexists. exists p. repeat (split; [reflexivity|]). split; [congruence|].
      split; [reflexivity|]. split; [reflexivity|]. left. split; [exact TT|]. split; [reflexivity|]. split; [auto|].
      split; [|auto]. intros [A|A]; [contradiction|congruence]. }
    destruct (fs_get p (w_fs w)) as [n|] eqn:G.
    - destruct (n_kind n) eqn:K; cbn [or_fp or_fs or_cwd or_err of_path of_name of_pos of_write]; intros E.
      all: first [ apply (NEW E); left; unfold content_of; rewrite G, K; discriminate
                 | destruct (NONE _ E) as (A & B & C); solve [auto]
                 | apply (OLD n); auto; unfold content_of; rewrite G, K; reflexivity ].
    - cbn [or_fp or_fs or_cwd or_err of_path of_name of_pos of_write]. intros E. apply (NEW E). right. reflexivity. }
  destruct (String.eqb ttype "getdir").
  { destruct (file_exists _ _ _ _). { cbn [or_fp or_fs or_cwd or_err]. intros E. destruct (NONE _ E) as (A & B & C). auto. }
    unfold os_mkdir. destruct (resolve _ _ _) as [p|er] eqn:RF.
    2:{ cbn [or_fp or_fs or_cwd or_err]. intros E. destruct (NONE _ E) as (A & B & C). auto. }
    destruct (fs_get p (w_fs w)) as [n|] eqn:G. { cbn [or_fp or_fs or_cwd or_err]. intros E. destruct (NONE _ E) as (A & B & C). auto. }
    assert (X : forall q m, fs_get q (w_fs w) <> None -> fs_get q (fs_set p m (w_fs w)) = fs_get q (w_fs w)).
    { intros q m NQ. apply fs_get_set_other. intros ->. contradiction. }
    destruct ok; cbn [or_fp or_fs or_cwd or_err]; intros E; injection E as <- <- <-; cbn [w_fs w_gone w_files];
      (split; [reflexivity|]; split; [intros q NQ; rewrite X by auto; auto|left; split; [reflexivity|]; split; [reflexivity|]; intros q NQ; apply X; auto]). }
  destruct (one_of ttype ["put"; "give"]) eqn:T2.
  { destruct (negb (file_exists _ _ _ _)). { cbn [or_fp or_fs or_cwd or_err]. intros E. destruct (NONE _ E) as (A & B & C). auto. }
    unfold os_open. destruct (resolve_follow _ _ _) as [p|er] eqn:RF.
    2:{ cbn [or_fp or_fs or_cwd or_err]. intros E. destruct (NONE _ E) as (A & B & C). auto. }
    destruct (fs_get p (w_fs w)) as [n|] eqn:G.
    2:{ cbn [or_fp or_fs or_cwd or_err]. intros E. destruct (NONE _ E) as (A & B & C). auto. }
    cbn [or_fp or_fs or_cwd or_err of_path of_name of_pos of_write]. intros E. injection E as <- <- <-. cbn [w_fs w_gone w_files].
    split; [reflexivity|]. split; [auto|]. right. eexists. exists p. repeat (split; [reflexivity|]). split; [congruence|].
    split; [reflexivity|]. split; [reflexivity|]. right. split; [|auto].
    cbn [one_of existsb] in T2. rewrite !orb_true_iff, !String.eqb_eq in T2. destruct T2 as [->|[->|]]; cbn; auto; discriminate. }
  destruct (String.eqb ttype "delete"); cbn [or_fp or_fs or_cwd or_err]; intros E; destruct (NONE _ E) as (A & B & C); auto.
Qed.
Lemma contents_at : forall w i f, nth_error (w_files w) i = Some f ->
  contents w i = match h_at f with Named p => content_of (w_fs w) p | Gone k => match nth_error (w_gone w) k with Some n => match n_kind n with KFile c => Some c | _ => None end | None => None end end.
Proof. intros w i f F. unfold contents, content_of. rewrite F. destruct (h_at f); reflexivity. Qed.
Lemma content_get : forall fs fs' p, fs_get p fs' = fs_get p fs -> content_of fs' p = content_of fs p.
Proof. intros fs fs' p H. unfold content_of. rewrite H. reflexivity. Qed.
Lemma content_there : forall fs p c, content_of fs p = Some c -> fs_get p fs <> None.
Proof. intros fs p c. unfold content_of. destruct (fs_get p fs); discriminate. Qed.
Lemma step_open : forall now ok sardir w fname ttype w' h e, sound w -> w_fileopen now ok sardir w fname ttype = (w', (h, e)) ->
  step_ok w w' (HOpen now ok fname ttype) (ROpened h e).
Proof.
  intros now ok sardir w fname ttype w' h e S H.
  destruct (open_cases _ _ _ _ _ _ _ _ _ H) as (GO & TH & [(-> & FI & SA)|(f & p & -> & FI & AT & OP & NM & NN & RF & -> & CASES)]).
  - assert (NO : forall a, node_at w a <> None -> node_at w' a = node_at w a).
    { intros [q|k] NA; cbn [node_at] in *; [apply SA; auto|rewrite GO; reflexivity]. }
    constructor; unfold one_file, is_open, writable, name_of; rewrite ?FI; auto.
    + intros x I. rewrite FI in I. rewrite NO; apply S; exact I.
    + intros i c CO. cbn [told]. unfold contents in *. rewrite FI. destruct (nth_error (w_files w) i) as [g|] eqn:G; [|discriminate].
      rewrite NO; [exact CO|]. apply S. eapply nth_error_In; eauto.
    + intros i _. cbn [closes negb]. rewrite andb_true_r. reflexivity.
    + discriminate.
  - assert (NTH : forall i, (i < length (w_files w))%nat -> nth_error (w_files w') i = nth_error (w_files w) i).
    { intros i L. rewrite FI. apply nth_error_app1. exact L. }
    assert (LAST : nth_error (w_files w') (length (w_files w)) = Some f).
    { rewrite FI, nth_error_app2, Nat.sub_diag by auto. reflexivity. }
    constructor.
    + intros x I. rewrite FI in I. apply in_app_or in I as [I|[<-|[]]].
      * specialize (S x I). destruct (h_at x) as [q|k]; cbn [node_at] in *; [apply TH; exact S|rewrite GO; exact S].
      * rewrite AT. exact NN.
    + rewrite FI, app_length. lia.
    + intros i j Li Lj. unfold one_file. rewrite !NTH by auto. reflexivity.
    + intros i c CO. assert (Li : (i < length (w_files w))%nat).
      { apply nth_error_Some. unfold contents in CO. destruct (nth_error (w_files w) i); discriminate. }
      destruct (nth_lt _ _ _ Li) as (g & G). rewrite (contents_at _ _ _ G) in CO. assert (G' := G). rewrite <- NTH in G' by auto. rewrite (contents_at _ _ _ G').
      cbn [told]. unfold one_file. rewrite G', LAST, AT.
      destruct CASES as [(TT & WR & OT & EM & KP)|(TT & WR & EQ)].
      * replace (String.eqb ttype "get" || String.eqb ttype "take") with true by (destruct TT as [<-|[<-|[]]]; reflexivity). rewrite andb_true_r.
        destruct (place_eqb (h_at g) (Named p)) eqn:PE.
        -- apply place_eqb_true in PE. rewrite PE in *. apply EM. left. congruence.
        -- apply place_eqb_false in PE. destruct (h_at g) as [q|k]; [|rewrite GO; exact CO].
           rewrite (content_get (w_fs w)); [exact CO|]. apply OT. congruence.
      * replace (String.eqb ttype "get" || String.eqb ttype "take") with false by (destruct TT as [<-|[<-|[]]]; reflexivity). rewrite andb_false_r, EQ, GO. exact CO.
    + intros i L. unfold is_open. rewrite NTH by auto. cbn [closes negb]. rewrite andb_true_r. reflexivity.
    + intros i L. unfold writable. rewrite NTH by auto. reflexivity.
    + intros i L. unfold name_of. rewrite NTH by auto. reflexivity.
    + discriminate.
Qed.
Lemma step_all : forall sardir w o w' r, sound w -> uint64_op o -> hstep sardir w o = Ret (w', r) -> step_ok w w' o r.
Proof.
  intros sardir w o w' r S U H. destruct o as [now ok fname ttype|h pos blen|h pos buf|h|fname|h]; cbn [hstep] in H.
  - destruct (w_fileopen now ok sardir w fname ttype) as [w1 [h e]] eqn:E. injection H as <- <-. eapply step_open; eauto.
  - destruct (w_fileread w h pos blen) as [[w1 x]| |] eqn:E; cbn in H; try discriminate. injection H as <- <-. apply step_read; auto.
  - destruct (w_filewrite w h pos buf) as [w1 x] eqn:E. injection H as <- <-. apply step_write; auto.
  - destruct (w_fileclose w h) as [w1 x] eqn:E. injection H as <- <-. destruct (close_kept _ _ _ _ E) as (K & O & U' & _).
    apply kept_step; auto.
  - destruct (w_filerm sardir w fname) as [w1 x] eqn:E. injection H as <- <-. destruct (rm_kept _ _ _ _ _ E) as (K & O).
    apply kept_step; auto; [|discriminate]. intros i. rewrite O. cbn [closes negb]. rewrite andb_true_r. reflexivity.
  - destruct (w_filedelete sardir w h) as [w1 x] eqn:E. injection H as <- <-. destruct (delete_kept _ _ _ _ _ E) as (K & O).
    apply kept_step; auto. discriminate.
Qed.
Lemma hrun_cons : forall sardir w o l w2 rs, hrun sardir w (o :: l) = Ret (w2, rs) ->
  exists w1 x xs, hstep sardir w o = Ret (w1, x) /\ hrun sardir w1 l = Ret (w2, xs) /\ rs = x :: xs.
Proof.
  intros sardir w o l w2 rs H. cbn [hrun] in H. destruct (hstep sardir w o) as [[w1 x]| |]; cbn in H; try discriminate.
  destruct (hrun sardir w1 l) as [[w3 xs]| |] eqn:R; cbn in H; try discriminate. injection H as <- <-. eauto 6.
Qed.
(** A whole history *)
Lemma run_all : forall sardir l w w' rs, sound w -> Forall uint64_op l -> hrun sardir w l = Ret (w', rs) ->
  sound w' /\ (length (w_files w) <= length (w_files w'))%nat /\
  (forall i j, (i < length (w_files w))%nat -> (j < length (w_files w))%nat -> one_file w' i j = one_file w i j) /\
  (forall i, (i < length (w_files w))%nat -> is_open w' i = is_open w i && negb (existsb (closes i) l)) /\
  (forall i, (i < length (w_files w))%nat -> writable w' i = writable w i) /\
  (forall i, (i < length (w_files w))%nat -> name_of w' i = name_of w i) /\
  (forall i c, contents w i = Some c -> contents w' i = Some (fold_left (told (one_file w' i)) (combine l rs) c)).
Proof.
  intros sardir. induction l as [|o l IH]; intros w w' rs S U H.
  - injection H as <- <-. split; [exact S|]. split; [lia|]. split; [auto|]. split; [intros i _; cbn; rewrite andb_true_r; reflexivity|]. auto.
  - apply hrun_cons in H as (w1 & x & xs & ST & RU & ->). inversion U as [|? ? U1 U2]; subst.
    destruct (step_all _ _ _ _ _ S U1 ST) as [S1 L1 O1 C1 P1 W1 N1 _].
    destruct (IH w1 w' xs S1 U2 RU) as (S2 & L2 & O2 & P2 & W2 & N2 & C2).
    split; [exact S2|]. split; [lia|]. split; [|split; [|split; [|split]]].
    + intros i j Li Lj. rewrite O2 by lia. apply O1; auto.
    + intros i Li. rewrite P2 by lia. rewrite P1 by auto. cbn [existsb]. rewrite negb_orb, andb_assoc. reflexivity.
    + intros i Li. rewrite W2 by lia. apply W1; auto.
    + intros i Li. rewrite N2 by lia. apply N1; auto.
    + intros i c CO. assert (Li : (i < length (w_files w))%nat).
      { apply nth_error_Some. unfold contents in CO. destruct (nth_error (w_files w) i); discriminate. }
      pose proof (C1 i c CO) as CO1. apply C2 in CO1. rewrite CO1. cbn [combine fold_left]. f_equal. f_equal.
      destruct o as [now ok fname ttype|h pos blen|h pos buf|h|fname|h]; cbn [told]; try reflexivity.
      * destruct x as [[j|] e| | |]; try reflexivity. rewrite O2; [reflexivity|lia|].
        cbn [hstep] in ST. destruct (w_fileopen now ok sardir w fname ttype) as [ww [h e']] eqn:E. injection ST as -> -> ->.
        destruct (open_cases _ _ _ _ _ _ _ _ _ E) as (_ & _ & [(X & _)|(f & p & X & FI & _)]); [discriminate|]. injection X as ->. rewrite FI, app_length. cbn. lia.
      * destruct h as [j|]; [|reflexivity]. destruct x as [| |[n|]|]; try reflexivity.
        destruct (Nat.ltb_spec j (length (w_files w))) as [Lj|Lj]; [rewrite O2 by lia; reflexivity|].
        exfalso. cbn [hstep] in ST. unfold w_filewrite, w_fileseek, file_of in ST. rewrite (proj2 (nth_error_None _ _)) in ST by auto. congruence.
Qed.
Lemma came_sound : forall sardir w, came_about sardir w -> sound w.
Proof.
  intros sardir w (fs & cwd & l & rs & U & H). refine (proj1 (run_all sardir l (no_files fs cwd) w rs _ U H)). intros f [].
Qed.
Lemma hrun_app : forall sardir l1 l2 w, hrun sardir w (l1 ++ l2) =
  do ' (w1, r1) <- hrun sardir w l1; do ' (w2, r2) <- hrun sardir w1 l2; Ret (w2, (r1 ++ r2)%list).
Proof.
  intros sardir. induction l1 as [|o l1 IH]; intros l2 w.
  - cbn [hrun app]. cbn [obind]. destruct (hrun sardir w l2) as [[w2 r2]| |]; reflexivity.
  - cbn [app hrun]. destruct (hstep sardir w o) as [[w1 x]| |]; cbn [obind]; try reflexivity. rewrite IH.
    destruct (hrun sardir w1 l1) as [[w2 r2]| |]; cbn [obind]; try reflexivity.
    destruct (hrun sardir w2 l2) as [[w3 r3]| |]; reflexivity.
Qed.
Lemma came_run : forall sardir w l w' rs, came_about sardir w -> Forall uint64_op l -> hrun sardir w l = Ret (w', rs) -> came_about sardir w'.
Proof.
  intros sardir w l w' rs (fs & cwd & l0 & rs0 & U & H) U' R. exists fs, cwd, (l0 ++ l)%list, (rs0 ++ rs)%list. split; [apply Forall_app; auto|].
  rewrite hrun_app, H. cbn [obind]. rewrite R. reflexivity.
Qed.
Definition at_of (w : world) (i : nat) : option place := option_map h_at (nth_error (w_files w) i).
Lemma quiet_at : forall w w', quiet w w' -> forall i, at_of w' i = at_of w i.
Proof. intros w w' Q i. unfold at_of. quiet_cases Q i; cbn; congruence. Qed.
Lemma write_at_of : forall w h pos buf w' r, w_filewrite w h pos buf = (w', r) -> forall i, at_of w' i = at_of w i.
Proof.
  intros w h pos buf w' r H i. unfold w_filewrite in H. destruct (w_fileseek w h pos) as [g|] eqn:S; [|injection H as <- <-; reflexivity].
  apply seek_some in S as (f & F & O & P & ->).
  assert (Q1 : quiet w (update w h (h_moved f (i64_of_N pos)))) by (eapply quiet_update; [eassumption|reflexivity]).
  pose proof (quiet_at _ _ Q1 i) as A1. cbn [h_write h_moved h_at h_pos] in H.
  destruct (h_write f); [|injection H as <- <-; exact A1].
  destruct (node_at _ _) as [n|]; [|injection H as <- <-; exact A1].
  destruct (n_kind n); try (injection H as <- <-; exact A1).
  cbv zeta in H. apply pair_equal_spec in H as [<- _]. rewrite <- A1.
  set (w1 := update w h (h_moved f (i64_of_N pos))).
  transitivity (at_of (put_at w1 (h_at f) {| n_kind := KFile (write_content content (Z.to_nat (i64_of_N pos)) buf); n_size := n_size n; n_mtime := n_mtime n; n_ctime := n_ctime n |}) i).
  - apply quiet_at. apply (quiet_update _ h (h_moved f (i64_of_N pos))); [|reflexivity].
    unfold file_of. destruct h as [k|]; [|discriminate F]. rewrite put_files. apply (file_update w (Some k) f). exact F.
  - unfold at_of. rewrite put_files. reflexivity.
Qed.
Lemma step_gone : forall sardir w o w' r i k, hstep sardir w o = Ret (w', r) -> at_of w i = Some (Gone k) -> at_of w' i = Some (Gone k).
Proof.
  assert (CL : forall w h w' b i, w_fileclose w h = (w', b) -> at_of w' i = at_of w i).
  { intros w h w' b i. unfold w_fileclose. destruct (file_of w h) as [f|] eqn:F; [|intros E; injection E as <- <-; reflexivity].
    destruct (h_open f); [|intros E; injection E as <- <-; reflexivity]. intros E. injection E as <- <-. destruct h as [j|]; [|reflexivity].
    unfold at_of. cbn [update w_files with_files file_of] in *. destruct (Nat.eq_dec j i) as [->|NE].
    - rewrite set_at_same by (apply nth_error_Some; congruence). rewrite F. reflexivity.
    - rewrite set_at_other by auto. reflexivity. }
  assert (RM : forall sardir w fname w' b i k, w_filerm sardir w fname = (w', b) -> at_of w i = Some (Gone k) -> at_of w' i = Some (Gone k)).
  { intros sardir w fname w' b i k H A. destruct (rm_cases _ _ _ _ _ H) as [(_ & -> & _)|(_ & p & n & _ & _ & _ & ->)]; [exact A|].
    unfold at_of in *. cbn [w_files]. rewrite nth_error_map. destruct (nth_error (w_files w) i) as [f|]; [|discriminate]. cbn in *. injection A as A.
    unfold h_unnamed. rewrite A. cbn [place_eqb]. congruence. }
  intros sardir w o w' r i k H A. destruct o as [now ok fname ttype|h pos blen|h pos buf|h|fname|h]; cbn [hstep] in H.
  - destruct (w_fileopen now ok sardir w fname ttype) as [w1 [h e]] eqn:E. injection H as <- <-.
    destruct (open_cases _ _ _ _ _ _ _ _ _ E) as (_ & _ & [(_ & FI & _)|(f & p & _ & FI & _)]); unfold at_of in *; rewrite FI; [exact A|].
    rewrite nth_error_app1; [exact A|]. apply nth_error_Some. destruct (nth_error (w_files w) i); discriminate.
  - destruct (w_fileread w h pos blen) as [[w1 x]| |] eqn:E; cbn in H; try discriminate. injection H as <- <-.
    rewrite (quiet_at _ _ (read_quiet _ _ _ _ _ _ E)). exact A.
  - destruct (w_filewrite w h pos buf) as [w1 x] eqn:E. injection H as <- <-. rewrite (write_at_of _ _ _ _ _ _ E). exact A.
  - destruct (w_fileclose w h) as [w1 x] eqn:E. injection H as <- <-. rewrite (CL _ _ _ _ i E). exact A.
  - destruct (w_filerm sardir w fname) as [w1 x] eqn:E. injection H as <- <-. eapply RM; eauto.
  - destruct (w_filedelete sardir w h) as [w1 x] eqn:E. injection H as <- <-. unfold w_filedelete in E.
    destruct (file_of w h); [|injection E as <- <-; exact A]. eapply RM; [exact E|].
    destruct (w_fileclose w h) as [w2 b2] eqn:C. cbn [fst]. rewrite (CL _ _ _ _ i C). exact A.
Qed.
Lemma nameless_at : forall w i, nameless w i <-> exists k, at_of w i = Some (Gone k).
Proof.
  intros w i. unfold nameless, named, at_of, handed_out. split.
  - intros [L N]. destruct (nth_lt _ _ _ L) as (f & F). rewrite F. cbn. destruct (h_at f) as [p|k] eqn:A; [|eauto].
    destruct (N p). eauto.
  - intros (k & A). destruct (nth_error (w_files w) i) as [f|] eqn:F; [|discriminate]. cbn in A. injection A as A. split.
    + apply nth_error_Some. congruence.
    + intros p (g & G & B). congruence.
Qed.
