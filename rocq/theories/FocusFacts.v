(** * Facts about the window that has the keyboard *)

From Coq Require Import List String Ascii Bool Arith Lia.
From Verif Require Import GoBase Sarnet Table Flags Config Shipped Screen Words Cli SpecWords WordsFacts CliFacts Focus SpecFocus.
Import ListNotations.
Local Open Scope string_scope.

Lemma vname_eqb_eq : forall v w, vname_eqb v w = true <-> v = w.
Proof. destruct v, w; cbn; split; congruence. Qed.

(** ** The windows asked for *)

Lemma window_of_called : forall s, match window_of s with Some w => called s (vname_of w) | None => forall v, ~ called s v end.
Proof.
  intros s. unfold window_of.
  destruct (String.eqb_spec s "msg") as [->|N1]; [constructor|].
  destruct (String.eqb_spec s "err") as [->|N2]; [constructor|].
  destruct (String.eqb_spec s "packet") as [->|N3]; [constructor|].
  intros v C. destruct C; congruence.
Qed.
Lemma called_one : forall s v w, called s v -> called s w -> v = w.
Proof. intros s v w A B. inversion A; subst; inversion B; subst; congruence. Qed.
Definition clears_in (l : list shown) : list vname := flat_map (fun x => match x with Cleared w => [vname_of w] | _ => [] end) l.
Lemma loop_named : forall args, exists good bad vs, args = (good ++ bad)%list /\ Forall2 called good vs /\
  match bad with [] => True | w :: _ => forall v, ~ called w v end /\ clears_in (clear_loop args) = vs.
Proof.
  induction args as [|a args IH].
  - exists [], [], []. repeat split. constructor.
  - destruct IH as (good & bad & vs & E & F & B & C). pose proof (window_of_called a) as W. cbn [clear_loop].
    destruct (window_of a) as [w|].
    + exists (a :: good), bad, (vname_of w :: vs). subst args. repeat split; auto. cbn. f_equal. exact C.
    + exists [], (a :: args), []. repeat split; auto.
Qed.
Lemma named_is : forall args, named args (clear_names ("clear" :: args)).
Proof.
  intros args. destruct args as [|a [|b r]].
  - constructor.
  - unfold clear_names, cmd_clear. destruct (String.eqb_spec a "?") as [->|N].
    + apply (named_some [] ["?"]); [discriminate|constructor|]. intros v C. inversion C.
    + pose proof (window_of_called a) as W. destruct (window_of a) as [w|].
      * apply (named_some [a] []); [discriminate| |exact I]. repeat constructor. exact W.
      * apply (named_some [] [a]); [discriminate|constructor|exact W].
  - destruct (loop_named (a :: b :: r)) as (good & bad & vs & E & F & B & C).
    unfold clear_names, cmd_clear. cbn [tl]. fold (clears_in (clear_loop (a :: b :: r))). rewrite C, E. apply named_some; auto. rewrite <- E. discriminate.
Qed.
Lemma named_fun : forall args vs ws, named args vs -> named args ws -> vs = ws.
Proof.
  assert (P : forall good vs good' ws bad bad', (good ++ bad)%list = (good' ++ bad')%list -> Forall2 called good vs -> Forall2 called good' ws ->
     match bad with [] => True | w :: _ => forall v, ~ called w v end -> match bad' with [] => True | w :: _ => forall v, ~ called w v end -> vs = ws).
  { intros good vs good' ws bad bad' E F. revert good' ws E. induction F as [|g v good vs C F IH]; intros good' ws E F' B B'.
    - destruct F' as [|g' v' good' ws C' F']; [reflexivity|]. cbn in E. subst bad. exfalso. exact (B _ C').
    - destruct F' as [|g' v' good' ws C' F'].
      + cbn in E. subst bad'. exfalso. exact (B' _ C).
      + cbn in E. injection E as -> E. f_equal; [eapply called_one; eauto|eapply IH; eauto]. }
  intros args vs ws A B. destruct A as [|good bad vs N F Bd].
  - inversion B as [|good bad ws' N' F' B' E]; [reflexivity|exfalso; auto].
  - inversion B as [E|good' bad' ws' N' F' B' E]; [exfalso; apply N; congruence|]. subst. eapply P; [symmetry; exact E|..]; eauto.
Qed.

Lemma run_clear : forall line args, words_of line ("clear" :: args) -> run_line line = Ret (Some ("clear" :: args), [], true).
Proof.
  intros line args H. apply fields_words in H. unfold run_line. destruct (String.eqb_spec line ""); [subst; discriminate|].
  rewrite fields_trim, H. reflexivity.
Qed.
Lemma run_clear_inv : forall line args l b, run_line line = Ret (Some args, l, b) -> words_of line args.
Proof.
  intros line args l b R. apply fields_words. unfold run_line in R. destruct (String.eqb line ""); [discriminate|]. rewrite fields_trim in R.
  destruct (fields line) as [|v r]; [discriminate|]. destruct (has_key v sar_commands); [|discriminate]. destruct (one_of v handler_names); congruence.
Qed.
Lemma wants_names : forall line vs, wants line vs -> exists args, run_line line = Ret (Some ("clear" :: args), [], true) /\ clear_names ("clear" :: args) = vs.
Proof.
  intros line vs (args & W & N). exists args. split; [now apply run_clear|]. eapply named_fun; eauto. apply named_is.
Qed.
Lemma wants_nonempty : forall line vs, wants line vs -> line <> "".
Proof. intros line vs (args & W & N) ->. apply fields_words in W. discriminate. Qed.
Lemma words_wants : forall line args, words_of line ("clear" :: args) -> wants line (clear_names ("clear" :: args)).
Proof. intros line args W. exists args. split; [exact W|apply named_is]. Qed.

(** ** Steps *)

Lemma put_nth : forall i k ks, i < List.length ks -> nth_error (put_clearer i k ks) i = Some k.
Proof. induction i; destruct ks; cbn; intros; try lia; auto. apply IHi. lia. Qed.
Lemma put_other : forall i j k ks, i <> j -> nth_error (put_clearer i k ks) j = nth_error ks j.
Proof. induction i; destruct ks, j; cbn; intros; try lia; auto. Qed.
Lemma put_length : forall i k ks, List.length (put_clearer i k ks) = List.length ks.
Proof. induction i; destruct ks; cbn; auto. Qed.
Lemma put_put : forall i k k' ks, put_clearer i k (put_clearer i k' ks) = put_clearer i k ks.
Proof. induction i; destruct ks; cbn; auto. intros. f_equal. apply IHi. Qed.
Lemma put_In : forall i k x ks, In x (put_clearer i k ks) -> x = k \/ In x ks.
Proof. induction i; destruct ks; cbn; intros H; auto; destruct H; auto. apply IHi in H. tauto. Qed.
Lemma put_self : forall i k ks, nth_error ks i = Some k -> put_clearer i k ks = ks.
Proof. induction i; destruct ks; cbn; intros; try congruence. f_equal. auto. Qed.

Lemma clearer_step_some : forall d i o r n, nth_error (d_clears d) i = Some {| k_left := o :: r; k_name := n |} ->
  clearer_step d i = d_set_clears (fst (clear_op_step d n o)) (put_clearer i {| k_left := r; k_name := snd (clear_op_step d n o) |} (d_clears d)).
Proof. intros d i o r n H. unfold clearer_step. rewrite H. destruct o; reflexivity. Qed.
Lemma drun_app : forall a b d, drun d (a ++ b) = drun (drun d a) b.
Proof. intros. apply fold_left_app. Qed.

(** A goroutine runs alone for a while *)
Fixpoint run_ops (d : desk) (n : vname) (os : list clear_op) : desk * vname :=
  match os with
  | [] => (d, n)
  | o :: r => let (d', n') := clear_op_step d n o in run_ops d' n' r
  end.
Definition same_rest (d d' : desk) : Prop :=
  d_line d' = d_line d /\ d_packets d' = d_packets d /\ d_ran d' = d_ran d.
Lemma op_step_set : forall d n o ks, clear_op_step (d_set_clears d ks) n o = (d_set_clears (fst (clear_op_step d n o)) ks, snd (clear_op_step d n o)).
Proof. intros. destruct o; reflexivity. Qed.
Lemma run_ops_set : forall os d n ks, run_ops (d_set_clears d ks) n os = (d_set_clears (fst (run_ops d n os)) ks, snd (run_ops d n os)).
Proof.
  induction os as [|o os IH]; intros; [reflexivity|]. cbn [run_ops]. rewrite op_step_set. cbv beta iota.
  destruct (clear_op_step d n o) as [d' n']. cbn [fst snd]. apply IH.
Qed.
Lemma op_step_clears : forall d n o, d_clears (fst (clear_op_step d n o)) = d_clears d.
Proof. destruct o; reflexivity. Qed.
Lemma run_ops_clears : forall os d n, d_clears (fst (run_ops d n os)) = d_clears d.
Proof.
  induction os as [|o os IH]; intros; [reflexivity|]. cbn [run_ops]. pose proof (op_step_clears d n o) as E.
  destruct (clear_op_step d n o) as [d' n']. rewrite IH. exact E.
Qed.
Lemma run_ops_app : forall a b d n, run_ops d n (a ++ b) = run_ops (fst (run_ops d n a)) (snd (run_ops d n a)) b.
Proof. induction a as [|o a IH]; intros; [reflexivity|]. cbn [run_ops app]. destruct (clear_op_step d n o). apply IH. Qed.
Lemma steps_ops : forall os r i d n, nth_error (d_clears d) i = Some {| k_left := os ++ r; k_name := n |} ->
  drun d (map DStep (repeat i (List.length os))) =
  d_set_clears (fst (run_ops d n os)) (put_clearer i {| k_left := r; k_name := snd (run_ops d n os) |} (d_clears d)).
Proof.
  induction os as [|o os IH]; intros r i d n H; cbn [List.length repeat map drun fold_left run_ops fst snd].
  - cbn [app] in H. rewrite put_self by exact H. destruct d; reflexivity.
  - cbn [dstep app] in *. change (fold_left dstep ?x ?y) with (drun y x). rewrite (clearer_step_some _ _ _ _ _ H).
    destruct (clear_op_step d n o) as [d' n'] eqn:E. cbn [fst snd].
    assert (L : i < List.length (d_clears d)) by (apply nth_error_Some; congruence).
    rewrite (IH r i _ n') by (cbn; now apply put_nth).
    rewrite run_ops_set. cbn [fst snd d_clears d_set_clears]. unfold d_set_clears at 1. cbn.
    rewrite put_put. reflexivity.
Qed.
(** Clearing windows leaves the focus where it was *)
Lemma whole_focus : forall vs d n, d_focus (fst (run_ops d n (flat_map clearwin_ops vs))) = d_focus d.
Proof.
  induction vs as [|v vs IH]; intros; [reflexivity|]. cbn [flat_map]. rewrite run_ops_app, IH. reflexivity.
Qed.
