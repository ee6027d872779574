(** * The command line: which words are understood *)

From Verif Require Import GoBase GoFacts Flags SpecFlags FlagsFacts SarFacts Config Shipped Data SpecFrames Beacon Sarnet Transfer Words SpecWords WordsFacts Cli SpecCli CliFacts.
Local Open Scope string_scope.
Local Open Scope N_scope.

Definition is_some {A} (o : option A) : bool := match o with Some _ => true | None => false end.
Definition fine (ws : list string) : bool :=
  match ws with
  | [_] => true
  | [cmd; a] =>
      String.eqb a "?" ||
      (if String.eqb cmd "bcount" then is_some (positive a)
       else if String.eqb cmd "interval" then String.eqb a "off" || is_some (positive a)
       else if String.eqb cmd "timeout" then one_of a timer_names
       else (String.eqb cmd "descriptor" && String.eqb a "d128") || is_some (find_choice cmd a choices))
  | [cmd; a; v] => String.eqb cmd "timeout" && (String.eqb v "off" || one_of a timer_names && is_some (positive v))
  | _ => false
  end.
Lemma fine_understood : forall ws, fine ws = true <-> understood ws.
Proof.
  intros ws. split.
  - destruct ws as [|cmd [|a [|v [|]]]]; cbn [fine]; try discriminate.
    + intros _. apply un_look.
    + destruct (String.eqb_spec a "?"); [subst; intros _; apply un_help|]. cbn [orb].
      destruct (String.eqb_spec cmd "bcount").
      { destruct (positive a) eqn:P; [|discriminate]. intros _. subst. apply positive_counts in P. apply (un_orders sar_cli _ Count (KNum z)). now apply or_count. }
      destruct (String.eqb_spec cmd "interval").
      { destruct (String.eqb_spec a "off"); [subst; intros _; apply (un_orders sar_cli _ Interval (KNum 0)); apply or_interval_off|].
        destruct (positive a) eqn:P; [|discriminate]. intros _. subst. apply positive_counts in P. apply (un_orders sar_cli _ Interval (KNum z)). now apply or_interval. }
      destruct (String.eqb_spec cmd "timeout"); [subst; intros O; apply one_of_In in O; now apply un_timer|].
      destruct (find_choice cmd a choices) as [l|] eqn:F.
      * intros _. apply find_choice_sound in F.
        assert (X : exists k v l', l = (k, v) :: l').
        { unfold choices in F. repeat (destruct F as [E|F]; [inversion E; do 3 eexists; reflexivity|]). destruct F. }
        destruct X as (k & v & l' & ->). apply (un_orders sar_cli _ k (KText v)). eapply or_choice; [exact F|left; reflexivity].
      * cbn [is_some]. rewrite orb_false_r. intros H. apply andb_true_iff in H. destruct H as (A & B). apply String.eqb_eq in A. apply String.eqb_eq in B.
        subst. apply un_d128.
    + intros H. apply andb_true_iff in H. destruct H as (A & B). apply String.eqb_eq in A. subst cmd. apply orb_true_iff in B. destruct B as [B|B].
      * apply String.eqb_eq in B. subst. apply un_off.
      * apply andb_true_iff in B. destruct B as (O & P). apply one_of_In in O. destruct (positive v) as [n|] eqn:Q; [|discriminate]. apply positive_counts in Q.
        destruct (String.eqb_spec a "datacounter") as [->|N]; [destruct (Z.eqb_spec n 0) as [->|N]|].
        -- apply (un_orders sar_cli _ (Timer "datacounter") (KNum 100)). now apply or_counter_zero.
        -- apply (un_orders sar_cli _ (Timer "datacounter") (KNum n)). apply or_timer; auto.
        -- apply (un_orders sar_cli _ (Timer a) (KNum n)). apply or_timer; auto; congruence.
  - intros H. destruct H as [cmd|cmd|name I|c ws k v H| |x].
    + reflexivity.
    + cbn [fine]. change (String.eqb "?" "?") with true. reflexivity.
    + cbn [fine]. apply one_of_In in I. rewrite I. change (String.eqb "timeout" "bcount") with false. change (String.eqb "timeout" "interval") with false.
      change (String.eqb "timeout" "timeout") with true. cbv iota. apply orb_true_r.
    + destruct H.
      * cbn [fine]. rewrite (find_choice_complete _ _ _ H). cbn [is_some]. rewrite !orb_true_r.
        unfold choices in H. repeat (destruct H as [E|H]; [inversion E; reflexivity|]). destruct H.
      * cbn [fine]. apply positive_counts in H. rewrite H. change (String.eqb "bcount" "bcount") with true. apply orb_true_r.
      * cbn [fine]. apply positive_counts in H. rewrite H. change (String.eqb "interval" "bcount") with false.
        change (String.eqb "interval" "interval") with true. cbv iota. cbn [is_some]. rewrite !orb_true_r. reflexivity.
      * reflexivity.
      * cbn [fine]. apply positive_counts in H0. apply one_of_In in H. rewrite H, H0. apply orb_true_r.
      * reflexivity.
      * reflexivity.
      * cbn [fine]. apply positive_counts in H. rewrite H. apply orb_true_r.
      * reflexivity.
      * reflexivity.
    + reflexivity.
    + cbn [fine]. reflexivity.
Qed.
Lemma no_find : forall cmd a, (forall l, ~ In (cmd, a, l) choices) -> find_choice cmd a choices = None.
Proof. intros cmd a N. destruct (find_choice cmd a choices) as [l|] eqn:F; [|reflexivity]. apply find_choice_sound in F. now apply N in F. Qed.

Ltac skip := match goal with |- context [String.eqb ?a ?b] => destruct (String.eqb_spec a b); [subst a; reflexivity|] end.
Ltac nothing_found cmd := unfold fine; match goal with a : string |- _ => rewrite (no_find cmd a) by
  (intros l I; unfold choices in I; repeat (destruct I as [E|I]; [congruence|]); destruct I) end;
  repeat match goal with H : ?a <> ?b |- context [String.eqb ?a ?b] => rewrite (proj2 (String.eqb_neq a b) H) end; reflexivity.
Lemma setting_errors : forall name f c rest, lookup name setting_commands = Some f ->
  existsb is_error (snd (f c (name :: rest))) = negb (fine (name :: rest)).
Proof.
  intros name f c rest L. unfold setting_commands in L. cbn [lookup] in L.
  repeat (match type of L with context [String.eqb name ?b] => destruct (String.eqb_spec name b) as [->|_] end;
    [inversion L; clear L; subst f|]); [..|discriminate].
  - destruct rest as [|a [|? [|]]]; [reflexivity| |reflexivity..]. unfold cmd_bcount. skip. cbn [fine]. rewrite (proj2 (String.eqb_neq a "?") n).
    change (String.eqb "bcount" "bcount") with true. unfold positive. destruct (atoi a); [|reflexivity]. destruct (0 <=? z)%Z; reflexivity.
  - destruct rest as [|a [|? [|]]]; [reflexivity| |reflexivity..]. unfold cmd_checksum, one_of; cbn [existsb]. rewrite orb_false_r. skip.
    destruct (String.eqb_spec a "off"); [subst; reflexivity|]. destruct (String.eqb_spec a "none"); [subst; reflexivity|]. cbn [orb].
    do 3 skip. nothing_found "checksum".
  - destruct rest as [|a [|? [|]]]; [reflexivity| |reflexivity..]. unfold cmd_descriptor. do 6 skip. nothing_found "descriptor".
  - destruct rest as [|a [|? [|]]]; [reflexivity| |reflexivity..]. unfold cmd_freespace. do 3 skip. nothing_found "freespace".
  - destruct rest as [|a [|? [|]]]; [reflexivity| |reflexivity..]. unfold cmd_interval. do 2 skip. cbn [fine].
    rewrite (proj2 (String.eqb_neq a "?") n), (proj2 (String.eqb_neq a "off") n0).
    change (String.eqb "interval" "bcount") with false. change (String.eqb "interval" "interval") with true. unfold positive.
    destruct (atoi a); [|reflexivity]. destruct (0 <=? z)%Z; reflexivity.
  - destruct rest as [|a [|? [|]]]; [reflexivity| |reflexivity..]. unfold cmd_reqtstamp. do 3 skip. nothing_found "reqtstamp".
  - destruct rest as [|a [|? [|]]]; [reflexivity| |reflexivity..]. unfold cmd_rxwilling. do 4 skip. nothing_found "rxwilling".
  - destruct rest as [|a [|? [|]]]; [reflexivity| |reflexivity..]. unfold cmd_stream. do 3 skip. nothing_found "stream".
  - destruct rest as [|a [|v [|]]]; [| | |reflexivity].
    + cbn [cmd_timeout snd fine]. destruct (to_datacounter (cl_timeout c) =? 0)%Z; reflexivity.
    + unfold cmd_timeout. do 4 skip.
      destruct (String.eqb_spec a "datacounter"); [subst; destruct (to_datacounter (cl_timeout c) =? 0)%Z; reflexivity|].
      skip. cbn [fine]. change (String.eqb "timeout" "bcount") with false. change (String.eqb "timeout" "interval") with false.
      change (String.eqb "timeout" "timeout") with true. unfold one_of, timer_names; cbn [existsb].
      repeat match goal with H : ?a <> ?b |- context [String.eqb ?a ?b] => rewrite (proj2 (String.eqb_neq a b) H) end. reflexivity.
    + unfold cmd_timeout. cbn [fine]. change (String.eqb "timeout" "timeout") with true. unfold one_of, timer_names; cbn [existsb andb].
      unfold positive. destruct (String.eqb_spec v "off") as [->|NV].
      * change (atoi "off") with (@None Z). cbn [orb negb]. do 5 skip. reflexivity.
      * set (m := match atoi v with Some n => if (0 <=? n)%Z then Some n else None | None => None end). clearbody m. destruct m as [q|].
        -- do 3 skip. destruct (String.eqb_spec a "datacounter"); [subst; destruct (q =? 0)%Z; reflexivity|].
           skip. repeat match goal with H : ?a <> ?b |- context [String.eqb ?a ?b] => rewrite (proj2 (String.eqb_neq a b) H) end. reflexivity.
        -- cbn [is_some]. rewrite andb_false_r. reflexivity.
  - destruct rest as [|a [|? [|]]]; [reflexivity| |reflexivity..]. unfold cmd_timestamp. do 8 skip. nothing_found "timestamp".
  - destruct rest as [|a [|? [|]]]; [reflexivity| |reflexivity..]. unfold cmd_timezone. do 3 skip. nothing_found "timezone".
  - destruct rest as [|a [|? [|]]]; [reflexivity| |reflexivity..]. unfold cmd_txwilling. do 4 skip. nothing_found "txwilling".
Qed.
