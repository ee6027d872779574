(** * The keyboard and the commands that clear windows *)

From Coq Require Import List String Ascii Bool Arith Lia.
From Verif Require Import GoBase Sarnet Table Flags Config Shipped Screen Words Cli SpecWords FlagStrFacts WordsFacts CliFacts Focus SpecFocus FocusFacts.
Import ListNotations.
Local Open Scope string_scope.

Lemma keys_line : forall l d, d_focus d = VCmd -> drun d (map DKey (bytes_of l)) = d_set_line d (d_line d ++ l).
Proof.
  induction l as [|c l IH]; intros d F.
  - cbn. rewrite str_app_nil. destruct d; reflexivity.
  - cbn [bytes_of list_ascii_of_string map drun fold_left dstep]. rewrite F. change (fold_left dstep ?x ?y) with (drun y x).
    change (list_ascii_of_string l) with (bytes_of l). rewrite IH by exact F. cbn. rewrite <- str_app_assoc. reflexivity.
Qed.
Lemma typed_line : forall line d, d_focus d = VCmd -> d_line d = "" -> line <> "" ->
  drun d (type line) = enter_key (d_set_line d line).
Proof. intros line d F L N. unfold type. rewrite drun_app, keys_line, L by exact F. reflexivity. Qed.
Lemma typed_wants : forall line vs d, d_focus d = VCmd -> d_line d = "" -> wants line vs ->
  drun d (type line) = d_set_clears (d_set_ran d (d_ran d ++ [line])%list) (d_clears d ++ [{| k_left := flat_map clearwin_ops vs; k_name := VCmd |}])%list.
Proof.
  intros line vs d F L W. rewrite typed_line by (auto; eapply wants_nonempty; eauto). unfold enter_key. cbn [d_focus d_set_line d_line]. rewrite F.
  destruct (String.eqb_spec line "") as [E|_]; [exfalso; eapply wants_nonempty; eauto|].
  destruct (wants_names _ _ W) as (args & R & <-). rewrite R. cbn [String.eqb Ascii.eqb Bool.eqb].
  unfold d_set_clears, d_set_line, d_set_ran. cbn. rewrite L. reflexivity.
Qed.
Lemma enter_cases : forall d, enter_key d = d \/
  (d_focus d = VCmd /\ d_line d <> "" /\
   ((exists vs, wants (d_line d) vs /\
     enter_key d = d_set_clears (d_set_line (d_set_ran d (d_ran d ++ [d_line d])%list) "") (d_clears d ++ [{| k_left := flat_map clearwin_ops vs; k_name := VCmd |}])%list) \/
    ((forall vs, ~ wants (d_line d) vs) /\ enter_key d = d_set_line (d_set_ran d (d_ran d ++ [d_line d])%list) ""))).
Proof.
  intros d. unfold enter_key. destruct (d_focus d) eqn:F; auto. destruct (String.eqb_spec (d_line d) "") as [E|E]; [auto|]. right. split; [reflexivity|]. split; [exact E|].
  destruct (match run_line (d_line d) with Ret (Some args, _, _) => args | _ => [] end) as [|name args] eqn:R.
  - right. split; [|reflexivity]. intros vs W. destruct (wants_names _ _ W) as (args & R' & _). rewrite R' in R. discriminate.
  - assert (WD : words_of (d_line d) (name :: args)).
    { destruct (run_line (d_line d)) as [[[[a|] l] b]| |] eqn:Q; try discriminate. subst a. eapply run_clear_inv; eauto. }
    destruct (String.eqb_spec name "clear") as [->|N].
    + left. exists (clear_names ("clear" :: args)). split; [now apply words_wants|]. reflexivity.
    + right. split; [|reflexivity]. intros vs (args' & W & _). apply fields_words in W. apply fields_words in WD. congruence.
Qed.

(** C142: whatever commands are at work, they can all finish *)
Lemma c142_ends : forall d, exists is, idle (drun d (map DStep is)).
Proof.
  assert (P : forall n d, n <= List.length (d_clears d) -> exists is, List.length (d_clears (drun d (map DStep is))) = List.length (d_clears d) /\
     forall i k, i < n -> nth_error (d_clears (drun d (map DStep is))) i = Some k -> k_left k = []).
  { induction n as [|n IH]; intros d L.
    - exists []. split; [reflexivity|]. intros; lia.
    - destruct (IH d) as (is & E & A); [lia|]. destruct (nth_error (d_clears (drun d (map DStep is))) n) as [[os nm]|] eqn:K;
        [|apply nth_error_None in K; lia].
      exists (is ++ repeat n (List.length os))%list. rewrite map_app, drun_app.
      rewrite (steps_ops os [] n _ nm) by (rewrite app_nil_r; exact K). cbn [d_clears d_set_clears]. split; [rewrite put_length; exact E|].
      intros i k I H. destruct (Nat.eq_dec n i) as [->|NE].
      + rewrite put_nth in H by lia. injection H as <-. reflexivity.
      + rewrite put_other in H by exact NE. apply (A i); [lia|exact H]. }
  intros d. destruct (P (List.length (d_clears d)) d (le_n _)) as (is & E & A). exists is. intros k I. apply In_nth_error in I. destruct I as (i & N).
  apply (A i); [|exact N]. rewrite <- E. apply nth_error_Some. congruence.
Qed.

(** *** One command at a time *)

Inductive home (f focus : vname) : list clear_op -> vname -> Prop :=
| home_between : forall vs n, focus = f -> home f focus (flat_map clearwin_ops vs) n
| home_named : forall w vs, focus = f -> home f focus (OGo w :: OWipe w :: OBack :: flat_map clearwin_ops vs) f
| home_gone : forall w vs, home f focus (OWipe w :: OBack :: flat_map clearwin_ops vs) f
| home_wiped : forall vs, home f focus (OBack :: flat_map clearwin_ops vs) f.
Lemma home_step : forall d f o r n, home f (d_focus d) (o :: r) n -> home f (d_focus (fst (clear_op_step d n o))) r (snd (clear_op_step d n o)).
Proof.
  intros d f o r n H. remember (o :: r) as os eqn:EO. destruct H as [vs n E|w vs E|w vs|vs].
  - destruct vs as [|v vs]; [discriminate|]. cbn in EO. injection EO as <- <-. cbn. rewrite E. now constructor.
  - injection EO as <- <-. cbn. constructor.
  - injection EO as <- <-. cbn. constructor.
  - injection EO as <- <-. cbn. now constructor.
Qed.
Definition only (i : nat) (d : desk) : Prop := forall j k, nth_error (d_clears d) j = Some k -> j <> i -> k_left k = [].
Lemma alone_step : forall l d f i os n, unattended l -> only i d -> nth_error (d_clears d) i = Some {| k_left := os; k_name := n |} -> home f (d_focus d) os n ->
  only i (dstep d l) /\ d_line (dstep d l) = d_line d /\ d_ran (dstep d l) = d_ran d /\
  exists os' n', nth_error (d_clears (dstep d l)) i = Some {| k_left := os'; k_name := n' |} /\ home f (d_focus (dstep d l)) os' n'.
Proof.
  intros l d f i os n U O K H. destruct l as [c| | | |v t|j]; try (exfalso; exact U); cbn [dstep].
  - repeat split; auto. exists os, n. auto.
  - repeat split; auto. exists os, n. auto.
  - destruct (nth_error (d_clears d) j) as [[[|o r] m]|] eqn:J.
    + assert (E : clearer_step d j = d) by (unfold clearer_step; now rewrite J). rewrite E. repeat split; auto. eauto.
    + rewrite (clearer_step_some _ _ _ _ _ J). destruct (Nat.eq_dec j i) as [->|NE]; [|exfalso; specialize (O _ _ J NE); discriminate].
      rewrite K in J. injection J as -> ->. assert (Li : i < List.length (d_clears d)) by (apply nth_error_Some; congruence).
      split; [|split; [destruct o; reflexivity|split; [destruct o; reflexivity|]]].
      * intros j k. cbn [d_clears d_set_clears]. intros N NE. rewrite put_other in N by auto. eapply O; eauto.
      * exists r, (snd (clear_op_step d m o)). cbn [d_clears d_set_clears]. rewrite put_nth by exact Li. split; [reflexivity|]. cbn [d_focus d_set_clears]. now apply home_step.
    + assert (E : clearer_step d j = d) by (unfold clearer_step; now rewrite J). rewrite E. repeat split; auto. eauto.
Qed.
Lemma alone_run : forall ls d f i os n, (forall l, In l ls -> unattended l) -> only i d -> nth_error (d_clears d) i = Some {| k_left := os; k_name := n |} -> home f (d_focus d) os n ->
  d_line (drun d ls) = d_line d /\ d_ran (drun d ls) = d_ran d /\
  exists os' n', nth_error (d_clears (drun d ls)) i = Some {| k_left := os'; k_name := n' |} /\ home f (d_focus (drun d ls)) os' n'.
Proof.
  induction ls as [|l ls IH]; intros d f i os n U O K H; [cbn; eauto 6|].
  destruct (alone_step l d f i os n) as (O' & L & R & os' & n' & K' & H'); auto; [apply U; now left|].
  cbn [drun fold_left]. change (fold_left dstep ?x ?y) with (drun y x).
  destruct (IH (dstep d l) f i os' n') as (L' & R' & E); auto; [intros; apply U; now right|]. rewrite L', R', L, R. auto.
Qed.
Lemma quiet_run : forall ls d, (forall l, In l ls -> unattended l) -> idle d ->
  d_line (drun d ls) = d_line d /\ d_ran (drun d ls) = d_ran d /\ d_focus (drun d ls) = d_focus d /\ idle (drun d ls).
Proof.
  induction ls as [|l ls IH]; intros d U I; [auto|]. cbn [drun fold_left]. change (fold_left dstep ?x ?y) with (drun y x).
  assert (E : d_line (dstep d l) = d_line d /\ d_ran (dstep d l) = d_ran d /\ d_focus (dstep d l) = d_focus d /\ idle (dstep d l)).
  { specialize (U l (or_introl eq_refl)). destruct l as [c| | | |v t|j]; try (exfalso; exact U); cbn [dstep]; auto.
    unfold clearer_step. destruct (nth_error (d_clears d) j) as [[[|o r] m]|] eqn:J; auto. apply nth_error_In in J. specialize (I _ J). discriminate. }
  destruct E as (E1 & E2 & E3 & E4). destruct (IH (dstep d l)) as (F1 & F2 & F3 & F4); auto; [intros; apply U; now right|]. rewrite F1, F2, F3. auto.
Qed.

Lemma waits_from : forall d lines d', waits d lines d' -> d_focus d = VCmd -> d_line d = "" -> idle d ->
  d_focus d' = VCmd /\ d_ran d' = (d_ran d ++ lines)%list /\ d_line d' = "" /\ idle d'.
Proof.
  intros d lines d' W. induction W as [d|d line ls lines d' N U I W IH]; intros F L ID; [rewrite app_nil_r; auto|].
  assert (E : d_focus (drun d (type line ++ ls)) = VCmd /\ d_ran (drun d (type line ++ ls)) = (d_ran d ++ [line])%list /\ d_line (drun d (type line ++ ls)) = "").
  { rewrite drun_app. rewrite drun_app in I. rewrite typed_line in * by auto. destruct (enter_cases (d_set_line d line)) as [E|(F1 & N1 & E)].
    - exfalso. unfold enter_key in E. cbn [d_focus d_set_line d_line] in E. rewrite F in E. destruct (String.eqb_spec line "") as [E'|_]; [auto|].
      assert (E' : d_line (d_set_line d line) = "").
      { rewrite <- E. destruct (match run_line line with Ret (Some args, _, _) => args | _ => [] end); [reflexivity|]. destruct (String.eqb _ _); reflexivity. }
      cbn in E'. auto.
    - cbn [d_line d_set_line d_ran d_clears] in E. destruct E as [(vs & WV & E)|(_ & E)]; rewrite E in *.
      + set (d1 := d_set_clears _ _) in *.
        assert (K1 : nth_error (d_clears d1) (List.length (d_clears d)) = Some {| k_left := flat_map clearwin_ops vs; k_name := VCmd |}).
        { cbn. rewrite nth_error_app2, Nat.sub_diag by lia. reflexivity. }
        assert (O1 : only (List.length (d_clears d)) d1).
        { intros j k J NE. cbn in J. destruct (le_lt_dec (List.length (d_clears d)) j) as [LE|LT].
          - rewrite nth_error_app2 in J by lia. destruct (j - List.length (d_clears d)) as [|x] eqn:X; [lia|]. cbn in J. destruct x; discriminate.
          - rewrite nth_error_app1 in J by lia. apply nth_error_In in J. now apply ID. }
        destruct (alone_run ls d1 VCmd (List.length (d_clears d)) _ _ U O1 K1) as (L2 & R2 & os & n & K2 & H2); [constructor; exact F|].
        apply nth_error_In in K2. specialize (I _ K2). cbn in I. subst os.
        inversion H2; subst; try discriminate. rewrite R2, L2. cbn. auto.
      + set (d1 := d_set_line _ _) in *. destruct (quiet_run ls d1 U) as (L2 & R2 & F2 & _); [exact ID|].
        rewrite L2, R2, F2. cbn. auto. }
  destruct E as (E1 & E2 & E3). destruct (IH E1 E3 I) as (A & B & C). rewrite A, B, E2, <- app_assoc. auto.
Qed.
(** C142: a user who waits for each command keeps the keyboard in the command window, and every line
    entered is run *)
Lemma c142_waits : forall lines d, waits dstart lines d -> d_focus d = VCmd /\ d_line d = "" /\ d_ran d = lines.
Proof.
  intros lines d W. destruct (waits_from _ _ _ W) as (A & B & C & _); auto. intros k [].
Qed.

(** *** Two at a time *)

(** C142 (defect): with two [clear] commands at once the keyboard can end up in any window that one of
    them clears.  Nothing is at work any more then. *)
Lemma c142_lost : forall d line1 vs1 line2 vs2 v, d_focus d = VCmd -> d_line d = "" -> idle d ->
  wants line1 vs1 -> In v vs1 -> wants line2 vs2 -> vs2 <> [] ->
  exists is, let d' := drun d (type line1 ++ type line2 ++ map DStep is) in
    idle d' /\ d_focus d' = v /\ d_ran d' = (d_ran d ++ [line1; line2])%list.
Proof.
  intros d line1 vs1 line2 vs2 v F L ID W1 IV W2 N2. apply in_split in IV. destruct IV as (a & b & ->).
  destruct vs2 as [|w vs2]; [congruence|]. clear N2.
  set (n := List.length (d_clears d)).
  set (pre := (flat_map clearwin_ops a ++ [OName; OGo v])%list). set (post := (OWipe v :: OBack :: flat_map clearwin_ops b)).
  set (rest := (OGo w :: OWipe w :: OBack :: flat_map clearwin_ops vs2)).
  exists (repeat n (List.length pre) ++ repeat (S n) (List.length [OName]) ++ repeat n (List.length post) ++ repeat (S n) (List.length rest))%list. cbv zeta.
  rewrite !drun_app. rewrite (typed_wants _ _ _ F L W1). set (d1 := d_set_clears _ _).
  rewrite (typed_wants line2 (w :: vs2) d1) by auto. set (d2 := d_set_clears _ _).
  rewrite !map_app, !drun_app.
  assert (E2 : d_clears d2 = (d_clears d ++ [{| k_left := pre ++ post; k_name := VCmd |}; {| k_left := OName :: rest; k_name := VCmd |}])%list).
  { cbn. rewrite <- app_assoc. cbn [app]. rewrite flat_map_app. cbn [flat_map clearwin_ops app]. unfold pre, post, rest. rewrite <- app_assoc. reflexivity. }
  assert (NN : forall x y, nth_error (d_clears d ++ [x; y])%list n = Some x) by (intros; rewrite nth_error_app2, Nat.sub_diag by (unfold n; lia); reflexivity).
  assert (NS : forall x y, nth_error (d_clears d ++ [x; y])%list (S n) = Some y)
    by (intros; rewrite nth_error_app2 by (unfold n; lia); replace (S n - List.length (d_clears d)) with 1 by (unfold n; lia); reflexivity).
  assert (PN : forall x y z, put_clearer n z (d_clears d ++ [x; y])%list = (d_clears d ++ [z; y])%list).
  { intros x y z. unfold n. clear. induction (d_clears d) as [|c l IH]; cbn; [reflexivity|now rewrite IH]. }
  assert (PS : forall x y z, put_clearer (S n) z (d_clears d ++ [x; y])%list = (d_clears d ++ [x; z])%list).
  { intros x y z. unfold n. clear. induction (d_clears d) as [|c l IH]; cbn in *; [reflexivity|now rewrite IH]. }
  rewrite (steps_ops pre post n d2 VCmd) by (rewrite E2; apply NN). rewrite E2, PN.
  assert (P3 : d_focus (fst (run_ops d2 VCmd pre)) = v /\ snd (run_ops d2 VCmd pre) = VCmd).
  { unfold pre. rewrite run_ops_app. cbn [run_ops clear_op_step fst snd]. split; [reflexivity|]. rewrite whole_focus. exact F. }
  set (d3 := d_set_clears (fst (run_ops d2 VCmd pre)) _).
  assert (F3 : d_focus d3 = v) by apply P3. assert (C3 : d_clears d3 = (d_clears d ++ [{| k_left := post; k_name := VCmd |}; {| k_left := OName :: rest; k_name := VCmd |}])%list)
    by (cbn; now rewrite (proj2 P3)).
  rewrite (steps_ops [OName] rest (S n) d3 VCmd) by (rewrite C3; apply NS). cbn [run_ops clear_op_step fst snd]. rewrite C3, PS, F3.
  set (d4 := d_set_clears d3 _).
  rewrite (steps_ops post [] n d4 VCmd) by (rewrite app_nil_r; cbn; apply NN). replace (d_clears d4) with (d_clears d ++ [{| k_left := post; k_name := VCmd |}; {| k_left := rest; k_name := v |}])%list by reflexivity.
  rewrite PN. set (k := {| k_left := []; k_name := snd (run_ops d4 VCmd post) |}). set (d5 := d_set_clears _ _).
  rewrite (steps_ops rest [] (S n) d5 v) by (rewrite app_nil_r; cbn; apply NS). replace (d_clears d5) with (d_clears d ++ [k; {| k_left := rest; k_name := v |}])%list by reflexivity.
  rewrite PS. split; [|split].
  - intros x. cbn [d_clears d_set_clears]. intros I. apply in_app_or in I. destruct I as [I|[<-|[<-|[]]]]; auto.
  - cbn [d_focus d_set_clears]. change rest with ([OGo w; OWipe w; OBack] ++ flat_map clearwin_ops vs2)%list. rewrite run_ops_app, whole_focus. reflexivity.
  - assert (RR : forall os x m, d_ran (fst (run_ops x m os)) = d_ran x).
    { clear. induction os as [|o os IH]; intros; [reflexivity|]. cbn [run_ops]. destruct (clear_op_step x m o) as [x' m'] eqn:E. rewrite IH. destruct o; injection E as <- <-; reflexivity. }
    cbn [d_ran d_set_clears]. rewrite RR. cbn [d_ran d5 d_set_clears]. rewrite RR. cbn [d_ran d4 d3 d_set_clears]. rewrite RR. cbn. rewrite <- app_assoc. reflexivity.
Qed.
(** C142 (defect): then nothing that is typed arrives, and Enter runs nothing, until Ctrl-Space is pressed *)
Lemma c142_deaf : forall d ls, d_focus d <> VCmd -> idle d -> ~ In DSwitch ls ->
  d_focus (drun d ls) = d_focus d /\ d_line (drun d ls) = d_line d /\ d_ran (drun d ls) = d_ran d /\ d_clears (drun d ls) = d_clears d.
Proof.
  intros d ls. revert d. induction ls as [|l ls IH]; intros d F I N; [auto|]. cbn [drun fold_left]. change (fold_left dstep ?x ?y) with (drun y x).
  assert (E : d_focus (dstep d l) = d_focus d /\ d_line (dstep d l) = d_line d /\ d_ran (dstep d l) = d_ran d /\ d_clears (dstep d l) = d_clears d).
  { destruct l as [c| | | |v t|j]; cbn [dstep]; auto.
    - destruct (d_focus d) eqn:X; [exfalso; auto|rewrite X; auto..].
    - unfold enter_key. destruct (d_focus d) eqn:X; [exfalso; auto|rewrite X; auto..].
    - exfalso. apply N. now left.
    - unfold clearer_step. destruct (nth_error (d_clears d) j) as [[[|o r] m]|] eqn:J; auto. apply nth_error_In in J. specialize (I _ J). discriminate. }
  destruct E as (E1 & E2 & E3 & E4). destruct (IH (dstep d l)) as (F1 & F2 & F3 & F4).
  - congruence.
  - unfold idle. rewrite E4. exact I.
  - intros X. apply N. now right.
  - rewrite F1, F2, F3, F4. auto.
Qed.
(** C142: Ctrl-Space, pressed once to three times, brings the keyboard back *)
Lemma c142_back : forall d, exists n, n <= 3 /\ d_focus (drun d (repeat DSwitch n)) = VCmd.
Proof.
  intros d. destruct (d_focus d) eqn:F; [exists 0|exists 1|exists 2|destruct (d_packets d) eqn:P; [exists 3|exists 2]]; (split; [lia|]); cbn; rewrite ?F, ?P; cbn; rewrite ?P; cbn; rewrite ?P; reflexivity.
Qed.

(** C142: Ctrl-Space goes on to the next window, to the one for packets only if Ctrl-P was pressed an odd number of times before *)
Lemma c142_round : forall ls, d_focus (drun dstart (ls ++ [DSwitch])) = window_after (Nat.odd (ctrl_p ls)) (d_focus (drun dstart ls)).
Proof.
  assert (CK : forall d i, d_packets (clearer_step d i) = d_packets d).
  { intros d i. unfold clearer_step. destruct (nth_error (d_clears d) i) as [[os nm]|]; [|reflexivity]. destruct os as [|o os]; [reflexivity|]. destruct o; reflexivity. }
  assert (P : forall ls, d_packets (drun dstart ls) = Nat.odd (ctrl_p ls)).
  { induction ls as [|l ls IH] using rev_ind; [reflexivity|]. rewrite drun_app. cbn [drun fold_left]. change (fold_left dstep ls dstart) with (drun dstart ls).
    set (d := drun dstart ls) in *. unfold ctrl_p in *. rewrite filter_app, app_length. destruct l as [c| | | |v t|j]; cbn [dstep filter List.length]; rewrite ?Nat.add_0_r, <- ?IH.
    - destruct (d_focus d); reflexivity.
    - unfold enter_key. destruct (d_focus d); try reflexivity. repeat (match goal with |- context [match ?x with _ => _ end] => destruct x end; try reflexivity).
    - reflexivity.
    - cbn [d_packets d_set_packets]. rewrite IH, Nat.add_comm. cbn [Nat.add]. rewrite Nat.odd_succ, <- Nat.negb_odd. reflexivity.
    - reflexivity.
    - apply CK. }
  intros ls. rewrite drun_app. cbn. change (fold_left dstep ls dstart) with (drun dstart ls). rewrite P. destruct (d_focus (drun dstart ls)), (Nat.odd (ctrl_p ls)); reflexivity.
Qed.

(** *** Every history *)

Definition may (d : desk) (v : vname) : Prop := v = VCmd \/ exists line vs, In line (d_ran d) /\ wants line vs /\ In v vs.
Definition op_ok (d : desk) (o : clear_op) : Prop := match o with OGo w | OWipe w => may d w | _ => True end.
Definition focus_ok (d : desk) : Prop :=
  may d (d_focus d) /\ forall k, In k (d_clears d) -> may d (k_name k) /\ forall o, In o (k_left k) -> op_ok d o.
Lemma may_grow : forall d d' v, (exists l, d_ran d' = (d_ran d ++ l)%list) -> may d v -> may d' v.
Proof. intros d d' v (l & E) [M|(line & vs & I & W & J)]; [now left|]. right. exists line, vs. rewrite E. repeat split; auto. apply in_or_app. now left. Qed.
Lemma op_grow : forall d d' o, (exists l, d_ran d' = (d_ran d ++ l)%list) -> op_ok d o -> op_ok d' o.
Proof. intros d d' o E. destruct o; cbn; auto; apply may_grow; exact E. Qed.
Lemma focus_ok_step : forall d l, l <> DSwitch -> focus_ok d -> focus_ok (dstep d l).
Proof.
  intros d l N (A & B).
  assert (SAME : forall d', d_focus d' = d_focus d -> d_ran d' = d_ran d -> d_clears d' = d_clears d -> focus_ok d').
  { intros d' E1 E2 E3. assert (G : exists x, d_ran d' = (d_ran d ++ x)%list) by (exists []; now rewrite app_nil_r). split.
    - rewrite E1. now apply (may_grow d).
    - intros k I. rewrite E3 in I. destruct (B k I) as (C & D). split; [now apply (may_grow d)|]. intros o J. apply (op_grow d); auto. }
  destruct l as [c| | | |v t|j]; cbn [dstep]; try (apply SAME; reflexivity).
  - destruct (d_focus d) eqn:F; apply SAME; auto.
  - destruct (enter_cases d) as [->|(F & L & [(vs & W & E)|(_ & E)])]; [now split| |].
    + rewrite E. set (d' := d_set_clears _ _). assert (G : exists x, d_ran d' = (d_ran d ++ x)%list) by (eexists; reflexivity). split.
      * left. exact F.
      * intros k I. cbn in I. apply in_app_or in I. destruct I as [I|[<-|[]]].
        -- destruct (B k I) as (C & D). split; [now apply (may_grow d)|]. intros o J. apply (op_grow d); auto.
        -- split; [now left|]. cbn [k_left]. intros o J. apply in_flat_map in J. destruct J as (w & I & J).
           assert (M : may d' w). { right. exists (d_line d), vs. repeat split; auto. cbn. apply in_or_app. right. now left. }
           destruct J as [<-|[<-|[<-|[<-|[]]]]]; cbn; auto.
    + rewrite E. set (d' := d_set_line _ _). assert (G : exists x, d_ran d' = (d_ran d ++ x)%list) by (eexists; reflexivity). split.
      * left. exact F.
      * intros k I. destruct (B k I) as (C & D). split; [now apply (may_grow d)|]. intros o J. apply (op_grow d); auto.
  - congruence.
  - destruct (nth_error (d_clears d) j) as [[[|o r] m]|] eqn:J.
    + unfold clearer_step. rewrite J. now split.
    + rewrite (clearer_step_some _ _ _ _ _ J). pose proof (nth_error_In _ _ J) as I. destruct (B _ I) as (C & D). cbn [k_name k_left] in C, D.
      set (d' := d_set_clears _ _). assert (G : exists x, d_ran d' = (d_ran d ++ x)%list) by (exists []; rewrite app_nil_r; destruct o; reflexivity). split.
      * apply (may_grow d); auto. destruct o as [|w|w|]; cbn; auto. apply (D (OGo w)). now left.
      * intros k K. cbn in K. apply put_In in K. destruct K as [->|K].
        -- cbn [k_name k_left]. split; [apply (may_grow d); auto; destruct o; auto|]. intros o' O. apply (op_grow d); auto. apply D. now right.
        -- destruct (B k K) as (C' & D'). split; [now apply (may_grow d)|]. intros o' O. apply (op_grow d); auto.
    + unfold clearer_step. rewrite J. now split.
Qed.
(** C142: without Ctrl-Space the keyboard is in the command window or in a window that some command entered before
    was asked to clear *)
Lemma c142_where : forall ls, ~ In DSwitch ls -> let d := drun dstart ls in
  d_focus d = VCmd \/ exists line vs, In line (d_ran d) /\ wants line vs /\ In (d_focus d) vs.
Proof.
  intros ls N d. assert (G : focus_ok d); [|exact (proj1 G)]. unfold d. clear d. induction ls as [|l ls IH] using rev_ind.
  - split; [now left|]. intros k [].
  - rewrite drun_app. cbn. apply focus_ok_step; [intros ->; apply N; apply in_or_app; right; now left|]. apply IH. intros X. apply N. apply in_or_app. now left.
Qed.
Lemma printed_app : forall v a b, printed v (a ++ b) = (printed v a ++ printed v b)%list.
Proof. intros v a b. induction a as [|l a IH]; [reflexivity|]. cbn [app printed]. destruct l; auto. destruct (vname_eqb _ _); [cbn; now rewrite IH|auto]. Qed.
Lemma printed_type : forall v line, printed v (type line) = [].
Proof. intros v line. unfold type. rewrite printed_app. induction (bytes_of line); auto. Qed.
Lemma text_kept : forall l d v, (forall j o r m, l = DStep j -> nth_error (d_clears d) j = Some {| k_left := o :: r; k_name := m |} -> o <> OWipe v) ->
  d_text (dstep d l) v = (d_text d v ++ printed v [l])%list.
Proof.
  intros l d v H. destruct l as [c| | | |w t|j]; cbn [dstep printed].
  - rewrite app_nil_r. destruct (d_focus d); reflexivity.
  - rewrite app_nil_r. destruct (enter_cases d) as [->|(F & L & [(vs & W & E)|(_ & E)])]; [reflexivity|rewrite E; reflexivity..].
  - rewrite app_nil_r. reflexivity.
  - rewrite app_nil_r. reflexivity.
  - cbn. destruct (vname_eqb w v) eqn:E; [apply vname_eqb_eq in E; subst; reflexivity|now rewrite app_nil_r].
  - rewrite app_nil_r. destruct (nth_error (d_clears d) j) as [[[|o r] m]|] eqn:J.
    + unfold clearer_step. now rewrite J.
    + rewrite (clearer_step_some _ _ _ _ _ J). specialize (H _ _ _ _ eq_refl J). destruct o as [|w|w|]; cbn; try reflexivity.
      destruct (vname_eqb w v) eqn:E; [apply vname_eqb_eq in E; congruence|reflexivity].
    + unfold clearer_step. now rewrite J.
Qed.
(** C142: a window that no command was asked to clear keeps every text that arrived for it, whatever else is cleared *)
Lemma c142_kept : forall ls v, let d := drun dstart ls in v <> VCmd ->
  (forall line vs, In line (d_ran d) -> wants line vs -> ~ In v vs) -> d_text d v = printed v ls.
Proof.
  assert (OK : forall ls, let d := drun dstart ls in forall k o, In k (d_clears d) -> In o (k_left k) -> op_ok d o).
  { intros ls. cbv zeta.
    assert (G : forall k, In k (d_clears (drun dstart ls)) -> forall o, In o (k_left k) -> op_ok (drun dstart ls) o); [|intros; eapply G; eauto].
    induction ls as [|l ls IH] using rev_ind; [intros k []|]. rewrite drun_app. cbn [drun fold_left]. change (fold_left dstep ls dstart) with (drun dstart ls).
    set (d := drun dstart ls) in *. clearbody d. destruct l as [c| | | |w t|j]; cbn [dstep]; try exact IH.
    - destruct (d_focus d); exact IH.
    - destruct (enter_cases d) as [->|(F & L & [(vs & W & E)|(_ & E)])]; [exact IH| |].
      + rewrite E. set (d' := d_set_clears _ _). assert (G : exists x, d_ran d' = (d_ran d ++ x)%list) by (eexists; reflexivity).
        intros k I. cbn in I. apply in_app_or in I. destruct I as [I|[<-|[]]].
        * intros o J. apply (op_grow d); eauto.
        * cbn [k_left]. intros o J. apply in_flat_map in J. destruct J as (w & I & J).
          assert (M : may d' w). { right. exists (d_line d), vs. repeat split; auto. cbn. apply in_or_app. right. now left. }
          destruct J as [<-|[<-|[<-|[<-|[]]]]]; cbn; auto.
      + rewrite E. set (d' := d_set_line _ _). assert (G : exists x, d_ran d' = (d_ran d ++ x)%list) by (eexists; reflexivity).
        intros k I o J. apply (op_grow d); eauto.
    - destruct (nth_error (d_clears d) j) as [[[|o r] m]|] eqn:J.
      + unfold clearer_step. rewrite J. exact IH.
      + rewrite (clearer_step_some _ _ _ _ _ J). pose proof (nth_error_In _ _ J) as I.
        set (d' := d_set_clears _ _). assert (G : exists x, d_ran d' = (d_ran d ++ x)%list) by (exists []; rewrite app_nil_r; destruct o; reflexivity).
        intros k K o' O. cbn in K. apply put_In in K. destruct K as [->|K]; apply (op_grow d); eauto. apply (IH _ I). now right.
      + unfold clearer_step. rewrite J. exact IH. }
  intros ls v d NV. unfold d. clear d. induction ls as [|l ls IH] using rev_ind; intros NW; [reflexivity|].
  rewrite drun_app in *. cbn [drun fold_left] in *. change (fold_left dstep ls dstart) with (drun dstart ls) in *.
  assert (MONO : forall line, In line (d_ran (drun dstart ls)) -> In line (d_ran (dstep (drun dstart ls) l))).
  { intros line I. destruct l as [c| | | |w t|j]; cbn [dstep]; auto.
    - destruct (d_focus _); exact I.
    - destruct (enter_cases (drun dstart ls)) as [->|(F & L & [(vs & W & E)|(_ & E)])]; [exact I|rewrite E; cbn; apply in_or_app; now left..].
    - unfold clearer_step. destruct (nth_error _ _) as [[[|o r] m]|]; auto. destruct o; exact I. }
  rewrite printed_app, text_kept.
  - rewrite IH; [reflexivity|]. intros line vs I W. apply (NW line vs); auto.
  - intros j o r m -> J ->. apply nth_error_In in J. pose proof (OK ls _ (OWipe v) J (or_introl eq_refl)) as [E|(line & vs & I & W & V)]; [congruence|].
    apply (NW line vs); auto.
Qed.
(** C142: when a [clear] command has finished, its windows show at most what arrived after it was entered *)
Lemma c142_gone : forall d line vs v ls, d_focus d = VCmd -> d_line d = "" -> wants line vs -> In v vs ->
  let d' := drun d (type line ++ ls) in
  (exists k, nth_error (d_clears d') (List.length (d_clears d)) = Some k /\ k_left k = []) ->
  exists before, printed v ls = (before ++ d_text d' v)%list.
Proof.
  intros d line vs v ls F L W I. cbv zeta. rewrite drun_app, (typed_wants _ _ _ F L W). set (d1 := d_set_clears _ _). set (i := List.length (d_clears d)).
  intros (k & K & E).
  assert (G : exists k, nth_error (d_clears (drun d1 ls)) i = Some k /\ (In (OWipe v) (k_left k) \/ exists before, printed v ls = (before ++ d_text (drun d1 ls) v)%list)).
  { clear k K E. induction ls as [|l ls IH] using rev_ind.
    - exists {| k_left := flat_map clearwin_ops vs; k_name := VCmd |}. split; [cbn; rewrite nth_error_app2, Nat.sub_diag by (unfold i; lia); reflexivity|].
      left. cbn [k_left]. apply in_flat_map. exists v. split; [exact I|]. cbn. tauto.
    - destruct IH as (k & K & P). rewrite drun_app. cbn [drun fold_left]. change (fold_left dstep ls d1) with (drun d1 ls). set (dd := drun d1 ls) in *. clearbody dd.
      rewrite printed_app.
      assert (KEEP : d_text (dstep dd l) v = (d_text dd v ++ printed v [l])%list -> (exists before, printed v ls = (before ++ d_text dd v)%list) ->
        exists before, (printed v ls ++ printed v [l])%list = (before ++ d_text (dstep dd l) v)%list).
      { intros T (bf & B). exists bf. rewrite B, T, app_assoc. reflexivity. }
      destruct l as [c| | | |w t|j].
      + exists k. split; [cbn [dstep]; destruct (d_focus dd); exact K|]. destruct P as [P|P]; [now left|right]. apply KEEP; auto. apply text_kept. discriminate.
      + exists k. split.
        * cbn [dstep]. destruct (enter_cases dd) as [->|(F' & L' & [(vs' & W' & E)|(_ & E)])]; [exact K|rewrite E|rewrite E; exact K].
          cbn. rewrite nth_error_app1; [exact K|]. apply nth_error_Some. congruence.
        * destruct P as [P|P]; [now left|right]. apply KEEP; auto. apply text_kept. discriminate.
      + exists k. split; [exact K|]. destruct P as [P|P]; [now left|right]. apply KEEP; auto. apply text_kept. discriminate.
      + exists k. split; [exact K|]. destruct P as [P|P]; [now left|right]. apply KEEP; auto. apply text_kept. discriminate.
      + exists k. split; [exact K|]. destruct P as [P|P]; [now left|right]. apply KEEP; auto. apply text_kept. discriminate.
      + cbn [dstep]. destruct (nth_error (d_clears dd) j) as [[[|o r] m]|] eqn:J.
        * unfold clearer_step. rewrite J. exists k. split; [exact K|]. cbn [printed]. rewrite app_nil_r. exact P.
        * rewrite (clearer_step_some _ _ _ _ _ J). cbn [printed]. rewrite app_nil_r.
          assert (LI : j < List.length (d_clears dd)) by (apply nth_error_Some; congruence).
          assert (T : (exists before, printed v ls = (before ++ d_text dd v)%list) \/ o = OWipe v ->
            exists before, printed v ls = (before ++ d_text (fst (clear_op_step dd m o)) v)%list).
          { intros H. destruct o as [|w|w|]; cbn; try (destruct H as [H|H]; [exact H|discriminate]).
            destruct (vname_eqb w v) eqn:EW; [exists (printed v ls); now rewrite app_nil_r|]. destruct H as [H|H]; [exact H|]. injection H as ->.
            exfalso. pose proof (proj2 (vname_eqb_eq v v) eq_refl). congruence. }
          destruct (Nat.eq_dec j i) as [->|NE].
          -- exists {| k_left := r; k_name := snd (clear_op_step dd m o) |}. split; [cbn; now apply put_nth|]. cbn [k_left d_text d_set_clears].
             rewrite J in K. injection K as <-. cbn [k_left] in P. destruct P as [[->|P]|P]; [right; apply T; now right|now left|right; apply T; now left].
          -- exists k. split; [cbn; rewrite put_other by exact NE; exact K|]. cbn [d_text d_set_clears]. destruct P as [P|P]; [now left|right; apply T; now left].
        * unfold clearer_step. rewrite J. exists k. split; [exact K|]. cbn [printed]. rewrite app_nil_r. exact P. }
  destruct G as (k' & K' & P). rewrite K in K'. injection K' as <-. rewrite E in P. destruct P as [[]|P]. exact P.
Qed.
Lemma idle_check : forall d, forallb (fun k => match k_left k with [] => true | _ => false end) (d_clears d) = true -> idle d.
Proof. intros d H k I. rewrite forallb_forall in H. specialize (H k I). destruct (k_left k); [reflexivity|discriminate]. Qed.
Example c142_ex :
  wants "clear err" [VErr] /\ wants " clear" [VMsg; VErr; VPacket] /\
  (let d := drun dstart (type "clear msg" ++ type "clear" ++ map DStep [0; 0; 1; 0; 0; 1; 1; 1; 1; 1; 1; 1; 1; 1; 1; 1]) in
   d_focus d = VMsg /\ map k_left (d_clears d) = [[]; []] /\ d_ran (drun d (type "help")) = ["clear msg"; "clear"]) /\
  waits dstart ["clear err"; "help"] (drun dstart (type "clear err" ++ [DPrint VErr "x"; DStep 0; DStep 0; DStep 0; DStep 0; DPrint VErr "y"] ++ type "help")) /\
  d_text (drun dstart (type "clear err" ++ [DPrint VErr "x"; DStep 0; DStep 0; DStep 0; DStep 0; DPrint VErr "y"])) VErr = ["y"].
Proof.
  split; [exists ["err"]; split; [apply fields_words; reflexivity|apply (named_some ["err"] []); [discriminate|repeat constructor|exact I]]|].
  split; [exists []; split; [apply fields_words; reflexivity|constructor]|].
  split; [vm_compute; repeat split|]. split; [|reflexivity].
  eapply waits_one with (ls := [DPrint VErr "x"; DStep 0; DStep 0; DStep 0; DStep 0; DPrint VErr "y"]); [discriminate| | |].
  - cbn. intuition (subst; exact I).
  - apply idle_check. vm_compute. reflexivity.
  - eapply waits_one with (ls := []); [discriminate|intros ? []| |].
    + apply idle_check. vm_compute. reflexivity.
    + rewrite !drun_app. cbn [app]. constructor.
Qed.
