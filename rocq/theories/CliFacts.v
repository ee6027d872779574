(** * The command line: lemmas *)

From Verif Require Import GoBase GoFacts Flags SpecFlags FlagsFacts SarFacts Config Shipped Data SpecFrames Beacon Sarnet Transfer Words SpecWords WordsFacts Cli SpecCli.
Local Open Scope string_scope.
Local Open Scope N_scope.

(** Walk through a chain of String.eqb *)
Ltac eqbs := repeat match goal with |- context [String.eqb ?a ?b] => destruct (String.eqb_spec a b); [subst a|] end.

Lemma counts_atoi : forall a n, counts a n <-> atoi a = Some n /\ (0 <= n)%Z.
Proof.
  intros a n. unfold counts. rewrite atoi_spec. assert (0 < 2 ^ 63)%Z by (vm_compute; reflexivity). split; intros; repeat split; try tauto; lia.
Qed.
Lemma counts_unique : forall a n m, counts a n -> counts a m -> n = m.
Proof. intros a n m H K. apply counts_atoi in H. apply counts_atoi in K. destruct H, K. congruence. Qed.
Lemma counts_not_off : forall n, ~ counts "off" n.
Proof. intros n H. apply counts_atoi in H. destruct H. discriminate. Qed.
Lemma counts_not_help : forall n, ~ counts "?" n.
Proof. intros n H. apply counts_atoi in H. destruct H. discriminate. Qed.

Lemma value_set_global : forall c f v k, value (set_global c f v) k =
  match k with Flag g => if String.eqb g f then KText v else value c k | _ => value c k end.
Proof.
  intros c f v []; try reflexivity. unfold value, set_global; cbn [cl_global]. destruct (String.eqb_spec name f).
  - subst. now rewrite update_lookup_same.
  - rewrite update_lookup_other; auto.
Qed.

(** What the words of a settings command do, as a function *)
Definition knob_eqb (a b : knob) : bool :=
  match a, b with
  | Flag x, Flag y | Timer x, Timer y => String.eqb x y
  | Stamp, Stamp | Zone, Zone | Interval, Interval | Count, Count => true
  | _, _ => false
  end.
Fixpoint kfind (k : knob) (l : list (knob * kval)) : option kval :=
  match l with [] => None | (j, v) :: r => if knob_eqb k j then Some v else kfind k r end.
Definition changes (c c' : cliflags) (l : list (knob * kval)) : Prop :=
  forall k, value c' k = match kfind k l with Some v => v | None => value c k end.
Lemma changes_nil : forall c, changes c c [].
Proof. intros c k. reflexivity. Qed.
Lemma changes_flag : forall c f v, changes c (set_global c f v) [(Flag f, KText v)].
Proof. intros c f v k. rewrite value_set_global. destruct k; try reflexivity. cbn. destruct (String.eqb name f); reflexivity. Qed.
Lemma changes_stamp : forall c f v w, changes c (set_timestamp (set_global c f v) w) [(Flag f, KText v); (Stamp, KText w)].
Proof.
  intros c f v w k. destruct k; try reflexivity. cbn [kfind knob_eqb].
  change (value (set_timestamp (set_global c f v) w) (Flag name)) with (value (set_global c f v) (Flag name)).
  rewrite value_set_global. destruct (String.eqb name f); reflexivity.
Qed.
Lemma changes_zone : forall c v, changes c (set_timezone c v) [(Zone, KText v)].
Proof. intros c v k. destruct k; reflexivity. Qed.
Lemma changes_count : forall c n, (0 <= n)%Z -> changes c (set_bcount c (Z.to_N n)) [(Count, KNum n)].
Proof. intros c v L k. destruct k; try reflexivity. cbn. now rewrite Z2N.id. Qed.
Lemma changes_interval : forall c n, (0 <= n)%Z -> changes c (set_timeout c (with_binterval (cl_timeout c) (Z.to_N n))) [(Interval, KNum n)].
Proof. intros c v L k. destruct k; try reflexivity. cbn. now rewrite Z2N.id. Qed.
Ltac timers := intros c n k; destruct k as [| | |name| | | | | | | | |]; try reflexivity;
  unfold value, timer; cbn [kfind knob_eqb lookup]; cbn; eqbs; try reflexivity; try congruence.
Lemma changes_metadata : forall c n, changes c (set_timeout c (with_metadata (cl_timeout c) n)) [(Timer "metadata", KNum n)].
Proof. timers. Qed.
Lemma changes_request : forall c n, changes c (set_timeout c (with_request (cl_timeout c) n)) [(Timer "request", KNum n)].
Proof. timers. Qed.
Lemma changes_status : forall c n, changes c (set_timeout c (with_status (cl_timeout c) n)) [(Timer "status", KNum n)].
Proof. timers. Qed.
Lemma changes_transfer : forall c n, changes c (set_timeout c (with_transfer (cl_timeout c) n)) [(Timer "transfer", KNum n)].
Proof. timers. Qed.
Lemma changes_counter : forall c n, changes c (set_timeout c (with_datacounter (cl_timeout c) n)) [(Timer "datacounter", KNum n)].
Proof. timers. Qed.
Global Hint Resolve changes_nil changes_flag changes_stamp changes_zone changes_count changes_interval changes_metadata changes_request
  changes_status changes_transfer changes_counter : changes.

(** The list of changes is what is ordered *)
Definition complete (c : cliflags) (ws : list string) (l : list (knob * kval)) : Prop :=
  forall k v, orders c ws k v <-> kfind k l = Some v.

Fixpoint find_choice (cmd a : string) (l : list (string * string * list (knob * string))) : option (list (knob * string)) :=
  match l with
  | [] => None
  | (c, b, x) :: r => if String.eqb cmd c then if String.eqb a b then Some x else find_choice cmd a r else find_choice cmd a r
  end.
Definition texts (l : list (knob * string)) : list (knob * kval) := map (fun p => (fst p, KText (snd p))) l.
Definition positive (a : string) : option Z := match atoi a with Some n => if (0 <=? n)%Z then Some n else None | None => None end.
Definition ordered (c : cliflags) (ws : list string) : list (knob * kval) :=
  match ws with
  | [cmd] => if String.eqb cmd "timeout" then if (to_datacounter (cl_timeout c) =? 0)%Z then [(Timer "datacounter", KNum 100)] else [] else []
  | [cmd; a] =>
      if String.eqb cmd "bcount" then match positive a with Some n => [(Count, KNum n)] | None => [] end
      else if String.eqb cmd "interval" then
        if String.eqb a "off" then [(Interval, KNum 0)] else match positive a with Some n => [(Interval, KNum n)] | None => [] end
      else if String.eqb cmd "timeout" then
        if String.eqb a "datacounter" then if (to_datacounter (cl_timeout c) =? 0)%Z then [(Timer "datacounter", KNum 100)] else [] else []
      else match find_choice cmd a choices with Some l => texts l | None => [] end
  | [cmd; a; v] =>
      if String.eqb cmd "timeout" then
        if one_of a timer_names then
          match positive v with
          | Some n => [(Timer a, KNum (if String.eqb a "datacounter" && (n =? 0)%Z then 100 else n))]
          | None => if String.eqb v "off" then [(Timer a, KNum (if String.eqb a "datacounter" then 100 else 60))] else []
          end
        else []
      else []
  | _ => []
  end.
Lemma positive_counts : forall a n, positive a = Some n <-> counts a n.
Proof.
  intros a n. rewrite counts_atoi. unfold positive. destruct (atoi a) as [m|]; [|split; [discriminate|intros (H & _); discriminate]].
  destruct (Z.leb_spec 0 m); split; try discriminate.
  - intros E; inversion E; subst; auto.
  - tauto.
  - intros (E & L). inversion E; subst. lia.
Qed.
Lemma one_of_In : forall a l, one_of a l = true <-> In a l.
Proof.
  intros a l. unfold one_of. rewrite existsb_exists. split.
  - intros (x & I & E). apply String.eqb_eq in E. now subst.
  - intros I. exists a. rewrite String.eqb_refl. auto.
Qed.
Lemma find_choice_sound : forall cmd a L l, find_choice cmd a L = Some l -> In (cmd, a, l) L.
Proof.
  intros cmd a L. induction L as [|[[c b] x] r IH]; intros l H; [discriminate|]. cbn [find_choice] in H.
  destruct (String.eqb_spec cmd c); [destruct (String.eqb_spec a b)|]; [inversion H; subst; left; auto|right; auto..].
Qed.
Lemma find_choice_complete : forall cmd a l, In (cmd, a, l) choices -> find_choice cmd a choices = Some l.
Proof. intros cmd a l H. unfold choices in H. repeat (destruct H as [E|H]; [inversion E; subst; reflexivity|]). destruct H. Qed.
Lemma knob_eqb_eq : forall k j, knob_eqb k j = true -> k = j.
Proof. intros k j. destruct k, j; cbn; try discriminate; auto; intros E; apply String.eqb_eq in E; now subst. Qed.
Fixpoint knobs_ok (l : list (knob * string)) : bool :=
  match l with
  | [] => true
  | (j, _) :: r => knob_eqb j j && forallb (fun p => negb (knob_eqb (fst p) j)) r && knobs_ok r
  end.
Lemma texts_In : forall l k v, knobs_ok l = true -> (In (k, v) l <-> kfind k (texts l) = Some (KText v)).
Proof.
  induction l as [|[j w] r IH]; intros k v H; [split; [intros []|discriminate]|]. cbn [knobs_ok] in H.
  apply andb_true_iff in H. destruct H as (H & R). apply andb_true_iff in H. destruct H as (J & F). rewrite forallb_forall in F.
  cbn [texts map fst snd kfind]. split.
  - intros [E|I]; [inversion E; subst; now rewrite J|]. destruct (knob_eqb k j) eqn:K; [|apply IH; auto].
    exfalso. specialize (F _ I). cbn [fst] in F. rewrite K in F. discriminate.
  - destruct (knob_eqb k j) eqn:K; [intros E; inversion E; apply knob_eqb_eq in K; subst; left; auto|]. intros E. right. apply IH; auto.
Qed.
Lemma choice_texts : forall cmd a l k v, In (cmd, a, l) choices -> (In (k, v) l <-> kfind k (texts l) = Some (KText v)).
Proof.
  intros cmd a l k v H. apply texts_In.
  assert (A : forallb (fun x => knobs_ok (snd x)) choices = true) by (vm_compute; reflexivity).
  rewrite forallb_forall in A. exact (A _ H).
Qed.
Lemma texts_text : forall l k v, kfind k (texts l) = Some v -> exists s, v = KText s.
Proof.
  induction l as [|[j s] l IH]; intros k v H; [discriminate|]. cbn [texts map kfind fst snd] in H. destruct (knob_eqb k j); [inversion H; eauto|eauto].
Qed.
Lemma kfind_one : forall k j v w, kfind k [(j, w)] = Some v <-> knob_eqb k j = true /\ v = w.
Proof. intros. cbn. destruct (knob_eqb k j); split; intros X; try (destruct X; discriminate); try discriminate; [inversion X; auto|destruct X; now subst]. Qed.
Lemma ordered_complete : forall c ws, complete c ws (ordered c ws).
Proof.
  intros c ws k v. split.
  - intros H. destruct H.
    + pose proof (find_choice_complete _ _ _ H) as F. rewrite (choice_texts _ _ _ k v H) in H0. unfold ordered. rewrite F.
      unfold choices in H. repeat (destruct H as [E|H]; [inversion E; subst; exact H0|]). destruct H.
    + apply positive_counts in H. cbn. rewrite H. reflexivity.
    + cbn. destruct (String.eqb_spec a "off"); [subst; now apply counts_not_off in H|]. apply positive_counts in H. rewrite H. reflexivity.
    + reflexivity.
    + apply one_of_In in H. apply positive_counts in H0. unfold ordered. rewrite H, H0. cbn [String.eqb]. unfold ordered.
      change (String.eqb "timeout" "timeout") with true. cbv iota. apply kfind_one. split; [cbn; apply String.eqb_refl|].
      destruct (String.eqb_spec name "datacounter"); [|reflexivity]. destruct (Z.eqb_spec n 0); [|reflexivity]. exfalso. exact (H1 e e0).
    + apply one_of_In in H. unfold ordered. rewrite H. change (String.eqb "timeout" "timeout") with true. cbv iota.
      change (positive "off") with (@None Z). change (String.eqb "off" "off") with true. cbv iota. apply kfind_one. split; [cbn; apply String.eqb_refl|].
      destruct (String.eqb_spec name "datacounter"); [congruence|reflexivity].
    + reflexivity.
    + apply positive_counts in H. cbn. rewrite H. reflexivity.
    + cbn in H |- *. inversion H. rewrite H1. reflexivity.
    + cbn in H |- *. inversion H. rewrite H1. reflexivity.
  - unfold ordered. destruct ws as [|cmd [|a [|x [|]]]]; try discriminate.
    + destruct (String.eqb_spec cmd "timeout"); [|discriminate]. destruct (Z.eqb_spec (to_datacounter (cl_timeout c)) 0); [|discriminate].
      intros K. apply kfind_one in K. destruct K as (K & ->). apply knob_eqb_eq in K. subst. apply or_counter_look. cbn. now rewrite e0.
    + destruct (String.eqb_spec cmd "bcount").
      { destruct (positive a) eqn:P; [|discriminate]. intros K. apply kfind_one in K. destruct K as (K & ->). apply knob_eqb_eq in K. subst.
        apply or_count. now apply positive_counts. }
      destruct (String.eqb_spec cmd "interval").
      { destruct (String.eqb_spec a "off").
        - intros K. apply kfind_one in K. destruct K as (K & ->). apply knob_eqb_eq in K. subst. apply or_interval_off.
        - destruct (positive a) eqn:P; [|discriminate]. intros K. apply kfind_one in K. destruct K as (K & ->). apply knob_eqb_eq in K. subst.
          apply or_interval. now apply positive_counts. }
      destruct (String.eqb_spec cmd "timeout").
      { destruct (String.eqb_spec a "datacounter"); [|discriminate]. destruct (Z.eqb_spec (to_datacounter (cl_timeout c)) 0); [|discriminate].
        intros K. apply kfind_one in K. destruct K as (K & ->). apply knob_eqb_eq in K. subst. apply or_counter_look1. cbn. now rewrite e1. }
      destruct (find_choice cmd a choices) as [l|] eqn:F; [|discriminate]. intros K. destruct (texts_text _ _ _ K) as (s & ->).
      apply find_choice_sound in F. apply (choice_texts _ _ _ k s F) in K. eapply or_choice; eauto.
    + destruct (String.eqb_spec cmd "timeout"); [|discriminate]. destruct (one_of a timer_names) eqn:O; [|discriminate]. apply one_of_In in O.
      destruct (positive x) eqn:P.
      * apply positive_counts in P. intros K. apply kfind_one in K. destruct K as (K & ->). apply knob_eqb_eq in K. subst.
        destruct (String.eqb_spec a "datacounter"); [destruct (Z.eqb_spec z 0)|]; cbn [andb].
        -- subst. apply or_counter_zero; auto.
        -- apply or_timer; auto.
        -- apply or_timer; auto.
      * destruct (String.eqb_spec x "off"); [|discriminate]. intros K. apply kfind_one in K. destruct K as (K & ->). apply knob_eqb_eq in K. subst.
        destruct (String.eqb_spec a "datacounter"); [subst; apply or_counter_off|apply or_timer_off; auto].
Qed.

Lemma ordered_none : forall c cmd a, one_of cmd ["bcount"; "interval"; "timeout"] = false -> (forall l, ~ In (cmd, a, l) choices) ->
  ordered c [cmd; a] = [].
Proof.
  intros c cmd a O N. unfold one_of in O. cbn [existsb] in O. apply orb_false_iff in O. destruct O as (A & O). apply orb_false_iff in O.
  destruct O as (B & O). apply orb_false_iff in O. destruct O as (C & _). unfold ordered. rewrite A, B, C.
  destruct (find_choice cmd a choices) as [l|] eqn:F; [|reflexivity]. apply find_choice_sound in F. now apply N in F.
Qed.
Ltac no_choice := rewrite ordered_none; [|reflexivity|intros l I; unfold choices in I; repeat (destruct I as [E|I]; [congruence|]); destruct I].
Lemma setting_changes : forall name f c rest, lookup name setting_commands = Some f ->
  changes c (fst (f c (name :: rest))) (ordered c (name :: rest)).
Proof.
  intros name f c rest L. unfold setting_commands in L. cbn [lookup] in L.
  repeat (match type of L with context [String.eqb name ?b] => destruct (String.eqb_spec name b) end;
    [inversion L; subst; clear L|]); [..|discriminate].
  - destruct rest as [|a [|? [|]]]; [apply changes_nil| |apply changes_nil..]. cbn [cmd_bcount ordered]. cbn.
    unfold positive. eqbs; [apply changes_nil|]. destruct (atoi a); [|apply changes_nil]. destruct (Z.leb_spec 0 z); cbn [fst]; auto with changes.
  - destruct rest as [|a [|? [|]]]; [apply changes_nil| |apply changes_nil..]. unfold cmd_checksum, one_of; cbn [existsb]. rewrite orb_false_r.
    destruct (String.eqb_spec a "?"); [subst; apply changes_nil|].
    destruct (String.eqb_spec a "off"); [subst; apply changes_flag|]. destruct (String.eqb_spec a "none"); [subst; apply changes_flag|]. cbn [orb].
    destruct (String.eqb_spec a "crc32"); [subst; apply changes_flag|]. destruct (String.eqb_spec a "md5"); [subst; apply changes_flag|].
    destruct (String.eqb_spec a "sha1"); [subst; apply changes_flag|]. no_choice. apply changes_nil.
  - destruct rest as [|a [|? [|]]]; [apply changes_nil| |apply changes_nil..]. unfold cmd_descriptor.
    destruct (String.eqb_spec a "?"); [subst; apply changes_nil|].
    destruct (String.eqb_spec a "auto"); [subst; apply changes_flag|]. destruct (String.eqb_spec a "d16"); [subst; apply changes_flag|].
    destruct (String.eqb_spec a "d32"); [subst; apply changes_flag|]. destruct (String.eqb_spec a "d64"); [subst; apply changes_flag|].
    destruct (String.eqb_spec a "d128"); [subst; apply changes_nil|]. no_choice. apply changes_nil.
  - destruct rest as [|a [|? [|]]]; [apply changes_nil| |apply changes_nil..]. unfold cmd_freespace.
    destruct (String.eqb_spec a "?"); [subst; apply changes_nil|].
    destruct (String.eqb_spec a "yes"); [subst; apply changes_flag|]. destruct (String.eqb_spec a "no"); [subst; apply changes_flag|].
    no_choice. apply changes_nil.
  - destruct rest as [|a [|? [|]]]; [apply changes_nil| |apply changes_nil..]. unfold cmd_interval, ordered.
    change (String.eqb "interval" "bcount") with false. change (String.eqb "interval" "interval") with true. cbv iota. unfold positive.
    destruct (String.eqb_spec a "?"); [subst; apply changes_nil|].
    destruct (String.eqb_spec a "off"); [subst; apply (changes_interval c 0); lia|].
    destruct (atoi a); [|apply changes_nil]. destruct (Z.leb_spec 0 z); cbn [fst]; auto with changes.
  - destruct rest as [|a [|? [|]]]; [apply changes_nil| |apply changes_nil..]. unfold cmd_reqtstamp.
    destruct (String.eqb_spec a "?"); [subst; apply changes_nil|].
    destruct (String.eqb_spec a "yes"); [subst; apply changes_flag|]. destruct (String.eqb_spec a "no"); [subst; apply changes_flag|].
    no_choice. apply changes_nil.
  - destruct rest as [|a [|? [|]]]; [apply changes_nil| |apply changes_nil..]. unfold cmd_rxwilling.
    destruct (String.eqb_spec a "?"); [subst; apply changes_nil|].
    destruct (String.eqb_spec a "on"); [subst; apply changes_flag|]. destruct (String.eqb_spec a "off"); [subst; apply changes_flag|].
    destruct (String.eqb_spec a "capable"); [subst; apply changes_flag|]. no_choice. apply changes_nil.
  - destruct rest as [|a [|? [|]]]; [apply changes_nil| |apply changes_nil..]. unfold cmd_stream.
    destruct (String.eqb_spec a "?"); [subst; apply changes_nil|].
    destruct (String.eqb_spec a "yes"); [subst; apply changes_flag|]. destruct (String.eqb_spec a "no"); [subst; apply changes_flag|].
    no_choice. apply changes_nil.
  - destruct rest as [|a [|v [|]]]; [| | |apply changes_nil]; unfold cmd_timeout, ordered;
      change (String.eqb "timeout" "bcount") with false; change (String.eqb "timeout" "interval") with false;
      change (String.eqb "timeout" "timeout") with true; cbv iota zeta; unfold positive.
    + destruct (to_datacounter (cl_timeout c) =? 0)%Z; cbn [fst]; auto with changes.
    + destruct (String.eqb_spec a "?"); [subst; apply changes_nil|].
      destruct (String.eqb_spec a "request"); [subst; apply changes_nil|]. destruct (String.eqb_spec a "metadata"); [subst; apply changes_nil|].
      destruct (String.eqb_spec a "status"); [subst; apply changes_nil|].
      destruct (String.eqb_spec a "datacounter"); [destruct (to_datacounter (cl_timeout c) =? 0)%Z; cbn [fst]; auto with changes|].
      destruct (String.eqb_spec a "transfer"); apply changes_nil.
    + unfold one_of, timer_names. cbn [existsb]. set (m := match atoi v with Some n => if (0 <=? n)%Z then Some n else None | None => None end).
      clearbody m. destruct m as [q|].
      * destruct (String.eqb_spec a "metadata"); [subst; apply changes_metadata|]. destruct (String.eqb_spec a "request"); [subst; apply changes_request|].
        destruct (String.eqb_spec a "status"); [subst; apply changes_status|].
        destruct (String.eqb_spec a "datacounter"); [subst; cbn [orb andb]; destruct (Z.eqb_spec q 0); cbn [fst]; apply changes_counter|].
        destruct (String.eqb_spec a "transfer"); [subst; apply changes_transfer|]. apply changes_nil.
      * destruct (String.eqb v "off").
        -- destruct (String.eqb_spec a "metadata"); [subst; apply changes_metadata|]. destruct (String.eqb_spec a "request"); [subst; apply changes_request|].
           destruct (String.eqb_spec a "status"); [subst; apply changes_status|]. destruct (String.eqb_spec a "datacounter"); [subst; apply changes_counter|].
           destruct (String.eqb_spec a "transfer"); [subst; apply changes_transfer|]. apply changes_nil.
        -- destruct (_ || _); apply changes_nil.
  - destruct rest as [|a [|? [|]]]; [apply changes_nil| |apply changes_nil..]. unfold cmd_timestamp.
    destruct (String.eqb_spec a "?"); [subst; apply changes_nil|].
    destruct (String.eqb_spec a "off"); [subst; apply changes_flag|]. destruct (String.eqb_spec a "32"); [subst; apply changes_stamp|].
    destruct (String.eqb_spec a "32_32"); [subst; apply changes_stamp|]. destruct (String.eqb_spec a "64"); [subst; apply changes_stamp|].
    destruct (String.eqb_spec a "64_32"); [subst; apply changes_stamp|]. destruct (String.eqb_spec a "32_y2k"); [subst; apply changes_stamp|].
    destruct (String.eqb_spec a "local"); [subst; apply changes_stamp|]. no_choice. apply changes_nil.
  - destruct rest as [|a [|? [|]]]; [apply changes_nil| |apply changes_nil..]. unfold cmd_timezone.
    destruct (String.eqb_spec a "?"); [subst; apply changes_nil|].
    destruct (String.eqb_spec a "local"); [subst; apply changes_zone|]. destruct (String.eqb_spec a "utc"); [subst; apply changes_zone|].
    no_choice. apply changes_nil.
  - destruct rest as [|a [|? [|]]]; [apply changes_nil| |apply changes_nil..]. unfold cmd_txwilling.
    destruct (String.eqb_spec a "?"); [subst; apply changes_nil|].
    destruct (String.eqb_spec a "on"); [subst; apply changes_flag|]. destruct (String.eqb_spec a "off"); [subst; apply changes_flag|].
    destruct (String.eqb_spec a "capable"); [subst; apply changes_flag|]. no_choice. apply changes_nil.
Qed.
