(** * Facts about reading a configuration file *)

From Verif Require Import GoBase GoFacts Flags SpecFlags FlagsFacts FlagStrFacts Config Shipped ConfigFacts SpecConfig.
Local Open Scope string_scope.
Local Open Scope N_scope.

(** ** Loops over members *)

(** What one member does to an aspect [P] of the state, if the others leave it alone *)
Lemma ofold_member : forall {S A} (step : S -> string * json -> outcome S) (P : S -> A) k (R : json -> A -> A -> Prop),
  (forall s e s', step s e = Ret s' -> fst e <> k -> P s' = P s) ->
  (forall s v s', step s (k, v) = Ret s' -> R v (P s) (P s')) ->
  forall l s s', NoDup (keys l) -> ofold step s l = Ret s' ->
  match lookup k l with Some v => R v (P s) (P s') | None => P s' = P s end.
Proof.
  intros S A step P k R O M. induction l as [|(a, v) l IH]; intros s s' ND H; cbn in *.
  - congruence.
  - inversion ND as [|? ? NI ND']; subst. destruct (step s (a, v)) as [s1| |] eqn:E; cbn [obind] in H; try discriminate.
    specialize (IH s1 s' ND' H). destruct (String.eqb_spec k a) as [->|N].
    + destruct (lookup a l) eqn:L; [exfalso; apply NI; apply lookup_In in L; apply in_map_iff; eexists; split; [|eauto]; reflexivity|].
      rewrite IH. apply (M _ _ _ E).
    + assert (X : P s1 = P s) by (eapply O; eauto; cbn; congruence). rewrite X in IH. exact IH.
Qed.
(** A loop succeeds exactly if each step does, whatever the state *)
Lemma ofold_shape : forall {S A} (step : S -> A -> outcome S) (Q : A -> Prop),
  (forall s a, (exists s', step s a = Ret s') <-> Q a) -> (forall s a, step s a <> Fatal) ->
  forall l s, ((exists s', ofold step s l = Ret s') <-> forall a, In a l -> Q a) /\ ofold step s l <> Fatal.
Proof.
  intros S A step Q H F. induction l as [|a l IH]; intros s; cbn.
  - split; [split; [intros _ a []|eauto]|discriminate].
  - destruct (step s a) as [s1| |] eqn:E; cbn [obind].
    + destruct (IH s1) as (I & NF). split; [|exact NF]. rewrite I. split.
      * intros X b [<-|B]; auto. apply (H s). eauto.
      * intros X b B. apply X. auto.
    + split; [|discriminate]. split; [intros (? & ?); discriminate|]. intros X. destruct (proj2 (H s a) (X a (or_introl eq_refl))) as (s' & Y). congruence.
    + exfalso. eapply F; eauto.
Qed.

Lemma one_of_iff : forall a l, one_of a l = true <-> In a l.
Proof.
  intros a l. unfold one_of. rewrite existsb_exists. split.
  - intros (x & I & E). apply String.eqb_eq in E. now subst.
  - intros I. exists a. split; auto. apply String.eqb_refl.
Qed.

(** ** The parts *)

Definition good {S} (Q : Prop) (m : outcome S) : Prop := ((exists s, m = Ret s) <-> Q) /\ m <> Fatal.
Lemma good_bind : forall {A B} (m : outcome A) (k : A -> outcome B) (P Q : Prop),
  good P m -> (forall a, m = Ret a -> good Q (k a)) -> (Q -> P) -> (~ P -> ~ Q) -> good Q (obind m k).
Proof.
  intros A B m k P Q (G & F) K I N. destruct m as [a| |]; cbn [obind].
  - apply K. reflexivity.
  - split; [|discriminate]. split; [intros (? & ?); discriminate|]. intros q. apply I, G in q. destruct q; discriminate.
  - congruence.
Qed.
Lemma good_ret : forall {A} (a : A) (Q : Prop), Q -> good Q (Ret a).
Proof. intros A a Q q. split; [split; eauto|discriminate]. Qed.
Lemma good_string : forall j, good (is_text j) (as_string j).
Proof. intros j. unfold is_text. split; destruct j; cbn; try discriminate; split; intros (? & ?); try discriminate; eauto. Qed.
Lemma good_num : forall j, good (is_num j) (as_num j).
Proof. intros j. unfold is_num. split; destruct j; cbn; try discriminate; split; intros (? & ?); try discriminate; eauto. Qed.
Lemma good_seq : forall {A B} (m : outcome A) (k : A -> outcome B) (P : Prop), good P m -> (forall a, exists b, k a = Ret b) -> good P (obind m k).
Proof.
  intros A B m k P (G & F) K. destruct m as [a| |]; cbn [obind].
  - destruct (K a) as (b & ->). split; [|discriminate]. rewrite <- G. split; eauto.
  - split; [|discriminate]. rewrite <- G. split; intros (? & ?); discriminate.
  - congruence.
Qed.
Lemma good_obj : forall {S} (step : S -> string * json -> outcome S) (Q : string -> json -> Prop) j s,
  (forall s k v, good (Q k v) (step s (k, v))) -> good (object_of Q j) (do o <- as_obj j; ofold step s o).
Proof.
  intros S step Q j s H. destruct j as [| | | | |l].
  1-5: split; [split; [intros (? & ?); discriminate|intros (l9 & X & _); discriminate]|discriminate].
  cbn [as_obj obind]. destruct (ofold_shape step (fun e => Q (fst e) (snd e))) with (l := l) (s := s) as (I & F).
  - intros s0 (k, v). apply H.
  - intros s0 (k, v). apply H.
  - split; [|exact F]. rewrite I. unfold object_of. split.
    + intros X. exists l. split; auto. intros k v J. exact (X _ J).
    + intros (l' & E & X) (k, v) J. inversion E; subst. apply X. exact J.
Qed.
Lemma good_arr : forall {S} (step : S -> json -> outcome S) (Q : json -> Prop) j s,
  (forall s v, good (Q v) (step s v)) -> good (list_of Q j) (do o <- as_arr j; ofold step s o).
Proof.
  intros S step Q j s H. destruct j as [| | | |l|].
  1-4,6: split; [split; [intros (? & ?); discriminate|intros (l9 & X & _); discriminate]|discriminate].
  cbn [as_arr obind]. destruct (ofold_shape step Q) with (l := l) (s := s) as (I & F).
  - intros s0 v. apply H.
  - intros s0 v. apply H.
  - split; [|exact F]. rewrite I. unfold list_of. split.
    + intros X. exists l. split; auto.
    + intros (l' & E & X). inversion E; subst. exact X.
Qed.
Lemma good_iff : forall {A} (m : outcome A) (P Q : Prop), (P <-> Q) -> good P m -> good Q m.
Proof. intros A m P Q I (G & F). split; auto. rewrite <- I. exact G. Qed.
Lemma good_assoc : forall {A B C} (m : outcome A) (f : A -> outcome B) (g : B -> outcome C) Q,
  good Q (obind (obind m f) g) -> good Q (do a <- m; do b <- f a; g b).
Proof. intros A B C m f g Q H. destruct m; exact H. Qed.
(* a test on the name of a member *)
Ltac names k := repeat match goal with |- context [String.eqb k ?b] => destruct (String.eqb_spec k b) as [->|?] end.
Ltac named := unfold if_named; cbn; intuition (try discriminate; try congruence; auto).

Lemma good_timer : forall t k v, good (if_named timers is_num k v) (read_timer t (k, v)).
Proof.
  intros [m r s x b d] k v. unfold read_timer, timers. names k.
  7: apply good_ret; named.
  all: apply (good_iff _ (is_num v)); [named|apply good_seq; [apply good_num|eauto]].
Qed.
Lemma good_cmd_item : forall c k v, good (if_named ["help"; "usage"] is_text k v) (read_cmd_item c (k, v)).
Proof.
  intros c k v. unfold read_cmd_item. names k.
  3: apply good_ret; named.
  all: apply (good_iff _ (is_text v)); [named|apply good_seq; [apply good_string|eauto]].
Qed.
Lemma good_cmd : forall m k v, good (command_shape v) (read_cmd m (k, v)).
Proof.
  intros m k v. unfold read_cmd. cbn [snd fst]. apply good_assoc. apply good_seq; [|eauto]. apply good_obj. apply good_cmd_item.
Qed.
Lemma good_frameflag : forall m k v, good (list_of is_text v) (read_frameflag m (k, v)).
Proof.
  intros m k v. unfold read_frameflag. cbn [snd fst]. apply good_arr. intros s j. apply good_seq; [apply good_string|eauto].
Qed.
Lemma good_options : forall w j, good (object_of (fun _ => is_num) j) (read_options w j).
Proof. intros w j. unfold read_options. apply good_obj. intros s k v. apply good_seq; [apply good_num|eauto]. Qed.
Lemma good_flag_item : forall f k v,
  good ((if_named ["len"; "msb"] is_num k v /\ if_named ["options"] (object_of (fun _ => is_num)) k v) /\ if_named ["frametypes"] (list_of is_text) k v)
    (read_flag_item f (k, v)).
Proof.
  intros f k v. unfold read_flag_item. names k.
  - apply (good_iff _ (list_of is_text v)); [named|]. apply good_assoc. apply good_seq; [|eauto]. apply good_arr. intros s j. apply good_seq; [apply good_string|eauto].
  - apply (good_iff _ (is_num v)); [named|apply good_seq; [apply good_num|eauto]].
  - apply (good_iff _ (is_num v)); [named|apply good_seq; [apply good_num|eauto]].
  - apply (good_iff _ (object_of (fun _ => is_num) v)); [named|apply good_seq; [apply good_options|eauto]].
  - apply good_ret; named.
Qed.
Lemma object_and : forall P Q j, object_of (fun k v => P k v /\ Q k v) j <-> object_of P j /\ object_of Q j.
Proof.
  intros P Q j. split.
  - intros (l & -> & H). split; exists l; (split; [reflexivity|]); intros k v I; apply H in I; apply I.
  - intros ((l & -> & H) & (l' & E & H')). inversion E; subst. exists l'. split; auto.
Qed.
Lemma good_flag : forall m k v, good (flag_shape v) (read_flag m (k, v)).
Proof.
  intros m k v. unfold read_flag. cbn [snd fst]. apply good_assoc. apply good_seq; [|eauto]. unfold flag_shape, small_flag_shape.
  eapply good_iff; [apply object_and|]. apply good_obj. apply good_flag_item.
Qed.
Lemma good_small_item : forall w f k v,
  good (if_named ["len"; "msb"] is_num k v /\ if_named ["options"] (object_of (fun _ => is_num)) k v) (read_small_item w f (k, v)).
Proof.
  intros w f k v. unfold read_small_item. names k.
  - apply (good_iff _ (is_num v)); [named|apply good_seq; [apply good_num|eauto]].
  - apply (good_iff _ (is_num v)); [named|apply good_seq; [apply good_num|eauto]].
  - apply (good_iff _ (object_of (fun _ => is_num) v)); [named|apply good_seq; [apply good_options|eauto]].
  - apply good_ret; named.
Qed.
Lemma good_dflag : forall m k v, good (small_flag_shape v) (read_dflag m (k, v)).
Proof. intros m k v. unfold read_dflag. cbn [snd fst]. apply good_assoc. apply good_seq; [|eauto]. apply good_obj. apply good_small_item. Qed.

Lemma good_key : forall c k v, good
   (if_named settings_texts is_text k v /\ if_named settings_numbers is_num k v /\
    if_named ["timeout"] (object_of (if_named timers is_num)) k v /\
    if_named ["commands"] (object_of (fun _ => command_shape)) k v /\
    if_named ["frameflags"] (object_of (fun _ => list_of is_text)) k v /\
    if_named ["flags"] (object_of (fun _ => flag_shape)) k v /\
    if_named ["direntflags"] (object_of (fun _ => small_flag_shape)) k v /\
    if_named ["timestamps"] small_flag_shape k v) (read_key c (k, v)).
Proof.
  intros c k v. unfold read_key.
  destruct (one_of k string_keys) eqn:O1.
  { apply one_of_iff in O1. apply (good_iff _ (is_text v)); [|apply good_seq; [apply good_string|eauto]].
    change string_keys with settings_texts in O1. split; [|intros (X & _); apply X; auto]. intros H. split; [intros _; exact H|].
    cbn in O1. unfold if_named. repeat split; intros I; exfalso; cbn in I; repeat destruct I as [<-|I]; repeat destruct O1 as [O1|O1]; try discriminate; auto. }
  destruct (one_of k num_keys) eqn:O2.
  { apply one_of_iff in O2. apply (good_iff _ (is_num v)); [|apply good_seq; [apply good_num|eauto]].
    change num_keys with settings_numbers in O2. split; [|intros (_ & X & _); apply X; auto]. intros H.
    cbn in O2. unfold if_named. repeat split; intros I; auto; exfalso; cbn in I; repeat destruct I as [<-|I]; repeat destruct O2 as [O2|O2]; try discriminate; auto. }
  assert (N1 : ~ In k settings_texts) by (intros I; change settings_texts with string_keys in I; apply one_of_iff in I; congruence).
  assert (N2 : ~ In k settings_numbers) by (intros I; change settings_numbers with num_keys in I; apply one_of_iff in I; congruence).
  names k.
  - apply (good_iff _ (object_of (if_named timers is_num) v)); [clear; named|]. apply good_assoc, good_seq; [|eauto]. apply good_obj, good_timer.
  - apply (good_iff _ (object_of (fun _ => command_shape) v)); [clear; named|]. apply good_assoc, good_seq; [|eauto]. apply good_obj, good_cmd.
  - apply (good_iff _ (object_of (fun _ => list_of is_text) v)); [clear; named|]. apply good_assoc, good_seq; [|eauto]. apply good_obj, good_frameflag.
  - apply (good_iff _ (object_of (fun _ => flag_shape) v)); [clear; named|]. apply good_assoc, good_seq; [|eauto]. apply good_obj, good_flag.
  - apply (good_iff _ (object_of (fun _ => small_flag_shape) v)); [clear; named|]. apply good_assoc, good_seq; [|eauto]. apply good_obj, good_dflag.
  - apply (good_iff _ (small_flag_shape v)); [clear; named|]. apply good_assoc, good_seq; [|eauto]. apply good_obj, good_small_item.
  - apply good_ret. unfold if_named. repeat split; intros I; try contradiction; cbn in I; intuition congruence.
Qed.

