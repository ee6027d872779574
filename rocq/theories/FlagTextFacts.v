(** * Facts about texts of flags *)

From Verif Require Import GoBase GoFacts Flags SpecFlags FlagsFacts Config Shipped ConfigFacts SpecWire SarFacts Timestamp SpecTime TimeMain FlagStrFacts Data SpecFrames FrameFacts BuildFacts SpecFlagText.
Local Open Scope string_scope.
Local Open Scope N_scope.

(** ** Cutting and joining *)
Lemma split_parts : forall c s it, In it (split_on c s) -> ~ In c (bytes_of it).
Proof.
  intros c. induction s as [|a s IH]; intros it I.
  - cbn in I. destruct I as [<-|[]]. auto.
  - cbn [split_on] in I. destruct (Ascii.eqb_spec a c) as [->|N].
    + destruct I as [<-|I]; [auto|]. apply IH; exact I.
    + destruct (split_on c s) as [|h t] eqn:E.
      * destruct I as [<-|[]]. cbn. intros [X|[]]; auto.
      * destruct I as [<-|I]; [|apply IH; right; exact I].
        cbn [bytes_of In]. intros [X|X]; [auto|]. revert X. apply IH. left; reflexivity.
Qed.
Lemma concat_cons : forall c a b l, String.concat c (a :: b :: l) = a ++ c ++ String.concat c (b :: l).
Proof. reflexivity. Qed.
Lemma concat_split : forall c s, String.concat (String c "") (split_on c s) = s.
Proof.
  intros c. induction s as [|a s IH]; [reflexivity|].
  cbn [split_on]. destruct (Ascii.eqb_spec a c) as [->|N].
  - pose proof (split_on_nil c s). destruct (split_on c s) as [|h t]; [congruence|].
    rewrite concat_cons, IH. reflexivity.
  - pose proof (split_on_nil c s). destruct (split_on c s) as [|h t]; [congruence|].
    destruct t as [|x t]; [cbn in IH |- *; rewrite IH; reflexivity|].
    rewrite concat_cons in IH |- *. rewrite <- IH. reflexivity.
Qed.
Lemma split_concat : forall c l, l <> [] -> (forall it, In it l -> ~ In c (bytes_of it)) ->
  split_on c (String.concat (String c "") l) = l.
Proof.
  intros c. induction l as [|a l IH]; intros NE H; [congruence|].
  destruct l as [|b l].
  - cbn [String.concat]. apply split_on_none. apply H; left; reflexivity.
  - rewrite concat_cons. change (String c "" ++ String.concat (String c "") (b :: l))
      with (String c (String.concat (String c "") (b :: l))).
    rewrite split_on_app by (apply H; left; reflexivity). f_equal.
    apply IH; [discriminate|]. intros it I; apply H; right; exact I.
Qed.

(** ** One item *)
Definition read_item (it : string) : string * option string :=
  match split_on "=" it with
  | n :: v :: _ => (n, Some v)
  | n :: [] => (n, None)
  | [] => ("", None)
  end.
Lemma item_says_read : forall it, item_says it (read_item it).
Proof.
  intros it. unfold read_item. pose proof (split_parts "=" it) as P. pose proof (concat_split "=" it) as C.
  destruct (split_on "=" it) as [|n l] eqn:E; [exfalso; eapply split_on_nil; eauto|].
  destruct l as [|v l].
  - cbn in C. subst. apply says_name. apply P; left; reflexivity.
  - destruct l as [|r l].
    + cbn in C. subst it. apply says_value; apply P; [left|right; left]; reflexivity.
    + rewrite !concat_cons in C. subst it. apply says_more; apply P; [left|right; left]; reflexivity.
Qed.
Lemma item_says_iff : forall it p, item_says it p <-> p = read_item it.
Proof.
  intros it p. split; [|intros ->; apply item_says_read].
  intros H. unfold read_item. destruct H as [n A|n v A B|n v rest A B].
  - rewrite split_on_none by exact A. reflexivity.
  - change ("=" ++ v) with (String "=" v). rewrite split_on_app by exact A. rewrite split_on_none by exact B. reflexivity.
  - change ("=" ++ v ++ "=" ++ rest) with (String "=" (v ++ String "=" rest)).
    rewrite split_on_app by exact A. rewrite split_on_app by exact B. reflexivity.
Qed.
(** ... as the loops see it *)
Lemma read_item_split : forall it n ov, (n, ov) = read_item it ->
  exists r, split_on "=" it = n :: match ov with Some v => v :: r | None => [] end.
Proof.
  intros it n ov H. unfold read_item in H. pose proof (split_on_nil "=" it).
  destruct (split_on "=" it) as [|a [|b r]]; [congruence| |]; inversion H; subst; [exists []|exists r]; reflexivity.
Qed.

(** ** A text *)
Lemma text_says_iff : forall s l, text_says s l <-> l = map read_item (split_on "," s).
Proof.
  intros s l. split.
  - intros (items & NE & P & -> & F). rewrite (split_concat "," items NE P). clear NE P.
    induction F as [|it p items l A F IH]; [reflexivity|]. cbn [map]. apply item_says_iff in A. congruence.
  - intros ->. exists (split_on "," s). split; [apply split_on_nil|]. split; [intros it I; exact (split_parts "," s it I)|].
    split; [symmetry; exact (concat_split "," s)|].
    induction (split_on "," s) as [|it r IH]; [constructor|]. constructor; [apply item_says_read|exact IH].
Qed.
Lemma filter_spaces : forall s, bytes_of (remove_spaces s) = filter (fun c => negb (Ascii.eqb c " ")) (bytes_of s).
Proof.
  induction s as [|a s IH]; [reflexivity|]. change (bytes_of (String a s)) with (a :: bytes_of s).
  cbn [remove_spaces filter].
  destruct (Ascii.eqb a " "); cbn [negb]; [exact IH|].
  change (bytes_of (String a (remove_spaces s))) with (a :: bytes_of (remove_spaces s)). f_equal; exact IH.
Qed.
Lemma blank_text_iff : forall s l, blank_text_says s l <-> l = map read_item (split_on "," (remove_spaces s)).
Proof.
  intros s l. split.
  - intros (t & E & H). rewrite <- filter_spaces in E. apply (f_equal string_of) in E. rewrite !string_of_bytes_of in E.
    subst t. apply text_says_iff; exact H.
  - intros H. exists (remove_spaces s). split; [apply filter_spaces|apply text_says_iff; exact H].
Qed.

(** Names and values in it are clean *)
Lemma no_spaces_left : forall s, ~ In " "%char (bytes_of (remove_spaces s)).
Proof. intros s I. rewrite filter_spaces in I. apply filter_In in I. destruct I as [_ I]. discriminate I. Qed.
Lemma split_incl : forall c s it x, In it (split_on c s) -> In x (bytes_of it) -> In x (bytes_of s).
Proof.
  intros c. induction s as [|a s IH]; intros it x I X.
  - cbn in I. destruct I as [<-|[]]. exact X.
  - cbn [split_on] in I. change (bytes_of (String a s)) with (a :: bytes_of s). cbn [In]. destruct (Ascii.eqb_spec a c) as [->|N].
    + destruct I as [<-|I]; [destruct X|]. right. eapply IH; eauto.
    + destruct (split_on c s) as [|h t] eqn:E.
      * exfalso. eapply split_on_nil; eauto.
      * destruct I as [<-|I]; [|right; eapply IH; [right; exact I|exact X]].
        change (bytes_of (String a h)) with (a :: bytes_of h) in X. cbn [In] in X. destruct X as [X|X]; [auto|]. right. eapply IH; [left; reflexivity|exact X].
Qed.
Lemma clean_empty : clean "". Proof. repeat split; intros []. Qed.
Lemma settings_clean : forall s, clean_items (settings_in (map read_item (split_on "," (remove_spaces s)))).
Proof.
  intros s p I. unfold settings_in in I. rewrite map_map in I. apply in_map_iff in I. destruct I as (it & <- & I).
  assert (K : forall part, In part (split_on "=" it) -> clean part).
  { intros part P. repeat split; intro X.
    - revert X. apply (fun X => split_parts "," (remove_spaces s) it I (split_incl "=" it part "," P X)).
    - exact (split_parts "=" it part P X).
    - exact (no_spaces_left s (split_incl "," _ it " " I (split_incl "=" it part " " P X))). }
  unfold read_item. destruct (split_on "=" it) as [|n [|v r]]; cbn [fst snd];
    (split; [|try apply clean_empty]); try apply clean_empty; apply K; cbn; auto.
Qed.
Lemma settings_nonempty : forall s, settings_in (map read_item (split_on "," s)) <> [].
Proof. intros s. unfold settings_in. pose proof (split_on_nil "," s). destruct (split_on "," s); [congruence|discriminate]. Qed.
Lemma split_settings : forall s,
  split_on "," (remove_spaces (flag_list (settings_in (map read_item (split_on "," (remove_spaces s)))))) =
  map item_text (settings_in (map read_item (split_on "," (remove_spaces s)))).
Proof. intros s. apply split_flags; [apply settings_nonempty|apply settings_clean]. Qed.

(** ** The loops of the constructors *)
Section Loop.
  Variables (St : Type) (loop : list string -> St -> outcome (St * error)).
  Variable body : string -> option string -> St -> outcome (St * error).
  Variables (iv : string * string -> verdict) (bare : string -> verdict).
  Hypothesis loop_nil : forall d, loop [] d = Ret (d, None).
  Hypothesis loop_cons : forall it n ov rest d, (n, ov) = read_item it ->
    loop (it :: rest) d = ebind (body n ov d) (fun d => loop rest d).
  Hypothesis setting_ok : forall n v d, verdict_of (body n (Some v) d) = iv (n, v).
  Hypothesis bare_ok : forall n d, verdict_of (body n None d) = bare n.
  Hypothesis bare_same : forall n d, bare n = Accept -> body n None d = body n (Some "") d.

  Lemma said_loop : forall items d,
    verdict_of (loop items d) = first_bad (map (said_verdict iv bare) (map read_item items)).
  Proof.
    induction items as [|it r IH]; intros d; [rewrite loop_nil; reflexivity|].
    destruct (read_item it) as [n ov] eqn:R. symmetry in R. rewrite (loop_cons it n ov r d R).
    cbn [map first_bad]. rewrite <- R.
    assert (V : verdict_of (body n ov d) = said_verdict iv bare (n, ov)).
    { unfold said_verdict; cbn [fst snd]. destruct ov; [apply setting_ok|apply bare_ok]. }
    rewrite <- V. destruct (body n ov d) as [[d' [e|]]| |]; cbn [ebind obind verdict_of]; auto.
  Qed.
  Lemma said_same : forall items d, clean_items (settings_in (map read_item items)) ->
    first_bad (map (said_verdict iv bare) (map read_item items)) = Accept ->
    loop items d = loop (map item_text (settings_in (map read_item items))) d.
  Proof.
    induction items as [|it r IH]; intros d C A; [reflexivity|].
    destruct (read_item it) as [n ov] eqn:R. symmetry in R. cbn [map settings_in] in *. rewrite <- R in *.
    cbn [first_bad fst snd] in *.
    assert (Ca : clean n /\ clean (match ov with Some v => v | None => "" end))
      by exact (C _ (or_introl eq_refl)).
    rewrite (loop_cons it n ov r d R).
    rewrite (loop_cons (item_text (n, match ov with Some v => v | None => "" end)) n (Some (match ov with Some v => v | None => "" end)) _ d).
    2:{ unfold read_item. rewrite split_item by apply Ca. reflexivity. }
    assert (V : said_verdict iv bare (n, ov) = Accept) by (destruct (said_verdict iv bare (n, ov)); auto; discriminate A).
    assert (B : body n ov d = body n (Some (match ov with Some v => v | None => "" end)) d).
    { destruct ov; [reflexivity|]. apply bare_same. exact V. }
    rewrite B. rewrite V in A. clear B. destruct (body n (Some _) d) as [[d' [e|]]| |]; cbn [ebind obind]; auto.
    exact (IH d' (fun p P => C p (or_intror P)) A).
  Qed.
End Loop.
