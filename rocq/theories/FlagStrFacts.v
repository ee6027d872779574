(** * Facts about flag-list strings, global flags and the configuration *)

From Verif Require Import GoBase GoFacts Flags SpecFlags FlagsFacts Config.
Local Open Scope string_scope.
Local Open Scope N_scope.

(** ** Splitting *)
Lemma split_on_nil : forall c s, split_on c s <> [].
Proof. destruct s; simpl; [discriminate|]. destruct (Ascii.eqb a c); [discriminate|]. destruct (split_on c s); discriminate. Qed.

Lemma split_on_none : forall c s, ~ In c (bytes_of s) -> split_on c s = [s].
Proof.
  induction s; simpl; intros; auto.
  destruct (Ascii.eqb_spec a c); [subst; exfalso; auto|].
  rewrite IHs by auto. reflexivity.
Qed.

Lemma split_on_app : forall c s t, ~ In c (bytes_of s) ->
  split_on c (s ++ String c t) = s :: split_on c t.
Proof.
  induction s; simpl; intros.
  - rewrite Ascii.eqb_refl. reflexivity.
  - destruct (Ascii.eqb_spec a c); [subst; exfalso; auto|].
    rewrite IHs by auto. reflexivity.
Qed.

Lemma remove_spaces_clean : forall s, ~ In " "%char (bytes_of s) -> remove_spaces s = s.
Proof.
  induction s; simpl; intros; auto.
  destruct (Ascii.eqb_spec a " "); [subst; exfalso; auto|]. rewrite IHs; auto.
Qed.

Definition item_text (p : string * string) : string := fst p ++ "=" ++ snd p.

Lemma In_bytes_app : forall c s t, In c (bytes_of (s ++ t)) <-> In c (bytes_of s) \/ In c (bytes_of t).
Proof. intros; rewrite bytes_of_app, in_app_iff; tauto. Qed.

Lemma split_item : forall f v, clean f -> clean v -> split_on "=" (item_text (f, v)) = [f; v].
Proof.
  intros f v (A & B & C) (D & E & F). unfold item_text; simpl fst; simpl snd.
  change ("=" ++ v) with (String "=" v). rewrite split_on_app by auto. rewrite split_on_none by auto. reflexivity.
Qed.

Lemma item_no_comma : forall f v, clean f -> clean v -> ~ In ","%char (bytes_of (item_text (f, v))).
Proof.
  intros f v (A & B & C) (D & E & F) H. unfold item_text in H; simpl fst in H; simpl snd in H.
  rewrite !In_bytes_app in H. simpl in H. destruct H as [H|[[H|[]]|H]]; auto; discriminate.
Qed.
Lemma item_no_space : forall f v, clean f -> clean v -> ~ In " "%char (bytes_of (item_text (f, v))).
Proof.
  intros f v (A & B & C) (D & E & F) H. unfold item_text in H; simpl fst in H; simpl snd in H.
  rewrite !In_bytes_app in H. simpl in H. destruct H as [H|[[H|[]]|H]]; auto; discriminate.
Qed.

Definition clean_items (l : list (string * string)) : Prop :=
  forall p, In p l -> clean (fst p) /\ clean (snd p).

Lemma flag_list_cons2 : forall p q l,
  flag_list (p :: q :: l) = item_text p ++ String "," (flag_list (q :: l)).
Proof. reflexivity. Qed.

Lemma split_flag_list : forall l, l <> [] -> clean_items l ->
  split_on "," (flag_list l) = map item_text l.
Proof.
  induction l as [|p l IH]; intros NE C; [congruence|].
  destruct p as [f v]. destruct (C (f, v) (or_introl eq_refl)) as [Cf Cv]. cbn [fst snd] in Cf, Cv.
  destruct l as [|q l].
  - simpl. apply (split_on_none ","). apply (item_no_comma f v); auto.
  - rewrite flag_list_cons2. rewrite split_on_app by (apply item_no_comma; auto).
    rewrite IH; [reflexivity | discriminate | intros r Hr; apply C; right; exact Hr].
Qed.

Lemma flag_list_no_space : forall l, clean_items l -> ~ In " "%char (bytes_of (flag_list l)).
Proof.
  induction l as [|[f v] l IH]; intros C; [simpl; auto|].
  destruct (C (f, v) (or_introl eq_refl)) as [Cf Cv]; cbn [fst snd] in Cf, Cv.
  destruct l as [|q l].
  - apply (item_no_space f v); auto.
  - rewrite flag_list_cons2, In_bytes_app. intros [H|H].
    + apply (item_no_space f v) in H; auto.
    + simpl in H. destruct H as [H|H]; [discriminate|].
      apply IH in H; auto. intros r Hr; apply C; right; exact Hr.
Qed.

Lemma flag_list_nonempty : forall l, l <> [] -> flag_list l <> "".
Proof.
  intros [|[f v] [|q l]] H; [congruence| |].
  - simpl. destruct f; discriminate.
  - rewrite flag_list_cons2. unfold item_text; simpl fst. destruct f; discriminate.
Qed.

Lemma str_app_assoc : forall a b c : string, a ++ (b ++ c) = (a ++ b) ++ c.
Proof. induction a; intros; simpl; [|rewrite IHa]; reflexivity. Qed.
Lemma str_app_nil : forall a : string, a ++ "" = a.
Proof. induction a; simpl; [|rewrite IHa]; reflexivity. Qed.

Lemma flag_list_snoc : forall l p, l <> [] ->
  flag_list (l ++ [p])%list = flag_list l ++ "," ++ item_text p.
Proof.
  induction l as [|q l IH]; intros p H; [congruence|].
  destruct l as [|r l]; [reflexivity|].
  change ((q :: r :: l) ++ [p])%list with (q :: (r :: l) ++ [p])%list.
  assert (E : flag_list (q :: (r :: l) ++ [p])%list = item_text q ++ String "," (flag_list ((r :: l) ++ [p])%list))
    by reflexivity.
  rewrite E, IH by discriminate. rewrite flag_list_cons2.
  change (String "," (flag_list (r :: l) ++ "," ++ item_text p))
    with (String "," (flag_list (r :: l)) ++ "," ++ item_text p).
  rewrite str_app_assoc. reflexivity.
Qed.

(** ** FlagValue *)
Lemma flagvalue_loop_items : forall l g, clean_items l ->
  flagvalue_loop (map item_text l) g = Ret (match lookup g l with Some v => v | None => "" end).
Proof.
  induction l as [|[f v] l IH]; intros g C; [reflexivity|].
  destruct (C (f, v) (or_introl eq_refl)) as [Cf Cv]; cbn [fst snd] in Cf, Cv.
  cbn [map flagvalue_loop]. rewrite split_item by auto. cbn [index nth_error obind lookup].
  rewrite String.eqb_sym. destruct (String.eqb g f); [reflexivity|].
  apply IH. intros r Hr; apply C; right; exact Hr.
Qed.

Lemma flagvalue_spec : forall l g, l <> [] -> clean_items l ->
  sf_flagvalue (flag_list l) g = Ret (match lookup g l with Some v => v | None => "" end).
Proof.
  intros; unfold sf_flagvalue. rewrite remove_spaces_clean by (apply flag_list_no_space; auto).
  rewrite split_flag_list by auto. apply flagvalue_loop_items; auto.
Qed.
Lemma flagvalue_empty : forall g, g <> "" -> sf_flagvalue "" g = Ret "".
Proof.
  intros; unfold sf_flagvalue; simpl. destruct g; [congruence|reflexivity].
Qed.

(** ** AddFlag and ReplaceFlag, for any validity test *)
Section Replace.
  Variable valid : string -> string -> bool.
  Definition add_spec (cur flag option : string) : outcome string :=
    if valid flag option then
      if negb (String.eqb cur "") then Ret (cur ++ "," ++ flag ++ "=" ++ option)
      else Ret (flag ++ "=" ++ option)
    else Fatal.

  Lemma add_items : forall l f v, add_spec (flag_list l) f v =
    if valid f v then Ret (flag_list (l ++ [(f, v)])%list) else Fatal.
  Proof.
    intros; unfold add_spec. destruct (valid f v); auto.
    destruct l as [|p l].
    - reflexivity.
    - rewrite flag_list_snoc by discriminate.
      destruct (String.eqb_spec (flag_list (p :: l)) ""); [exfalso; eapply flag_list_nonempty; eauto; discriminate|].
      reflexivity.
  Qed.

  Definition replaced (f v : string) (l : list (string * string)) : list (string * string) :=
    map (fun p => if String.eqb (fst p) f then (f, v) else p) l.

  Lemma replace_loop_items : forall l acc rep f v,
    clean_items l -> (forall p, In p l -> valid (fst p) (snd p) = true) ->
    replace_loop add_spec (map item_text l) (flag_list acc) rep f v =
      if valid f v || negb (existsb (fun p => String.eqb (fst p) f) l)
      then Ret (flag_list (acc ++ replaced f v l)%list, rep || existsb (fun p => String.eqb (fst p) f) l)
      else Fatal.
  Proof.
    induction l as [|[g w] l IH]; intros acc rep f v C V.
    - simpl. rewrite orb_true_r, app_nil_r, orb_false_r. reflexivity.
    - destruct (C (g, w) (or_introl eq_refl)) as [Cf Cv]; cbn [fst snd] in Cf, Cv.
      assert (C' : clean_items l) by (intros r Hr; apply C; right; exact Hr).
      assert (V' : forall p, In p l -> valid (fst p) (snd p) = true) by (intros r Hr; apply V; right; exact Hr).
      cbn [map replace_loop existsb fst]. rewrite split_item by auto. cbn [index nth_error obind].
      destruct (String.eqb_spec g f).
      + subst g. rewrite add_items. destruct (valid f v) eqn:Ev; cbn [obind orb negb]; [|reflexivity].
        rewrite IH by auto. rewrite Ev. cbn [orb]. rewrite orb_true_r. f_equal. f_equal.
        rewrite <- app_assoc. cbn [replaced map fst]. rewrite String.eqb_refl. reflexivity.
      + rewrite add_items. pose proof (V (g, w) (or_introl eq_refl)) as Vgw; cbn [fst snd] in Vgw. rewrite Vgw.
        cbn [obind orb]. rewrite IH by auto. rewrite <- app_assoc. cbn [replaced map fst app].
        destruct (String.eqb_spec g f); [contradiction|]. reflexivity.
  Qed.

  Definition replace_model (flags value option : string) : outcome string :=
    do ' (nf, r) <- replace_loop add_spec (split_on "," flags) "" false value option;
    if r then Ret nf else add_spec nf value option.

  Definition replace_items (l : list (string * string)) (f v : string) : list (string * string) :=
    if existsb (fun p => String.eqb (fst p) f) l then replaced f v l else (l ++ [(f, v)])%list.

  Lemma replaced_absent : forall l f v, existsb (fun p => String.eqb (fst p) f) l = false -> replaced f v l = l.
  Proof.
    induction l as [|[g w] l IH]; intros f v H; [reflexivity|].
    cbn [existsb fst] in H. apply orb_false_iff in H. destruct H.
    cbn [replaced map fst]. rewrite H. f_equal. apply IH; auto.
  Qed.

  Lemma replace_spec : forall l f v, l <> [] -> clean_items l ->
    (forall p, In p l -> valid (fst p) (snd p) = true) ->
    replace_model (flag_list l) f v =
      if valid f v then Ret (flag_list (replace_items l f v)) else Fatal.
  Proof.
    intros; unfold replace_model. rewrite split_flag_list by auto.
    change "" with (flag_list []). rewrite replace_loop_items by auto. cbn [app].
    unfold replace_items.
    destruct (existsb (fun p => String.eqb (fst p) f) l) eqn:E.
    - rewrite orb_false_r. destruct (valid f v); reflexivity.
    - rewrite orb_true_r. cbn [obind orb]. rewrite add_items. rewrite replaced_absent by auto. reflexivity.
  Qed.

  Lemma replace_items_same : forall l f v, lookup f (replace_items l f v) = Some v.
  Proof.
    intros; unfold replace_items.
    destruct (existsb (fun p => String.eqb (fst p) f) l) eqn:E.
    - induction l as [|[g w] l IH]; [discriminate|].
      cbn [existsb fst] in E. cbn [replaced map fst]. rewrite (String.eqb_sym g f) in *.
      destruct (String.eqb_spec f g).
      + cbn [lookup]. rewrite String.eqb_refl. reflexivity.
      + cbn [orb] in E. cbn [lookup]. destruct (String.eqb_spec f g); [contradiction|]. apply IH; auto.
    - induction l as [|[g w] l IH]; [simpl; rewrite String.eqb_refl; reflexivity|].
      cbn [existsb fst] in E. apply orb_false_iff in E. destruct E as [E1 E2].
      cbn [app lookup]. rewrite String.eqb_sym, E1. apply IH; auto.
  Qed.
  Lemma replace_items_other : forall l f v g, g <> f -> lookup g (replace_items l f v) = lookup g l.
  Proof.
    intros l f v g N; unfold replace_items.
    destruct (existsb (fun p => String.eqb (fst p) f) l).
    - induction l as [|[h w] l IH]; [reflexivity|].
      cbn [replaced map fst]. destruct (String.eqb_spec h f).
      + subst. cbn [lookup]. destruct (String.eqb_spec g f); [contradiction|]. exact IH.
      + cbn [lookup]. destruct (String.eqb g h); [reflexivity|]. exact IH.
    - induction l as [|[h w] l IH]; simpl; [destruct (String.eqb_spec g f); [contradiction|reflexivity]|].
      destruct (String.eqb g h); auto.
  Qed.
  Lemma replace_items_clean : forall l f v, clean f -> clean v -> clean_items l -> clean_items (replace_items l f v).
  Proof.
    intros l f v Cf Cv C p H. unfold replace_items in H.
    destruct (existsb (fun p => String.eqb (fst p) f) l).
    - apply in_map_iff in H. destruct H as (q & E & Hq). destruct (String.eqb (fst q) f); subst; auto.
    - apply in_app_iff in H. destruct H as [H|[H|[]]]; [auto | subst; auto].
  Qed.
  Lemma replace_items_nonempty : forall l f v, replace_items l f v <> [].
  Proof.
    intros l f v; unfold replace_items.
    destruct (existsb (fun p => String.eqb (fst p) f) l) eqn:E.
    - destruct l; [discriminate | unfold replaced; discriminate].
    - destruct l; discriminate.
  Qed.
End Replace.

Lemma sf_valid_iff : forall T f v, sf_valid T f v = true <-> valid_setting T (f, v).
Proof.
  intros; unfold sf_valid, sf_good, valid_setting, option_value, flag_of; cbn [fst snd].
  unfold has_key at 1. destruct (lookup f (t_flags T)) eqn:E.
  - rewrite has_key_lookup. split.
    + intros [n H]. exists n, f0. auto.
    + intros (n & g & H1 & H2). inversion H1; subst. eauto.
  - split; [discriminate|]. intros (n & g & H1 & _); discriminate.
Qed.
Lemma sd_valid_iff : forall T f v, sd_valid T f v = true <-> valid_dsetting T (f, v).
Proof.
  intros; unfold sd_valid, sd_good, valid_dsetting, dflag_of; cbn [fst snd].
  unfold has_key at 1. destruct (lookup f (t_dirent T)) eqn:E.
  - rewrite has_key_lookup. split.
    + intros [n H]. exists f0, n. auto.
    + intros (g & n & H1 & H2). inversion H1; subst. eauto.
  - split; [discriminate|]. intros (g & n & H1 & _); discriminate.
Qed.

Lemma valid_clean_items : forall T l, clean_names T -> (forall p, In p l -> valid_setting T p) -> clean_items l.
Proof. intros T l [C _] V p H; apply C; auto. Qed.
Lemma valid_dclean_items : forall T l, clean_names T -> (forall p, In p l -> valid_dsetting T p) -> clean_items l.
Proof. intros T l [_ C] V p H; apply C; auto. Qed.

Lemma lookup_app : forall {V} g (l m : list (string * V)),
  lookup g (l ++ m)%list = match lookup g l with Some v => Some v | None => lookup g m end.
Proof. induction l as [|[f v] l IH]; intros; simpl; auto. destruct (String.eqb g f); auto. Qed.

Definition value_or_empty (o : option string) : string := match o with Some v => v | None => "" end.

Lemma clean_items_snoc : forall l f v, clean_items l -> clean f -> clean v -> clean_items (l ++ [(f, v)])%list.
Proof. intros l f v C Cf Cv p H. apply in_app_iff in H. destruct H as [H|[H|[]]]; [auto|subst; auto]. Qed.

Lemma flag_strings_map : forall T items f v, clean_names T ->
  (forall p, In p items -> valid_setting T p) -> valid_setting T (f, v) ->
  (items <> [] ->
   exists s, sf_replaceflag T (flag_list items) f v = Ret s /\
     sf_flagvalue s f = Ret v /\
     forall g, g <> f -> sf_flagvalue s g = Ret (value_or_empty (setting_of items g))) /\
  (exists s, sf_addflag T (flag_list items) f v = Ret s /\
     sf_flagvalue s f = Ret (match setting_of items f with Some old => old | None => v end) /\
     forall g, g <> f -> sf_flagvalue s g = Ret (value_or_empty (setting_of items g))).
Proof.
  intros T items f v CN V Vf.
  assert (C : clean_items items) by (eapply valid_clean_items; eauto).
  destruct (proj1 CN (f, v) Vf) as [Cf Cv]; cbn [fst snd] in Cf, Cv.
  assert (Vb : sf_valid T f v = true) by (apply sf_valid_iff; auto).
  assert (V' : forall p, In p items -> sf_valid T (fst p) (snd p) = true).
  { intros p H. apply sf_valid_iff. destruct p; apply V; auto. }
  split.
  - intros NE. exists (flag_list (replace_items items f v)). split; [|split].
    + change (sf_replaceflag T (flag_list items) f v) with (replace_model (sf_valid T) (flag_list items) f v).
      rewrite replace_spec by auto. rewrite Vb. reflexivity.
    + rewrite flagvalue_spec by (auto using replace_items_nonempty, replace_items_clean).
      rewrite replace_items_same. reflexivity.
    + intros g N. rewrite flagvalue_spec by (auto using replace_items_nonempty, replace_items_clean).
      rewrite replace_items_other by auto. reflexivity.
  - exists (flag_list (items ++ [(f, v)])%list). split; [|split].
    + change (sf_addflag T (flag_list items) f v) with (add_spec (sf_valid T) (flag_list items) f v).
      rewrite add_items. rewrite Vb. reflexivity.
    + rewrite flagvalue_spec; [|destruct items; discriminate | apply clean_items_snoc; auto].
      rewrite lookup_app. unfold setting_of. destruct (lookup f items); [reflexivity|].
      simpl. rewrite String.eqb_refl. reflexivity.
    + intros g N. rewrite flagvalue_spec; [|destruct items; discriminate | apply clean_items_snoc; auto].
      rewrite lookup_app. unfold setting_of. destruct (lookup g items); [reflexivity|].
      simpl. destruct (String.eqb_spec g f); [contradiction|reflexivity].
Qed.

Lemma flag_strings_invalid : forall T items f v, clean_names T ->
  (forall p, In p items -> valid_setting T p) -> ~ valid_setting T (f, v) ->
  (items <> [] -> sf_replaceflag T (flag_list items) f v = Fatal) /\
  (forall cur, sf_addflag T cur f v = Fatal).
Proof.
  intros T items f v CN V NV.
  assert (Vb : sf_valid T f v = false).
  { destruct (sf_valid T f v) eqn:E; auto. apply sf_valid_iff in E. contradiction. }
  split.
  - intros NE.
    change (sf_replaceflag T (flag_list items) f v) with (replace_model (sf_valid T) (flag_list items) f v).
    rewrite replace_spec; auto; [rewrite Vb; reflexivity | eapply valid_clean_items; eauto |].
    intros p H. apply sf_valid_iff. destruct p; apply V; auto.
  - intros cur; unfold sf_addflag; rewrite Vb; reflexivity.
Qed.

Lemma flag_strings_lookup : forall T items g, clean_names T ->
  (forall p, In p items -> valid_setting T p) -> items <> [] ->
  sf_flagvalue (flag_list items) g = Ret (value_or_empty (setting_of items g)).
Proof. intros. apply flagvalue_spec; auto. eapply valid_clean_items; eauto. Qed.

(** ReplaceFlag on the empty list indexes past the end of a one-element slice *)
Lemma replace_empty_panics : forall T f v, f <> "" -> sf_replaceflag T "" f v = Panic.
Proof.
  intros; unfold sf_replaceflag; simpl. destruct f; [congruence|]. reflexivity.
Qed.

Lemma dflag_strings_map : forall T items f v, clean_names T ->
  (forall p, In p items -> valid_dsetting T p) -> items <> [] ->
  (valid_dsetting T (f, v) ->
   exists s, sd_replaceflag T (flag_list items) f v = Ret s /\
     sf_flagvalue s f = Ret v /\
     forall g, g <> f -> sf_flagvalue s g = Ret (value_or_empty (setting_of items g))) /\
  (~ valid_dsetting T (f, v) -> sd_replaceflag T (flag_list items) f v = Fatal).
Proof.
  intros T items f v CN V NE.
  assert (C : clean_items items) by (eapply valid_dclean_items; eauto).
  assert (V' : forall p, In p items -> sd_valid T (fst p) (snd p) = true).
  { intros p H. apply sd_valid_iff. destruct p; apply V; auto. }
  assert (E : sd_replaceflag T (flag_list items) f v =
              if sd_valid T f v then Ret (flag_list (replace_items items f v)) else Fatal).
  { change (sd_replaceflag T (flag_list items) f v) with (replace_model (sd_valid T) (flag_list items) f v).
    apply replace_spec; auto. }
  split.
  - intros Vf. destruct (proj2 CN (f, v) Vf) as [Cf Cv]; cbn [fst snd] in Cf, Cv.
    rewrite E. apply sd_valid_iff in Vf. rewrite Vf.
    exists (flag_list (replace_items items f v)). split; [reflexivity|split].
    + rewrite flagvalue_spec by (auto using replace_items_nonempty, replace_items_clean).
      rewrite replace_items_same. reflexivity.
    + intros g N. rewrite flagvalue_spec by (auto using replace_items_nonempty, replace_items_clean).
      rewrite replace_items_other by auto. reflexivity.
  - intros NV. rewrite E. destruct (sd_valid T f v) eqn:Ev; auto. apply sd_valid_iff in Ev; contradiction.
Qed.

(** ** Setglobal *)
Lemma setglobal_inner_eq : forall f g all fs, NoDup (keys g) ->
  setglobal_inner f g all fs =
    match lookup f g with
    | Some _ => fs ++ f ++ "=" ++ value_or_empty (lookup f all) ++ ","
    | None => fs
    end.
Proof.
  intros f g all; induction g as [|[k v] g IH]; intros fs ND; [reflexivity|].
  inversion ND; subst. cbn [setglobal_inner lookup]. rewrite IH by auto. rewrite (String.eqb_sym f k).
  destruct (String.eqb_spec k f).
  - subst. destruct (lookup f g) eqn:E; [|reflexivity].
    exfalso. apply H1. apply lookup_In in E. apply (in_map fst) in E. exact E.
  - reflexivity.
Qed.

(** The settings of [g] for the fields, in the order of the fields *)
Fixpoint projection (fields : list string) (g : list (string * string)) : list (string * string) :=
  match fields with
  | [] => []
  | f :: r => match lookup f g with Some v => (f, v) :: projection r g | None => projection r g end
  end.

Definition comma_terminated (l : list (string * string)) : string :=
  String.concat "" (map (fun p => item_text p ++ ",") l).

Lemma concat_cons : forall (s : string) l, String.concat "" (s :: l) = s ++ String.concat "" l.
Proof. intros s [|t l]; simpl; [rewrite str_app_nil|]; reflexivity. Qed.

Lemma setglobal_fold : forall fields g fs, NoDup (keys g) ->
  fold_left (fun fs f => setglobal_inner f g g fs) fields fs = fs ++ comma_terminated (projection fields g).
Proof.
  induction fields as [|f r IH]; intros g fs ND; cbn [fold_left projection].
  - unfold comma_terminated; simpl. rewrite str_app_nil. reflexivity.
  - rewrite IH by auto. rewrite setglobal_inner_eq by auto.
    destruct (lookup f g) as [v|] eqn:E; [|reflexivity].
    unfold comma_terminated. cbn [map]. rewrite concat_cons. cbn [value_or_empty].
    unfold item_text; cbn [fst snd]. rewrite !str_app_assoc. reflexivity.
Qed.

Lemma trim_right_snoc : forall c s, trim_right c (s ++ String c "") = trim_right c s.
Proof.
  induction s; cbn [append trim_right].
  - rewrite Ascii.eqb_refl. reflexivity.
  - rewrite IHs. reflexivity.
Qed.

Lemma trim_right_none : forall c s, ~ In c (bytes_of s) -> trim_right c s = s.
Proof.
  induction s; intros H; [reflexivity|]. cbn [trim_right].
  simpl in H. rewrite IHs by auto. destruct s; [|reflexivity].
  destruct (Ascii.eqb_spec a c); [subst; exfalso; auto | reflexivity].
Qed.

Lemma trim_right_app : forall c s t, t <> "" -> ~ In c (bytes_of t) -> trim_right c (s ++ t) = s ++ t.
Proof.
  induction s; intros t NE H.
  - apply trim_right_none; auto.
  - cbn [append trim_right]. rewrite IHs by auto. destruct (s ++ t) eqn:E; [|reflexivity].
    exfalso. destruct s; simpl in E; [auto | discriminate].
Qed.

Lemma comma_terminated_eq : forall l, l <> [] -> comma_terminated l = flag_list l ++ ",".
Proof.
  induction l as [|p l IH]; intros H; [congruence|].
  unfold comma_terminated; cbn [map]; rewrite concat_cons. fold (comma_terminated l).
  destruct l as [|q l].
  - unfold comma_terminated; simpl. rewrite str_app_nil. reflexivity.
  - rewrite IH by discriminate. rewrite flag_list_cons2.
    rewrite <- !str_app_assoc. reflexivity.
Qed.

Lemma flag_list_last : forall l, l <> [] -> clean_items l ->
  exists s t, flag_list l = s ++ t /\ t <> "" /\ ~ In ","%char (bytes_of t).
Proof.
  intros l NE C. destruct (exists_last NE) as (l' & [f v] & E). subst l.
  destruct (C (f, v)) as [Cf Cv]; [apply in_app_iff; right; left; reflexivity|]. cbn [fst snd] in Cf, Cv.
  exists (match l' with [] => "" | _ => flag_list l' ++ "," end), (item_text (f, v)).
  split; [|split].
  - destruct l' as [|p l']; [reflexivity|]. rewrite flag_list_snoc by discriminate.
    rewrite str_app_assoc. reflexivity.
  - unfold item_text; simpl fst. destruct f; discriminate.
  - apply item_no_comma; auto.
Qed.

Lemma projection_In : forall fields g p, In p (projection fields g) -> In p g.
Proof.
  induction fields as [|f r IH]; intros g p H; [contradiction|].
  cbn [projection] in H. destruct (lookup f g) eqn:E; [|auto].
  destruct H as [H|H]; [subst; apply lookup_In; auto | auto].
Qed.

Lemma setglobal_spec : forall T ft c, NoDup (keys (cl_global c)) -> clean_items (cl_global c) ->
  sf_setglobal T ft c = flag_list (projection (sf_values T ft) (cl_global c)).
Proof.
  intros T ft c ND C; unfold sf_setglobal. rewrite setglobal_fold by auto. cbn [append].
  set (l := projection (sf_values T ft) (cl_global c)).
  assert (Cl : clean_items l) by (intros p H; apply C; eapply projection_In; eauto).
  destruct l as [|p l'] eqn:E; [reflexivity|].
  rewrite comma_terminated_eq by discriminate. rewrite trim_right_snoc.
  destruct (flag_list_last (p :: l')) as (s & t & E1 & E2 & E3); [discriminate | auto |].
  rewrite E1. apply trim_right_app; auto.
Qed.

Lemma projection_perm : forall fields g g', same_map g g' -> projection fields g' = projection fields g.
Proof.
  induction fields as [|f r IH]; intros g g' P; [reflexivity|].
  cbn [projection]. rewrite (lookup_perm f g g' P), (IH g g' P). reflexivity.
Qed.

Lemma projection_lookup : forall fields g f, NoDup fields ->
  lookup f (projection fields g) = if in_dec String.string_dec f fields then lookup f g else None.
Proof.
  induction fields as [|h r IH]; intros g f ND; [reflexivity|].
  inversion ND; subst. cbn [projection].
  destruct (String.string_dec f h).
  - subst. destruct (lookup h g) eqn:E.
    + cbn [lookup]. rewrite String.eqb_refl. destruct (in_dec String.string_dec h (h :: r)) as [|n]; [reflexivity|].
      exfalso; apply n; left; reflexivity.
    + rewrite IH by auto. destruct (in_dec String.string_dec h r); [contradiction|].
      destruct (in_dec String.string_dec h (h :: r)); reflexivity.
  - assert (E : lookup f (projection (h :: r) g) = lookup f (projection r g)).
    { cbn [projection]. destruct (lookup h g); [|reflexivity]. cbn [lookup].
      destruct (String.eqb_spec f h); [contradiction|reflexivity]. }
    cbn [projection] in E. rewrite E, IH by auto.
    destruct (in_dec String.string_dec f r), (in_dec String.string_dec f (h :: r)); try reflexivity.
    + exfalso; apply n0; right; auto.
    + exfalso. destruct i as [i|i]; [congruence | contradiction].
Qed.
