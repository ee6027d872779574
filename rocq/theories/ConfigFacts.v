(** * Facts about reading the configuration *)

From Verif Require Import GoBase GoFacts Flags SpecFlags FlagsFacts FlagStrFacts Config Shipped.
Local Open Scope string_scope.
Local Open Scope N_scope.

(** ** Order independence of the top-level loop *)
Definition conf_equiv (c d : confst) : Prop :=
  (forall k, lookup k (cs_str c) = lookup k (cs_str d)) /\
  (forall k, lookup k (cs_num c) = lookup k (cs_num d)) /\
  cs_timeout c = cs_timeout d /\ cs_commands c = cs_commands d /\ cs_frameflags c = cs_frameflags d /\
  cs_flags c = cs_flags d /\ cs_dirent c = cs_dirent d /\ cs_tstamps c = cs_tstamps d.

Lemma conf_equiv_refl : forall c, conf_equiv c c.
Proof. intros; repeat split. Qed.
Lemma conf_equiv_trans : forall a b c, conf_equiv a b -> conf_equiv b c -> conf_equiv a c.
Proof.
  unfold conf_equiv; intros a b c (A1&A2&A3&A4&A5&A6&A7&A8) (B1&B2&B3&B4&B5&B6&B7&B8).
  repeat split; intros; congruence.
Qed.

Lemma update_lookup_cong : forall {V} k (v : V) m m' j,
  (forall j, lookup j m = lookup j m') -> lookup j (update k v m) = lookup j (update k v m').
Proof.
  intros. destruct (String.eqb_spec j k).
  - subst; rewrite !update_lookup_same; reflexivity.
  - rewrite !update_lookup_other by auto. apply H.
Qed.
Lemma update_lookup_swap : forall {V} k1 (v1 : V) k2 v2 m j, k1 <> k2 ->
  lookup j (update k2 v2 (update k1 v1 m)) = lookup j (update k1 v1 (update k2 v2 m)).
Proof.
  intros. destruct (String.eqb_spec j k1), (String.eqb_spec j k2); subst; try contradiction.
  - rewrite update_lookup_other, !update_lookup_same by auto. reflexivity.
  - rewrite update_lookup_same, update_lookup_other, update_lookup_same by auto. reflexivity.
  - rewrite !update_lookup_other by auto. reflexivity.
Qed.

Lemma obind_Ret : forall {A B} (m : outcome A) (k : A -> outcome B) b,
  obind m k = Ret b -> exists a, m = Ret a /\ k a = Ret b.
Proof. intros; destruct m; simpl in H; eauto; discriminate. Qed.

Ltac inv_bind H := apply obind_Ret in H; let a := fresh "a" in let E := fresh "E" in destruct H as (a & E & H).
Ltac inv_ret H := inversion H; subst; clear H.

Lemma read_key_cong : forall e c d r, conf_equiv c d -> read_key c e = Ret r ->
  exists r', read_key d e = Ret r' /\ conf_equiv r r'.
Proof.
  intros [k v] c d r (A1&A2&A3&A4&A5&A6&A7&A8) H. unfold read_key in *.
  repeat match goal with
         | H : (if ?b then _ else _) = Ret _ |- _ => destruct b
         end;
  repeat (match goal with H : obind _ _ = Ret _ |- _ => inv_bind H end);
  try rewrite A3 in *; try rewrite A4 in *; try rewrite A5 in *; try rewrite A6 in *; try rewrite A7 in *;
  try rewrite A8 in *;
  repeat match goal with E : _ = Ret _ |- context[obind ?m _] => match type of E with m = _ => rewrite E end; cbn [obind] end;
  inv_ret H; eexists; (split; [reflexivity|]); unfold conf_equiv; simpl; repeat split; auto;
  intros; apply update_lookup_cong; auto.
Qed.

Lemma read_key_swap : forall e1 e2 c r, fst e1 <> fst e2 ->
  obind (read_key c e1) (fun c => read_key c e2) = Ret r ->
  exists r', obind (read_key c e2) (fun c => read_key c e1) = Ret r' /\ conf_equiv r r'.
Proof.
  intros [k1 v1] [k2 v2] c r N H. cbn [fst] in N. inv_bind H. unfold read_key in *.
  repeat match goal with
         | H : (if ?b then _ else _) = Ret _ |- _ => let Eb := fresh "Eb" in destruct b eqn:Eb
         end;
  repeat (match goal with H : obind _ _ = Ret _ |- _ => inv_bind H end);
  repeat match goal with H : String.eqb _ _ = true |- _ => apply String.eqb_eq in H; subst end;
  try congruence;
  repeat match goal with H : Ret _ = Ret _ |- _ => inv_ret H end;
  cbn in *;
  repeat match goal with E : _ = Ret _ |- context[obind ?m _] => match type of E with m = _ => rewrite E end; cbn [obind] end;
  cbn;
  repeat match goal with E : _ = Ret _ |- context[obind ?m _] => match type of E with m = _ => rewrite E end; cbn [obind] end;
  try (eexists; (split; [reflexivity|]); unfold conf_equiv; simpl; repeat split; auto;
       intros; apply update_lookup_swap; auto).
Qed.

Lemma ofold_read_cong : forall l c d r, conf_equiv c d -> ofold read_key c l = Ret r ->
  exists r', ofold read_key d l = Ret r' /\ conf_equiv r r'.
Proof.
  induction l as [|e l IH]; intros c d r E H; simpl in *.
  - inv_ret H. eauto.
  - inv_bind H. destruct (read_key_cong _ _ _ _ E E0) as (r' & E1 & E2). rewrite E1; simpl. eapply IH; eauto.
Qed.

Lemma ofold_read_perm : forall l l', Permutation l l' -> NoDup (keys l) -> forall c r,
  ofold read_key c l = Ret r -> exists r', ofold read_key c l' = Ret r' /\ conf_equiv r r'.
Proof.
  induction 1; intros ND c r Hr; simpl in *.
  - inv_ret Hr. eauto using conf_equiv_refl.
  - inversion ND; subst. inv_bind Hr. rewrite E; simpl. apply IHPermutation; auto.
  - inversion ND; subst. inversion H2; subst.
    inv_bind Hr. inv_bind Hr.
    assert (S : obind (read_key c y) (fun c => read_key c x) = Ret a0) by (rewrite E; simpl; auto).
    apply read_key_swap in S; [|intro F; apply H1; simpl; left; auto].
    destruct S as (r' & S1 & S2). inv_bind S1. rewrite E1; simpl. rewrite S1; simpl.
    eapply ofold_read_cong; eauto.
  - destruct (IHPermutation1 ND _ _ Hr) as (r1 & E1 & E2).
    assert (ND' : NoDup (keys l')) by (eapply Permutation_NoDup; [apply Permutation_map, H | auto]).
    destruct (IHPermutation2 ND' _ _ E1) as (r2 & E3 & E4).
    eauto using conf_equiv_trans.
Qed.

Lemma cli_of_equiv : forall s c d, conf_equiv c d -> cli_of s c = cli_of s d.
Proof.
  intros s c d (A1&A2&A3&A4&A5&A6&A7&A8). unfold cli_of, conf_str, conf_num. rewrite !A1, !A2, A3. reflexivity.
Qed.
Lemma tables_of_equiv : forall c d, conf_equiv c d -> tables_of c = tables_of d.
Proof. intros c d (A1&A2&A3&A4&A5&A6&A7&A8). unfold tables_of. rewrite A5, A6, A7, A8. reflexivity. Qed.

Lemma readconfig_perm : forall env obj obj' r, NoDup (keys obj) -> Permutation obj obj' ->
  readconfig env obj = Ret r -> readconfig env obj' = Ret r.
Proof.
  intros env obj obj' r ND P H. unfold readconfig in *. inv_bind H.
  destruct (ofold_read_perm _ _ P ND _ _ E) as (c' & E1 & E2). rewrite E1; cbn [obind].
  rewrite <- (cli_of_equiv env _ _ E2), <- (tables_of_equiv _ _ E2).
  destruct E2 as (_&_&_&C&_). rewrite <- C. exact H.
Qed.

(** ** Invalid defaults *)
Lemma check_globals_None : forall T g, check_globals T g = None <-> forall p, In p g -> valid_setting T p.
Proof.
  induction g as [|[f v] g IH]; cbn [check_globals].
  - split; auto. intros _ p [].
  - destruct (sf_valid T f v) eqn:E.
    + rewrite IH. apply sf_valid_iff in E. split; intros H p; [intros [H1|H1]; subst; auto | intros; apply H; right; auto].
    + split; [discriminate|]. intros H. specialize (H (f, v) (or_introl eq_refl)).
      apply sf_valid_iff in H. congruence.
Qed.

(** ** Boolean checks of a table, evaluated once on the shipped tables *)
Fixpoint nodupb {A} (eqb : A -> A -> bool) (l : list A) : bool :=
  match l with [] => true | a :: r => negb (existsb (eqb a) r) && nodupb eqb r end.
Lemma nodupb_NoDup : forall {A} (eqb : A -> A -> bool), (forall a b, eqb a b = true <-> a = b) ->
  forall l, nodupb eqb l = true -> NoDup l.
Proof.
  intros A eqb E; induction l; intros H; constructor; simpl in H; apply andb_true_iff in H; destruct H.
  - intro F. apply negb_true_iff in H. assert (existsb (eqb a) l = true); [|congruence].
    apply existsb_exists. exists a; split; auto. apply E; auto.
  - auto.
Qed.

Definition wf_flagb (w : N) (f : ftype) : bool :=
  (f_msb f + f_len f <=? w) && forallb (fun p => snd p <? 2 ^ f_len f) (f_opts f) &&
  nodupb String.eqb (keys (f_opts f)) && nodupb N.eqb (map snd (f_opts f)).
Lemma wf_flagb_ok : forall w f, wf_flagb w f = true -> wf_flag w f.
Proof.
  intros w f H; unfold wf_flagb in H. apply andb_true_iff in H; destruct H as [H H4].
  apply andb_true_iff in H; destruct H as [H H3]. apply andb_true_iff in H; destruct H as [H1 H2].
  split; [apply N.leb_le; auto|]. split; [|split].
  - intros n v I. rewrite forallb_forall in H2. specialize (H2 (n, v) I). apply N.ltb_lt in H2. exact H2.
  - eapply nodupb_NoDup; [apply String.eqb_eq|auto].
  - eapply nodupb_NoDup; [apply N.eqb_eq|auto].
Qed.

Definition cleanb (s : string) : bool :=
  negb (existsb (fun c => Ascii.eqb c "," || Ascii.eqb c "=" || Ascii.eqb c " ") (bytes_of s)).
Lemma cleanb_ok : forall s, cleanb s = true -> clean s.
Proof.
  intros s H; unfold cleanb in H. apply negb_true_iff in H.
  assert (K : forall c, In c (bytes_of s) -> (Ascii.eqb c "," || Ascii.eqb c "=" || Ascii.eqb c " ") = false).
  { intros c I. destruct (Ascii.eqb c "," || Ascii.eqb c "=" || Ascii.eqb c " ") eqn:E; auto.
    rewrite <- H. symmetry. apply existsb_exists. eauto. }
  repeat split; intro I; apply K in I; discriminate.
Qed.

Definition all_clean (m : list (string * ftype)) : bool :=
  forallb (fun e => cleanb (fst e) && forallb (fun o => cleanb (fst o)) (f_opts (snd e))) m.
Lemma all_clean_ok : forall m f x o n, all_clean m = true ->
  lookup f m = Some x -> lookup o (f_opts x) = Some n -> clean f /\ clean o.
Proof.
  intros m f x o n H L1 L2. unfold all_clean in H. rewrite forallb_forall in H.
  specialize (H (f, x) (lookup_In _ _ _ L1)). apply andb_true_iff in H. destruct H as [H1 H2].
  cbn [fst snd] in *. rewrite forallb_forall in H2. specialize (H2 (o, n) (lookup_In _ _ _ L2)).
  split; apply cleanb_ok; auto.
Qed.

Definition disjointb (f g : ftype) : bool :=
  (f_msb f + f_len f <=? f_msb g) || (f_msb g + f_len g <=? f_msb f).
Lemma disjointb_ok : forall f g, disjointb f g = true ->
  disjoint_fields (f_msb f) (f_len f) (f_msb g) (f_len g).
Proof.
  intros f g H; unfold disjointb in H. apply orb_true_iff in H. unfold disjoint_fields.
  rewrite !N.leb_le in H. exact H.
Qed.

(** no two different flags of one frame type overlap *)
Definition frame_disjointb (T : tables) (fields : list string) : bool :=
  forallb (fun a => forallb (fun b =>
    match lookup a (t_flags T), lookup b (t_flags T) with
    | Some f, Some g => String.eqb a b || disjointb f g
    | _, _ => true
    end) fields) fields.
Lemma frame_disjointb_ok : forall T fields a b f g, frame_disjointb T fields = true ->
  In a fields -> In b fields -> a <> b -> lookup a (t_flags T) = Some f -> lookup b (t_flags T) = Some g ->
  disjoint_fields (f_msb f) (f_len f) (f_msb g) (f_len g).
Proof.
  intros T fields a b f g H Ia Ib N La Lb. unfold frame_disjointb in H. rewrite forallb_forall in H.
  specialize (H a Ia). rewrite forallb_forall in H. specialize (H b Ib). rewrite La, Lb in H.
  apply orb_true_iff in H. destruct H as [H|H]; [apply String.eqb_eq in H; contradiction|].
  apply disjointb_ok; auto.
Qed.

Lemma sar_wf : wf_tables sar.
Proof.
  split; [|split].
  - intros n f H.
    assert (K : forallb (fun e => wf_flagb 32 (snd e)) (t_flags sar) = true) by (vm_compute; reflexivity).
    rewrite forallb_forall in K. apply wf_flagb_ok. apply (K (n, f) H).
  - intros n f H.
    assert (K : forallb (fun e => wf_flagb 16 (snd e)) (t_dirent sar) = true) by (vm_compute; reflexivity).
    rewrite forallb_forall in K. apply wf_flagb_ok. apply (K (n, f) H).
  - apply (wf_flagb_ok 8). vm_compute; reflexivity.
Qed.

Lemma sar_clean : clean_names sar.
Proof.
  split; intros [f v]; cbn [fst snd].
  - intros (n & x & L1 & L2); cbn [fst snd] in *. apply (all_clean_ok (t_flags sar) f x v n); [vm_compute; reflexivity | exact L1 | exact L2].
  - intros (x & n & L1 & L2); cbn [fst snd] in *. apply (all_clean_ok (t_dirent sar) f x v n); [vm_compute; reflexivity | exact L1 | exact L2].
Qed.

Definition frame_types : list string := ["beacon"; "request"; "metadata"; "data"; "status"].

Lemma sar_disjoint : forall ft a b f g, In ft frame_types ->
  In a (sf_values sar ft) -> In b (sf_values sar ft) -> a <> b ->
  lookup a (t_flags sar) = Some f -> lookup b (t_flags sar) = Some g ->
  disjoint_fields (f_msb f) (f_len f) (f_msb g) (f_len g).
Proof.
  intros ft a b f g H. apply (frame_disjointb_ok sar (sf_values sar ft)).
  assert (K : forallb (fun ft => frame_disjointb sar (sf_values sar ft)) frame_types = true) by (vm_compute; reflexivity).
  rewrite forallb_forall in K. auto.
Qed.

Lemma saratoga_json_keys : NoDup (keys saratoga_json).
Proof. eapply nodupb_NoDup; [apply String.eqb_eq|]. vm_compute; reflexivity. Qed.
Lemma sar_fields_nodup : forall ft, In ft frame_types -> NoDup (sf_values sar ft).
Proof.
  intros ft H. eapply nodupb_NoDup; [apply String.eqb_eq|].
  assert (K : forallb (fun ft => nodupb String.eqb (sf_values sar ft)) frame_types = true) by (vm_compute; reflexivity).
  rewrite forallb_forall in K. auto.
Qed.
Lemma shipped_reads : readconfig "" saratoga_json = Ret (sar_cli, sar, sar_commands, None).
Proof. vm_compute; reflexivity. Qed.
Lemma sar_cli_valid : forall p, In p (cl_global sar_cli) -> valid_setting sar p.
Proof. apply check_globals_None. vm_compute; reflexivity. Qed.

(** ** Setting several flags *)
Lemma wf_lookup : forall T f x, wf_tables T -> lookup f (t_flags T) = Some x -> wf_flag 32 x.
Proof. intros T f x [H _] L. apply H with f. apply lookup_In; auto. Qed.

Lemma setflags_swap : forall T h a va b vb, wf_tables T -> h < 2 ^ 32 ->
  (forall f g, lookup a (t_flags T) = Some f -> lookup b (t_flags T) = Some g ->
               disjoint_fields (f_msb f) (f_len f) (f_msb g) (f_len g)) ->
  obind (sf_set T h a va) (fun h => sf_set T h b vb) = obind (sf_set T h b vb) (fun h => sf_set T h a va).
Proof.
  intros T h a va b vb W Hh D. rewrite !sf_set_eq.
  destruct (lookup a (t_flags T)) as [f|] eqn:La; cbn [obind].
  2:{ destruct (lookup b (t_flags T)) as [g|]; cbn [obind]; [|reflexivity].
      destruct (lookup vb (f_opts g)); cbn [obind]; [rewrite sf_set_eq, La|]; reflexivity. }
  destruct (lookup b (t_flags T)) as [g|] eqn:Lb; cbn [obind].
  2:{ destruct (lookup va (f_opts f)); cbn [obind]; [rewrite sf_set_eq, Lb|]; reflexivity. }
  destruct (lookup va (f_opts f)) as [x|] eqn:Ox, (lookup vb (f_opts g)) as [y|] eqn:Oy; cbn [obind];
    rewrite ?sf_set_eq, ?La, ?Lb, ?Ox, ?Oy; try reflexivity.
  destruct (wf_lookup _ _ _ W La) as (Wf1 & Wf2 & _). destruct (wf_lookup _ _ _ W Lb) as (Wg1 & Wg2 & _).
  f_equal. apply set_bits_commute; auto.
  - eapply Wf2; apply lookup_In; eauto.
  - eapply Wg2; apply lookup_In; eauto.
Qed.

Lemma sf_set_bound : forall T h f n h', wf_tables T -> h < 2 ^ 32 -> sf_set T h f n = Ret h' -> h' < 2 ^ 32.
Proof.
  intros T h f n h' W Hh H. rewrite sf_set_eq in H. destruct (lookup f (t_flags T)) as [x|] eqn:L; [|discriminate].
  destruct (lookup n (f_opts x)) as [v|] eqn:O; [|discriminate]. inversion H; subst.
  destruct (wf_lookup _ _ _ W L) as (W1 & W2 & _). apply set_bits_bound; auto. eapply W2; apply lookup_In; eauto.
Qed.

Lemma setflags_perm : forall T l l', wf_tables T -> Permutation l l' -> NoDup (keys l) ->
  (forall a b f g, In a (keys l) -> In b (keys l) -> a <> b ->
     lookup a (t_flags T) = Some f -> lookup b (t_flags T) = Some g ->
     disjoint_fields (f_msb f) (f_len f) (f_msb g) (f_len g)) ->
  forall h, h < 2 ^ 32 -> sf_setflags T h l' = sf_setflags T h l.
Proof.
  intros T l l' W P. induction P; intros ND D h Hh.
  - reflexivity.
  - destruct x as [f v]. simpl. destruct (sf_set T h f v) eqn:E; simpl; auto.
    inversion ND; subst. apply IHP; auto.
    + intros; eapply D; eauto; right; auto.
    + eapply sf_set_bound; eauto.
  - destruct x as [f v], y as [g u]. cbn [sf_setflags].
    assert (S : obind (sf_set T h g u) (fun h => sf_set T h f v) = obind (sf_set T h f v) (fun h => sf_set T h g u)).
    { apply setflags_swap; auto. intros x y Lx Ly. eapply D; eauto; simpl; auto.
      inversion ND; subst. intro F; apply H1; left; auto. }
    destruct (sf_set T h g u) eqn:E1, (sf_set T h f v) eqn:E2; cbn [obind] in *; try congruence;
      try (rewrite S; reflexivity); try (rewrite <- S; reflexivity);
      try (destruct (sf_set T _ _ _); cbn in *; congruence).
  - rewrite IHP2; auto.
    + eapply Permutation_NoDup; [apply Permutation_map, P1 | auto].
    + intros; eapply D; eauto; eapply Permutation_in; try apply Permutation_sym, Permutation_map; eauto.
Qed.

Lemma setflags_result : forall T l, wf_tables T -> NoDup (keys l) ->
  (forall a b f g, In a (keys l) -> In b (keys l) -> a <> b ->
     lookup a (t_flags T) = Some f -> lookup b (t_flags T) = Some g ->
     disjoint_fields (f_msb f) (f_len f) (f_msb g) (f_len g)) ->
  forall h, h < 2 ^ 32 ->
  (forall p, In p l -> valid_setting T p) ->
  exists h', sf_setflags T h l = Ret h' /\ h' < 2 ^ 32 /\
    (forall p f n, In p l -> lookup (fst p) (t_flags T) = Some f -> lookup (snd p) (f_opts f) = Some n ->
       bit_field 32 (f_msb f) (f_len f) h' = n) /\
    (forall i, (forall p f, In p l -> lookup (fst p) (t_flags T) = Some f -> ~ in_field 32 (f_msb f) (f_len f) i) ->
       N.testbit h' i = N.testbit h i).
Proof.
  intros T l W. induction l as [|[a va] l IH]; intros ND D h Hh V.
  - exists h. repeat split; auto. intros p f n [].
  - inversion ND; subst.
    destruct (V (a, va) (or_introl eq_refl)) as (n & x & L & O); cbn [fst snd] in L, O.
    destruct (wf_lookup _ _ _ W L) as (W1 & W2 & _).
    assert (Hn : n < 2 ^ f_len x) by (eapply W2; apply lookup_In; eauto).
    set (h1 := set_bits 32 x h n).
    assert (B1 : h1 < 2 ^ 32) by (apply set_bits_bound; auto).
    destruct (IH H2) with (h := h1) as (h' & E & B & F & U); auto.
    { intros; eapply D; eauto; right; auto. }
    { intros p Ip; apply V; right; auto. }
    exists h'. cbn [sf_setflags]. rewrite sf_set_eq, L, O; cbn [obind]. fold h1. split; [exact E|]. split; [exact B|]. split.
    + intros p f m [Ip|Ip] Lp Op.
      * subst p; cbn [fst snd] in *. rewrite L in Lp; inversion Lp; subst f. rewrite O in Op; inversion Op; subst m.
        rewrite <- (set_bits_field_same 32 x h n) by auto. fold h1.
        apply N.bits_inj; intro i. rewrite !bit_field_testbit. destruct (N.ltb_spec i (f_len x)); auto.
        apply U. intros q g Iq Lq. assert (Df : disjoint_fields (f_msb x) (f_len x) (f_msb g) (f_len g)).
        { apply D with a (fst q); auto; [left; auto | right; apply (in_map fst) in Iq; auto |].
          intro; subst; apply H1; apply (in_map fst) in Iq; auto. }
        destruct (wf_lookup _ _ _ W Lq) as (Wg1 & _). unfold in_field, disjoint_fields in *. lia.
      * eapply F; eauto.
    + intros i Hi. rewrite U.
      * apply set_bits_outside; auto. apply (Hi (a, va)); [left; auto | auto].
      * intros q g Iq Lq. apply (Hi q); auto. right; auto.
Qed.
