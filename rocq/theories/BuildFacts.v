(** * Facts about the loops that build a frame from a flag list *)

From Verif Require Import GoBase GoFacts Flags SpecFlags FlagsFacts Config Shipped ConfigFacts SpecWire SarFacts Timestamp SpecTime TimeMain FlagStrFacts Data SpecFrames FrameFacts.
Local Open Scope string_scope.
Local Open Scope N_scope.

Lemma is_in_one_of : forall s l, one_of s l = is_in s l.
Proof.
  intros s l. unfold is_in. induction l as [|a l IH]; [reflexivity|].
  cbn [one_of existsb]. unfold one_of in *. cbn [existsb].
  destruct (String.eqb_spec s a) as [->|N].
  - destruct (in_dec _ a (a :: l)) as [I|I]; [reflexivity|exfalso; apply I; left; auto].
  - cbn [orb]. rewrite IH. destruct (in_dec _ s l), (in_dec _ s (a :: l)) as [I|I]; auto.
    + exfalso; apply I; right; auto.
    + destruct I as [I|I]; [congruence|contradiction].
Qed.

Lemma sf_set_known : forall h f v,
  if known_option sar f v then exists h', sf_set sar h f v = Ret h' else sf_set sar h f v = Fatal.
Proof.
  intros. rewrite sf_set_eq. unfold known_option.
  destruct (lookup f (t_flags sar)); [|reflexivity]. destruct (lookup v (f_opts f0)); [eexists|]; reflexivity.
Qed.
Lemma sf_set_verdict : forall h f v,
  match setting_verdict sar f v with
  | Accept => exists h', sf_set sar h f v = Ret h'
  | _ => sf_set sar h f v = Fatal
  end.
Proof. intros; unfold setting_verdict; pose proof (sf_set_known h f v); destruct (known_option sar f v); auto. Qed.
Lemma known_valid : forall f v, known_option sar f v = true <-> valid_setting sar (f, v).
Proof.
  intros. unfold known_option, valid_setting, option_value. cbn [fst snd].
  destruct (lookup f (t_flags sar)) eqn:E.
  - destruct (lookup v (f_opts f0)) eqn:O; split; eauto; try discriminate.
    intros (n & g & G & H). inversion G; subst. congruence.
  - split; [discriminate|]. intros (n & g & G & H). discriminate.
Qed.

Lemma setflags_app : forall T l m h,
  sf_setflags T h (l ++ m) = obind (sf_setflags T h l) (fun h => sf_setflags T h m).
Proof.
  induction l as [|[f v] l IH]; intros; [reflexivity|].
  cbn [app sf_setflags]. destruct (sf_set T h f v); cbn [obind]; auto.
Qed.

Lemma sf_setflags_valid : forall T l h h', sf_setflags T h l = Ret h' -> forall p, In p l -> valid_setting T p.
Proof.
  induction l as [|[f v] l IH]; intros h h' H p I; [destruct I|].
  cbn [sf_setflags] in H. inv_bind H. destruct I as [<-|I]; [|eauto].
  rewrite sf_set_eq in E. unfold valid_setting, option_value. cbn [fst snd].
  destruct (lookup f (t_flags T)) as [g|]; [|discriminate]. destruct (lookup v (f_opts g)) eqn:O; [|discriminate]. eauto.
Qed.

(** The fields of a list of names are pairwise disjoint *)
Definition disjointb (a b : string) : bool :=
  match lookup a (t_flags sar), lookup b (t_flags sar) with
  | Some f, Some g => (f_msb f + f_len f <=? f_msb g) || (f_msb g + f_len g <=? f_msb f)
  | _, _ => true
  end.
Definition all_disjointb (K : list string) : bool :=
  forallb (fun a => forallb (fun b => String.eqb a b || disjointb a b) K) K.

Lemma all_disjoint_spec : forall K, all_disjointb K = true ->
  forall a b f g, In a K -> In b K -> a <> b -> lookup a (t_flags sar) = Some f -> lookup b (t_flags sar) = Some g ->
  disjoint_fields (f_msb f) (f_len f) (f_msb g) (f_len g).
Proof.
  intros K H a b f g Ia Ib N La Lb. unfold all_disjointb in H. rewrite forallb_forall in H.
  specialize (H a Ia). rewrite forallb_forall in H. specialize (H b Ib).
  replace (String.eqb a b) with false in H by (symmetry; apply String.eqb_neq; auto). cbn [orb] in H.
  unfold disjointb in H. rewrite La, Lb in H. unfold disjoint_fields. rewrite orb_true_iff, !N.leb_le in H. exact H.
Qed.

Lemma lookup_rev_cons : forall {V} f a (v : V) l,
  lookup f (rev ((a, v) :: l)) =
    match lookup f (rev l) with Some w => Some w | None => if String.eqb f a then Some v else None end.
Proof.
  intros. cbn [rev]. induction (rev l) as [|[b w] r IH]; cbn [app lookup]; [reflexivity|].
  destruct (String.eqb f b); auto.
Qed.
Lemma lookup_rev_None : forall {V} f (l : list (string * V)), lookup f (rev l) = None -> ~ In f (keys l).
Proof.
  intros V f l H I. apply lookup_None in H. apply H. unfold keys in *. rewrite map_rev. apply in_rev in I. exact I.
Qed.

Lemma set_exactly_setflags : forall K l h h', all_disjointb K = true -> incl (keys l) K -> h < 2 ^ 32 ->
  sf_setflags sar h l = Ret h' -> set_exactly sar h h' l.
Proof.
  intros K l h h' DK. revert h. induction l as [|[a va] l IH]; intros h I Bh E.
  - inversion E; subst. split; [exact Bh|]. split; [discriminate|auto].
  - cbn [sf_setflags] in E. inv_bind E. rename a0 into h1. rewrite sf_set_eq in E0.
    destruct (lookup a (t_flags sar)) as [x|] eqn:L; [|discriminate].
    destruct (lookup va (f_opts x)) as [n|] eqn:O; [|discriminate]. inversion E0; subst h1; clear E0.
    destruct (wf_lookup _ _ _ sar_wf L) as (W1 & W2 & _).
    assert (Hn : n < 2 ^ f_len x) by (eapply W2; apply lookup_In; eauto).
    assert (B1 : set_bits 32 x h n < 2 ^ 32) by (apply set_bits_bound; auto).
    assert (I' : incl (keys l) K) by (intros y Y; apply I; right; exact Y).
    destruct (IH _ I' B1 E) as (B & R & U). split; [exact B|]. split.
    + intros f v H. unfold last_setting in *. rewrite lookup_rev_cons in H.
      destruct (lookup f (rev l)) eqn:F; [inversion H; subst; apply R; exact F|].
      destruct (String.eqb_spec f a) as [->|]; [|discriminate]. inversion H; subst v.
      exists x, n. split; [exact L|]. split; [exact O|].
      rewrite <- (set_bits_field_same 32 x h n) by auto.
      apply N.bits_inj; intro i. rewrite !bit_field_testbit.
      destruct (N.ltb_spec i (f_len x)) as [Li|Li]; [|reflexivity]. apply U.
      intros g w gl Hg Lg [G1 G2].
      assert (NE : g <> a).
      { intros ->. apply lookup_rev_None in F. apply F. apply in_map_iff. exists (a, w). auto. }
      assert (D : disjoint_fields (f_msb gl) (f_len gl) (f_msb x) (f_len x)).
      { eapply all_disjoint_spec with (a := g) (b := a); eauto.
        - apply I'. apply in_map_iff. exists (g, w). auto.
        - apply I. left; reflexivity. }
      destruct (wf_lookup _ _ _ sar_wf Lg) as (W3 & _). unfold disjoint_fields in D. lia.
    + intros i Hi. rewrite U by (intros; eapply Hi; eauto; right; eauto).
      apply set_bits_outside; auto. apply (Hi a va x); auto. left; reflexivity.
Qed.

(** ** The loops *)
Section Loop.
  Variables (St : Type) (loop : list string -> St -> outcome (St * error)).
  Variable body : string -> string -> St -> outcome (St * error).
  Hypothesis loop_nil : forall d, loop [] d = Ret (d, None).
  Hypothesis loop_cons : forall f v rest d, clean f -> clean v ->
    loop (item_text (f, v) :: rest) d = ebind (body f v d) (fun d => loop rest d).

  Section Verdict.
    Variables (Inv : St -> Prop) (iv : string * string -> verdict).
    Hypothesis body_verdict : forall f v d, Inv d -> verdict_of (body f v d) = iv (f, v).
    Hypothesis body_inv : forall f v d d', Inv d -> body f v d = Ret (d', None) -> Inv d'.
    Lemma loop_verdict : forall items d, clean_items items -> Inv d ->
      verdict_of (loop (map item_text items) d) = first_bad (map iv items).
    Proof.
      induction items as [|[f v] r IH]; intros d C I; [rewrite loop_nil; reflexivity|].
      destruct (C (f, v) (or_introl eq_refl)) as [Cf Cv]; cbn [fst snd] in Cf, Cv.
      cbn [map]. rewrite loop_cons by auto. pose proof (body_verdict f v d I) as V.
      cbn [first_bad]. rewrite <- V. destruct (body f v d) as [[d' [e|]]| |] eqn:E; cbn [ebind obind verdict_of]; auto.
      apply IH; [|eapply body_inv; eauto]. intros p Hp; apply C; right; auto.
    Qed.
  End Verdict.

  Section Value.
    Variable R : St -> St -> list (string * string) -> Prop.
    Hypothesis R_nil : forall d, R d d [].
    Hypothesis R_cons : forall f v d d1 d2 l, body f v d = Ret (d1, None) -> R d1 d2 l -> R d d2 ((f, v) :: l).
    Lemma loop_value : forall items d d', clean_items items ->
      loop (map item_text items) d = Ret (d', None) -> R d d' items.
    Proof.
      induction items as [|[f v] r IH]; intros d d' C H.
      - cbn [map] in H. rewrite loop_nil in H. inversion H; subst. apply R_nil.
      - destruct (C (f, v) (or_introl eq_refl)) as [Cf Cv]; cbn [fst snd] in Cf, Cv.
        cbn [map] in H. rewrite loop_cons in H by auto.
        destruct (body f v d) as [[d1 [e|]]| |] eqn:E; cbn [ebind obind] in H; try discriminate.
        eapply R_cons; eauto. apply IH; auto. intros p Hp; apply C; right; auto.
    Qed.
  End Value.
End Loop.

Lemma split_flags : forall items, items <> [] -> clean_items items ->
  split_on "," (remove_spaces (flag_list items)) = map item_text items.
Proof.
  intros. rewrite remove_spaces_clean by (apply flag_list_no_space; auto). apply split_flag_list; auto.
Qed.

(** Stamping with a good clock never fails *)
Lemma good_now_stamp : forall now t name, good_now now -> In name stamp_names ->
  exists t', ts_now now t name = Ret (t', None) /\ ts_new t name now = Ret (t', None).
Proof.
  intros now t name [G GN] I. assert (RT : real_time now) by (split; lia).
  assert (X : exists t', ts_new t name now = Ret (t', None)).
  { cbn in I. destruct I as [<-|[<-|[<-|[<-|[<-|[<-|[]]]]]]].
    - destruct (c13_localinterp t now) as (t' & b & E & _). eauto.
    - eexists. apply c12_posix32; auto. lia.
    - eexists. apply c12_posix64; auto.
    - eexists. apply c12_posix32_32; auto; unfold nanos_of; lia.
    - eexists. apply c12_posix64_32; auto. unfold nanos_of; lia.
    - eexists. apply c12_epoch2000; auto; lia. }
  destruct X as (t' & E). exists t'. split; auto. unfold ts_now. rewrite E. reflexivity.
Qed.
Lemma ts_now_new : forall now t name t', ts_now now t name = Ret (t', None) -> ts_new t name now = Ret (t', None).
Proof.
  intros now t name t' H. unfold ts_now in H. destruct (ts_new t name now) as [[x [e|]]| |]; cbn in H; inversion H; subst; reflexivity.
Qed.

Lemma sf_set_lt : forall h f v h', h < 2 ^ 32 -> sf_set sar h f v = Ret h' -> h' < 2 ^ 32.
Proof. intros; eapply sf_set_bound; eauto using sar_wf. Qed.

Lemma is_in_true : forall s l, is_in s l = true <-> In s l.
Proof. intros; unfold is_in; destruct (in_dec _ s l); split; auto; discriminate. Qed.
Lemma is_in_false : forall s l, is_in s l = false <-> ~ In s l.
Proof. intros; unfold is_in; destruct (in_dec _ s l); split; auto; try discriminate; tauto. Qed.

Lemma keys_flat_map : forall (g : string * string -> list (string * string)) K l,
  (forall p, In p l -> incl (keys (g p)) K) -> incl (keys (flat_map g l)) K.
Proof.
  induction l as [|p l IH]; intros H x I; [destruct I|].
  cbn [flat_map] in I. unfold keys in I. rewrite map_app, in_app_iff in I. destruct I as [I|I].
  - apply (H p (or_introl eq_refl)). exact I.
  - apply IH; auto. intros q Q; apply H; right; auto.
Qed.

Lemma first_bad_all : forall l, first_bad l = Accept -> forall v, In v l -> v = Accept.
Proof. induction l as [|[] l IH]; cbn; intros H w I; try discriminate; destruct I; auto. Qed.

Lemma set_exactly_field : forall h h' l msb len, set_exactly sar h h' l ->
  (forall f v fl, In (f, v) l -> lookup f (t_flags sar) = Some fl -> disjoint_fields (f_msb fl) (f_len fl) msb len) ->
  msb + len <= 32 -> (forall f v fl, In (f, v) l -> lookup f (t_flags sar) = Some fl -> f_msb fl + f_len fl <= 32) ->
  bit_field 32 msb len h' = bit_field 32 msb len h.
Proof.
  intros h h' l msb len (_ & _ & O) D B BB. unfold bit_field.
  apply N.bits_inj. intros i. rewrite <- !N.land_ones, !N.land_spec.
  destruct (N.ltb_spec i len) as [L|L].
  - rewrite N.ones_spec_low by auto. rewrite !andb_true_r.
    rewrite <- !N.shiftr_div_pow2, !N.shiftr_spec by lia. apply O.
    intros f v fl I Lk [I1 I2]. specialize (D f v fl I Lk). specialize (BB f v fl I Lk). unfold disjoint_fields in D. lia.
  - rewrite N.ones_spec_high by auto. rewrite !andb_false_r. reflexivity.
Qed.


Lemma stamped_app : forall now l m t t1 t2, stamped now t l t1 -> stamped now t1 m t2 -> stamped now t (l ++ m) t2.
Proof.
  induction l as [|n l IH]; intros m t t1 t2 A B; cbn [stamped app] in *; [subst; exact B|].
  destruct A as (u & U & A). exists u. split; eauto.
Qed.
