(** * Facts about the flag model *)

From Verif Require Import GoBase GoFacts Flags SpecFlags.
Local Open Scope N_scope.

(** ** Bits *)
Lemma lt_pow2_self : forall w, w < 2 ^ w.
Proof. intros; apply N.pow_gt_lin_r; reflexivity. Qed.

Lemma shiftbits_ok : forall w fl, f_msb fl + f_len fl <= w ->
  shiftbits w fl = w - f_msb fl - f_len fl.
Proof.
  intros; unfold shiftbits, go_sub. pose proof (lt_pow2_self w).
  assert (P : 2 ^ w <> 0) by (apply N.pow_nonzero; discriminate).
  replace (w + 2 ^ w - f_len fl) with (w - f_len fl + 1 * 2 ^ w) by lia.
  rewrite N.mod_add by auto. rewrite (N.mod_small (w - f_len fl)) by lia.
  replace (w - f_len fl + 2 ^ w - f_msb fl) with (w - f_msb fl - f_len fl + 1 * 2 ^ w) by lia.
  rewrite N.mod_add by auto. apply N.mod_small; lia.
Qed.

Lemma maskbits_ok : forall w fl, f_len fl <= w -> maskbits w fl = N.ones (f_len fl).
Proof.
  intros; unfold maskbits, go_sub, go_shl.
  assert (P : 2 ^ w <> 0) by (apply N.pow_nonzero; discriminate).
  rewrite N.ones_equiv. destruct (N.ltb_spec (f_len fl) w).
  - rewrite N.shiftl_1_l. assert (2 ^ f_len fl < 2 ^ w) by (apply N.pow_lt_mono_r; lia).
    rewrite (N.mod_small (2 ^ f_len fl)) by auto.
    assert (0 < 2 ^ f_len fl) by (apply N.neq_0_lt_0, N.pow_nonzero; discriminate).
    replace (2 ^ f_len fl + 2 ^ w - 1) with (N.pred (2 ^ f_len fl) + 1 * 2 ^ w) by lia.
    rewrite N.mod_add by auto. apply N.mod_small; lia.
  - replace (f_len fl) with w by lia. rewrite N.mod_small; lia.
Qed.

Lemma shiftl_lt : forall x s n m, x < 2 ^ n -> n + s <= m -> N.shiftl x s < 2 ^ m.
Proof.
  intros. rewrite N.shiftl_mul_pow2.
  apply N.lt_le_trans with (2 ^ n * 2 ^ s).
  - apply N.mul_lt_mono_pos_r; auto. apply N.neq_0_lt_0, N.pow_nonzero; discriminate.
  - rewrite <- N.pow_add_r. apply N.pow_le_mono_r; [discriminate | lia].
Qed.

Lemma ones_lt : forall n, N.ones n < 2 ^ n.
Proof.
  intros; rewrite N.ones_equiv. apply N.lt_pred_l. apply N.pow_nonzero; discriminate.
Qed.

(** The shifted value occupies the field *)
Lemma go_shl_ok : forall w fl v, f_msb fl + f_len fl <= w -> v < 2 ^ f_len fl ->
  go_shl w v (w - f_msb fl - f_len fl) = N.shiftl v (w - f_msb fl - f_len fl).
Proof.
  intros; unfold go_shl. destruct (N.ltb_spec (w - f_msb fl - f_len fl) w).
  - apply N.mod_small. apply shiftl_lt with (f_len fl); auto; lia.
  - assert (f_len fl = 0) by lia. rewrite H2 in H0. assert (v = 0) by (simpl in H0; lia).
    subst v. rewrite N.shiftl_0_l. reflexivity.
Qed.

Lemma setbits_ok : forall w fl, f_msb fl + f_len fl <= w ->
  setbits w fl = N.shiftl (N.ones (f_len fl)) (w - f_msb fl - f_len fl).
Proof.
  intros; unfold setbits. rewrite shiftbits_ok, maskbits_ok by lia.
  apply go_shl_ok; auto. apply ones_lt.
Qed.

Lemma get_bits_field : forall w fl h, f_msb fl + f_len fl <= w ->
  get_bits w fl h = bit_field w (f_msb fl) (f_len fl) h.
Proof.
  intros; unfold get_bits, bit_field. rewrite setbits_ok, shiftbits_ok by auto.
  set (s := w - f_msb fl - f_len fl).
  rewrite <- N.shiftr_div_pow2, <- N.land_ones.
  unfold go_shr. destruct (N.ltb_spec s w).
  - rewrite N.shiftr_land. f_equal. rewrite N.shiftr_shiftl_l, N.sub_diag by reflexivity. apply N.shiftl_0_r.
  - replace (f_len fl) with 0 by lia. rewrite N.land_0_r. reflexivity.
Qed.

Lemma bit_field_testbit : forall w msb len h i,
  N.testbit (bit_field w msb len h) i = if i <? len then N.testbit h (i + (w - msb - len)) else false.
Proof.
  intros; unfold bit_field. rewrite <- N.shiftr_div_pow2, <- N.land_ones, N.land_spec.
  destruct (N.ltb_spec i len).
  - rewrite N.ones_spec_low, N.shiftr_spec' by auto. apply andb_true_r.
  - rewrite N.ones_spec_high by auto. apply andb_false_r.
Qed.

Lemma bit_field_bound : forall w msb len h, bit_field w msb len h < 2 ^ len.
Proof. intros; apply N.mod_lt, N.pow_nonzero; discriminate. Qed.

Lemma testbit_small : forall v n i, v < 2 ^ n -> n <= i -> N.testbit v i = false.
Proof.
  intros. destruct (N.eq_dec v 0); [subst; apply N.bits_0|].
  apply N.bits_above_log2. apply N.log2_lt_pow2 in H; lia.
Qed.

Lemma set_bits_testbit : forall w fl h v i,
  f_msb fl + f_len fl <= w -> h < 2 ^ w -> v < 2 ^ f_len fl ->
  N.testbit (set_bits w fl h v) i =
    if (w - f_msb fl - f_len fl <=? i) && (i <? w - f_msb fl)
    then N.testbit v (i - (w - f_msb fl - f_len fl)) else N.testbit h i.
Proof.
  intros; unfold set_bits. rewrite setbits_ok, shiftbits_ok by auto.
  rewrite go_shl_ok by auto. set (s := w - f_msb fl - f_len fl).
  rewrite N.lor_spec, N.land_spec. unfold go_not. rewrite N.lxor_spec.
  assert (A : w - f_msb fl = s + f_len fl) by lia. rewrite A.
  destruct (N.leb_spec s i); cbn [andb].
  - rewrite !N.shiftl_spec_high' by auto. destruct (N.ltb_spec i (s + f_len fl)).
    + rewrite N.ones_spec_low by lia. rewrite N.ones_spec_low by lia. cbn. rewrite andb_false_r. reflexivity.
    + rewrite N.ones_spec_high by lia. cbn [xorb].
      rewrite (testbit_small v (f_len fl)) by (auto; lia). rewrite orb_false_r.
      destruct (N.lt_ge_cases i w).
      * rewrite N.ones_spec_low by auto. apply andb_true_r.
      * rewrite (testbit_small h w) by auto. reflexivity.
  - rewrite !N.shiftl_spec_low by auto. rewrite N.ones_spec_low by lia. cbn. rewrite andb_true_r, orb_false_r. reflexivity.
Qed.

Lemma set_bits_bound : forall w fl h v,
  f_msb fl + f_len fl <= w -> h < 2 ^ w -> v < 2 ^ f_len fl -> set_bits w fl h v < 2 ^ w.
Proof.
  intros.
  assert (E : set_bits w fl h v = (set_bits w fl h v) mod 2 ^ w).
  { apply N.bits_inj; intro i. rewrite <- N.land_ones, N.land_spec.
    destruct (N.lt_ge_cases i w).
    - rewrite N.ones_spec_low, andb_true_r by auto. reflexivity.
    - rewrite N.ones_spec_high, andb_false_r by auto. rewrite set_bits_testbit by auto.
      replace (i <? w - f_msb fl) with false by (symmetry; apply N.ltb_ge; lia).
      rewrite andb_false_r. apply testbit_small with w; auto. }
  rewrite E. apply N.mod_lt, N.pow_nonzero; discriminate.
Qed.

Lemma set_bits_field_same : forall w fl h v,
  f_msb fl + f_len fl <= w -> h < 2 ^ w -> v < 2 ^ f_len fl ->
  bit_field w (f_msb fl) (f_len fl) (set_bits w fl h v) = v.
Proof.
  intros. apply N.bits_inj; intro i. rewrite bit_field_testbit.
  destruct (N.ltb_spec i (f_len fl)).
  - rewrite set_bits_testbit by auto.
    replace (w - f_msb fl - f_len fl <=? i + (w - f_msb fl - f_len fl)) with true by (symmetry; apply N.leb_le; lia).
    replace (i + (w - f_msb fl - f_len fl) <? w - f_msb fl) with true by (symmetry; apply N.ltb_lt; lia).
    cbn [andb]. f_equal. lia.
  - symmetry; apply testbit_small with (f_len fl); auto.
Qed.

Lemma set_bits_outside : forall w fl h v i,
  f_msb fl + f_len fl <= w -> h < 2 ^ w -> v < 2 ^ f_len fl ->
  ~ in_field w (f_msb fl) (f_len fl) i -> N.testbit (set_bits w fl h v) i = N.testbit h i.
Proof.
  intros. rewrite set_bits_testbit by auto. unfold in_field in H2.
  destruct (N.leb_spec (w - f_msb fl - f_len fl) i), (N.ltb_spec i (w - f_msb fl)); cbn [andb]; try reflexivity.
  exfalso; apply H2; auto.
Qed.

Lemma set_bits_other_field : forall w fl h v msb len,
  f_msb fl + f_len fl <= w -> h < 2 ^ w -> v < 2 ^ f_len fl ->
  msb + len <= w -> disjoint_fields (f_msb fl) (f_len fl) msb len ->
  bit_field w msb len (set_bits w fl h v) = bit_field w msb len h.
Proof.
  intros. apply N.bits_inj; intro i. rewrite !bit_field_testbit.
  destruct (N.ltb_spec i len); auto.
  apply set_bits_outside; auto. unfold in_field, disjoint_fields in *. lia.
Qed.

(** The header is determined by what was said about it. *)
Lemma field_replaced_unique : forall w msb len h v a b, msb + len <= w ->
  field_replaced w msb len h v a -> field_replaced w msb len h v b -> a = b.
Proof.
  intros w msb len h v a b L [F1 O1] [F2 O2]. apply N.bits_inj; intro i.
  destruct (N.lt_ge_cases i (w - msb - len)); [|destruct (N.lt_ge_cases i (w - msb))].
  - rewrite O1, O2; auto; unfold in_field; lia.
  - rewrite <- F2 in F1.
    assert (E : N.testbit (bit_field w msb len a) (i - (w - msb - len)) =
                N.testbit (bit_field w msb len b) (i - (w - msb - len))) by (rewrite F1; reflexivity).
    rewrite !bit_field_testbit in E.
    replace (i - (w - msb - len) <? len) with true in E by (symmetry; apply N.ltb_lt; lia).
    replace (i - (w - msb - len) + (w - msb - len)) with i in E by lia. exact E.
  - rewrite O1, O2; auto; unfold in_field; lia.
Qed.

Lemma set_bits_replaced : forall w fl h v,
  f_msb fl + f_len fl <= w -> h < 2 ^ w -> v < 2 ^ f_len fl ->
  field_replaced w (f_msb fl) (f_len fl) h v (set_bits w fl h v).
Proof.
  intros; split; [apply set_bits_field_same | intros; apply set_bits_outside]; auto.
Qed.

Lemma set_bits_idem : forall w fl h v,
  f_msb fl + f_len fl <= w -> h < 2 ^ w -> v < 2 ^ f_len fl ->
  set_bits w fl (set_bits w fl h v) v = set_bits w fl h v.
Proof.
  intros. apply N.bits_inj; intro i. rewrite !set_bits_testbit; auto using set_bits_bound.
  destruct ((w - f_msb fl - f_len fl <=? i) && (i <? w - f_msb fl)); reflexivity.
Qed.

Lemma set_bits_commute : forall w f g h v u,
  f_msb f + f_len f <= w -> f_msb g + f_len g <= w -> h < 2 ^ w ->
  v < 2 ^ f_len f -> u < 2 ^ f_len g ->
  disjoint_fields (f_msb f) (f_len f) (f_msb g) (f_len g) ->
  set_bits w g (set_bits w f h v) u = set_bits w f (set_bits w g h u) v.
Proof.
  intros. apply N.bits_inj; intro i. rewrite !set_bits_testbit; auto using set_bits_bound.
  unfold disjoint_fields in H4.
  destruct (N.leb_spec (w - f_msb f - f_len f) i), (N.ltb_spec i (w - f_msb f)),
           (N.leb_spec (w - f_msb g - f_len g) i), (N.ltb_spec i (w - f_msb g));
    cbn [andb]; try reflexivity; exfalso; lia.
Qed.

(** ** Association lists *)
Lemma lookup_In : forall {V} k (m : list (string * V)) v, lookup k m = Some v -> In (k, v) m.
Proof.
  induction m as [|[k' v'] m IH]; simpl; intros; [discriminate|].
  destruct (String.eqb_spec k k'); [inversion H; subst; auto | auto].
Qed.
Lemma lookup_None : forall {V} k (m : list (string * V)), lookup k m = None <-> ~ In k (keys m).
Proof.
  induction m as [|[k' v'] m IH]; simpl; [tauto|].
  destruct (String.eqb_spec k k'); [split; [discriminate | intros H; exfalso; apply H; auto] |].
  rewrite IH. split; intros H; [intros [E|E]; [congruence | auto] | auto].
Qed.
Lemma In_lookup : forall {V} k (m : list (string * V)) v,
  NoDup (keys m) -> In (k, v) m -> lookup k m = Some v.
Proof.
  induction m as [|[k' v'] m IH]; simpl; intros v ND H; [contradiction|].
  inversion ND; subst. destruct H as [H|H].
  - inversion H; subst. rewrite String.eqb_refl. reflexivity.
  - destruct (String.eqb_spec k k'); [subst; exfalso; apply H2; apply (in_map fst) in H; auto | auto].
Qed.
Lemma In_keys_lookup : forall {V} k (m : list (string * V)), In k (keys m) -> exists v, lookup k m = Some v.
Proof.
  intros. destruct (lookup k m) eqn:E; eauto. apply lookup_None in E; contradiction.
Qed.
Lemma lookup_perm : forall {V} k (m m' : list (string * V)),
  same_map m m' -> lookup k m' = lookup k m.
Proof.
  intros V k m m' [ND P].
  assert (ND' : NoDup (keys m')) by (eapply Permutation_NoDup; [apply Permutation_map, P | auto]).
  destruct (lookup k m) eqn:E.
  - apply In_lookup; auto. apply (Permutation_in _ P). apply lookup_In; auto.
  - apply lookup_None in E. apply lookup_None. intro H; apply E.
    apply (Permutation_in k (Permutation_sym (Permutation_map fst P))). exact H.
Qed.
Lemma has_key_lookup : forall {V} k (m : list (string * V)), has_key k m = true <-> exists v, lookup k m = Some v.
Proof.
  intros; unfold has_key. destruct (lookup k m); split; intros H; eauto; try discriminate.
  destruct H; discriminate.
Qed.

Lemma update_lookup_same : forall {V} k v (m : list (string * V)), lookup k (update k v m) = Some v.
Proof.
  induction m as [|[k' v'] m IH]; simpl; [rewrite String.eqb_refl; reflexivity|].
  destruct (String.eqb_spec k k'); simpl.
  - rewrite String.eqb_refl; reflexivity.
  - destruct (String.eqb_spec k k'); [contradiction | auto].
Qed.
Lemma update_lookup_other : forall {V} k k2 v (m : list (string * V)), k2 <> k ->
  lookup k2 (update k v m) = lookup k2 m.
Proof.
  induction m as [|[k' v'] m IH]; simpl; intros.
  - destruct (String.eqb_spec k2 k); [contradiction|reflexivity].
  - destruct (String.eqb_spec k k'); simpl.
    + subst. destruct (String.eqb_spec k2 k'); [contradiction|reflexivity].
    + destruct (String.eqb_spec k2 k'); auto.
Qed.

(** ** Options *)
Lemma opt_name_found : forall opts k v,
  NoDup (map snd opts) -> In (k, v) opts -> opt_name opts v = Ret k.
Proof.
  induction opts as [|[k' v'] opts IH]; simpl; intros k v ND H; [contradiction|].
  inversion ND; subst. destruct H as [H|H].
  - inversion H; subst. rewrite N.eqb_refl. reflexivity.
  - destruct (N.eqb_spec v' v); [subst; exfalso; apply H2; apply (in_map snd) in H; auto | auto].
Qed.
Lemma opt_name_Ret : forall opts k v, opt_name opts v = Ret k -> In (k, v) opts.
Proof.
  induction opts as [|[k' v'] opts IH]; simpl; intros k v H; [discriminate|].
  destruct (N.eqb_spec v' v); [inversion H; subst; auto | auto].
Qed.
Lemma opt_name_Fatal : forall opts v, opt_name opts v = Fatal <-> ~ In v (map snd opts).
Proof.
  induction opts as [|[k' v'] opts IH]; simpl; intros v; [tauto|].
  destruct (N.eqb_spec v' v); [split; [discriminate | intros H; exfalso; auto] |].
  rewrite IH. tauto.
Qed.
Lemma opt_name_not_Panic : forall opts v, opt_name opts v <> Panic.
Proof.
  induction opts as [|[k' v'] opts IH]; simpl; intros v; [discriminate|].
  destruct (v' =? v); [discriminate | auto].
Qed.
Lemma opt_name_perm : forall opts opts' v,
  NoDup (map snd opts) -> Permutation opts opts' -> opt_name opts' v = opt_name opts v.
Proof.
  intros opts opts' v ND P.
  assert (ND' : NoDup (map snd opts')) by (eapply Permutation_NoDup; [apply Permutation_map, P | auto]).
  destruct (opt_name opts v) eqn:E.
  - apply opt_name_found; auto. apply (Permutation_in _ P). apply opt_name_Ret; auto.
  - exfalso; eapply opt_name_not_Panic; eauto.
  - apply opt_name_Fatal in E. apply opt_name_Fatal. intro H; apply E.
    apply (Permutation_in v (Permutation_sym (Permutation_map snd P))). exact H.
Qed.

Lemma flag_of_lookup : forall T f x, lookup f (t_flags T) = Some x -> flag_of T f = x.
Proof. intros; unfold flag_of; rewrite H; reflexivity. Qed.
Lemma dflag_of_lookup : forall T f x, lookup f (t_dirent T) = Some x -> dflag_of T f = x.
Proof. intros; unfold dflag_of; rewrite H; reflexivity. Qed.

Lemma sf_set_eq : forall T h field name,
  sf_set T h field name =
    match lookup field (t_flags T) with
    | None => Fatal
    | Some f => match lookup name (f_opts f) with
                | None => Fatal
                | Some v => Ret (set_bits 32 f h v)
                end
    end.
Proof.
  intros; unfold sf_set, sf_good, has_key, flag_of. destruct (lookup field (t_flags T)); reflexivity.
Qed.
Lemma sd_set_eq : forall T h field name,
  sd_set T h field name =
    match lookup field (t_dirent T) with
    | None => Fatal
    | Some f => match lookup name (f_opts f) with
                | None => Fatal
                | Some v => Ret (set_bits 16 f h v)
                end
    end.
Proof.
  intros; unfold sd_set, sd_good, has_key, dflag_of. destruct (lookup field (t_dirent T)); reflexivity.
Qed.
