(** * Facts about the shipped flag tables: the value of every field by name *)

From Verif Require Import GoBase GoFacts Flags SpecFlags FlagsFacts Config Shipped ConfigFacts SpecWire.
Local Open Scope string_scope.
Local Open Scope N_scope.

Lemma zeros_make : forall k, zeros k = make_bytes k.
Proof. reflexivity. Qed.

Lemma wire_be : forall k v, wire k v = be_bytes k v.
Proof.
  intros k v. unfold wire.
  assert (G : forall n k, (n <= k)%nat ->
    map (fun i => ascii_of_N ((v / 2 ^ (8 * N.of_nat (k - 1 - i))) mod 256)) (seq (k - n) n) = be_bytes n v).
  { induction n as [|n IH]; intros k0 L; [reflexivity|].
    cbn [seq map be_bytes]. f_equal.
    - unfold byte_of_N. f_equal. f_equal. f_equal.
      replace (k0 - 1 - (k0 - S n))%nat with n by lia. rewrite N.pow_mul_r. reflexivity.
    - replace (S (k0 - S n)) with (k0 - n)%nat by lia. apply IH. lia. }
  specialize (G k k (Nat.le_refl k)). rewrite Nat.sub_diag in G. exact G.
Qed.
Lemma wire_length : forall k v, length (wire k v) = k.
Proof. intros; rewrite wire_be; apply be_bytes_length. Qed.
Lemma number_at_be : forall f i k, number_at f i k = be_value (firstn k (skipn i f)).
Proof.
  intros; unfold number_at, be_value. generalize 0. induction (firstn k (skipn i f)); intros; simpl; auto.
Qed.
Lemma number_at_bound : forall f i k, number_at f i k < 2 ^ (8 * N.of_nat k).
Proof.
  intros. rewrite number_at_be. rewrite N.pow_mul_r. change (2 ^ 8) with 256.
  eapply N.lt_le_trans; [apply be_value_bound|].
  apply N.pow_le_mono_r; [discriminate|]. rewrite firstn_length. lia.
Qed.

Lemma getstr_field : forall field f h, lookup field (t_flags sar) = Some f ->
  sf_getstr sar h field = opt_name (f_opts f) (bit_field 32 (f_msb f) (f_len f) h).
Proof.
  intros field f h L. destruct (wf_lookup _ _ _ sar_wf L) as (W & _).
  unfold sf_getstr, sf_get. rewrite (flag_of_lookup _ _ _ L), get_bits_field by auto. reflexivity.
Qed.
Lemma dgetstr_field : forall field f h, lookup field (t_dirent sar) = Some f ->
  sd_getstr sar h field = opt_name (f_opts f) (bit_field 16 (f_msb f) (f_len f) h).
Proof.
  intros field f h L.
  assert (W : wf_flag 16 f) by (destruct sar_wf as (_ & W & _); apply W with field; apply lookup_In; auto).
  destruct W as (W & _).
  unfold sd_getstr. rewrite (dflag_of_lookup _ _ _ L), get_bits_field by auto. reflexivity.
Qed.

(** Case analysis on a number below a small bound *)
Lemma lt2 : forall v, v < 2 -> v = 0 \/ v = 1. Proof. lia. Qed.
Lemma lt4 : forall v, v < 4 -> v = 0 \/ v = 1 \/ v = 2 \/ v = 3. Proof. lia. Qed.
Ltac bf1 F := let B := fresh in
  pose proof (bit_field_bound _ _ _ _ : F < 2 ^ 1) as B; apply lt2 in B.
Ltac bf2 F := let B := fresh in
  pose proof (bit_field_bound _ _ _ _ : F < 2 ^ 2) as B; apply lt4 in B.

Definition yes_no (v : N) : string := if v =? 0 then "no" else "yes".
Definition desc_name (v : N) : string :=
  match v with 0 => "d16" | 1 => "d32" | 2 => "d64" | _ => "d128" end.


Lemma getstr_reqtstamp : forall h, sf_getstr sar h "reqtstamp" = Ret (yes_no (hd_reqtstamp h)).
Proof.
  intros h. erewrite getstr_field by (vm_compute; reflexivity). cbn [f_opts f_msb f_len].
  unfold hd_reqtstamp. bf1 (bit_field 32 12 1 h). destruct H as [E|E]; rewrite E; reflexivity.
Qed.
Lemma getstr_descriptor : forall h, sf_getstr sar h "descriptor" = Ret (desc_name (hd_descriptor h)).
Proof.
  intros h. erewrite getstr_field by (vm_compute; reflexivity). cbn [f_opts f_msb f_len].
  unfold hd_descriptor. bf2 (bit_field 32 8 2 h). destruct H as [E|[E|[E|E]]]; rewrite E; reflexivity.
Qed.
Lemma getstr_freespace : forall h, sf_getstr sar h "freespace" = Ret (yes_no (hd_freespace h)).
Proof.
  intros h. erewrite getstr_field by (vm_compute; reflexivity). cbn [f_opts f_msb f_len].
  unfold hd_freespace. bf1 (bit_field 32 17 1 h). destruct H as [E|E]; rewrite E; reflexivity.
Qed.
Lemma getstr_freespaced : forall h, sf_getstr sar h "freespaced" = Ret (desc_name (hd_freespaced h)).
Proof.
  intros h. erewrite getstr_field by (vm_compute; reflexivity). cbn [f_opts f_msb f_len].
  unfold hd_freespaced. bf2 (bit_field 32 18 2 h). destruct H as [E|[E|[E|E]]]; rewrite E; reflexivity.
Qed.

Lemma hd_reqtstamp_cases : forall h, hd_reqtstamp h = 0 \/ hd_reqtstamp h = 1.
Proof. intros. unfold hd_reqtstamp. bf1 (bit_field 32 12 1 h). auto. Qed.
Lemma hd_freespace_cases : forall h, hd_freespace h = 0 \/ hd_freespace h = 1.
Proof. intros. unfold hd_freespace. bf1 (bit_field 32 17 1 h). auto. Qed.
Lemma hd_descriptor_cases : forall h, hd_descriptor h = 0 \/ hd_descriptor h = 1 \/ hd_descriptor h = 2 \/ hd_descriptor h = 3.
Proof. intros. unfold hd_descriptor. bf2 (bit_field 32 8 2 h). auto. Qed.
Lemma hd_freespaced_cases : forall h, hd_freespaced h = 0 \/ hd_freespaced h = 1 \/ hd_freespaced h = 2 \/ hd_freespaced h = 3.
Proof. intros. unfold hd_freespaced. bf2 (bit_field 32 18 2 h). auto. Qed.

(** The timestamp type byte *)
Lemma st_getstr_eq : forall v, v < 256 -> st_getstr sar v = opt_name (f_opts (t_tstamps sar)) v.
Proof.
  intros v H. unfold st_getstr. rewrite get_bits_field by (vm_compute; discriminate).
  change (f_msb (t_tstamps sar)) with 0. change (f_len (t_tstamps sar)) with 8.
  unfold bit_field. change (8 - 0 - 8) with 0. change (2 ^ 0) with 1. rewrite N.div_1_r.
  rewrite N.mod_small by exact H. reflexivity.
Qed.
Lemma st_name_eq : forall v, v < 256 -> st_name sar v = opt_name (f_opts (t_tstamps sar)) v.
Proof. apply st_getstr_eq. Qed.
Lemma N_of_ascii_lt : forall b, N_of_ascii b < 256.
Proof. apply N_ascii_bounded. Qed.

Lemma number_at_wire : forall a k v c i, i = length a ->
  number_at (a ++ wire k v ++ c) i k = v mod 2 ^ (8 * N.of_nat k).
Proof.
  intros. rewrite number_at_be, wire_be. rewrite skipn_app_exact by auto.
  rewrite firstn_app_exact by (rewrite be_bytes_length; auto).
  rewrite be_value_be_bytes, N.pow_mul_r. reflexivity.
Qed.
Lemma get_uint_number : forall k f i j, j = (i + k)%nat -> (j <= length f)%nat ->
  get_uint k f i j = Ret (number_at f i k).
Proof. intros; subst. rewrite get_uint_ok by lia. rewrite number_at_be. reflexivity. Qed.
Lemma number_at_0 : forall f i, number_at f i 0 = 0.
Proof. reflexivity. Qed.

(** A byte by its number *)
Lemma index_number : forall f i, (i < length f)%nat -> exists b, index f i = Ret b /\ N_of_ascii b = number_at f i 1.
Proof.
  intros f i H. unfold index. destruct (nth_error f i) as [b|] eqn:E.
  - exists b; split; auto. unfold number_at. apply nth_error_split in E. destruct E as (l1 & l2 & -> & L).
    rewrite skipn_app_exact by auto. reflexivity.
  - apply nth_error_None in E. lia.
Qed.
Lemma number_at_wire0 : forall k v c, number_at (wire k v ++ c) 0 k = v mod 2 ^ (8 * N.of_nat k).
Proof. intros; apply (number_at_wire []). reflexivity. Qed.
