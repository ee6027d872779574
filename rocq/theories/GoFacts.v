(** * Facts about the Go base: bytes, big-endian integers, slices *)

From Verif Require Import GoBase.
Local Open Scope N_scope.
Ltac Zify.zify_post_hook ::= Z.div_mod_to_equations.

(** ** Bytes *)
Lemma byte_of_N_val : forall n, N_of_ascii (byte_of_N n) = n mod 256.
Proof. intros; unfold byte_of_N; apply N_ascii_embedding, N.mod_lt; discriminate. Qed.

Lemma byte_of_N_of_ascii : forall b, byte_of_N (N_of_ascii b) = b.
Proof.
  intros; unfold byte_of_N. rewrite N.mod_small by apply N_ascii_bounded.
  apply ascii_N_embedding.
Qed.

Lemma N_of_ascii_inj : forall a b, N_of_ascii a = N_of_ascii b -> a = b.
Proof. intros a b H; rewrite <- (ascii_N_embedding a), H; apply ascii_N_embedding. Qed.

(** ** Big-endian integers *)
Lemma be_bytes_length : forall k v, length (be_bytes k v) = k.
Proof. induction k; simpl; auto. Qed.

Lemma pow256_S : forall k, 256 ^ N.of_nat (S k) = 256 * 256 ^ N.of_nat k.
Proof. intros; rewrite Nnat.Nat2N.inj_succ, N.pow_succ_r'; reflexivity. Qed.

Lemma pow256_pos : forall k, 0 < 256 ^ N.of_nat k.
Proof. intros; apply N.neq_0_lt_0, N.pow_nonzero; discriminate. Qed.

Lemma be_value_acc_eq : forall l acc,
  be_value_acc acc l = acc * 256 ^ N.of_nat (length l) + be_value l.
Proof.
  unfold be_value; induction l; intros; cbn [be_value_acc length].
  - change (256 ^ N.of_nat 0) with 1; lia.
  - rewrite IHl, (IHl (0 * 256 + N_of_ascii a)), pow256_S. ring.
Qed.

Lemma be_value_cons : forall b l,
  be_value (b :: l) = N_of_ascii b * 256 ^ N.of_nat (length l) + be_value l.
Proof. intros; unfold be_value at 1; cbn [be_value_acc]; rewrite be_value_acc_eq; f_equal; ring. Qed.

Lemma be_value_bound : forall l, be_value l < 256 ^ N.of_nat (length l).
Proof.
  induction l; [reflexivity|].
  rewrite be_value_cons; cbn [length]; rewrite pow256_S.
  pose proof (N_ascii_bounded a). nia.
Qed.

Lemma be_value_be_bytes : forall k v, be_value (be_bytes k v) = v mod 256 ^ N.of_nat k.
Proof.
  induction k; intros.
  - change (256 ^ N.of_nat 0) with 1. rewrite N.mod_1_r. reflexivity.
  - cbn [be_bytes]. rewrite be_value_cons, be_bytes_length, IHk, byte_of_N_val, pow256_S.
    rewrite (N.mul_comm 256), N.mod_mul_r by (try (pose proof (pow256_pos k); lia); discriminate).
    lia.
Qed.

Lemma be_value_be_bytes_small : forall k v, v < 256 ^ N.of_nat k -> be_value (be_bytes k v) = v.
Proof. intros; rewrite be_value_be_bytes; apply N.mod_small; auto. Qed.

Lemma be_bytes_be_value : forall l, be_bytes (length l) (be_value l) = l.
Proof.
  induction l; [reflexivity|].
  cbn [length be_bytes]. rewrite be_value_cons.
  pose proof (be_value_bound l). pose proof (pow256_pos (length l)).
  rewrite N.div_add_l by lia. rewrite N.div_small by auto. rewrite N.add_0_r, byte_of_N_of_ascii.
  f_equal.
  assert (E : forall k a v, be_bytes k (a * 256 ^ N.of_nat k + v) = be_bytes k v).
  { clear. induction k; intros; [reflexivity|].
    cbn [be_bytes]. f_equal.
    - unfold byte_of_N. f_equal. rewrite pow256_S.
      replace (a * (256 * 256 ^ N.of_nat k) + v) with ((a * 256) * 256 ^ N.of_nat k + v) by ring.
      pose proof (pow256_pos k).
      rewrite N.div_add_l by lia.
      rewrite N.add_comm, N.mod_add by discriminate. reflexivity.
    - rewrite pow256_S.
      replace (a * (256 * 256 ^ N.of_nat k) + v) with ((a * 256) * 256 ^ N.of_nat k + v) by ring.
      apply IHk. }
  rewrite E. exact IHl.
Qed.

Lemma be_bytes_mod : forall k v, be_bytes k (v mod 256 ^ N.of_nat k) = be_bytes k v.
Proof.
  intros. rewrite <- be_value_be_bytes.
  rewrite <- (be_bytes_length k v) at 1. apply be_bytes_be_value.
Qed.

Lemma wrap_pow256 : forall k v, wrap (8 * N.of_nat k) v = v mod 256 ^ N.of_nat k.
Proof. intros; unfold wrap. rewrite N.pow_mul_r. reflexivity. Qed.
Lemma be_bytes_wrap : forall k v, be_bytes k (wrap (8 * N.of_nat k) v) = be_bytes k v.
Proof. intros; rewrite wrap_pow256; apply be_bytes_mod. Qed.
Lemma be_bytes_u16 : forall v, be_bytes 2 (u16 v) = be_bytes 2 v.
Proof. intros; apply (be_bytes_wrap 2). Qed.
Lemma be_bytes_u32 : forall v, be_bytes 4 (u32 v) = be_bytes 4 v.
Proof. intros; apply (be_bytes_wrap 4). Qed.
Lemma be_bytes_u64 : forall v, be_bytes 8 (u64 v) = be_bytes 8 v.
Proof. intros; apply (be_bytes_wrap 8). Qed.

(** ** Lists *)
Lemma firstn_app_exact : forall {A} (a b : list A) n, n = length a -> firstn n (a ++ b) = a.
Proof. intros; subst. rewrite firstn_app, Nat.sub_diag, firstn_all. simpl. apply app_nil_r. Qed.
Lemma skipn_app_exact : forall {A} (a b : list A) n, n = length a -> skipn n (a ++ b) = b.
Proof. intros; subst. rewrite skipn_app, Nat.sub_diag, skipn_all. reflexivity. Qed.

Lemma overwrite_length : forall {A} (buf src : list A) pos,
  (pos + length src <= length buf)%nat -> length (overwrite buf pos src) = length buf.
Proof.
  intros; unfold overwrite. rewrite !app_length, firstn_length, skipn_length. lia.
Qed.

Lemma overwrite_app : forall {A} (a b c s : list A) pos,
  pos = length a -> length b = length s -> overwrite (a ++ b ++ c) pos s = a ++ s ++ c.
Proof.
  intros; unfold overwrite. subst pos. rewrite firstn_app_exact by auto.
  f_equal. f_equal. rewrite app_assoc. apply skipn_app_exact. rewrite app_length; lia.
Qed.

Lemma make_bytes_length : forall n, length (make_bytes n) = n.
Proof. intros; apply repeat_length. Qed.
Lemma make_bytes_app : forall n m, make_bytes (n + m) = make_bytes n ++ make_bytes m.
Proof. intros; unfold make_bytes; apply repeat_app. Qed.

(** Writing the next bytes of a frame under construction: what is written so far
    is [a], [n] zero bytes are still to be written. *)
Lemma overwrite_make : forall a s n pos,
  pos = length a -> (length s <= n)%nat ->
  overwrite (a ++ make_bytes n) pos s = (a ++ s) ++ make_bytes (n - length s).
Proof.
  intros. replace n with (length s + (n - length s))%nat at 1 by lia.
  rewrite make_bytes_app, overwrite_app by (rewrite ?make_bytes_length; auto).
  apply app_assoc.
Qed.

Lemma put_uint_make : forall k a n i j v,
  i = length a -> j = (i + k)%nat -> (k <= n)%nat ->
  put_uint k (a ++ make_bytes n) i j v = Ret ((a ++ be_bytes k v) ++ make_bytes (n - k)).
Proof.
  intros; subst. unfold put_uint. rewrite app_length, make_bytes_length.
  replace (length a <=? length a + k)%nat with true by (symmetry; apply Nat.leb_le; lia).
  replace (length a + k <=? length a + n)%nat with true by (symmetry; apply Nat.leb_le; lia).
  replace (k <=? length a + k - length a)%nat with true by (symmetry; apply Nat.leb_le; lia).
  cbn [andb]. rewrite overwrite_make; rewrite ?be_bytes_length; auto.
Qed.

Lemma copy_range_make : forall a n i j s,
  i = length a -> j = (i + length s)%nat -> (length s <= n)%nat ->
  copy_range (a ++ make_bytes n) i j s = Ret ((a ++ s) ++ make_bytes (n - length s)).
Proof.
  intros; subst. unfold copy_range. rewrite app_length, make_bytes_length.
  replace (length a <=? length a + length s)%nat with true by (symmetry; apply Nat.leb_le; lia).
  replace (length a + length s <=? length a + n)%nat with true by (symmetry; apply Nat.leb_le; lia).
  cbn [andb]. replace (length a + length s - length a)%nat with (length s) by lia.
  rewrite firstn_all. rewrite overwrite_make; auto.
Qed.

Lemma copy_from_make : forall a n i s,
  i = length a -> (length s <= n)%nat ->
  copy_from (a ++ make_bytes n) i s = Ret ((a ++ s) ++ make_bytes (n - length s)).
Proof.
  intros; subst. unfold copy_from. rewrite app_length, make_bytes_length.
  replace (length a <=? length a + n)%nat with true by (symmetry; apply Nat.leb_le; lia).
  replace (length a + n - length a)%nat with n by lia.
  rewrite firstn_all2 by lia. rewrite overwrite_make; auto.
Qed.

(** ** Reading slices *)
Lemma slice_app : forall {A} (a b c : list A) i j,
  i = length a -> j = (i + length b)%nat -> slice (a ++ b ++ c) i j = Ret b.
Proof.
  intros; subst. unfold slice. rewrite !app_length.
  replace (length a <=? length a + length b)%nat with true by (symmetry; apply Nat.leb_le; lia).
  replace (length a + length b <=? length a + (length b + length c))%nat with true by (symmetry; apply Nat.leb_le; lia).
  cbn [andb]. rewrite skipn_app_exact by auto. rewrite firstn_app_exact by lia. reflexivity.
Qed.

Lemma slice_from_app : forall {A} (a b : list A) i, i = length a -> slice_from (a ++ b) i = Ret b.
Proof.
  intros; subst. unfold slice_from. rewrite app_length.
  replace (length a <=? length a + length b)%nat with true by (symmetry; apply Nat.leb_le; lia).
  rewrite skipn_app_exact by auto. reflexivity.
Qed.

Lemma get_uint_app : forall k a b c i j,
  i = length a -> length b = k -> j = (i + k)%nat -> get_uint k (a ++ b ++ c) i j = Ret (be_value b).
Proof.
  intros; unfold get_uint. subst k. rewrite slice_app by auto. cbn [obind].
  rewrite Nat.leb_refl, firstn_all. reflexivity.
Qed.

(** Reads at arbitrary positions: either in range or a panic. *)
Lemma slice_ok : forall {A} (l : list A) i j, (i <= j <= length l)%nat ->
  slice l i j = Ret (firstn (j - i) (skipn i l)).
Proof.
  intros; unfold slice.
  replace (i <=? j)%nat with true by (symmetry; apply Nat.leb_le; lia).
  replace (j <=? length l)%nat with true by (symmetry; apply Nat.leb_le; lia). reflexivity.
Qed.
Lemma slice_panic : forall {A} (l : list A) i j, (length l < j)%nat -> slice l i j = Panic.
Proof.
  intros; unfold slice.
  replace (j <=? length l)%nat with false by (symmetry; apply Nat.leb_gt; lia).
  rewrite andb_false_r. reflexivity.
Qed.
Lemma slice_from_ok : forall {A} (l : list A) i, (i <= length l)%nat -> slice_from l i = Ret (skipn i l).
Proof.
  intros; unfold slice_from.
  replace (i <=? length l)%nat with true by (symmetry; apply Nat.leb_le; lia). reflexivity.
Qed.
Lemma slice_from_panic : forall {A} (l : list A) i, (length l < i)%nat -> slice_from l i = Panic.
Proof.
  intros; unfold slice_from.
  replace (i <=? length l)%nat with false by (symmetry; apply Nat.leb_gt; lia). reflexivity.
Qed.
Lemma get_uint_ok : forall k l i, (i + k <= length l)%nat ->
  get_uint k l i (i + k) = Ret (be_value (firstn k (skipn i l))).
Proof.
  intros; unfold get_uint. rewrite slice_ok by lia. cbn [obind].
  replace (i + k - i)%nat with k by lia.
  assert (L : length (firstn k (skipn i l)) = k) by (rewrite firstn_length, skipn_length; lia).
  rewrite L, Nat.leb_refl. rewrite firstn_all2 by lia. reflexivity.
Qed.
Lemma get_uint_panic : forall k l i, (length l < i + k)%nat -> get_uint k l i (i + k) = Panic.
Proof. intros; unfold get_uint; rewrite slice_panic by lia; reflexivity. Qed.

(** ** Strings as bytes *)
Lemma string_of_bytes_of : forall s, string_of (bytes_of s) = s.
Proof. apply string_of_list_ascii_of_string. Qed.
Lemma bytes_of_string_of : forall l, bytes_of (string_of l) = l.
Proof. apply list_ascii_of_string_of_list_ascii. Qed.
Lemma bytes_of_length : forall s, length (bytes_of s) = slen s.
Proof. induction s; simpl; auto. Qed.
Lemma slen_string_of : forall l, slen (string_of l) = length l.
Proof. intros; rewrite <- bytes_of_length, bytes_of_string_of; reflexivity. Qed.
Lemma bytes_of_app : forall s t, bytes_of (s ++ t)%string = (bytes_of s ++ bytes_of t)%list.
Proof. induction s; intros; simpl; [|rewrite IHs]; reflexivity. Qed.

(** ** Fixed width *)
Lemma wrap_small : forall w n, n < 2 ^ w -> wrap w n = n.
Proof. intros; apply N.mod_small; auto. Qed.
Lemma u64_of_Z_small : forall z, (0 <= z < 2 ^ 64)%Z -> u64_of_Z z = Z.to_N z.
Proof. intros; unfold u64_of_Z; rewrite Z.mod_small; auto. Qed.
Lemma i64_of_N_small : forall n, n < 2 ^ 63 -> i64_of_N n = Z.of_N n.
Proof.
  intros; unfold i64_of_N. assert (2 ^ 63 < 2 ^ 64) by reflexivity.
  rewrite N.mod_small by lia. apply N.ltb_lt in H. rewrite H. reflexivity.
Qed.
Lemma i64_of_N_neg : forall n, 2 ^ 63 <= n < 2 ^ 64 -> i64_of_N n = (Z.of_N n - 2 ^ 64)%Z.
Proof.
  intros; unfold i64_of_N. rewrite N.mod_small by lia.
  replace (n <? 2 ^ 63) with false by (symmetry; apply N.ltb_ge; lia). reflexivity.
Qed.
Lemma i64_of_Z_small : forall z, (- 2 ^ 63 <= z < 2 ^ 63)%Z -> i64_of_Z z = z.
Proof.
  intros; unfold i64_of_Z, i64_of_N, u64_of_Z.
  assert (0 <= z mod 2 ^ 64 < 2 ^ 64)%Z by (apply Z.mod_pos_bound; reflexivity).
  rewrite N.mod_small by (change (2 ^ 64) with (Z.to_N (2 ^ 64)); lia).
  destruct (Z_lt_le_dec z 0).
  - assert (E : (z mod 2 ^ 64 = z + 2 ^ 64)%Z).
    { symmetry; apply (Z.mod_unique_pos _ _ (-1)); lia. }
    rewrite E. replace (Z.to_N (z + 2 ^ 64) <? 2 ^ 63) with false by (symmetry; apply N.ltb_ge; lia).
    rewrite Z2N.id by lia. lia.
  - rewrite Z.mod_small by lia.
    replace (Z.to_N z <? 2 ^ 63) with true by (symmetry; apply N.ltb_lt; lia).
    rewrite Z2N.id by lia. reflexivity.
Qed.
