(** * Facts about the model of encoding/json *)

From Verif Require Import NumbersFacts GoBase GoFacts Config Table Json SpecWords SpecTable TableFacts SpecJson.
Local Open Scope string_scope.
Local Open Scope N_scope.

(** ** Bytes *)
Lemma is_char_iff : forall n a, is_char n a = true <-> N_of_ascii a = n.
Proof. intros n a. unfold is_char, code. apply N.eqb_eq. Qed.
Lemma is_char_at : forall n a, n < 256 -> is_char n a = true -> a = ascii_of_N n.
Proof. intros n a L H. apply is_char_iff in H. symmetry. apply ascii_code; [exact L|]. symmetry; exact H. Qed.
Lemma is_char_not : forall n a, is_char n a = false <-> N_of_ascii a <> n.
Proof. intros n a. unfold is_char, code. apply N.eqb_neq. Qed.

Lemma is_space_iff : forall a, is_space a = true <-> In (N_of_ascii a) [9; 10; 13; 32].
Proof.
  intros a. unfold is_space. rewrite !orb_true_iff, !is_char_iff. cbn [In]. split; intros H; repeat destruct H as [H|H]; try (symmetry in H); tauto.
Qed.
Lemma skip_cut : forall l, exists w, l = (w ++ skip l)%list /\ blank w.
Proof.
  induction l as [|a l [w [E B]]]; cbn [skip].
  - exists []. split; [reflexivity|constructor].
  - destruct (is_space a) eqn:S.
    + exists (a :: w). split; [rewrite E at 1; reflexivity|constructor; [apply is_space_iff, S|exact B]].
    + exists []. split; [reflexivity|constructor].
Qed.
Lemma skip_blank : forall w l, blank w -> skip (w ++ l) = skip l.
Proof.
  intros w l B. induction B as [|a w H B IH]; [reflexivity|]. cbn [skip app]. apply is_space_iff in H. rewrite H. exact IH.
Qed.
Definition starts (l : list byte) : Prop := match l with a :: _ => is_space a = false | [] => True end.
Lemma skip_starts : forall l, starts l -> skip l = l.
Proof. intros [|a l] S; [reflexivity|]. cbn [skip]. cbn [starts] in S. rewrite S. reflexivity. Qed.
Lemma skip_all : forall l, skip l = [] <-> blank l.
Proof.
  intros l. split; intros H.
  - destruct (skip_cut l) as [w [E B]]. rewrite H, app_nil_r in E. subst. exact B.
  - rewrite <- (app_nil_r l), skip_blank by exact H. reflexivity.
Qed.
Lemma blank_app : forall a b, blank a -> blank b -> blank (a ++ b).
Proof. intros a b A B. apply Forall_app. split; assumption. Qed.

(** ** Runes *)
Lemma lor_add : forall a b n, a mod 2 ^ n = 0 -> b < 2 ^ n -> N.lor a b = a + b.
Proof.
  intros a b n A B. apply N.div_exact in A; [|apply N.pow_nonzero; lia]. rewrite A. rewrite N.mul_comm, <- N.shiftl_mul_pow2.
  rewrite <- N.lxor_lor.
  - symmetry. apply N.add_nocarry_lxor. apply N.bits_inj. intros i. rewrite N.land_spec, N.bits_0.
    destruct (N.lt_ge_cases i n) as [L|L].
    + rewrite N.shiftl_spec_low by exact L. reflexivity.
    + replace (N.testbit b i) with false; [apply andb_false_r|]. symmetry. destruct b as [|p]; [reflexivity|].
      apply N.bits_above_log2. apply N.log2_lt_pow2; [lia|]. eapply N.lt_le_trans; [exact B|]. apply N.pow_le_mono_r; lia.
  - apply N.bits_inj. intros i. rewrite N.land_spec, N.bits_0.
    destruct (N.lt_ge_cases i n) as [L|L].
    + rewrite N.shiftl_spec_low by exact L. reflexivity.
    + replace (N.testbit b i) with false; [apply andb_false_r|]. symmetry. destruct b as [|p]; [reflexivity|].
      apply N.bits_above_log2. apply N.log2_lt_pow2; [lia|]. eapply N.lt_le_trans; [exact B|]. apply N.pow_le_mono_r; lia.
Qed.
Lemma land63 : forall c, N.land c 0x3F = c mod 64.
Proof. intros c. change 0x3F with (N.ones 6). rewrite N.land_ones. reflexivity. Qed.
Lemma low_tail : forall c, N.lor 0x80 (c mod 64) = 0x80 + c mod 64.
Proof. intros c. apply lor_add with 6; [reflexivity|]. change (2 ^ 6) with 64. apply N.mod_lt. lia. Qed.
Lemma encode_utf8 : forall c, character c -> encode_rune c = utf8_bytes c.
Proof.
  intros c C. assert (U : c < 0x110000) by (destruct C; lia). unfold encode_rune, utf8_bytes. rewrite !land63, !low_tail, !N.shiftr_div_pow2.
  change (2 ^ 6) with 64. change (2 ^ 12) with 4096. change (2 ^ 18) with 262144.
  replace (c <? 0x80) with (c <=? 0x7F) by (destruct (N.leb_spec c 0x7F), (N.ltb_spec c 0x80); try reflexivity; lia).
  replace (c <? 0x800) with (c <=? 0x7FF) by (destruct (N.leb_spec c 0x7FF), (N.ltb_spec c 0x800); try reflexivity; lia).
  replace (c <? 0x10000) with (c <=? 0xFFFF) by (destruct (N.leb_spec c 0xFFFF), (N.ltb_spec c 0x10000); try reflexivity; lia).
  destruct (N.leb_spec c 0x7F); [reflexivity|]. destruct (N.leb_spec c 0x7FF).
  { cbn [map]. rewrite (lor_add 0xC0 (c / 64) 5); [reflexivity|reflexivity|]. apply N.div_lt_upper_bound; lia. }
  destruct (N.leb_spec c 0xFFFF).
  { cbn [map]. rewrite (lor_add 0xE0 (c / 4096) 4); [reflexivity|reflexivity|]. apply N.div_lt_upper_bound; lia. }
  cbn [map]. rewrite (lor_add 0xF0 (c / 262144) 3); [reflexivity|reflexivity|]. apply N.div_lt_upper_bound; lia.
Qed.
Lemma encode_replacement : encode_rune replacement = not_a_character.
Proof. reflexivity. Qed.

(** ** Hexadecimal digits *)
Lemma hex_val_iff : forall a n, hex_val a = Some n <-> hex_digit a n.
Proof.
  intros a n. unfold hex_val, hex_digit, code. pose proof (byte_lt a) as L. split.
  - intros H.
    destruct ((48 <=? N_of_ascii a) && (N_of_ascii a <=? 57)) eqn:A.
    { apply andb_true_iff in A. rewrite !N.leb_le in A. injection H as <-. left. split; [lia|]. symmetry. apply ascii_code; lia. }
    destruct ((97 <=? N_of_ascii a) && (N_of_ascii a <=? 102)) eqn:B.
    { apply andb_true_iff in B. rewrite !N.leb_le in B. injection H as <-. right. split; [lia|]. left. symmetry. apply ascii_code; lia. }
    destruct ((65 <=? N_of_ascii a) && (N_of_ascii a <=? 70)) eqn:C; [|discriminate].
    apply andb_true_iff in C. rewrite !N.leb_le in C. injection H as <-. right. split; [lia|]. right. symmetry. apply ascii_code; lia.
  - intros [[B ->]|[B [-> | ->]]]; rewrite !N_ascii_embedding by lia.
    + replace (48 <=? 48 + n) with true by (symmetry; apply N.leb_le; lia). replace (48 + n <=? 57) with true by (symmetry; apply N.leb_le; lia).
      cbn [andb]. f_equal. lia.
    + replace (87 + n <=? 57) with false by (symmetry; apply N.leb_gt; lia). rewrite andb_false_r.
      replace (97 <=? 87 + n) with true by (symmetry; apply N.leb_le; lia). replace (87 + n <=? 102) with true by (symmetry; apply N.leb_le; lia).
      cbn [andb]. f_equal. lia.
    + replace (55 + n <=? 57) with false by (symmetry; apply N.leb_gt; lia). rewrite andb_false_r.
      replace (97 <=? 55 + n) with false by (symmetry; apply N.leb_gt; lia). cbn [andb].
      replace (65 <=? 55 + n) with true by (symmetry; apply N.leb_le; lia). replace (55 + n <=? 70) with true by (symmetry; apply N.leb_le; lia).
      cbn [andb]. f_equal. lia.
Qed.
Lemma hex4_iff : forall l n r, hex4 l = Some (n, r) <-> exists h, l = (h ++ r)%list /\ hex_word h n.
Proof.
  intros l n r. split.
  - destruct l as [|a [|b [|c [|d l]]]]; try discriminate. cbn [hex4].
    destruct (hex_val a) as [x|] eqn:A; [|discriminate]. destruct (hex_val b) as [y|] eqn:B; [|discriminate].
    destruct (hex_val c) as [z|] eqn:C; [|discriminate]. destruct (hex_val d) as [w|] eqn:D; [|discriminate].
    intros E. assert (l = r) as -> by congruence. exists [a; b; c; d]. split; [reflexivity|]. exists a, b, c, d, x, y, z, w.
    rewrite <- !hex_val_iff. repeat (split; [assumption || reflexivity|]). assert (M : forall p q : N * list byte, p = q -> fst p = fst q) by congruence.
    assert (E' : ((x * 16 + y) * 16 + z) * 16 + w = n) by congruence. lia.
  - intros (h & -> & a & b & c & d & x & y & z & w & -> & A & B & C & D & ->). cbn [app hex4].
    apply hex_val_iff in A, B, C, D. rewrite A, B, C, D. f_equal. f_equal. lia.
Qed.
Lemma hex_word_shape : forall h n, hex_word h n -> length h = 4%nat /\ n < 65536 /\ Forall (fun a => 48 <= N_of_ascii a < 103) h.
Proof.
  assert (D : forall a n, hex_digit a n -> n < 16 /\ 48 <= N_of_ascii a < 103).
  { intros a n [[B ->]|[B [-> | ->]]]; rewrite N_ascii_embedding by lia; lia. }
  intros h n (a & b & c & d & x & y & z & w & -> & A & B & C & E & ->). apply D in A, B, C, E. split; [reflexivity|]. split; [lia|].
  repeat constructor; tauto.
Qed.
Lemma escaped4_iff : forall l n r, escaped4 l = Some (n, r) <-> exists h, l = (bytes_of "\u" ++ h ++ r)%list /\ hex_word h n.
Proof.
  intros l n r. unfold escaped4. split.
  - destruct l as [|a [|b l]]; try discriminate. destruct (is_char 92 a && is_char 117 b) eqn:E; [|discriminate].
    apply andb_true_iff in E. destruct E as [A B]. apply is_char_at in A, B; try lia. subst. rewrite hex4_iff. intros (h & -> & H).
    exists h. split; [reflexivity|exact H].
  - intros (h & -> & H). cbn [bytes_of list_ascii_of_string app]. change (is_char 92 "\"%char && is_char 117 "u"%char) with true. cbn match.
    apply hex4_iff. exists h. split; [reflexivity|exact H].
Qed.
Lemma join_iff : forall a b c, a < 65536 -> b < 65536 -> join_surrogates a b = Some c <-> halves c a b.
Proof.
  intros a b c A B. unfold join_surrogates, halves. split.
  - destruct ((0xD800 <=? a) && (a <? 0xDC00) && (0xDC00 <=? b) && (b <? 0xE000)) eqn:E; [|discriminate].
    rewrite !andb_true_iff, !N.leb_le, !N.ltb_lt in E. intros H. assert (C : c = (a - 0xD800) * 1024 + (b - 0xDC00) + 0x10000) by congruence.
    assert (Q : (c - 0x10000) / 1024 = a - 0xD800) by (symmetry; apply N.div_unique with (b - 0xDC00); lia).
    assert (M : (c - 0x10000) mod 1024 = b - 0xDC00) by (symmetry; apply N.mod_unique with (a - 0xD800); lia).
    rewrite Q, M. lia.
  - intros (C & -> & ->). pose proof (N.mod_lt (c - 0x10000) 1024 ltac:(lia)) as M.
    assert (Q : (c - 0x10000) / 1024 < 1024) by (apply N.div_lt_upper_bound; lia). pose proof (N.div_mod (c - 0x10000) 1024 ltac:(lia)) as D.
    set (q := (c - 0x10000) / 1024) in *. set (m := (c - 0x10000) mod 1024) in *.
    replace (0xD800 <=? 0xD800 + q) with true by (symmetry; apply N.leb_le; lia).
    replace (0xD800 + q <? 0xDC00) with true by (symmetry; apply N.ltb_lt; lia).
    replace (0xDC00 <=? 0xDC00 + m) with true by (symmetry; apply N.leb_le; lia).
    replace (0xDC00 + m <? 0xE000) with true by (symmetry; apply N.ltb_lt; lia). cbn [andb]. f_equal. lia.
Qed.
Lemma join_low : forall a b, join_surrogates a b = None -> high_half a -> ~ low_half b.
Proof.
  intros a b H A B. unfold join_surrogates, high_half, low_half in *.
  replace ((0xD800 <=? a) && (a <? 0xDC00) && (0xDC00 <=? b) && (b <? 0xE000)) with true in H; [discriminate|].
  symmetry. rewrite !andb_true_iff, !N.leb_le, !N.ltb_lt. lia.
Qed.
Lemma halves_high : forall c a b, halves c a b -> high_half a /\ low_half b.
Proof.
  intros c a b (C & -> & ->). pose proof (N.mod_lt (c - 0x10000) 1024 ltac:(lia)).
  assert ((c - 0x10000) / 1024 < 1024) by (apply N.div_lt_upper_bound; lia). unfold high_half, low_half.
  set (q := (c - 0x10000) / 1024) in *. set (m := (c - 0x10000) mod 1024) in *. clearbody q m. lia.
Qed.
Lemma is_surrogate_iff : forall c, is_surrogate c = true <-> high_half c \/ low_half c.
Proof. intros c. unfold is_surrogate, high_half, low_half. rewrite andb_true_iff, N.leb_le, N.ltb_lt. split; intros H; [destruct (N.lt_ge_cases c 0xDC00); [left|right]|destruct H]; lia. Qed.

Lemma simple_iff : forall e c, simple_escape e = Some c <-> In (e, c) escapes.
Proof.
  intros e c. unfold simple_escape, escapes. split.
  - intros H.
    repeat match type of H with
    | (if is_char ?n e then _ else _) = _ => destruct (is_char n e) eqn:?X; [apply is_char_at in X; [|lia]; subst e; injection H as <-; cbn [In]; tauto|clear X]
    end.
    destruct (is_char 34 e) eqn:A; [apply is_char_at in A; [|lia]; subst e; injection H as <-; cbn [In]; tauto|].
    destruct (is_char 92 e) eqn:B; [apply is_char_at in B; [|lia]; subst e; injection H as <-; cbn [In]; tauto|].
    destruct (is_char 47 e) eqn:C; [apply is_char_at in C; [|lia]; subst e; injection H as <-; cbn [In]; tauto|]. discriminate.
  - cbn [In]. intros H. repeat destruct H as [H|H]; try contradiction; injection H as <- <-; reflexivity.
Qed.

(** ** Strings *)

(** The bytes of a character other than the first are none of the text's own signs *)
Lemma utf8_tail : forall c, character c -> exists a l, utf8_bytes c = a :: l /\ Forall (fun b => 0x80 <= N_of_ascii b) l /\
  (c < 0x80 -> N_of_ascii a = c) /\ (0x80 <= c -> 0x80 <= N_of_ascii a).
Proof.
  intros c C. assert (U : c < 0x110000) by (destruct C; lia).
  assert (T : forall x, 0x80 <= N_of_ascii (ascii_of_N (0x80 + x mod 64))).
  { intros x. pose proof (N.mod_lt x 64 ltac:(lia)). set (m := x mod 64) in *. clearbody m. rewrite N_ascii_embedding by lia. lia. }
  destruct (utf8_cases c C) as [(B & E)|[(B & E)|[(B & E)|(B & E)]]]; rewrite E; eexists; eexists; (split; [reflexivity|]).
  - split; [constructor|]. split; [intros _; apply N_ascii_embedding; lia|lia].
  - split; [repeat constructor; apply T|]. split; [lia|]. intros _. assert (Q : c / 64 < 32) by (apply N.div_lt_upper_bound; lia).
    set (q := c / 64) in *. clearbody q. rewrite N_ascii_embedding by lia. lia.
  - split; [repeat constructor; apply T|]. split; [lia|]. intros _. assert (Q : c / 4096 < 16) by (apply N.div_lt_upper_bound; lia).
    set (q := c / 4096) in *. clearbody q. rewrite N_ascii_embedding by lia. lia.
  - split; [repeat constructor; apply T|]. split; [lia|]. intros _. assert (Q : c / 262144 < 5) by (apply N.div_lt_upper_bound; lia).
    set (q := c / 262144) in *. clearbody q. rewrite N_ascii_embedding by lia. lia.
Qed.
(** A list that begins a text made of [s] and something else, and has no sign the rest begins with, begins [s] *)
Lemma prefix_cut : forall (P : byte -> Prop) l s q r x, Forall P l -> ~ P q -> (l ++ x)%list = (s ++ q :: r)%list -> exists y, s = (l ++ y)%list.
Proof.
  intros P l. induction l as [|a l IH]; intros s q r x F Q E; [exists s; reflexivity|].
  destruct s as [|b s]; cbn [app] in E.
  - apply cons_both in E. destruct E as [-> _]. inversion F; contradiction.
  - apply cons_both in E. destruct E as [-> E]. inversion F as [|? ? ? F']; subst. destruct (IH s q r x F' Q E) as [y ->]. exists y. reflexivity.
Qed.
Lemma char_cut : forall c s r x, character c -> s <> [] -> (s ++ """"%char :: r)%list = (utf8_bytes c ++ x)%list -> exists y, s = (utf8_bytes c ++ y)%list.
Proof.
  intros c s r x C N E. destruct (utf8_tail c C) as (a & l & U & F & _). rewrite U in *. destruct s as [|b s]; [contradiction|].
  cbn [app] in E. apply cons_both in E. destruct E as [-> E]. symmetry in E. apply prefix_cut with (P := fun b => 0x80 <= N_of_ascii b) in E.
  - destruct E as [y ->]. exists y. reflexivity.
  - exact F.
  - cbn. lia.
Qed.

Lemma body_quote : forall s v r, string_body s v ->
  exists rest, (s ++ """"%char :: r)%list = rest /\ forall fuel, (length s < fuel)%nat -> parse_str fuel rest = Some (v, r).
Proof.
  intros s v r B. exists (s ++ """"%char :: r)%list. split; [reflexivity|]. induction B as
    [|c s v C L Q K B IH|e c s v I B IH|h c s v H C B IH|h1 h2 hi lo c s v H1 H2 J B IH|h n s v H Lo B IH|h n s v H Hi No B IH|b s v L N B IH];
    intros [|fuel] F; try (exfalso; lia).
  - reflexivity.
  - destruct (utf8_tail c C) as (a & l & U & T & A1 & A2). rewrite U in *. cbn [app] in *. cbn [parse_str].
    assert (A : N_of_ascii a <> 34 /\ N_of_ascii a <> 92 /\ 32 <= N_of_ascii a).
    { destruct (N.lt_ge_cases c 0x80) as [X|X]; [specialize (A1 X)|specialize (A2 X)]; lia. }
    rewrite (proj2 (is_char_not 34 a)) by tauto. rewrite (proj2 (is_char_not 92 a)) by tauto. unfold code.
    replace (N_of_ascii a <? 32) with false by (symmetry; apply N.ltb_ge; tauto).
    assert (P : parse_str fuel (s ++ """"%char :: r) = Some (v, r)).
    { apply IH. cbn [length] in F. rewrite app_length in F. lia. }
    destruct (N.ltb_spec (N_of_ascii a) 128) as [X|X].
    + assert (l = []) as -> by (destruct (N.lt_ge_cases c 0x80) as [Y|Y]; [|specialize (A2 Y); lia];
        destruct (utf8_cases c C) as [(_ & W)|[(W & _)|[(W & _)|(W & _)]]]; [congruence|lia..]).
      cbn [app]. rewrite P. reflexivity.
    + assert (R : rune_rest a ((l ++ s) ++ """"%char :: r) = (s ++ """"%char :: r)%list).
      { apply rest_char with c; [exact C|]. rewrite U. cbn [app]. rewrite <- app_assoc. reflexivity. }
      rewrite R. assert (l <> []).
      { destruct (N.lt_ge_cases c 0x80) as [Y|Y]; [specialize (A1 Y); lia|].
        destruct (utf8_cases c C) as [(W & _)|[(_ & W)|[(_ & W)|(_ & W)]]]; [lia|rewrite U in W; intros ->; discriminate W..]. }
      assert (Z : (length l > 0)%nat) by (destruct l; [contradiction|cbn; lia]).
      destruct (Nat.eqb_spec (length (s ++ """"%char :: r)) (length ((l ++ s) ++ """"%char :: r))) as [Y|Y].
      { rewrite !app_length in Y. lia. }
      rewrite P. f_equal. f_equal. cbn [app]. f_equal. replace (length ((l ++ s) ++ """"%char :: r) - length (s ++ """"%char :: r))%nat with (length l + 0)%nat
        by (rewrite !app_length; lia).
      rewrite <- app_assoc, firstn_app_2. cbn [firstn]. rewrite app_nil_r. reflexivity.
  - cbn [app parse_str length] in *. change (is_char 34 "\"%char) with false. change (is_char 92 "\"%char) with true. cbn match.
    assert (U : is_char 117 e = false).
    { apply is_char_not. unfold escapes in I. cbn [In] in I. repeat destruct I as [I|I]; try contradiction; injection I as <- _; discriminate. }
    rewrite U. rewrite (proj2 (simple_iff e c) I), IH by lia. reflexivity.
  - destruct (hex_word_shape _ _ H) as (L & B16 & _). rewrite !app_length in F. cbn [length] in F. cbn [bytes_of list_ascii_of_string app parse_str].
    change (is_char 34 "\"%char) with false. change (is_char 92 "\"%char) with true. change (is_char 117 "u"%char) with true. cbn match.
    rewrite (proj2 (hex4_iff ((h ++ s) ++ """"%char :: r) c (s ++ """"%char :: r))) by (exists h; rewrite <- app_assoc; split; [reflexivity|exact H]).
    assert (G : is_surrogate c = false).
    { destruct (is_surrogate c) eqn:G; [|reflexivity]. apply is_surrogate_iff in G. unfold character, high_half, low_half in *. lia. }
    rewrite G, encode_utf8 by exact C. rewrite IH by (rewrite L in F; lia). reflexivity.
  - destruct (hex_word_shape _ _ H1) as (L1 & B1 & _). destruct (hex_word_shape _ _ H2) as (L2 & B2 & _). rewrite !app_length in F. cbn [length] in F.
    cbn [bytes_of list_ascii_of_string app parse_str].
    change (is_char 34 "\"%char) with false. change (is_char 92 "\"%char) with true. change (is_char 117 "u"%char) with true. cbn match.
    rewrite (proj2 (hex4_iff _ hi (bytes_of "\u" ++ h2 ++ s ++ """"%char :: r))) by
      (exists h1; split; [cbn [bytes_of list_ascii_of_string app]; rewrite <- !app_assoc; cbn [app]; rewrite <- !app_assoc; reflexivity|exact H1]).
    rewrite (proj2 (is_surrogate_iff hi)) by (left; apply (halves_high _ _ _ J)).
    rewrite (proj2 (escaped4_iff _ lo (s ++ """"%char :: r))) by (exists h2; split; [reflexivity|exact H2]).
    rewrite (proj2 (join_iff hi lo c B1 B2) J). rewrite encode_utf8 by (right; destruct J; lia). rewrite IH by (rewrite L1, L2 in F; lia). reflexivity.
  - destruct (hex_word_shape _ _ H) as (L & B16 & _). rewrite !app_length in F. cbn [length] in F. cbn [bytes_of list_ascii_of_string app parse_str].
    change (is_char 34 "\"%char) with false. change (is_char 92 "\"%char) with true. change (is_char 117 "u"%char) with true. cbn match.
    rewrite (proj2 (hex4_iff ((h ++ s) ++ """"%char :: r) n (s ++ """"%char :: r))) by (exists h; rewrite <- app_assoc; split; [reflexivity|exact H]).
    rewrite (proj2 (is_surrogate_iff n)) by (right; exact Lo). rewrite encode_replacement.
    assert (P : parse_str fuel (s ++ """"%char :: r) = Some (v, r)) by (apply IH; rewrite L in F; lia).
    destruct (escaped4 (s ++ """"%char :: r)) as [[m x]|] eqn:E; [|rewrite P; reflexivity].
    destruct (join_surrogates n m) as [u|] eqn:J; [|rewrite P; reflexivity]. exfalso.
    apply escaped4_iff in E. destruct E as (h2 & _ & H2). destruct (hex_word_shape _ _ H2) as (_ & B2 & _).
    apply join_iff in J; [|exact B16|exact B2]. apply halves_high in J. destruct J as [J _]. unfold high_half, low_half in *. lia.
  - destruct (hex_word_shape _ _ H) as (L & B16 & _). rewrite !app_length in F. cbn [length] in F. cbn [bytes_of list_ascii_of_string app parse_str].
    change (is_char 34 "\"%char) with false. change (is_char 92 "\"%char) with true. change (is_char 117 "u"%char) with true. cbn match.
    rewrite (proj2 (hex4_iff ((h ++ s) ++ """"%char :: r) n (s ++ """"%char :: r))) by (exists h; rewrite <- app_assoc; split; [reflexivity|exact H]).
    rewrite (proj2 (is_surrogate_iff n)) by (left; exact Hi). rewrite encode_replacement.
    assert (P : parse_str fuel (s ++ """"%char :: r) = Some (v, r)) by (apply IH; rewrite L in F; lia).
    destruct (escaped4 (s ++ """"%char :: r)) as [[m x]|] eqn:E; [|rewrite P; reflexivity].
    destruct (join_surrogates n m) as [u|] eqn:J; [|rewrite P; reflexivity]. exfalso.
    apply escaped4_iff in E. destruct E as (h2 & E & H2). destruct (hex_word_shape _ _ H2) as (_ & B2 & A2).
    apply join_iff in J; [|exact B16|exact B2]. apply halves_high in J. destruct J as [_ J].
    symmetry in E. rewrite app_assoc in E. apply prefix_cut with (P := fun a => N_of_ascii a <> 34) in E.
    + destruct E as [y E]. rewrite <- app_assoc in E. exact (No h2 m y E H2 J).
    + apply Forall_app. split; [repeat constructor; discriminate|]. eapply Forall_impl; [|exact A2]. cbn beta. intros a A. lia.
    + cbn. lia.
  - cbn [app parse_str length] in *. rewrite (proj2 (is_char_not 34 b)) by lia. rewrite (proj2 (is_char_not 92 b)) by lia. unfold code.
    replace (N_of_ascii b <? 32) with false by (symmetry; apply N.ltb_ge; lia). replace (N_of_ascii b <? 128) with false by (symmetry; apply N.ltb_ge; lia).
    assert (R : rune_rest b (s ++ """"%char :: r) = (s ++ """"%char :: r)%list).
    { destruct (first_char b (s ++ """"%char :: r)) as [(c & x & C & E & _)|[E _]]; [|exact E]. exfalso.
      destruct (char_cut c (b :: s) r x C) as [y Y]; [discriminate|exact E|]. exact (N c y C Y). }
    rewrite R, Nat.eqb_refl, encode_replacement, IH by lia. reflexivity.
Qed.

Lemma str_body : forall fuel l v r, parse_str fuel l = Some (v, r) -> exists s, l = (s ++ """"%char :: r)%list /\ string_body s v.
Proof.
  induction fuel as [|fuel IH]; intros l v r H; [discriminate|]. cbn [parse_str] in H. destruct l as [|a l]; [discriminate|].
  assert (G : forall x rest, match parse_str fuel rest with Some (s, r) => Some ((x ++ s)%list, r) | None => None end = Some (v, r) ->
    exists s v', rest = (s ++ """"%char :: r)%list /\ string_body s v' /\ v = (x ++ v')%list).
  { intros x rest E. destruct (parse_str fuel rest) as [[s r']|] eqn:P; [|discriminate]. assert (r' = r) as -> by congruence.
    apply IH in P. destruct P as (b & -> & B). exists b, s. split; [reflexivity|]. split; [exact B|]. congruence. }
  destruct (is_char 34 a) eqn:Q.
  { apply is_char_at in Q; [|lia]. subst a. exists []. assert (v = [] /\ l = r) as [-> ->] by (split; congruence). split; [reflexivity|constructor]. }
  destruct (is_char 92 a) eqn:K.
  { apply is_char_at in K; [|lia]. subst a. destruct l as [|e l]; [discriminate|]. destruct (is_char 117 e) eqn:U.
    - apply is_char_at in U; [|lia]. subst e. destruct (hex4 l) as [[n r2]|] eqn:H4; [|discriminate].
      apply hex4_iff in H4. destruct H4 as (h & -> & HW). destruct (hex_word_shape _ _ HW) as (L & B16 & _).
      destruct (is_surrogate n) eqn:SU.
      + apply is_surrogate_iff in SU.
        destruct (escaped4 r2) as [[m r3]|] eqn:E4.
        * apply escaped4_iff in E4. destruct E4 as (h2 & -> & HW2). destruct (hex_word_shape _ _ HW2) as (L2 & B2 & A2).
          destruct (join_surrogates n m) as [u|] eqn:J.
          -- apply join_iff in J; [|exact B16|exact B2]. apply G in H. destruct H as (s & v' & -> & B & ->).
             rewrite encode_utf8 by (right; destruct J; lia). exists (bytes_of "\u" ++ h ++ bytes_of "\u" ++ h2 ++ s)%list.
             split; [|exact (sb_halves h h2 n m u s v' HW HW2 J B)]. cbn [bytes_of list_ascii_of_string app]. rewrite <- !app_assoc. cbn [app].
             rewrite <- !app_assoc. reflexivity.
          -- apply G in H. destruct H as (s & v' & E & B & ->). rewrite encode_replacement, E. exists (bytes_of "\u" ++ h ++ s)%list.
             split; [cbn [bytes_of list_ascii_of_string app]; rewrite <- !app_assoc; reflexivity|].
             destruct SU as [SU|SU]; [|exact (sb_low h n s v' HW SU B)]. apply sb_high with n; [exact HW|exact SU| |exact B].
             intros h3 m' s' E' HW3. assert (m' = m) as ->; [|exact (join_low _ _ J SU)].
             assert (X : escaped4 (s ++ """"%char :: r) = Some (m', (s' ++ """"%char :: r)%list)).
             { apply escaped4_iff. exists h3. split; [rewrite E', <- !app_assoc; reflexivity|exact HW3]. }
             assert (Y : escaped4 (s ++ """"%char :: r) = Some (m, r3)) by (apply escaped4_iff; exists h2; split; [symmetry; exact E|exact HW2]).
             congruence.
        * apply G in H. destruct H as (s & v' & -> & B & ->). rewrite encode_replacement. exists (bytes_of "\u" ++ h ++ s)%list.
          split; [cbn [bytes_of list_ascii_of_string app]; rewrite <- !app_assoc; reflexivity|].
          destruct SU as [SU|SU]; [|exact (sb_low h n s v' HW SU B)]. apply sb_high with n; [exact HW|exact SU| |exact B].
          intros h3 m' s' E' HW3. exfalso.
          assert (X : escaped4 (s ++ """"%char :: r) = Some (m', (s' ++ """"%char :: r)%list)).
          { apply escaped4_iff. exists h3. split; [rewrite E', <- !app_assoc; reflexivity|exact HW3]. }
          congruence.
      + assert (C : character n).
        { assert (X : ~ (high_half n \/ low_half n)) by (rewrite <- is_surrogate_iff; congruence). unfold character, high_half, low_half in *. lia. }
        apply G in H. destruct H as (s & v' & -> & B & ->). rewrite encode_utf8 by exact C. exists (bytes_of "\u" ++ h ++ s)%list.
        split; [cbn [bytes_of list_ascii_of_string app]; rewrite <- !app_assoc; reflexivity|]. exact (sb_hex h n s v' HW C B).
    - destruct (simple_escape e) as [c|] eqn:E; [|discriminate]. apply G in H. destruct H as (s & v' & -> & B & ->).
      exists ("\"%char :: e :: s). split; [reflexivity|]. apply sb_escape; [apply simple_iff, E|exact B]. }
  apply is_char_not in Q, K. unfold code in H. destruct (N.ltb_spec (N_of_ascii a) 32) as [X|X]; [discriminate|].
  destruct (N.ltb_spec (N_of_ascii a) 128) as [Y|Y].
  { apply G in H. destruct H as (s & v' & -> & B & ->). exists (a :: s). split; [reflexivity|].
    assert (U : utf8_bytes (N_of_ascii a) = [a]).
    { unfold utf8_bytes. rewrite (proj2 (N.ltb_lt _ _) Y). cbn [map]. rewrite ascii_N_embedding. reflexivity. }
    assert (CC : character (N_of_ascii a)) by (left; lia).
    pose proof (sb_plain (N_of_ascii a) s v' CC X Q K B) as P. rewrite U in P. exact P. }
  destruct (first_char a l) as [(c & x & C & E & R)|[R N]].
  - rewrite R in H. destruct (utf8_tail c C) as (a' & t & U & T & A1 & A2). rewrite U in E. cbn [app] in E. apply cons_both in E.
    destruct E as [<- ->]. assert (Z : t <> []).
    { intros ->. destruct (N.lt_ge_cases c 0x80) as [W|W]; [specialize (A1 W); lia|].
      destruct (utf8_cases c C) as [(V & _)|[(_ & V)|[(_ & V)|(_ & V)]]]; [lia|rewrite U in V; discriminate V..]. }
    assert (Z' : (length t > 0)%nat) by (destruct t; [contradiction|cbn; lia]).
    destruct (Nat.eqb_spec (length x) (length (t ++ x))) as [W|W]; [rewrite app_length in W; lia|].
    replace (length (t ++ x) - length x)%nat with (length t + 0)%nat in H by (rewrite app_length; lia). rewrite firstn_app_2 in H. cbn [firstn] in H.
    rewrite app_nil_r in H. apply (G (a :: t)) in H. destruct H as (s & v' & -> & B & ->). exists ((a :: t) ++ s)%list.
    split; [rewrite <- app_assoc; reflexivity|]. rewrite <- U. apply sb_plain; [exact C| | | |exact B].
    all: destruct (N.lt_ge_cases c 0x80) as [V|V]; [specialize (A1 V); lia|lia].
  - rewrite R, Nat.eqb_refl in H. apply G in H. destruct H as (s & v' & -> & B & ->). exists (a :: s). split; [reflexivity|].
    apply sb_stray; [lia| |exact B]. intros c s' C E. apply (N c (s' ++ """"%char :: r)%list C). rewrite app_comm_cons, E, <- app_assoc. reflexivity.
Qed.
Lemma parse_str_iff : forall l v r, parse_str (S (length l)) l = Some (v, r) <-> exists s, l = (s ++ """"%char :: r)%list /\ string_body s v.
Proof.
  intros l v r. split; [apply str_body|]. intros (s & -> & B). destruct (body_quote s v r B) as (x & <- & P). apply P.
  rewrite app_length. lia.
Qed.

(** ** Numbers *)
Lemma is_digit_iff : forall a, is_digit a = true <-> digit a.
Proof.
  intros a. split.
  - destruct a as [[] [] [] [] [] [] [] []]; try (intros H; vm_compute in H; discriminate H); intros _; unfold digit; cbn [In]; tauto.
  - unfold digit. cbn [In]. intros H. repeat destruct H as [<-|H]; try reflexivity. contradiction.
Qed.
Definition no_digit (l : list byte) : Prop := match l with a :: _ => is_digit a = false | [] => True end.
Lemma digits_cut : forall l d r, digits l = (d, r) -> l = (d ++ r)%list /\ Forall digit d /\ no_digit r.
Proof.
  induction l as [|a l IH]; intros d r H; cbn [digits] in H.
  - assert (d = [] /\ r = []) as [-> ->] by (split; congruence). repeat split. constructor.
  - destruct (is_digit a) eqn:D.
    + destruct (digits l) as [d' r'] eqn:E. assert (d = a :: d' /\ r = r') as [-> ->] by (split; congruence).
      destruct (IH _ _ eq_refl) as (-> & F & N). repeat split; [constructor; [apply is_digit_iff, D|exact F]|exact N].
    + assert (d = [] /\ r = a :: l) as [-> ->] by (split; congruence). repeat split; [constructor|exact D].
Qed.
Lemma digits_all : forall d r, Forall digit d -> no_digit r -> digits (d ++ r) = (d, r).
Proof.
  intros d r F N. induction F as [|a d A F IH]; cbn [app].
  - destruct r as [|a r]; [reflexivity|]. cbn [digits no_digit] in *. rewrite N. reflexivity.
  - cbn [digits]. rewrite (proj2 (is_digit_iff a) A), IH. reflexivity.
Qed.
Definition int_text (i : list byte) : Prop := Forall digit i /\ i <> [] /\ (hd "1"%char i = "0"%char -> i = ["0"%char]).
Definition frac_text (f : list byte) : Prop := f = [] \/ exists ds, f = ("."%char :: ds) /\ Forall digit ds /\ ds <> [].
Definition exp_text (x : list byte) : Prop :=
  x = [] \/ exists e sg ds, x = (e :: sg ++ ds)%list /\ In e ["e"; "E"]%char /\ In sg [[]; ["+"%char]; ["-"%char]] /\ Forall digit ds /\ ds <> [].
Lemma parse_int_cut : forall l i r, parse_int l = Some (i, r) -> l = (i ++ r)%list /\ int_text i.
Proof.
  intros l i r H. unfold parse_int in H. destruct l as [|a l]; [discriminate|]. destruct (is_char 48 a) eqn:Z.
  - apply is_char_at in Z; [|lia]. subst a. change (ascii_of_N 48) with "0"%char in *. assert (i = ["0"%char] /\ r = l) as [-> ->] by (split; congruence).
    split; [reflexivity|]. split; [repeat constructor; apply is_digit_iff; reflexivity|]. split; [discriminate|reflexivity].
  - destruct (is_digit a) eqn:D; [|discriminate]. destruct (digits l) as [d r'] eqn:E. apply digits_cut in E. destruct E as (-> & F & _).
    assert (i = a :: d /\ r = r') as [-> ->] by (split; congruence). split; [reflexivity|].
    split; [constructor; [apply is_digit_iff, D|exact F]|]. split; [discriminate|]. cbn [hd]. intros ->. discriminate Z.
Qed.
Lemma parse_int_all : forall i r, int_text i -> no_digit r -> parse_int (i ++ r) = Some (i, r).
Proof.
  intros i r (F & N & Z) S. destruct i as [|a i]; [contradiction|]. cbn [app parse_int]. destruct (is_char 48 a) eqn:C.
  - apply is_char_at in C; [|lia]. subst a. change (ascii_of_N 48) with "0"%char in *. specialize (Z eq_refl). assert (i = []) as -> by congruence. reflexivity.
  - inversion F as [|? ? A F']; subst. rewrite (proj2 (is_digit_iff a) A), digits_all by assumption. reflexivity.
Qed.
Lemma parse_frac_cut : forall l f r, parse_frac l = Some (f, r) -> l = (f ++ r)%list /\ frac_text f.
Proof.
  intros l f r H. unfold parse_frac in H. destruct l as [|a l].
  - assert (f = [] /\ r = []) as [-> ->] by (split; congruence). split; [reflexivity|left; reflexivity].
  - destruct (is_char 46 a) eqn:D.
    + apply is_char_at in D; [|lia]. subst a. change (ascii_of_N 46) with "."%char in *. destruct (digits l) as [d r'] eqn:E. destruct d as [|x d]; [discriminate|].
      apply digits_cut in E. destruct E as (-> & F & _). assert (f = ("." :: x :: d)%char /\ r = r') as [-> ->] by (split; congruence).
      split; [reflexivity|]. right. exists (x :: d). repeat split; [exact F|discriminate].
    + assert (f = [] /\ r = a :: l) as [-> ->] by (split; congruence). split; [reflexivity|left; reflexivity].
Qed.
Definition no_char (ns : list N) (l : list byte) : Prop := match l with a :: _ => ~ In (N_of_ascii a) ns | [] => True end.
Lemma parse_frac_all : forall f r, frac_text f -> no_digit r -> no_char [46] r -> parse_frac (f ++ r) = Some (f, r).
Proof.
  intros f r [->|(ds & -> & F & N)] S D.
  - cbn [app]. destruct r as [|a r]; [reflexivity|]. cbn [parse_frac no_char In] in *. rewrite (proj2 (is_char_not 46 a)) by (intros E; apply D; left; congruence). reflexivity.
  - cbn [app parse_frac]. change (is_char 46 "."%char) with true. cbn match. rewrite digits_all by assumption. destruct ds; [contradiction|reflexivity].
Qed.
Lemma parse_exp_cut : forall l x r, parse_exp l = Some (x, r) -> l = (x ++ r)%list /\ exp_text x.
Proof.
  intros l x r H. unfold parse_exp in H. destruct l as [|a l].
  { assert (x = [] /\ r = []) as [-> ->] by (split; congruence). split; [reflexivity|left; reflexivity]. }
  destruct (is_char 101 a || is_char 69 a) eqn:E.
  - assert (A : In a ["e"; "E"]%char).
    { apply orb_true_iff in E. destruct E as [E|E]; apply is_char_at in E; try lia; subst a; cbn [In]; tauto. }
    assert (G : exists sg r1, match l with b :: r' => if is_char 43 b || is_char 45 b then ([b], r') else ([], l) | [] => ([], []) end = (sg, r1) /\
      l = (sg ++ r1)%list /\ In sg [[]; ["+"%char]; ["-"%char]]).
    { destruct l as [|b l]; [exists [], []; repeat split; left; reflexivity|]. destruct (is_char 43 b || is_char 45 b) eqn:B.
      - exists [b], l. repeat split. apply orb_true_iff in B. destruct B as [B|B]; apply is_char_at in B; try lia; subst b; cbn [In]; tauto.
      - exists [], (b :: l). repeat split. left. reflexivity. }
    destruct G as (sg & r1 & G1 & -> & S). rewrite G1 in H. destruct (digits r1) as [d r2] eqn:D. destruct d as [|y d]; [discriminate|].
    apply digits_cut in D. destruct D as (-> & F & _). assert (x = (a :: sg ++ y :: d)%list /\ r = r2) as [-> ->] by (split; congruence).
    split; [cbn [app]; rewrite <- !app_assoc; reflexivity|]. right. exists a, sg, (y :: d). repeat split; try assumption. discriminate.
  - assert (x = [] /\ r = a :: l) as [-> ->] by (split; congruence). split; [reflexivity|left; reflexivity].
Qed.
Lemma parse_exp_all : forall x r, exp_text x -> no_digit r -> no_char [101; 69] r -> parse_exp (x ++ r) = Some (x, r).
Proof.
  intros x r [->|(e & sg & ds & -> & E & S & F & N)] D C.
  - cbn [app]. destruct r as [|a r]; [reflexivity|]. cbn [parse_exp no_char In] in *.
    rewrite (proj2 (is_char_not 101 a)) by (intros X; apply C; left; congruence). rewrite (proj2 (is_char_not 69 a)) by (intros X; apply C; right; left; congruence). reflexivity.
  - cbn [app parse_exp]. assert (X : is_char 101 e || is_char 69 e = true) by (cbn [In] in E; destruct E as [<-|[<-|[]]]; reflexivity).
    rewrite X. rewrite <- app_assoc.
    assert (G : match (sg ++ ds ++ r)%list with b :: r' => if is_char 43 b || is_char 45 b then ([b], r') else ([], (sg ++ ds ++ r)%list) | [] => ([], []) end = (sg, (ds ++ r)%list)).
    { cbn [In] in S. destruct S as [<-|[<-|[<-|[]]]]; [|reflexivity|reflexivity]. cbn [app]. destruct ds as [|a ds]; [contradiction|]. cbn [app].
      inversion F as [|? ? A _]; subst. unfold digit in A. cbn [In] in A. repeat destruct A as [<-|A]; try reflexivity. contradiction. }
    rewrite G, digits_all by assumption. destruct ds; [contradiction|reflexivity].
Qed.
Lemma parse_num_cut : forall l n r, parse_num l = Some (n, r) -> l = (n ++ r)%list /\ number_text n.
Proof.
  intros l n r H. unfold parse_num in H.
  assert (G : exists sg l1, match l with a :: r => if is_char 45 a then ([a], r) else ([], l) | [] => ([], []) end = (sg, l1) /\ l = (sg ++ l1)%list /\ (sg = [] \/ sg = ["-"%char])).
  { destruct l as [|a l]; [exists [], []; repeat split; left; reflexivity|]. destruct (is_char 45 a) eqn:A.
    - apply is_char_at in A; [|lia]. subst a. eexists. eexists. split; [reflexivity|]. split; [reflexivity|right; reflexivity].
    - eexists. eexists. split; [reflexivity|]. split; [reflexivity|left; reflexivity]. }
  destruct G as (sg & l1 & G1 & -> & S). rewrite G1 in H. destruct (parse_int l1) as [[i l2]|] eqn:I; [|discriminate].
  apply parse_int_cut in I. destruct I as (-> & I1 & I2 & I3). destruct (parse_frac l2) as [[f l3]|] eqn:F; [|discriminate].
  apply parse_frac_cut in F. destruct F as (-> & F). destruct (parse_exp l3) as [[x l4]|] eqn:X; [|discriminate].
  apply parse_exp_cut in X. destruct X as (-> & X). assert (n = (sg ++ i ++ f ++ x)%list /\ r = l4) as [-> ->] by (split; congruence).
  split; [rewrite <- !app_assoc; reflexivity|]. exists sg, i, f, x. repeat (split; [reflexivity || assumption|]). exact X.
Qed.
Definition stops (r : list byte) : Prop := no_digit r /\ no_char [46; 101; 69] r.
Lemma parse_num_all : forall n r, number_text n -> stops r -> parse_num (n ++ r) = Some (n, r).
Proof.
  intros n r (sg & i & f & x & -> & S & I1 & I2 & I3 & F & X) (D & C).
  assert (Cx : no_digit (x ++ r) /\ no_char [46] (x ++ r)).
  { destruct X as [->|(e & s & ds & -> & E & _)].
    - cbn [app]. split; [exact D|]. destruct r; cbn [no_char In] in *; tauto.
    - cbn [app no_digit no_char In] in *. destruct E as [<-|[<-|[]]]; split; try reflexivity; intros [E|[]]; discriminate E. }
  assert (Cf : no_digit (f ++ x ++ r)).
  { destruct F as [->|(ds & -> & _)]; [exact (proj1 Cx)|reflexivity]. }
  assert (Ce : no_char [101; 69] r) by (destruct r; cbn [no_char In] in *; tauto).
  unfold parse_num. rewrite <- !app_assoc.
  assert (G : match (sg ++ i ++ f ++ x ++ r)%list with a :: r' => if is_char 45 a then ([a], r') else ([], (sg ++ i ++ f ++ x ++ r)%list) | [] => ([], []) end
    = (sg, (i ++ f ++ x ++ r)%list)).
  { destruct S as [->| ->]; [|reflexivity]. cbn [app]. destruct i as [|a i]; [contradiction|]. cbn [app]. inversion I1 as [|? ? A _]; subst.
    unfold digit in A. cbn [In] in A. repeat destruct A as [<-|A]; try reflexivity. contradiction. }
  rewrite G, parse_int_all, parse_frac_all, parse_exp_all; try reflexivity; try assumption; try tauto. split; [exact I1|split; assumption].
Qed.

(** ** Values *)
Lemma eat_iff : forall w l r, eat w l = Some r <-> l = (w ++ r)%list.
Proof.
  induction w as [|a w IH]; intros l r; cbn [eat app].
  - split; congruence.
  - destruct l as [|b l]; [split; discriminate|]. destruct (Ascii.eqb_spec a b) as [->|N].
    + rewrite IH. split; [intros ->; reflexivity|congruence].
    + split; [discriminate|congruence].
Qed.
Lemma elements_blank : forall w ts l, blank w -> elements_text ts l -> elements_text ts (w ++ l).
Proof.
  intros w ts l B E. inversion E as [t b w1 w2 B1 B2 T|t b w1 w2 ts' l' B1 B2 T E']; subst; rewrite app_assoc; constructor; auto using blank_app.
Qed.
Lemma members_blank : forall w ms l, blank w -> members_text ms l -> members_text ms (w ++ l).
Proof.
  intros w ms l B E. inversion E as [s k t b w1 w2 w3 w4 B1 B2 B3 B4 S T|s k t b w1 w2 w3 w4 ms' l' B1 B2 B3 B4 S T E']; subst; rewrite app_assoc; constructor; auto using blank_app.
Qed.
Lemma depth_arr : forall d ts, Forall (fun t => (depth t <= d)%nat) ts <-> (depth (TArr ts) <= S d)%nat.
Proof.
  intros d ts. cbn [depth]. rewrite <- Nat.succ_le_mono, list_max_le, Forall_map. reflexivity.
Qed.
Lemma depth_obj : forall d (ms : list (list byte * jtree)), Forall (fun kt => (depth (snd kt) <= d)%nat) ms <-> (depth (TObj ms) <= S d)%nat.
Proof.
  intros d ms. cbn [depth]. rewrite <- Nat.succ_le_mono, list_max_le, Forall_map. reflexivity.
Qed.
Lemma values_cut : forall fuel,
  (forall d l t r, parse_value fuel d l = Some (t, r) -> exists b, l = (b ++ r)%list /\ text_of t b /\ (depth t <= d)%nat) /\
  (forall d l ts r, parse_elems fuel d l = Some (ts, r) -> exists b, l = (b ++ "]"%char :: r)%list /\ elements_text ts b /\ Forall (fun t => (depth t <= d)%nat) ts) /\
  (forall d l ms r, parse_members fuel d l = Some (ms, r) -> exists b, l = (b ++ "}"%char :: r)%list /\ members_text ms b /\ Forall (fun kt => (depth (snd kt) <= d)%nat) ms).
Proof.
  induction fuel as [|fuel (IV & IE & IM)]; [repeat split; intros; discriminate|]. split; [|split].
  - intros d l t r H. cbn [parse_value] in H. destruct l as [|a l]; [discriminate|].
    destruct (is_char 34 a) eqn:C.
    { apply is_char_at in C; [|lia]. subst a. destruct (parse_str (S (length l)) l) as [[s r']|] eqn:P; [|discriminate].
      apply parse_str_iff in P. destruct P as (b & -> & B). assert (t = TStr s /\ r' = r) as [-> ->] by (split; congruence).
      exists (quoted b). split; [unfold quoted; cbn [app]; rewrite <- app_assoc; reflexivity|]. split; [constructor; exact B|cbn; lia]. }
    clear C. destruct (is_char 123 a) eqn:C.
    { apply is_char_at in C; [|lia]. subst a. destruct d as [|d]; [discriminate|]. destruct (skip_cut l) as (w & E & W).
      destruct (skip l) as [|b l'] eqn:K; [discriminate|]. destruct (is_char 125 b) eqn:Z.
      - apply is_char_at in Z; [|lia]. subst b. assert (t = TObj [] /\ l' = r) as [-> ->] by (split; congruence). rewrite E.
        exists ("{" :: w ++ ["}"])%char%list. split; [cbn [app]; rewrite <- app_assoc; reflexivity|]. split; [constructor; exact W|cbn; lia].
      - destruct (parse_members fuel d (b :: l')) as [[ms r']|] eqn:P; [|discriminate]. assert (t = TObj ms /\ r' = r) as [-> ->] by (split; congruence).
        apply IM in P. destruct P as (x & X & M & D). rewrite E, X. exists ("{" :: (w ++ x) ++ ["}"])%char%list.
        split; [cbn [app]; rewrite <- !app_assoc; reflexivity|]. split; [constructor; apply members_blank; assumption|]. apply depth_obj, D. }
    clear C. destruct (is_char 91 a) eqn:C.
    { apply is_char_at in C; [|lia]. subst a. destruct d as [|d]; [discriminate|]. destruct (skip_cut l) as (w & E & W).
      destruct (skip l) as [|b l'] eqn:K; [discriminate|]. destruct (is_char 93 b) eqn:Z.
      - apply is_char_at in Z; [|lia]. subst b. assert (t = TArr [] /\ l' = r) as [-> ->] by (split; congruence). rewrite E.
        exists ("[" :: w ++ ["]"])%char%list. split; [cbn [app]; rewrite <- app_assoc; reflexivity|]. split; [constructor; exact W|cbn; lia].
      - destruct (parse_elems fuel d (b :: l')) as [[ts r']|] eqn:P; [|discriminate]. assert (t = TArr ts /\ r' = r) as [-> ->] by (split; congruence).
        apply IE in P. destruct P as (x & X & M & D). rewrite E, X. exists ("[" :: (w ++ x) ++ ["]"])%char%list.
        split; [cbn [app]; rewrite <- !app_assoc; reflexivity|]. split; [constructor; apply elements_blank; assumption|]. apply depth_arr, D. }
    clear C. destruct (is_char 116 a).
    { destruct (eat (bytes_of "true") (a :: l)) as [r'|] eqn:P; [|discriminate]. apply eat_iff in P. assert (t = TBool true /\ r' = r) as [-> ->] by (split; congruence).
      exists (bytes_of "true"). split; [exact P|]. split; [constructor|cbn; lia]. }
    destruct (is_char 102 a).
    { destruct (eat (bytes_of "false") (a :: l)) as [r'|] eqn:P; [|discriminate]. apply eat_iff in P. assert (t = TBool false /\ r' = r) as [-> ->] by (split; congruence).
      exists (bytes_of "false"). split; [exact P|]. split; [constructor|cbn; lia]. }
    destruct (is_char 110 a).
    { destruct (eat (bytes_of "null") (a :: l)) as [r'|] eqn:P; [|discriminate]. apply eat_iff in P. assert (t = TNull /\ r' = r) as [-> ->] by (split; congruence).
      exists (bytes_of "null"). split; [exact P|]. split; [constructor|cbn; lia]. }
    destruct (parse_num (a :: l)) as [[n r']|] eqn:P; [|discriminate]. apply parse_num_cut in P. destruct P as (P & N).
    assert (t = TNum n /\ r' = r) as [-> ->] by (split; congruence). exists n. split; [exact P|]. split; [constructor; exact N|cbn; lia].
  - intros d l ts r H. cbn [parse_elems] in H. destruct (parse_value fuel d l) as [[t r1]|] eqn:P; [|discriminate]. apply IV in P.
    destruct P as (b & -> & T & D). destruct (skip_cut r1) as (w & E & W). destruct (skip r1) as [|a r2]; [discriminate|]. rewrite E.
    destruct (is_char 44 a) eqn:C.
    { apply is_char_at in C; [|lia]. subst a. destruct (skip_cut r2) as (w' & E' & W'). destruct (parse_elems fuel d (skip r2)) as [[ts' r3]|] eqn:Q; [|discriminate].
      assert (ts = t :: ts' /\ r3 = r) as [-> ->] by (split; congruence). apply IE in Q. destruct Q as (x & X & M & F). rewrite E', X.
      exists ([] ++ b ++ w ++ ","%char :: (w' ++ x))%list. split; [cbn [app]; rewrite <- !app_assoc; cbn [app]; rewrite <- !app_assoc; reflexivity|].
      split; [constructor; try assumption; [constructor|apply elements_blank; assumption]|]. constructor; assumption. }
    destruct (is_char 93 a) eqn:Z; [|discriminate]. apply is_char_at in Z; [|lia]. subst a. assert (ts = [t] /\ r2 = r) as [-> ->] by (split; congruence).
    exists ([] ++ b ++ w)%list. split; [cbn [app]; rewrite <- !app_assoc; reflexivity|]. split; [constructor; try assumption; constructor|]. constructor; [exact D|constructor].
  - intros d l ms r H. cbn [parse_members] in H. destruct l as [|q l]; [discriminate|]. destruct (is_char 34 q) eqn:C; [|discriminate].
    apply is_char_at in C; [|lia]. subst q. destruct (parse_str (S (length l)) l) as [[k r1]|] eqn:P; [|discriminate].
    apply parse_str_iff in P. destruct P as (s & -> & B). destruct (skip_cut r1) as (w1 & E1 & W1). destruct (skip r1) as [|c r2]; [discriminate|].
    destruct (is_char 58 c) eqn:C; [|discriminate]. apply is_char_at in C; [|lia]. subst c. rewrite E1. destruct (skip_cut r2) as (w2 & E2 & W2).
    destruct (parse_value fuel d (skip r2)) as [[t r3]|] eqn:P; [|discriminate]. apply IV in P. destruct P as (b & E & T & D). rewrite E2, E.
    destruct (skip_cut r3) as (w3 & E3 & W3). destruct (skip r3) as [|a r4]; [discriminate|]. rewrite E3.
    destruct (is_char 44 a) eqn:C.
    { apply is_char_at in C; [|lia]. subst a. destruct (skip_cut r4) as (w' & E' & W'). destruct (parse_members fuel d (skip r4)) as [[ms' r5]|] eqn:Q; [|discriminate].
      assert (ms = (k, t) :: ms' /\ r5 = r) as [-> ->] by (split; congruence). apply IM in Q. destruct Q as (x & X & M & F). rewrite E', X.
      exists ([] ++ quoted s ++ w1 ++ ":"%char :: w2 ++ b ++ w3 ++ ","%char :: (w' ++ x))%list.
      split; [unfold quoted; repeat (cbn [app]; rewrite <- ?app_assoc); reflexivity|].
      split; [constructor; try assumption; [constructor|apply members_blank; assumption]|]. constructor; assumption. }
    destruct (is_char 125 a) eqn:Z; [|discriminate]. apply is_char_at in Z; [|lia]. subst a. assert (ms = [(k, t)] /\ r4 = r) as [-> ->] by (split; congruence).
    exists ([] ++ quoted s ++ w1 ++ ":"%char :: w2 ++ b ++ w3)%list. split; [unfold quoted; repeat (cbn [app]; rewrite <- ?app_assoc); reflexivity|].
    split; [constructor; try assumption; constructor|]. constructor; [exact D|constructor].
Qed.

Scheme text_ind' := Induction for text_of Sort Prop
  with elements_ind' := Induction for elements_text Sort Prop
  with members_ind' := Induction for members_text Sort Prop.
Combined Scheme all_texts from text_ind', elements_ind', members_ind'.

(** The first sign of a value *)
Lemma text_head : forall t b, text_of t b -> exists a l, b = a :: l /\ is_space a = false /\ N_of_ascii a <> 93 /\ N_of_ascii a <> 125.
Proof.
  intros t b T. inversion T as [| | |n N|s v B|w W|ts l E|w W|ms l M]; subst; try (eexists; eexists; split; [reflexivity|]; repeat split; discriminate).
  destruct N as (sg & i & f & x & -> & S & I1 & I2 & _). destruct S as [->| ->].
  - destruct i as [|a i]; [contradiction|]. cbn [app]. eexists. eexists. split; [reflexivity|]. inversion I1 as [|? ? A _]; subst.
    unfold digit in A. cbn [In] in A. repeat destruct A as [<-|A]; try contradiction; repeat split; discriminate.
  - cbn [app]. eexists. eexists. split; [reflexivity|]. repeat split; discriminate.
Qed.
Lemma stop_blank : forall w r, blank w -> stops r -> stops (w ++ r).
Proof.
  intros w r B S. inversion B as [|a w' A B']; subst; [exact S|]. cbn [app]. unfold stops, no_digit, no_char, is_digit, code. cbn [In] in *.
  destruct A as [A|[A|[A|[A|[]]]]]; rewrite <- A; (split; [reflexivity|]); intros X; repeat destruct X as [X|X]; try discriminate X; exact X.
Qed.
Lemma stop_char : forall n r, n = 44 \/ n = 93 \/ n = 125 -> stops (ascii_of_N n :: r).
Proof.
  intros n r [->|[->| ->]]; (split; [reflexivity|]); cbn [no_char In]; intros X; repeat destruct X as [X|X]; try discriminate X; exact X.
Qed.
Lemma skip_text : forall w t b r, blank w -> text_of t b -> skip (w ++ b ++ r) = (b ++ r)%list.
Proof.
  intros w t b r B T. rewrite skip_blank by exact B. apply skip_starts. destruct (text_head _ _ T) as (a & l & -> & S & _). exact S.
Qed.
Lemma skip_char : forall w n r, blank w -> n < 256 -> ~ In n [9; 10; 13; 32] -> skip (w ++ ascii_of_N n :: r) = ascii_of_N n :: r.
Proof.
  intros w n r B L N. rewrite skip_blank by exact B. apply skip_starts. cbn [starts]. destruct (is_space (ascii_of_N n)) eqn:S; [|reflexivity].
  apply is_space_iff in S. rewrite N_ascii_embedding in S by exact L. contradiction.
Qed.
Lemma not_space : forall n, In n [34; 44; 58; 93; 125] -> n < 256 /\ ~ In n [9; 10; 13; 32].
Proof.
  intros n H. cbn [In] in H. repeat destruct H as [<-|H]; try contradiction; (split; [lia|]); cbn [In]; intros X; repeat destruct X as [X|X]; try discriminate X; exact X.
Qed.
Lemma elements_head : forall ts b x, elements_text ts b -> exists a l, skip (b ++ x) = a :: l /\ N_of_ascii a <> 93.
Proof.
  intros ts b x E. assert (G : forall w t l y, blank w -> text_of t l -> exists a k, skip (w ++ l ++ y) = a :: k /\ N_of_ascii a <> 93).
  { intros w t l y W T. rewrite (skip_text w t l y W T). destruct (text_head _ _ T) as (a & k & -> & _ & N & _). exists a, (k ++ y)%list. split; [reflexivity|exact N]. }
  inversion E as [t l w1 w2 B1 B2 T|t l w1 w2 ts' l' B1 B2 T E']; subst; rewrite <- !app_assoc; eapply G; eassumption.
Qed.
Lemma members_head : forall ms b x, members_text ms b -> exists l, skip (b ++ x) = """"%char :: l.
Proof.
  intros ms b x E. inversion E as [s k t l w1 w2 w3 w4 B1 B2 B3 B4 S T|s k t l w1 w2 w3 w4 ms' l' B1 B2 B3 B4 S T E']; subst; rewrite <- !app_assoc;
    rewrite skip_blank by exact B1; eexists; reflexivity.
Qed.
Lemma values_all :
  (forall t b, text_of t b -> forall fuel d r, (2 * length b <= fuel)%nat -> (depth t <= d)%nat -> stops r -> parse_value fuel d (b ++ r) = Some (t, r)) /\
  (forall ts b, elements_text ts b -> forall fuel d r, (2 * length b + 1 <= fuel)%nat -> Forall (fun t => (depth t <= d)%nat) ts -> parse_elems fuel d (skip (b ++ "]"%char :: r)) = Some (ts, r)) /\
  (forall ms b, members_text ms b -> forall fuel d r, (2 * length b + 1 <= fuel)%nat -> Forall (fun kt => (depth (snd kt) <= d)%nat) ms -> parse_members fuel d (skip (b ++ "}"%char :: r)) = Some (ms, r)).
Proof.
  apply all_texts.
  - intros [|fuel] d r F D S; [cbn in F; lia|]. reflexivity.
  - intros [|fuel] d r F D S; [cbn in F; lia|]. reflexivity.
  - intros [|fuel] d r F D S; [cbn in F; lia|]. reflexivity.
  - intros l N fuel d r F D S. destruct (text_head _ _ (to_num l N)) as (a & k & E & _). destruct fuel as [|fuel]; [rewrite E in F; cbn in F; lia|].
    pose proof (parse_num_all l r N S) as P.
    assert (A : In a ["-"; "0"; "1"; "2"; "3"; "4"; "5"; "6"; "7"; "8"; "9"]%char).
    { destruct N as (sg & i & f & x & E' & Sg & I1 & I2 & _). destruct Sg as [->| ->].
      - right. destruct i as [|a' i]; [contradiction|]. pose proof (Forall_inv I1) as A. cbn [app] in E'. assert (a = a') as -> by congruence. exact A.
      - left. cbn [app] in E'. congruence. }
    rewrite E in *. cbn [app] in *. cbn [parse_value]. rewrite P.
    cbn [In] in A. repeat destruct A as [<-|A]; try contradiction; reflexivity.
  - intros s v B fuel d r F D S. destruct fuel as [|fuel]; [cbn in F; lia|]. unfold quoted. cbn [app parse_value]. change (is_char 34 """"%char) with true. cbn match.
    rewrite (proj2 (parse_str_iff _ v r)); [reflexivity|]. exists s. rewrite <- app_assoc. split; [reflexivity|exact B].
  - intros w W fuel d r F D S. destruct fuel as [|fuel]; [cbn in F; lia|]. destruct d as [|d]; [cbn in D; lia|]. cbn [app parse_value].
    change (is_char 34 "["%char) with false. change (is_char 123 "["%char) with false. change (is_char 91 "["%char) with true. cbn match.
    rewrite <- app_assoc. cbn [app]. change "]"%char with (ascii_of_N 93). rewrite skip_char by (exact W || apply not_space; cbn [In]; tauto). reflexivity.
  - intros ts l E IH fuel d r F D S. destruct fuel as [|fuel]; [cbn in F; lia|]. destruct d as [|d]; [cbn in D; lia|]. cbn [app parse_value].
    change (is_char 34 "["%char) with false. change (is_char 123 "["%char) with false. change (is_char 91 "["%char) with true. cbn match.
    rewrite <- app_assoc. cbn [app]. cbn [length] in F. rewrite app_length in F. pose proof (IH fuel d r ltac:(cbn [length] in F; lia) (proj2 (depth_arr d ts) D)) as P.
    destruct (elements_head ts l ("]"%char :: r) E) as (a & k & K & N). rewrite K in *. rewrite (proj2 (is_char_not 93 a) N), P. reflexivity.
  - intros w W fuel d r F D S. destruct fuel as [|fuel]; [cbn in F; lia|]. destruct d as [|d]; [cbn in D; lia|]. cbn [app parse_value].
    change (is_char 34 "{"%char) with false. change (is_char 123 "{"%char) with true. cbn match.
    rewrite <- app_assoc. cbn [app]. change "}"%char with (ascii_of_N 125). rewrite skip_char by (exact W || apply not_space; cbn [In]; tauto). reflexivity.
  - intros ms l E IH fuel d r F D S. destruct fuel as [|fuel]; [cbn in F; lia|]. destruct d as [|d]; [cbn in D; lia|]. cbn [app parse_value].
    change (is_char 34 "{"%char) with false. change (is_char 123 "{"%char) with true. cbn match.
    rewrite <- app_assoc. cbn [app]. cbn [length] in F. rewrite app_length in F. pose proof (IH fuel d r ltac:(cbn [length] in F; lia) (proj2 (depth_obj d ms) D)) as P.
    destruct (members_head ms l ("}"%char :: r) E) as (k & K). rewrite K in *. change (is_char 125 """"%char) with false. cbn match. rewrite P. reflexivity.
  - intros t l w1 w2 B1 B2 T IH fuel d r F D. rewrite !app_length in F. destruct fuel as [|fuel]; [lia|]. inversion D as [|? ? D1 _]; subst.
    rewrite <- !app_assoc. rewrite (skip_text w1 t) by assumption. cbn [parse_elems]. rewrite IH; [|lia|exact D1|].
    + change "]"%char with (ascii_of_N 93). rewrite skip_char by (exact B2 || apply not_space; cbn [In]; tauto). reflexivity.
    + apply stop_blank; [exact B2|]. change "]"%char with (ascii_of_N 93). apply stop_char. tauto.
  - intros t l w1 w2 ts l' B1 B2 T IH E IHE fuel d r F D. rewrite !app_length in F. cbn [length] in F. destruct fuel as [|fuel]; [lia|]. inversion D as [|? ? D1 D2]; subst.
    rewrite <- !app_assoc. rewrite (skip_text w1 t) by assumption. cbn [parse_elems app]. rewrite IH; [|lia|exact D1|].
    + change ","%char with (ascii_of_N 44). rewrite skip_char by (exact B2 || apply not_space; cbn [In]; tauto). change (is_char 44 (ascii_of_N 44)) with true. cbn match.
      rewrite IHE; [reflexivity|lia|exact D2].
    + apply stop_blank; [exact B2|]. change ","%char with (ascii_of_N 44). apply stop_char. tauto.
  - intros s k t l w1 w2 w3 w4 B1 B2 B3 B4 S T IH fuel d r F D. rewrite !app_length in F. cbn [length] in F. rewrite !app_length in F.
    destruct fuel as [|fuel]; [lia|]. inversion D as [|? ? D1 _]; subst. cbn [snd] in D1.
    rewrite <- !app_assoc. rewrite skip_blank by exact B1. unfold quoted at 1. cbn [app]. rewrite skip_starts by reflexivity. cbn [parse_members].
    change (is_char 34 """"%char) with true. cbn match. rewrite <- !app_assoc. cbn [app].
    match goal with |- context[parse_str _ (s ++ """"%char :: ?R)] =>
      rewrite (proj2 (parse_str_iff (s ++ """"%char :: R) k R)) by (exists s; split; [reflexivity|exact S]) end.
    change ":"%char with (ascii_of_N 58). rewrite skip_char by (exact B2 || apply not_space; cbn [In]; tauto). change (is_char 58 (ascii_of_N 58)) with true. cbn match.
    rewrite <- ?app_assoc. rewrite (skip_text w3 t) by assumption. rewrite IH; [|lia|exact D1|].
    + change "}"%char with (ascii_of_N 125). rewrite skip_char by (exact B4 || apply not_space; cbn [In]; tauto). reflexivity.
    + apply stop_blank; [exact B4|]. change "}"%char with (ascii_of_N 125). apply stop_char. tauto.
  - intros s k t l w1 w2 w3 w4 ms l' B1 B2 B3 B4 S T IH E IHE fuel d r F D. rewrite !app_length in F. cbn [length] in F. rewrite !app_length in F. cbn [length] in F.
    destruct fuel as [|fuel]; [lia|]. inversion D as [|? ? D1 D2]; subst. cbn [snd] in D1.
    rewrite <- !app_assoc. rewrite skip_blank by exact B1. unfold quoted at 1. cbn [app]. rewrite skip_starts by reflexivity. cbn [parse_members].
    change (is_char 34 """"%char) with true. cbn match. rewrite <- !app_assoc. cbn [app].
    match goal with |- context[parse_str _ (s ++ """"%char :: ?R)] =>
      rewrite (proj2 (parse_str_iff (s ++ """"%char :: R) k R)) by (exists s; split; [reflexivity|exact S]) end.
    change ":"%char with (ascii_of_N 58). rewrite skip_char by (exact B2 || apply not_space; cbn [In]; tauto). change (is_char 58 (ascii_of_N 58)) with true. cbn match.
    rewrite <- ?app_assoc. rewrite (skip_text w3 t) by assumption. cbn [app]. rewrite IH; [|lia|exact D1|].
    + change ","%char with (ascii_of_N 44). rewrite skip_char by (exact B4 || apply not_space; cbn [In]; tauto). change (is_char 44 (ascii_of_N 44)) with true. cbn match.
      rewrite IHE; [reflexivity|lia|exact D2].
    + apply stop_blank; [exact B4|]. change ","%char with (ascii_of_N 44). apply stop_char. tauto.
Qed.

Lemma parse_doc_iff : forall d l t, parse_doc d l = Some t <-> document l t /\ (depth t <= d)%nat.
Proof.
  intros d l t. unfold parse_doc. split.
  - destruct (skip_cut l) as (w1 & E & W1). destruct (parse_value (2 * length l + 2) d (skip l)) as [[t' r]|] eqn:P; [|discriminate].
    destruct (skip r) as [|x y] eqn:K; [|discriminate]. intros H. assert (t' = t) as -> by congruence. apply skip_all in K.
    apply (proj1 (values_cut _)) in P. destruct P as (b & B & T & D). split; [|exact D]. exists w1, b, r. rewrite B in E. repeat split; assumption.
  - intros ((w1 & b & w2 & -> & W1 & W2 & T) & D). rewrite (skip_text w1 t) by assumption. rewrite (proj1 values_all t b T).
    + rewrite (proj2 (skip_all w2) W2). reflexivity.
    + rewrite !app_length. lia.
    + exact D.
    + rewrite <- (app_nil_r w2). apply stop_blank; [exact W2|]. split; exact I.
Qed.

(** ** What the text stands for *)
Lemma decimal_fold : forall l n, decimal l n <-> l <> [] /\ Forall digit l /\ n = fold_left (fun n a => 10 * n + (code a - 48)) l 0.
Proof.
  assert (D : forall d, d < 10 -> digit (ascii_of_N (48 + d)) /\ code (ascii_of_N (48 + d)) - 48 = d).
  { intros d L. unfold code. rewrite N_ascii_embedding by lia. split; [|lia]. apply is_digit_iff. unfold is_digit, code. rewrite N_ascii_embedding by lia.
    apply andb_true_iff. rewrite !N.leb_le. lia. }
  intros l n. split.
  - intros H. induction H as [d L|l n d H (IH1 & IH2 & IH3) L]; destruct (D d L) as (A & B).
    + split; [discriminate|]. split; [constructor; [exact A|constructor]|]. cbn [fold_left]. rewrite B. lia.
    + split; [intros X; destruct l; discriminate X|]. split; [apply Forall_app; split; [exact IH2|constructor; [exact A|constructor]]|].
      rewrite fold_left_app. cbn [fold_left]. rewrite B, <- IH3. reflexivity.
  - revert n. induction l as [|a l IH] using rev_ind; intros n (N & F & ->); [contradiction|].
    apply Forall_app in F. destruct F as (F & A). inversion A as [|? ? A' _]; subst. apply is_digit_iff in A'. unfold is_digit, code in A'.
    apply andb_true_iff in A'. rewrite !N.leb_le in A'. rewrite fold_left_app. cbn [fold_left]. unfold code at 2. set (d := N_of_ascii a - 48).
    assert (E : a = ascii_of_N (48 + d)) by (symmetry; apply ascii_code; unfold d; lia). rewrite E. assert (d < 10) by (unfold d; lia).
    destruct l as [|b l].
    + cbn [app fold_left]. replace (10 * 0 + d) with d by lia. constructor; assumption.
    + apply dec_more; [|assumption]. apply IH. repeat split; [discriminate|exact F].
Qed.
Lemma digits_value_iff : forall l n, decimal l n <-> l <> [] /\ Forall digit l /\ n = digits_value l.
Proof. exact decimal_fold. Qed.
Lemma exponent_iff : forall e x, exp_text e -> (x = exponent e <-> (e = [] /\ x = 0%Z \/ exists a sds, In a ["e"; "E"]%char /\ e = a :: sds /\ signed sds x)).
Proof.
  assert (Dg : forall a, digit a -> is_char 45 a = false /\ is_char 43 a = false).
  { intros a A. unfold digit in A. cbn [In] in A. repeat destruct A as [<-|A]; try (split; reflexivity). contradiction. }
  assert (Fst : forall l n, decimal l n -> exists a r, l = a :: r /\ digit a).
  { intros l n D. apply digits_value_iff in D. destruct D as (N & F & _). destruct l as [|a r]; [contradiction|]. inversion F; subst. eauto. }
  intros e x [->|(a & sg & ds & -> & A & S & F & N)].
  - cbn. split; [auto|]. intros [[_ E]|(a & s & _ & E & _)]; [exact E|discriminate].
  - assert (V : decimal ds (digits_value ds)) by (apply digits_value_iff; auto). split.
    + intros ->. right. exists a, (sg ++ ds)%list. split; [exact A|]. split; [reflexivity|]. cbn [In] in S. destruct S as [<-|[<-|[<-|[]]]]; cbn [app exponent].
      * destruct ds as [|d ds]; [contradiction|]. inversion F as [|? ? D _]; subst. destruct (Dg d D) as [-> ->]. apply sg_bare, V.
      * apply sg_plus, V.
      * apply sg_minus, V.
    + intros [[E _]|(b & sds & _ & E & G)]; [discriminate|]. assert (sds = (sg ++ ds)%list) as -> by congruence. clear E.
      assert (Q : forall l n, decimal l n -> n = digits_value l) by (intros l n D; apply digits_value_iff in D; apply D).
      cbn [In] in S. destruct S as [<-|[<-|[<-|[]]]]; cbn [app] in *.
      * destruct ds as [|d ds]; [contradiction|]. inversion F as [|? ? D _]; subst. destruct (Dg d D) as [D1 D2]. cbn [exponent]. rewrite D1, D2.
        inversion G as [l n H|l n H|l n H]; subst; [rewrite (Q _ _ H); reflexivity|discriminate D2|discriminate D1].
      * change (exponent (a :: "+"%char :: ds)) with (Z.of_N (digits_value ds)).
        inversion G as [l n H|l n H|l n H]; subst; [destruct (Fst _ _ H) as (c & r & E & D); injection E as <- <-; destruct (Dg _ D); discriminate|rewrite (Q _ _ H); reflexivity].
      * change (exponent (a :: "-"%char :: ds)) with (- Z.of_N (digits_value ds))%Z.
        inversion G as [l n H|l n H|l n H]; subst; [destruct (Fst _ _ H) as (c & r & E & D); injection E as <- <-; destruct (Dg _ D); discriminate|rewrite (Q _ _ H); reflexivity].
Qed.
Lemma signed_text : forall sds x, signed sds x -> exists sg ds, sds = (sg ++ ds)%list /\ In sg [[]; ["+"%char]; ["-"%char]] /\ Forall digit ds /\ ds <> [].
Proof.
  intros sds x [l n H|l n H|l n H]; apply digits_value_iff in H; destruct H as (N & F & _); [exists [], l|exists ["+"%char], l|exists ["-"%char], l]; cbn [In]; auto 10.
Qed.
Lemma read_float_iff : forall l neg m k, read_float l = Some (neg, m, k) <-> exists x, says l neg m k x /\ (Z.abs x < 100000)%Z.
Proof.
  intros l neg m k. split.
  - unfold read_float.
    assert (G : exists ng l1, match l with a :: r => if is_char 45 a then (true, r) else (false, l) | [] => (false, []) end = (ng, l1) /\
      l = ((if ng then ["-"%char] else []) ++ l1)%list).
    { destruct l as [|a l]; [exists false, []; auto|]. destruct (is_char 45 a) eqn:A; [|exists false, (a :: l); auto].
      apply is_char_at in A; [|lia]. subst a. exists true, l. auto. }
    destruct G as (ng & l1 & -> & ->). destruct (parse_int l1) as [[i l2]|] eqn:I; [|discriminate]. apply parse_int_cut in I. destruct I as (-> & I1 & I2 & I3).
    destruct (parse_frac l2) as [[f l3]|] eqn:F; [|discriminate]. apply parse_frac_cut in F. destruct F as (-> & F).
    destruct (parse_exp l3) as [[e l4]|] eqn:X; [|discriminate]. apply parse_exp_cut in X. destruct X as (-> & X). destruct l4; [|discriminate].
    destruct (Z.ltb_spec (Z.abs (exponent e)) 100000) as [L|L]; [|discriminate]. intros H.
    assert (neg = ng /\ m = digits_value (i ++ tl f) /\ k = (exponent e - Z.of_nat (List.length (tl f)))%Z) as (-> & -> & ->) by (repeat split; congruence). clear H.
    exists (exponent e). split; [|exact L]. exists i, f, (tl f), e. rewrite app_nil_r. split; [reflexivity|]. split; [exact I2|]. split; [exact I3|].
    assert (Fd : Forall digit (tl f)) by (destruct F as [->|(ds & -> & Fd & _)]; [constructor|exact Fd]).
    split; [destruct F as [->|(ds & -> & _ & Nd)]; [left; auto|right; auto]|]. split; [apply exponent_iff; [exact X|reflexivity]|]. split; [|reflexivity].
    apply digits_value_iff. split; [destruct i; [contradiction|discriminate]|]. split; [apply Forall_app; split; assumption|reflexivity].
  - intros (x & (i & f & ds & e & -> & I2 & I3 & F & X & D & ->) & L). apply digits_value_iff in D. destruct D as (_ & D & ->). apply Forall_app in D. destruct D as (I1 & Dd).
    assert (Ft : frac_text f /\ ds = tl f) by (destruct F as [(-> & ->)|(-> & N)]; [split; [left|]; reflexivity|split; [right; eauto|reflexivity]]).
    destruct Ft as (Ft & ->).
    assert (Xt : exp_text e).
    { destruct X as [(-> & _)|(a & sds & A & -> & S)]; [left; reflexivity|]. right. destruct (signed_text _ _ S) as (sg & d & -> & S1 & S2 & S3). exists a, sg, d. auto. }
    apply exponent_iff in X; [|exact Xt]. subst x.
    assert (Cx : no_digit e /\ no_char [46] e).
    { destruct Xt as [->|(a & s & d & -> & E & _)]; [split; exact Logic.I|]. cbn [no_digit no_char In] in *. destruct E as [<-|[<-|[]]]; split; try reflexivity; intros [E|[]]; discriminate E. }
    assert (Cf : no_digit (f ++ e)) by (destruct Ft as [->|(d & -> & _)]; [exact (proj1 Cx)|reflexivity]).
    unfold read_float.
    assert (G : match ((if neg then ["-"%char] else []) ++ i ++ f ++ e)%list with a :: r => if is_char 45 a then (true, r) else (false, ((if neg then ["-"%char] else []) ++ i ++ f ++ e)%list) | [] => (false, []) end
      = (neg, (i ++ f ++ e)%list)).
    { destruct neg; [reflexivity|]. cbn [app]. destruct i as [|a i]; [contradiction|]. cbn [app]. inversion I1 as [|? ? A _]; subst.
      unfold digit in A. cbn [In] in A. repeat destruct A as [<-|A]; try reflexivity. contradiction. }
    rewrite G, parse_int_all by (try split; auto). rewrite parse_frac_all by tauto.
    assert (PX : parse_exp e = Some (e, [])) by (rewrite <- (app_nil_r e) at 1; apply parse_exp_all; [exact Xt|exact Logic.I|exact Logic.I]). rewrite PX.
    rewrite (proj2 (Z.ltb_lt _ _) L). reflexivity.
Qed.
Lemma denominator_pos : forall k, 0 < denominator k.
Proof. intros k. apply N.neq_0_lt_0, N.pow_nonzero. lia. Qed.
Lemma value_same : forall m k p q f, value m k p q -> (rounds p q f <-> rounds (numerator m k) (denominator k) f).
Proof.
  intros m k p q f (Q & V). pose proof (denominator_pos k) as D. assert (E : p * denominator k = numerator m k * q).
  { unfold numerator, denominator. rewrite V. apply N.mul_comm. }
  split; apply rounds_same; try assumption. symmetry. exact E.
Qed.
Lemma reads_iff : forall l neg f, reads l neg f <-> exists m k, read_float l = Some (neg, m, k) /\ f = round64 (numerator m k) (denominator k).
Proof.
  intros l neg f. split.
  - intros (m & k & x & p & q & S & L & V & R). exists m, k. split; [apply read_float_iff; eauto|]. apply (value_same m k p q) in R; [|exact V].
    eapply rounds_unique; [apply denominator_pos|exact R|apply round64_rounds, denominator_pos].
  - intros (m & k & R & ->). apply read_float_iff in R. destruct R as (x & S & L). exists m, k, x, (numerator m k), (denominator k).
    split; [exact S|]. split; [exact L|]. split; [|apply round64_rounds, denominator_pos]. split; [apply denominator_pos|]. apply N.mul_comm.
Qed.
Lemma reads_fun : forall l neg neg' f f', reads l neg f -> reads l neg' f' -> neg = neg' /\ f = f'.
Proof.
  intros l neg neg' f f' R R'. apply reads_iff in R, R'. destruct R as (m & k & R & ->). destruct R' as (m' & k' & R' & ->). rewrite R in R'.
  assert (neg = neg' /\ m = m' /\ k = k') as (-> & -> & ->) by (repeat split; congruence). auto.
Qed.
Lemma div_one : forall f n, n * one <= f < (n + 1) * one <-> f / one = n.
Proof.
  intros f n. assert (P : 0 < one) by apply NumbersFacts.pow_pos. set (o := one) in *. clearbody o. split.
  - intros (A & B). symmetry. apply (N.div_unique f o n (f - n * o)); lia.
  - intros <-. pose proof (N.div_mod f o) as E. pose proof (N.mod_lt f o) as L. set (d := f / o) in *. set (r := f mod o) in *. clearbody d r.
    assert (f = o * d + r) by (apply E; lia). assert (r < o) by (apply L; lia). lia.
Qed.
Lemma le_one : forall f n, n * one <= f <-> n <= f / one.
Proof.
  intros f n. assert (P : 0 < one) by apply NumbersFacts.pow_pos. set (o := one) in *. clearbody o. split; intros H.
  - apply N.div_le_lower_bound; lia.
  - pose proof (N.mul_div_le f o). assert (n * o <= f / o * o) by (apply N.mul_le_mono_r, H). lia.
Qed.
Lemma shift_one : forall f, N.shiftr f 1074 = f / one.
Proof. intros f. apply N.shiftr_div_pow2. Qed.
Lemma number_whole : forall l n, number l = Whole n <-> whole_number l n.
Proof.
  intros l n. unfold number, whole_number. split.
  - destruct (read_float l) as [[[neg m] k]|] eqn:R; [|discriminate]. cbv zeta. rewrite shift_one. set (f := round64 (numerator m k) (denominator k)).
    destruct (N.leb_spec (2 ^ 1024) (f / one)) as [H|H]; [discriminate|]. destruct neg.
    + destruct (N.eqb_spec (f / one) 0) as [Z|Z]; [|discriminate]. intros E. assert (n = f / one) as -> by congruence. exists true, f.
      split; [apply reads_iff; eauto|]. split; [apply div_one; reflexivity|]. split; [rewrite Z; reflexivity|auto].
    + destruct (N.ltb_spec (f / one) (2 ^ 63)) as [Z|Z]; [|discriminate]. intros E. assert (n = f / one) as -> by congruence. exists false, f.
      split; [apply reads_iff; eauto|]. split; [apply div_one; reflexivity|]. split; [exact Z|discriminate].
  - intros (neg & f & R & B & S & Z). apply reads_iff in R. destruct R as (m & k & -> & ->). apply div_one in B. cbv zeta. rewrite shift_one, B.
    destruct (N.leb_spec (2 ^ 1024) n) as [H|H].
    { exfalso. assert (2 ^ 63 < 2 ^ 1024) by reflexivity. set (x := 2 ^ 63) in *. set (y := 2 ^ 1024) in *. clearbody x y. lia. }
    destruct neg; [rewrite (Z eq_refl); reflexivity|]. rewrite (proj2 (N.ltb_lt _ _) S). reflexivity.
Qed.
Lemma number_huge : forall l, number l = TooLarge <-> huge_number l.
Proof.
  intros l. unfold number, huge_number. split.
  - destruct (read_float l) as [[[neg m] k]|] eqn:R; [|discriminate]. cbv zeta. rewrite shift_one. set (f := round64 (numerator m k) (denominator k)).
    destruct (N.leb_spec (2 ^ 1024) (f / one)) as [H|H]; [|destruct (if neg then f / one =? 0 else f / one <? 2 ^ 63); discriminate].
    intros _. exists neg, f. split; [apply reads_iff; eauto|]. apply le_one, H.
  - intros (neg & f & R & B). apply reads_iff in R. destruct R as (m & k & -> & ->). apply le_one in B. cbv zeta. rewrite shift_one, (proj2 (N.leb_le _ _) B). reflexivity.
Qed.

Definition tree_induction (P : jtree -> Prop) (Hnull : P TNull) (Hbool : forall b, P (TBool b)) (Hnum : forall l, P (TNum l)) (Hstr : forall s, P (TStr s))
    (Harr : forall l, Forall P l -> P (TArr l)) (Hobj : forall l, Forall (fun kt => P (snd kt)) l -> P (TObj l)) : forall t, P t :=
  fix ind (t : jtree) : P t :=
    match t with
    | TNull => Hnull
    | TBool b => Hbool b
    | TNum l => Hnum l
    | TStr s => Hstr s
    | TArr l => Harr l ((fix go (l : list jtree) : Forall P l := match l with [] => Forall_nil _ | t :: r => Forall_cons t (ind t) (go r) end) l)
    | TObj l => Hobj l ((fix go (l : list (list byte * jtree)) : Forall (fun kt => P (snd kt)) l :=
        match l with [] => Forall_nil _ | kt :: r => Forall_cons kt (ind (snd kt)) (go r) end) l)
    end.

Fixpoint values_of (l : list jtree) : option (list json) :=
  match l with
  | [] => Some []
  | t :: r => match value_of t, values_of r with Some j, Some js => Some (j :: js) | _, _ => None end
  end.
Fixpoint put_members (l : list (list byte * jtree)) (m : list (string * json)) : option (list (string * json)) :=
  match l with
  | [] => Some m
  | (k, t) :: r => match value_of t with Some j => put_members r (update (string_of k) j m) | None => None end
  end.
Lemma value_of_arr : forall l, value_of (TArr l) = option_map JArr (values_of l).
Proof. reflexivity. Qed.
Lemma value_of_obj : forall l, value_of (TObj l) = option_map JObj (put_members l []).
Proof. reflexivity. Qed.

Lemma update_in : forall {V} k (v : V) m k' v', NoDup (keys m) -> In (k', v') (update k v m) <-> (k' = k /\ v' = v) \/ (k' <> k /\ In (k', v') m).
Proof.
  intros V k v m k' v' N. induction m as [|[a x] m IH]; cbn [update].
  - cbn [In]. split; [intros [E|[]]; injection E as -> ->; auto|]. intros [[-> ->]|[_ []]]. auto.
  - cbn [keys map fst] in N. inversion N as [|? ? A N']; subst. destruct (String.eqb_spec k a) as [->|NE]; cbn [In].
    + split.
      * intros [E|I]; [injection E as -> ->; auto|]. right. split; [|auto]. intros ->. apply A. apply in_map_iff. exists (a, v'). auto.
      * intros [[-> ->]|[NE [E|I]]]; auto. injection E as -> _. contradiction.
    + rewrite IH by exact N'. split.
      * intros [E|[E|E]]; [|auto|tauto]. injection E as -> ->. right. split; [congruence|auto].
      * intros [E|[NE' [E|E]]]; auto.
Qed.
Lemma update_in_keys : forall {V} k (v : V) m k', In k' (keys (update k v m)) <-> k' = k \/ In k' (keys m).
Proof.
  intros V k v m k'. induction m as [|[a x] m IH]; cbn [update].
  - cbn. intuition congruence.
  - destruct (String.eqb_spec k a) as [->|NE]; cbn [keys map fst In] in *; [intuition congruence|]. unfold keys in IH. rewrite IH. tauto.
Qed.
Lemma update_nodup : forall {V} k (v : V) m, NoDup (keys m) -> NoDup (keys (update k v m)).
Proof.
  intros V k v m N. induction m as [|[a x] m IH]; cbn [update].
  - repeat constructor. intros [].
  - cbn [keys map fst] in N. inversion N as [|? ? A N']; subst. destruct (String.eqb_spec k a) as [->|NE]; cbn [keys map fst].
    + constructor; assumption.
    + constructor; [|apply IH, N']. fold (keys (update k v m)). rewrite update_in_keys. intros [E|I]; [congruence|contradiction].
Qed.
Lemma put_members_spec : forall l m m', put_members l m = Some m' -> NoDup (keys m) ->
  NoDup (keys m') /\
  (forall k, In k (keys m') <-> In k (keys m) \/ In k (map (fun kt => string_of (fst kt)) l)) /\
  (forall k t, In (k, t) l -> exists j, value_of t = Some j) /\
  (forall k j, In (k, j) m' -> (~ In (bytes_of k) (map fst l) /\ In (k, j) m) \/
     exists before t after, l = (before ++ (bytes_of k, t) :: after)%list /\ ~ In (bytes_of k) (map fst after) /\ value_of t = Some j).
Proof.
  induction l as [|[k t] l IH]; intros m m' H N; cbn [put_members] in H.
  - assert (m' = m) as -> by congruence. split; [exact N|]. split; [intros k; cbn; tauto|]. split; [intros k t []|]. intros k j I. left. split; [intros []|exact I].
  - destruct (value_of t) as [j|] eqn:V; [|discriminate]. apply IH in H; [|apply update_nodup, N]. destruct H as (H1 & H2 & H3 & H4).
    split; [exact H1|]. split; [intros k'; rewrite H2, update_in_keys; cbn [map fst In]; intuition congruence|].
    split; [intros k' t' [E|I]; [injection E as <- <-; eauto|eauto]|].
    intros k' j' I. apply H4 in I. destruct I as [(A & I)|(b & t' & a & E & A & V')].
    + apply update_in in I; [|exact N]. destruct I as [[-> ->]|[NE I]].
      * right. exists [], t, l. cbn [app]. rewrite bytes_of_string_of in *. auto.
      * left. split; [|exact I]. cbn [map fst In]. intros [E|X]; [|contradiction]. apply NE. rewrite E, string_of_bytes_of. reflexivity.
    + right. exists ((k, t) :: b), t', a. rewrite E. auto.
Qed.

Lemma value_of_stands : forall t j, value_of t = Some j -> stands_for t j.
Proof.
  induction t as [|b|l|s|l IH|l IH] using tree_induction; intros j H.
  - injection H as <-. constructor.
  - injection H as <-. constructor.
  - cbn [value_of] in H. destruct (number l) as [n| |] eqn:P; try discriminate. apply number_whole in P. assert (j = JNum n) as -> by congruence.
    constructor. exact P.
  - injection H as <-. constructor.
  - rewrite value_of_arr in H. destruct (values_of l) as [js|] eqn:E; [|discriminate]. assert (j = JArr js) as -> by (cbn in H; congruence). clear H.
    constructor. revert js E. induction IH as [|t l P F IH']; intros js E; cbn [values_of] in E.
    + assert (js = []) as -> by congruence. constructor.
    + destruct (value_of t) as [j|] eqn:V; [|discriminate]. destruct (values_of l) as [js'|]; [|discriminate]. assert (js = j :: js') as -> by congruence.
      constructor; auto.
  - rewrite value_of_obj in H. destruct (put_members l []) as [m|] eqn:E; [|discriminate]. assert (j = JObj m) as -> by (cbn in H; congruence). clear H.
    apply put_members_spec in E; [|constructor]. destruct E as (E1 & E2 & E3 & E4). rewrite Forall_forall in IH. constructor.
    + exact E1.
    + intros k. rewrite E2. cbn. tauto.
    + intros k t I. destruct (E3 k t I) as [j V]. exists j. apply (IH (k, t) I). exact V.
    + intros k j I. destruct (E4 k j I) as [(_ & [])|(b & t & a & E & A & V)]. exists t. split; [exists b, a; split; assumption|].
      apply (IH (bytes_of k, t)); [rewrite E; apply in_or_app; right; left; reflexivity|exact V].
Qed.
Lemma put_members_some : forall l m, (exists m', put_members l m = Some m') <-> Forall (fun kt => exists j, value_of (snd kt) = Some j) l.
Proof.
  induction l as [|[k t] l IH]; intros m; cbn [put_members].
  - split; [constructor|eauto].
  - destruct (value_of t) as [j|] eqn:V.
    + rewrite IH. split; intros H; [constructor; [cbn [snd]; eauto|exact H]|inversion H; assumption].
    + split; [intros [? ?]; discriminate|]. intros H. inversion H as [|? ? [j X] _]; subst. cbn [snd] in X. congruence.
Qed.
Lemma plain_fold : forall (A : Type) (f : A -> Prop) l, fold_right (fun a P => f a /\ P) True l <-> Forall f l.
Proof.
  intros A f l. induction l as [|a l IH]; cbn [fold_right]; [split; [constructor|trivial]|]. rewrite IH. split; [intros []; constructor; assumption|intros H; inversion H; auto].
Qed.
Lemma some_fold : forall (A : Type) (f : A -> Prop) l, fold_right (fun a P => f a \/ P) False l <-> Exists f l.
Proof.
  intros A f l. induction l as [|a l IH]; cbn [fold_right]; [split; [intros []|intros H; inversion H]|]. rewrite IH. split; [intros []; [left|right]; assumption|intros H; inversion H; auto].
Qed.
Lemma value_of_none : forall t, value_of t = None <-> some_number (fun l => forall n, ~ whole_number l n) t.
Proof.
  assert (Q : forall l, (match number l with Whole n => Some (JNum n) | _ => None end = None) <-> forall n, ~ whole_number l n).
  { intros l. destruct (number l) as [n| |] eqn:E.
    - split; [discriminate|]. intros H. exfalso. apply (H n), number_whole, E.
    - split; [|reflexivity]. intros _ n W. apply number_whole in W. congruence.
    - split; [|reflexivity]. intros _ n W. apply number_whole in W. congruence. }
  induction t as [|b|l|s|l IH|l IH] using tree_induction; try (split; [discriminate|intros []]).
  - apply Q.
  - rewrite value_of_arr. cbn [some_number]. rewrite some_fold. transitivity (values_of l = None).
    { destruct (values_of l); split; [discriminate|discriminate|reflexivity|reflexivity]. }
    induction IH as [|t l P F IH']; cbn [values_of]; [split; [discriminate|intros H; inversion H]|]. split.
    + destruct (value_of t) as [j|]; [|intros _; left; apply P; reflexivity]. destruct (values_of l); [discriminate|]. intros _. right. apply IH'. reflexivity.
    + intros H. inversion H as [? ? X|? ? X]; subst; [apply P in X; rewrite X; reflexivity|]. apply IH' in X. rewrite X. destruct (value_of t); reflexivity.
  - rewrite value_of_obj. cbn [some_number]. rewrite (some_fold _ (fun kt => some_number (fun l => forall n, ~ whole_number l n) (snd kt))). transitivity (put_members l [] = None).
    { destruct (put_members l []); split; [discriminate|discriminate|reflexivity|reflexivity]. }
    generalize (@nil (string * json)). induction IH as [|[k t] l P F IH']; intros m; cbn [put_members]; [split; [discriminate|intros H; inversion H]|]. cbn [snd] in P. split.
    + destruct (value_of t) as [j|]; [|intros _; left; apply P; reflexivity]. intros H. right. apply IH' in H. exact H.
    + intros H. inversion H as [? ? X|? ? X]; subst; [apply P in X; rewrite X; reflexivity|]. destruct (value_of t) as [j|]; [|reflexivity]. apply IH', X.
Qed.
Lemma too_large_iff : forall t, too_large t = true <-> some_number huge_number t.
Proof.
  induction t as [|b|l|s|l IH|l IH] using tree_induction; try (split; [discriminate|intros []]).
  - cbn [too_large some_number]. rewrite <- number_huge. destruct (number l); split; congruence.
  - cbn [too_large some_number]. rewrite some_fold, existsb_exists, Exists_exists. rewrite Forall_forall in IH. split; intros (t & I & H); exists t; (split; [exact I|]); apply (IH t I), H.
  - cbn [too_large some_number]. rewrite (some_fold _ (fun kt => some_number huge_number (snd kt))), existsb_exists, Exists_exists. rewrite Forall_forall in IH.
    split; intros (t & I & H); exists t; (split; [exact I|]); apply (IH t I), H.
Qed.
