(** * Texts: lemmas *)

From Verif Require Import GoBase GoFacts Sarnet Words SpecWords.
Local Open Scope string_scope.
Local Open Scope N_scope.

Definition whites : list (list ascii) := Eval vm_compute in map utf8 white_space.
Lemma white_in : forall w, white w <-> In w whites.
Proof.
  intros w. change whites with (map utf8 white_space). rewrite in_map_iff. unfold white. split; intros (c & A & B); exists c; auto.
Qed.
Lemma white_chunk : forall w l, white w -> chunks (w ++ l) = (true, w) :: chunks l.
Proof.
  intros w l H. apply white_in in H. unfold whites in H.
  repeat (destruct H as [<-|H]; [reflexivity|]). destruct H.
Qed.
Lemma white_nonempty : forall w, white w -> w <> [].
Proof. intros w H. apply white_in in H. unfold whites in H. repeat (destruct H as [<-|H]; [discriminate|]). destruct H. Qed.

Definition lead (a : ascii) : bool := space1 a || is_byte 0xC2 a || is_byte 0xE1 a || is_byte 0xE2 a || is_byte 0xE3 a.
Lemma white_lead : forall w, white w -> exists a r, w = a :: r /\ lead a = true /\ forall b, In b r -> lead b = false.
Proof.
  intros w H. apply white_in in H. unfold whites in H.
  repeat (destruct H as [<-|H]; [do 2 eexists; split; [reflexivity|]; split; [reflexivity|]; intros b Hb;
    repeat (destruct Hb as [<-|Hb]; [reflexivity|]); destruct Hb|]). destruct H.
Qed.
Lemma space1_white : forall a, space1 a = true -> white [a].
Proof.
  intros a H. apply white_in. destruct a as [b0 b1 b2 b3 b4 b5 b6 b7].
  destruct b0, b1, b2, b3, b4, b5, b6, b7; try discriminate H; vm_compute; auto 10.
Qed.
Lemma is_byte_eq : forall n a, is_byte n a = true -> a = bt n.
Proof. intros n a H. apply Ascii.eqb_eq in H. auto. Qed.
Lemma space2_white : forall a b, space2 a b = true -> white [a; b].
Proof.
  intros a b H. apply white_in. unfold space2 in H. apply andb_true_iff in H. destruct H as (H1 & H2). apply is_byte_eq in H1. subst a.
  apply orb_true_iff in H2. destruct H2 as [H|H]; apply is_byte_eq in H; subst b; vm_compute; auto 30.
Qed.
Lemma range_cases : forall c, in_range 0x80 0x8A c = true -> In c (map bt [0x80; 0x81; 0x82; 0x83; 0x84; 0x85; 0x86; 0x87; 0x88; 0x89; 0x8A]).
Proof.
  intros [b0 b1 b2 b3 b4 b5 b6 b7] H. destruct b0, b1, b2, b3, b4, b5, b6, b7; try discriminate H; vm_compute; auto 20.
Qed.
Lemma space3_white : forall a b c, space3 a b c = true -> white [a; b; c].
Proof.
  intros a b c H. apply white_in. unfold space3 in H.
  repeat rewrite orb_true_iff in H. repeat rewrite andb_true_iff in H. repeat rewrite orb_true_iff in H.
  destruct H as [[[((A & B) & C)|((A & B) & C)]|((A & B) & C)]|((A & B) & C)]; apply is_byte_eq in A; apply is_byte_eq in B; subst a b.
  - apply is_byte_eq in C. subst. vm_compute. auto 40.
  - destruct C as [[[C|C]|C]|C]; [apply range_cases in C|apply is_byte_eq in C; subst; vm_compute; auto 40..].
    repeat (destruct C as [<-|C]; [vm_compute; auto 40|]). destruct C.
  - apply is_byte_eq in C. subst. vm_compute. auto 40.
  - apply is_byte_eq in C. subst. vm_compute. auto 40.
Qed.
(** Nothing white begins here *)
Definition dark (l : list ascii) : Prop := forall w r, l = (w ++ r)%list -> ~ white w.
Lemma dark_chunk : forall a l, dark (a :: l) -> chunks (a :: l) = (false, [a]) :: chunks l.
Proof.
  intros a l D. cbn [chunks]. destruct (space1 a) eqn:S1; [exfalso; apply (D [a] l); auto using space1_white|].
  destruct l as [|b l]; [reflexivity|]. destruct (space2 a b) eqn:S2; [exfalso; apply (D [a; b] l); auto using space2_white|].
  destruct l as [|c l]; [reflexivity|]. destruct (space3 a b c) eqn:S3; [exfalso; apply (D [a; b; c] l); auto using space3_white|].
  reflexivity.
Qed.
Lemma dark_dec : forall l, dark l \/ exists w r, white w /\ l = (w ++ r)%list.
Proof.
  intros [|a l].
  - left. intros w r E W. apply white_nonempty in W. destruct w; [auto|discriminate].
  - destruct (space1 a) eqn:S1; [right; exists [a], l; auto using space1_white|].
    destruct l as [|b l].
    { left. intros w r E W. pose proof (white_chunk w r W) as C. rewrite <- E in C. cbn [chunks] in C. rewrite S1 in C. discriminate. }
    destruct (space2 a b) eqn:S2; [right; exists [a; b], l; auto using space2_white|].
    destruct l as [|c l].
    { left. intros w r E W. pose proof (white_chunk w r W) as C. rewrite <- E in C. cbn [chunks] in C. rewrite S1, S2 in C. discriminate. }
    destruct (space3 a b c) eqn:S3; [right; exists [a; b; c], l; auto using space3_white|].
    left. intros w r E W. pose proof (white_chunk w r W) as C. rewrite <- E in C. cbn [chunks] in C. rewrite S1, S2, S3 in C. discriminate.
Qed.
Definition opens (r : list ascii) : Prop := r = [] \/ exists x r', white x /\ r = (x ++ r')%list.

Lemma fields_spacing : forall s l, spacing s -> fields_chunks [] (chunks (s ++ l)) = fields_chunks [] (chunks l).
Proof.
  intros s l (ws & F & ->). induction F as [|w ws W _ IH]; [reflexivity|]. cbn [concat]. rewrite <- app_assoc, white_chunk by auto.
  cbn [fields_chunks app]. apply IH.
Qed.
Lemma plain_tail : forall a w, plain (a :: w) -> plain w.
Proof. intros a w P x y z E. apply (P (a :: x) y z). now rewrite E. Qed.
Lemma plain_dark : forall a w r, plain (a :: w) -> opens r -> dark (a :: w ++ r).
Proof.
  intros a w r P O x y E W. destruct (white_lead x W) as (h & t & -> & Lh & Lt). cbn [app] in E. inversion E; subst h.
  (* t ++ y = w ++ r *)
  assert (X : (length t <= length w)%nat \/ (length w < length t)%nat) by lia. destruct X as [X|X].
  - assert (T : w = (t ++ skipn (length t) w)%list).
    { rewrite <- (firstn_skipn (length t) w) at 1. f_equal. apply (f_equal (firstn (length t))) in H1.
      rewrite firstn_app, (firstn_app _ t y), firstn_all, Nat.sub_diag in H1. cbn [firstn] in H1.
      replace (length t - length w)%nat with 0%nat in H1 by lia. cbn [firstn] in H1. rewrite !app_nil_r in H1. auto. }
    apply (P [] (a :: t) (skipn (length t) w)); auto. cbn [app]. now rewrite <- T.
  - (* t goes into r: its byte there is no lead byte, but r opens with one *)
    assert (N : nth_error (w ++ r) (length w) = nth_error t (length w)) by (rewrite H1; apply nth_error_app1; auto).
    rewrite nth_error_app2, Nat.sub_diag in N by lia.
    destruct (nth_error t (length w)) as [b|] eqn:B; [|apply nth_error_None in B; lia].
    destruct O as [->|(x & r' & Wx & ->)]; [discriminate N|].
    destruct (white_lead x Wx) as (h & t' & -> & Lh' & _). cbn [app nth_error] in N. inversion N; subst h.
    assert (F := Lt b (nth_error_In _ _ B)). rewrite F in Lh'. discriminate.
Qed.
Lemma fields_plain : forall w r cur, plain w -> opens r ->
  fields_chunks cur (chunks (w ++ r)) = fields_chunks (cur ++ w) (chunks r).
Proof.
  induction w as [|a w IH]; intros r cur P O; [now rewrite app_nil_r|]. cbn [app].
  rewrite dark_chunk by (apply plain_dark; auto). cbn [fields_chunks]. rewrite IH by (eauto using plain_tail). now rewrite <- app_assoc.
Qed.
Lemma fields_flush : forall w r, w <> [] -> opens r -> fields_chunks w (chunks r) = string_of w :: fields_chunks [] (chunks r).
Proof.
  intros w r N [->|(x & r' & W & ->)].
  - destruct w; [congruence|reflexivity].
  - rewrite white_chunk by auto. cbn [fields_chunks app]. destruct w; [congruence|reflexivity].
Qed.
Lemma words_fields : forall l ws, words l ws -> fields_chunks [] (chunks l) = map string_of ws.
Proof.
  intros l ws H. induction H as [s S|s w r ws S N P O H IH].
  - rewrite <- (app_nil_r s), fields_spacing by auto. reflexivity.
  - rewrite fields_spacing by auto. rewrite fields_plain by auto. cbn [app]. rewrite fields_flush by auto. cbn [map]. now rewrite IH.
Qed.
Lemma spacing_app : forall s t, spacing s -> spacing t -> spacing (s ++ t).
Proof. intros s t (a & A & ->) (b & B & ->). exists (a ++ b)%list. split; [apply Forall_app; auto|]. now rewrite concat_app. Qed.
Lemma spacing_one : forall w, white w -> spacing w.
Proof. intros w W. exists [w]. split; [auto|]. cbn [concat]. now rewrite app_nil_r. Qed.
Lemma spacing_nil : spacing [].
Proof. exists []. split; auto. Qed.
Lemma spacing_opens : forall s r, spacing s -> opens r -> opens (s ++ r).
Proof.
  intros s r (ws & F & ->) O. destruct F as [|w ws W F]; [exact O|]. right. exists w, (concat ws ++ r)%list. split; auto. cbn [concat]. now rewrite app_assoc.
Qed.
Lemma words_space : forall s l ws, spacing s -> words l ws -> words (s ++ l) ws.
Proof.
  intros s l ws S H. inversion H; subst; [apply words_none; apply spacing_app; auto|].
  rewrite app_assoc. apply words_more; auto. apply spacing_app; auto.
Qed.
Lemma words_exist : forall l, exists ws, words l ws.
Proof.
  intros l. remember (length l) as n eqn:E. revert l E. induction n as [n IH] using lt_wf_ind. intros l E.
  destruct l as [|a l]; [exists []; apply words_none, spacing_nil|].
  destruct (dark_dec (a :: l)) as [D|(w & r & W & X)].
  - destruct (IH (length l) ltac:(cbn [length] in E; lia) l eq_refl) as (ws & H).
    assert (single : opens l -> exists ws', words (a :: l) ws').
    { intros O. exists ([a] :: ws). apply (words_more [] [a] l ws); auto using spacing_nil; [discriminate|].
      intros x y z Q W. destruct x as [|x0 x].
      - apply (D y (z ++ l)%list); auto. rewrite app_assoc. cbn [app] in Q. now rewrite <- Q.
      - inversion Q; subst. destruct x; [|discriminate]. destruct y; [apply white_nonempty in W; auto|discriminate]. }
    destruct (dark_dec l) as [Dl|(w & r & W & X)]; [|apply single; right; eauto].
    inversion H; subst.
    + destruct H0 as (xs & F & ->). destruct F as [|x xs Wx F]; [apply single; left; auto|].
      exfalso. apply (Dl x (concat xs)); auto.
    + destruct H0 as (xs & F & ->). destruct F as [|x xs Wx F].
      2:{ exfalso. apply (Dl x (concat xs ++ w ++ r)%list); auto. cbn [concat]. now rewrite <- app_assoc. }
      cbn [concat app] in *. exists ((a :: w) :: ws0). apply (words_more [] (a :: w) r ws0); auto using spacing_nil; [discriminate|].
      intros x y z Q W. destruct x as [|x0 x].
      * apply (D y (z ++ r)%list); auto. rewrite app_assoc. cbn [app] in Q. rewrite <- Q. reflexivity.
      * inversion Q; subst. apply (H2 x y z); auto.
  - destruct (IH (length r)) with (l := r) as (ws & H); auto.
    { apply white_nonempty in W. destruct w; [congruence|]. apply (f_equal (@length ascii)) in X. rewrite app_length in X. cbn [length] in *. lia. }
    exists ws. rewrite X. apply words_space; auto using spacing_one.
Qed.
Lemma words_tail : forall l ws, words l ws -> forall s, spacing s -> words (l ++ s) ws.
Proof.
  intros l ws H. induction H as [t T|t w r ws T N P O H IH]; intros s S; [apply words_none; apply spacing_app; auto|].
  rewrite <- !app_assoc. apply words_more; auto. destruct O as [->|(x & r' & W & ->)].
  - cbn [app]. destruct S as (xs & F & ->). destruct F as [|x xs W F]; [left; auto|right; exists x, (concat xs); auto].
  - right. exists x, (r' ++ s)%list. rewrite app_assoc. auto.
Qed.

(** *** Trimming *)
Lemma unchunk_chunks : forall l, unchunk (chunks l) = l /\ Forall (fun c => fst c = true -> white (snd c)) (chunks l).
Proof.
  intros l. remember (length l) as n eqn:E. revert l E. induction n as [n IH] using lt_wf_ind. intros l E.
  destruct (dark_dec l) as [D|(w & r & W & X)].
  - destruct l as [|a l]; [split; [reflexivity|constructor]|]. rewrite dark_chunk by auto.
    destruct (IH (length l) ltac:(cbn [length] in E; lia) l eq_refl) as (U & F). unfold unchunk in *. cbn [map snd concat app].
    split; [f_equal; auto|]. constructor; auto. discriminate.
  - subst l. rewrite white_chunk by auto. destruct (IH (length r)) with (l := r) as (U & F); auto.
    { apply white_nonempty in W. destruct w; [congruence|]. rewrite app_length in E. cbn [length] in *. lia. }
    unfold unchunk in *. cbn [map snd concat]. split; [f_equal; auto|]. constructor; auto.
Qed.
Lemma trim_left_split : forall l, Forall (fun c => fst c = true -> white (snd c)) l ->
  exists a, l = (a ++ trim_left_chunks l)%list /\ Forall (fun c => white (snd c)) a.
Proof.
  induction l as [|[b w] l IH]; intros F; [exists []; auto|]. inversion F; subst. destruct b; cbn [trim_left_chunks].
  - destruct (IH H2) as (a & A & B). exists ((true, w) :: a). split; [cbn [app]; now rewrite <- A|]. constructor; auto.
  - exists []. auto.
Qed.
Lemma unchunk_app : forall a b, unchunk (a ++ b) = (unchunk a ++ unchunk b)%list.
Proof. intros. unfold unchunk. now rewrite map_app, concat_app. Qed.
Lemma unchunk_spacing : forall a, Forall (fun c => white (snd c)) a -> spacing (unchunk a).
Proof. intros a F. exists (map snd a). split; [|reflexivity]. apply Forall_map. auto. Qed.
Lemma trim_split : forall l, exists a b, l = (a ++ unchunk (trim_chunks (chunks l)) ++ b)%list /\ spacing a /\ spacing b.
Proof.
  intros l. destruct (unchunk_chunks l) as (U & F). destruct (trim_left_split _ F) as (a & A & B).
  set (m := trim_left_chunks (chunks l)) in *.
  assert (Fm : Forall (fun c => fst c = true -> white (snd c)) (rev m)).
  { apply Forall_rev. rewrite A in F. apply Forall_app in F. apply F. }
  destruct (trim_left_split _ Fm) as (b & C & D). unfold trim_chunks. fold m.
  exists (unchunk a), (unchunk (rev b)). split; [|split; apply unchunk_spacing; auto using Forall_rev].
  rewrite <- unchunk_app. rewrite <- rev_app_distr, <- C, rev_involutive, <- unchunk_app, <- A. auto.
Qed.
Lemma bytes_string : forall l, bytes_of (string_of l) = l.
Proof. apply list_ascii_of_string_of_list_ascii. Qed.
Lemma string_bytes : forall s, string_of (bytes_of s) = s.
Proof. apply string_of_list_ascii_of_string. Qed.
Lemma map_string_bytes : forall l, map bytes_of (map string_of l) = l.
Proof. intros l. rewrite map_map. rewrite <- (map_id l) at 2. apply map_ext. apply bytes_string. Qed.
Lemma fields_trim : forall s, fields (trim_space s) = fields s.
Proof.
  intros s. unfold fields, trim_space. rewrite bytes_string. destruct (trim_split (bytes_of s)) as (a & b & E & A & B).
  set (t := unchunk (trim_chunks (chunks (bytes_of s)))) in *. destruct (words_exist t) as (ws & W).
  rewrite (words_fields t ws W). symmetry. rewrite E. apply words_fields. apply words_space; auto. apply words_tail; auto.
Qed.
Lemma fields_words : forall s ws, fields s = ws <-> words_of s ws.
Proof.
  intros s ws. unfold words_of, fields. split.
  - intros <-. destruct (words_exist (bytes_of s)) as (x & W). rewrite (words_fields _ _ W), map_string_bytes. auto.
  - intros W. rewrite (words_fields _ _ W). rewrite map_map. rewrite <- (map_id ws) at 2. apply map_ext. apply string_bytes.
Qed.

(** *** What is typed *)
Lemma split_two_spec : forall s,
  match split_two ":" s with
  | [_; t] => typed s t
  | [_] => forall t, ~ typed s t
  | _ => False
  end.
Proof.
  induction s as [|a s IH]; cbn [split_two].
  - intros t (p & _ & E). unfold bytes_of in E. cbn in E. destruct (list_ascii_of_string p); discriminate.
  - destruct (Ascii.eqb_spec a ":").
    + subst a. exists "". split; [intros []|reflexivity].
    + destruct (split_two ":" s) as [|h [|t [|]]]; try (destruct IH; fail).
      * intros t (p & N & E). destruct p as [|b p]; [cbn in E; congruence|]. cbn in E. inversion E. apply (IH t). exists p. split; auto.
        intros I. apply N. right; auto.
      * destruct IH as (p & N & E). exists (String a p). split; [intros [I|I]; auto|]. cbn. unfold bytes_of in E. now rewrite E.
Qed.
Lemma typed_unique : forall s t t', typed s t -> typed s t' -> t = t'.
Proof.
  intros s t t' (p & N & E) (p' & N' & E').
  assert (X : forall (l l' r r' : list ascii), ~ In ":"%char l -> ~ In ":"%char l' -> (l ++ ":"%char :: r)%list = (l' ++ ":"%char :: r')%list -> r = r').
  { induction l as [|x l IH]; intros [|y l'] r r' A B Q; cbn [app] in Q; inversion Q; subst; auto.
    - exfalso. apply B. left; auto.
    - exfalso. apply A. left; auto.
    - apply (IH l'); auto; [intros I; apply A; right; auto|intros I; apply B; right; auto]. }
  rewrite <- (string_bytes t), <- (string_bytes t'). f_equal. eapply X; [exact N|exact N'|congruence].
Qed.

(** *** Numbers *)
Lemma digit_spec : forall a d, digit a = Some d <-> d < 10 /\ a = ascii_of_N (48 + d).
Proof.
  intros a d. unfold digit, in_range. split.
  - destruct (N.leb_spec 48 (N_of_ascii a)); destruct (N.leb_spec (N_of_ascii a) 57); cbn [andb]; try discriminate.
    intros E. inversion E. subst d. split; [lia|]. replace (48 + (N_of_ascii a - 48)) with (N_of_ascii a) by lia. now rewrite ascii_N_embedding.
  - intros (D & ->). rewrite N_ascii_embedding by lia. destruct (N.leb_spec 48 (48 + d)); [|lia]. destruct (N.leb_spec (48 + d) 57); [|lia].
    cbn [andb]. f_equal. lia.
Qed.
Lemma digits_acc_app : forall l a acc, digits_acc acc (l ++ [a]) =
  match digits_acc acc l with Some n => match digit a with Some d => Some (n * 10 + d) | None => None end | None => None end.
Proof.
  induction l as [|x l IH]; intros a acc; cbn [app digits_acc].
  - destruct (digit a); reflexivity.
  - destruct (digit x); [apply IH|reflexivity].
Qed.
Lemma decimal_inv : forall l n, decimal l n ->
  (n < 10 /\ l = [ascii_of_N (48 + n)]) \/ exists l' m d, decimal l' m /\ d < 10 /\ n = 10 * m + d /\ l = (l' ++ [ascii_of_N (48 + d)])%list.
Proof. intros l n H. destruct H; [left; auto|right; eauto 10]. Qed.
Lemma digits_decimal : forall l n, digits l = Some n <-> decimal l n.
Proof.
  intros l. induction l as [|a l IH] using rev_ind; intros n.
  - split; [discriminate|]. intros H. inversion H. destruct l; discriminate.
  - assert (D : digits (l ++ [a]) = digits_acc 0 (l ++ [a])) by (destruct l; reflexivity). rewrite D, digits_acc_app.
    destruct l as [|b l].
    + cbn [digits_acc]. split.
      * destruct (digit a) as [d|] eqn:E; [|discriminate]. intros X. inversion X; subst. apply digit_spec in E. destruct E as (E1 & ->). apply dec_one; auto.
      * intros H. apply decimal_inv in H. destruct H as [(D' & E)|(l' & m & d & H & D' & -> & E)].
        -- inversion E. subst a. rewrite (proj2 (digit_spec _ n)) by auto. reflexivity.
        -- apply (f_equal (@length ascii)) in E. rewrite !app_length in E. cbn [length] in E.
           assert (l' = []) by (destruct l'; [auto|cbn [length] in E; lia]). subst l'. apply IH in H. discriminate.
    + change (digits_acc 0 (b :: l)) with (digits (b :: l)). split.
      * destruct (digits (b :: l)) as [m|] eqn:M; [|discriminate]. destruct (digit a) as [d|] eqn:E; [|discriminate].
        intros X. inversion X; subst. apply digit_spec in E. destruct E as (E1 & ->). rewrite N.mul_comm. apply dec_more; auto. apply IH; auto.
      * intros H. apply decimal_inv in H. destruct H as [(D' & E)|(l' & m & d & H & D' & -> & E)].
        -- apply (f_equal (@length ascii)) in E. rewrite app_length in E. cbn [length] in E. lia.
        -- apply app_inj_tail in E. destruct E as (<- & ->). apply IH in H. rewrite H. rewrite (proj2 (digit_spec _ d)) by auto. f_equal. now rewrite N.mul_comm.
Qed.
Lemma decimal_cons : forall l n, decimal l n -> exists a r d, l = a :: r /\ d < 10 /\ a = ascii_of_N (48 + d).
Proof.
  intros l n H. induction H as [d D|l n d H (a & r & d' & -> & D' & ->) D]; [exists (ascii_of_N (48 + d)), [], d; auto|].
  exists (ascii_of_N (48 + d')), (r ++ [ascii_of_N (48 + d)])%list, d'. auto.
Qed.
Lemma digit_not_sign : forall d, d < 10 -> ascii_of_N (48 + d) <> "+"%char /\ ascii_of_N (48 + d) <> "-"%char.
Proof.
  intros d D. split; intros E; apply (f_equal N_of_ascii) in E; rewrite N_ascii_embedding in E by lia;
    [change (N_of_ascii "+") with 43 in E|change (N_of_ascii "-") with 45 in E]; lia.
Qed.
Lemma atoi_spec : forall s z, atoi s = Some z <-> signed (bytes_of s) z /\ (- 2 ^ 63 <= z < 2 ^ 63)%Z.
Proof.
  intros s z. unfold atoi. destruct (bytes_of s) as [|a r] eqn:E.
  { split; [discriminate|]. intros (H & _). inversion H. apply decimal_cons in H0. destruct H0 as (? & ? & ? & ? & _). discriminate. }
  change (2 ^ 63) with 9223372036854775808. change (2 ^ 63)%Z with 9223372036854775808%Z.
  destruct (Ascii.eqb_spec a "+").
  { subst a. split.
    - destruct (digits r) as [n|] eqn:D; [|discriminate]. destruct (N.ltb_spec n 9223372036854775808); [|discriminate].
      intros X; inversion X. split; [apply sg_plus; apply digits_decimal; auto|lia].
    - intros (H & L). inversion H; subst.
      + apply decimal_cons in H0. destruct H0 as (x & r' & d & Q & D & ->). inversion Q. destruct (digit_not_sign d D). congruence.
      + apply digits_decimal in H1. rewrite H1. destruct (N.ltb_spec n 9223372036854775808); [auto|lia]. }
  destruct (Ascii.eqb_spec a "-").
  { subst a. split.
    - destruct (digits r) as [m|] eqn:D; [|discriminate]. destruct (N.leb_spec m 9223372036854775808); [|discriminate].
      intros X; inversion X. split; [apply sg_minus; apply digits_decimal; auto|lia].
    - intros (H & L). inversion H; subst.
      + apply decimal_cons in H0. destruct H0 as (x & r' & d & Q & D & ->). inversion Q. destruct (digit_not_sign d D). congruence.
      + apply digits_decimal in H1. rewrite H1. destruct (N.leb_spec n0 9223372036854775808); [auto|lia]. }
  split.
  - destruct (digits (a :: r)) as [m|] eqn:D; [|discriminate]. destruct (N.ltb_spec m 9223372036854775808); [|discriminate].
    intros X; inversion X. split; [apply sg_bare; apply digits_decimal; auto|lia].
  - intros (H & L). inversion H; subst; try congruence. apply digits_decimal in H0. rewrite H0.
    destruct (N.ltb_spec n1 9223372036854775808); [auto|lia].
Qed.
Lemma parse_uint_spec : forall bits s n, parse_uint bits s = Some n <-> decimal (bytes_of s) n /\ n < 2 ^ bits.
Proof.
  intros bits s n. unfold parse_uint. rewrite <- digits_decimal. destruct (digits (bytes_of s)) as [m|].
  - split.
    + destruct (N.ltb_spec m (2 ^ bits)); [|discriminate]. intros X. inversion X. subst. auto.
    + intros (X & L). inversion X. subst. destruct (N.ltb_spec n (2 ^ bits)); [auto|lia].
  - split; [discriminate|intros (X & _); discriminate].
Qed.
