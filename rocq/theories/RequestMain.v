(** * The properties of request frames *)

From Verif Require Import GoBase GoFacts Flags SpecFlags FlagsFacts Config Shipped ConfigFacts SpecWire SarFacts TimeMain Data Request SpecFrames FrameFacts FlagStrFacts BuildFacts SpecRequest.
Local Open Scope string_scope.
Local Open Scope N_scope.

(** C32: encoding a request gives header, session, name, zero byte and
    authentication bytes, for every request. *)
Lemma c32_encode : forall r, request_encode r =
  Ret (Frame (request_wire (r_header r) (r_session r) (r_fname r) (r_auth r))).
Proof.
  intros r. unfold request_encode, request_wire. cbv zeta.
  match goal with |- context[make_bytes ?n] => change (make_bytes n) with ([] ++ make_bytes n)%list end.
  fstep. fstep.
  rewrite copy_range_make by (rewrite ?app_length, ?be_bytes_length, ?bytes_of_length; cbn [length]; lia). cbn [obind].
  rewrite copy_from_make by (rewrite ?app_length, ?be_bytes_length, ?bytes_of_length; cbn [length]; lia). cbn [obind].
  assert (L : length (bytes_of (r_fname r)) = slen (r_fname r)) by apply bytes_of_length.
  destruct (r_auth r) as [|a l] eqn:A.
  - cbn [obind length]. match goal with |- context[make_bytes ?n] => replace n with 0%nat by lia end.
    change (make_bytes 0) with (@nil byte). rewrite !app_nil_r, app_nil_l, <- !app_assoc, !wire_be. reflexivity.
  - rewrite <- A. rewrite copy_from_make by (rewrite ?A, ?app_length, ?be_bytes_length, ?bytes_of_length; cbn [length]; lia). cbn [obind].
    match goal with |- context[make_bytes ?n] => replace n with 0%nat by (rewrite A; cbn [length]; lia) end.
    change (make_bytes 0) with (@nil byte). rewrite !app_nil_r, app_nil_l, <- !app_assoc, !wire_be. reflexivity.
Qed.

(** ** Decoding *)
Lemma scan_name_spec : forall l, scan_name l = latin1_utf8 (before_zero l).
Proof.
  induction l as [|b r IH]; [reflexivity|]. cbn [scan_name before_zero].
  destruct (Ascii.eqb_spec b zero_byte) as [->|N].
  - reflexivity.
  - replace (N_of_ascii b =? 0) with false.
    + cbn [latin1_utf8 flat_map]. rewrite IH. f_equal. unfold utf8_of_byte. cbv zeta.
      destruct (N.ltb_spec (N_of_ascii b) 128); [reflexivity|].
      unfold byte_of_N. pose proof (N_ascii_bounded b).
      assert (A1 : N_of_ascii b / 64 < 4) by (apply N.div_lt_upper_bound; lia).
      assert (A2 : N_of_ascii b mod 64 < 64) by (apply N.mod_lt; lia).
      rewrite (N.mod_small (192 + _)), (N.mod_small (128 + _)) by lia. reflexivity.
    + symmetry. apply N.eqb_neq. intros E. apply N. apply N_of_ascii_inj. rewrite E. reflexivity.
Qed.

Lemma latin1_length : forall l, length (latin1_utf8 l) = (length l + high_count l)%nat.
Proof.
  induction l as [|b r IH]; [reflexivity|]. unfold latin1_utf8, high_count in *. cbn [flat_map filter].
  rewrite app_length, IH. cbv zeta. destruct (N.ltb_spec (N_of_ascii b) 128), (N.leb_spec 128 (N_of_ascii b)); cbn [length]; lia.
Qed.
Lemma latin1_ascii : forall l, (forall b, In b l -> N_of_ascii b < 128) -> latin1_utf8 l = l /\ high_count l = 0%nat.
Proof.
  induction l as [|b r IH]; intros H; [auto|]. destruct IH as [I1 I2]; [intros; apply H; right; auto|].
  unfold latin1_utf8, high_count in *. cbn [flat_map filter]. cbv zeta.
  assert (L : N_of_ascii b < 128) by (apply H; left; auto).
  destruct (N.ltb_spec (N_of_ascii b) 128), (N.leb_spec 128 (N_of_ascii b)); try lia. rewrite I1. cbn. auto.
Qed.
Lemma before_zero_app : forall a c, (forall b, In b a -> N_of_ascii b <> 0) -> before_zero (a ++ [ascii_of_N 0] ++ c) = a.
Proof.
  induction a as [|b r IH]; intros c H; [reflexivity|].
  cbn [app before_zero]. replace (N_of_ascii b =? 0) with false by (symmetry; apply N.eqb_neq; apply H; left; auto).
  f_equal. apply IH. intros; apply H; right; auto.
Qed.
Lemma before_zero_len : forall l, (length (before_zero l) <= length l)%nat.
Proof. induction l as [|b r IH]; cbn; auto. destruct (N_of_ascii b =? 0); cbn; lia. Qed.
Lemma has_zero_len : forall l, has_zero l <-> (length (before_zero l) < length l)%nat.
Proof.
  induction l as [|b r IH].
  - split; [intros (x & [] & _)|cbn; lia].
  - cbn [before_zero]. destruct (N.eqb_spec (N_of_ascii b) 0) as [E|E].
    + cbn. split; [lia|]. intros _. exists b. cbn; auto.
    + cbn [length]. split.
      * intros (x & [<-|I] & Z); [contradiction|]. assert (has_zero r) by (exists x; auto). apply IH in H. lia.
      * intros L. assert (has_zero r) as (x & I & Z) by (apply IH; lia). exists x; cbn; auto.
Qed.

Lemma request_decode_spec : forall r f,
  verdict_of (request_decode r f) = request_verdict (slen (r_fname r)) f /\
  (request_verdict (slen (r_fname r)) f = Accept ->
   let name := before_zero (skipn 8 f) in
   request_decode r f =
     Ret ({| r_header := number_at f 0 4; r_session := number_at f 4 4;
             r_fname := r_fname r ++ string_of (latin1_utf8 name);
             r_auth := skipn (9 + slen (r_fname r) + length name + high_count name) f |}, None)).
Proof.
  intros r f. unfold request_decode, request_verdict. destruct (Nat.ltb_spec (length f) 9) as [L|L]; [split; [reflexivity|discriminate]|].
  rewrite !get_uint_number by lia. cbn [obind]. rewrite slice_from_ok by lia. cbn [obind]. cbv zeta.
  rewrite scan_name_spec. set (name := before_zero (skipn 8 f)).
  assert (P : slen (r_fname r ++ string_of (latin1_utf8 name)) = (slen (r_fname r) + length name + high_count name)%nat).
  { rewrite <- !bytes_of_length, bytes_of_app, app_length, bytes_of_string_of, latin1_length. lia. }
  rewrite P.
  replace (8 + 1 + (slen (r_fname r) + length name + high_count name))%nat
    with (9 + slen (r_fname r) + length name + high_count name)%nat by lia.
  set (pos := (9 + slen (r_fname r) + length name + high_count name)%nat).
  destruct (Nat.eqb_spec pos (length f)) as [E|E].
  - replace (pos <=? length f)%nat with true by (symmetry; apply Nat.leb_le; lia).
    split; [reflexivity|]. intros _. rewrite skipn_all2 by lia. reflexivity.
  - destruct (Nat.leb_spec pos (length f)) as [C|C].
    + rewrite slice_from_ok by lia. split; reflexivity.
    + rewrite slice_from_panic by lia. split; [reflexivity|discriminate].
Qed.

(** C33: a request with an ASCII name survives, into any receiver with an empty name. *)
Lemma c33_roundtrip : forall r r0, r_header r < 2 ^ 32 -> r_session r < 2 ^ 32 -> ascii_name (r_fname r) -> r_fname r0 = "" ->
  exists f, request_encode r = Ret (Frame f) /\ request_decode r0 f = Ret (r, None).
Proof.
  intros r r0 Bh Bs A E0. eexists. split; [apply c32_encode|].
  set (f := request_wire (r_header r) (r_session r) (r_fname r) (r_auth r)).
  assert (N0 : number_at f 0 4 = r_header r).
  { unfold f, request_wire. rewrite number_at_wire0. apply u32_pow; auto. }
  assert (N4 : number_at f 4 4 = r_session r).
  { unfold f, request_wire. rewrite number_at_wire by (rewrite wire_length; auto). apply u32_pow; auto. }
  assert (SK : skipn 8 f = (bytes_of (r_fname r) ++ [ascii_of_N 0] ++ r_auth r)%list).
  { unfold f, request_wire. rewrite app_assoc. apply skipn_app_exact. rewrite app_length, !wire_length. reflexivity. }
  assert (BZ : before_zero (skipn 8 f) = bytes_of (r_fname r)).
  { rewrite SK. apply before_zero_app. intros b I. specialize (A b I). lia. }
  destruct (latin1_ascii (bytes_of (r_fname r))) as [LA HC]; [intros b I; specialize (A b I); lia|].
  assert (LF : length f = (9 + slen (r_fname r) + length (r_auth r))%nat).
  { unfold f, request_wire. rewrite !app_length, !wire_length, bytes_of_length. cbn [length]. lia. }
  destruct (request_decode_spec r0 f) as [_ V]. cbv zeta in V. rewrite BZ, LA, HC, E0, N0, N4 in V.
  rewrite V.
  - rewrite bytes_of_length. change (slen "") with 0%nat. cbn [append]. rewrite string_of_bytes_of.
    replace (skipn (9 + 0 + slen (r_fname r) + 0) f) with (r_auth r).
    + destruct r; reflexivity.
    + symmetry. unfold f, request_wire. rewrite !app_assoc. apply skipn_app_exact.
      rewrite !app_length, !wire_length, bytes_of_length. cbn [length]. lia.
  - unfold request_verdict. rewrite BZ, HC, bytes_of_length. change (slen "") with 0%nat.
    replace (length f <? 9)%nat with false by (symmetry; apply Nat.ltb_ge; lia).
    replace (9 + 0 + slen (r_fname r) + 0 <=? length f)%nat with true by (symmetry; apply Nat.leb_le; lia). reflexivity.
Qed.

(** C34: with bytes of 0x80 and above in the name (and no zero byte) the frame
    either panics the decoder, exactly when there are more of them than
    authentication bytes, or comes out with a longer name and that many
    authentication bytes cut off. *)
Lemma c34_non_ascii : forall r, r_header r < 2 ^ 32 -> r_session r < 2 ^ 32 -> no_zero (r_fname r) ->
  let n := high_count (bytes_of (r_fname r)) in
  exists f, request_encode r = Ret (Frame f) /\
    if Nat.leb n (length (r_auth r))
    then request_decode zero_request f =
           Ret ({| r_header := r_header r; r_session := r_session r;
                   r_fname := string_of (latin1_utf8 (bytes_of (r_fname r)));
                   r_auth := skipn n (r_auth r) |}, None)
         /\ slen (string_of (latin1_utf8 (bytes_of (r_fname r)))) = (slen (r_fname r) + n)%nat
    else request_decode zero_request f = Panic.
Proof.
  intros r Bh Bs Z n. eexists. split; [apply c32_encode|].
  set (f := request_wire (r_header r) (r_session r) (r_fname r) (r_auth r)).
  assert (N0 : number_at f 0 4 = r_header r).
  { unfold f, request_wire. rewrite number_at_wire0. apply u32_pow; auto. }
  assert (N4 : number_at f 4 4 = r_session r).
  { unfold f, request_wire. rewrite number_at_wire by (rewrite wire_length; auto). apply u32_pow; auto. }
  assert (SK : skipn 8 f = (bytes_of (r_fname r) ++ [ascii_of_N 0] ++ r_auth r)%list).
  { unfold f, request_wire. rewrite app_assoc. apply skipn_app_exact. rewrite app_length, !wire_length. reflexivity. }
  assert (BZ : before_zero (skipn 8 f) = bytes_of (r_fname r)) by (rewrite SK; apply before_zero_app; auto).
  assert (LF : length f = (9 + slen (r_fname r) + length (r_auth r))%nat).
  { unfold f, request_wire. rewrite !app_length, !wire_length, bytes_of_length. cbn [length]. lia. }
  destruct (request_decode_spec zero_request f) as [V D]. cbv zeta in D. rewrite BZ, N0, N4 in D.
  unfold request_verdict in V, D. rewrite BZ, bytes_of_length in V, D. fold n in V, D.
  change (slen (r_fname zero_request)) with 0%nat in *.
  replace (length f <? 9)%nat with false in * by (symmetry; apply Nat.ltb_ge; lia).
  destruct (Nat.leb_spec n (length (r_auth r))) as [C|C].
  - replace (9 + 0 + slen (r_fname r) + n <=? length f)%nat with true in * by (symmetry; apply Nat.leb_le; lia).
    rewrite D by reflexivity. split.
    + cbn [zero_request r_fname append]. do 3 f_equal.
      unfold f, request_wire.
      replace (9 + 0 + slen (r_fname r) + n)%nat with (length (wire 4 (r_header r) ++ wire 4 (r_session r) ++ bytes_of (r_fname r) ++ [ascii_of_N 0])%list + n)%nat
        by (rewrite !app_length, !wire_length, bytes_of_length; cbn [length]; lia).
      replace (wire 4 (r_header r) ++ wire 4 (r_session r) ++ bytes_of (r_fname r) ++ [ascii_of_N 0] ++ r_auth r)%list
        with ((wire 4 (r_header r) ++ wire 4 (r_session r) ++ bytes_of (r_fname r) ++ [ascii_of_N 0]) ++ r_auth r)%list
        by (rewrite <- !app_assoc; reflexivity).
      rewrite skipn_app. rewrite skipn_all2 by lia. cbn [app]. f_equal. lia.
    + rewrite slen_string_of, latin1_length, bytes_of_length. reflexivity.
  - replace (9 + 0 + slen (r_fname r) + n <=? length f)%nat with false in * by (symmetry; apply Nat.leb_gt; lia).
    apply verdict_panic. exact V.
Qed.

(** C34: so a name with such a byte is never received as it was sent. *)
Lemma c34_never_survives : forall r r' f, r_header r < 2 ^ 32 -> r_session r < 2 ^ 32 -> no_zero (r_fname r) ->
  ~ ascii_name (r_fname r) ->
  request_encode r = Ret (Frame f) -> request_decode zero_request f = Ret (r', None) -> r_fname r' <> r_fname r.
Proof.
  intros r r' f Bh Bs Z A E D Q. destruct (c34_non_ascii r Bh Bs Z) as (f' & E' & H). cbv zeta in H.
  assert (f' = f) by congruence. subst f'.
  destruct (Nat.leb (high_count (bytes_of (r_fname r))) (length (r_auth r))); [|congruence].
  destruct H as [H L]. rewrite D in H. inversion H; subst r'. cbn [r_fname] in Q. rewrite Q in L.
  apply A. intros b I. split; [specialize (Z b I); lia|].
  destruct (N.ltb_spec (N_of_ascii b) 128); auto. exfalso.
  assert (X : In b (filter (fun b => 128 <=? N_of_ascii b) (bytes_of (r_fname r)))).
  { apply filter_In. split; auto. apply N.leb_le; auto. }
  unfold high_count in L. destruct (filter (fun b => 128 <=? N_of_ascii b) (bytes_of (r_fname r))); [destruct X|cbn in L; lia].
Qed.

(** C35: the verdict on arbitrary bytes, for a receiver that holds any name. *)
Lemma c35_verdict : forall r f, verdict_of (request_decode r f) = request_verdict (slen (r_fname r)) f.
Proof. intros; apply request_decode_spec. Qed.

(** C35: for a fresh receiver: a panic exactly for a name without terminator or
    with more bytes of 0x80 and above than bytes follow the terminator; the
    process is never terminated. *)
Lemma c35_panics_iff : forall f,
  (request_decode zero_request f = Panic <->
    (9 <= length f)%nat /\
    (~ has_zero (skipn 8 f) \/
     (length (after_zero (skipn 8 f)) < high_count (before_zero (skipn 8 f)))%nat)) /\
  request_decode zero_request f <> Fatal.
Proof.
  intros f. rewrite <- verdict_panic. split.
  - rewrite c35_verdict. unfold request_verdict. change (slen (r_fname zero_request)) with 0%nat.
    destruct (Nat.ltb_spec (length f) 9); [split; [discriminate|lia]|].
    rewrite has_zero_len. unfold after_zero. rewrite !skipn_length.
    pose proof (before_zero_len (skipn 8 f)) as B. rewrite skipn_length in B.
    destruct (Nat.leb_spec (9 + 0 + length (before_zero (skipn 8 f)) + high_count (before_zero (skipn 8 f))) (length f)).
    + split; [discriminate|]. lia.
    + split; [intros _|reflexivity]. split; [lia|]. lia.
  - intros F. apply verdict_fatal in F. rewrite c35_verdict in F. unfold request_verdict in F.
    destruct (Nat.ltb _ _); [discriminate|]. destruct (Nat.leb _ _); discriminate.
Qed.

(** C36: decoding into a receiver that already holds a name: the new name is
    appended to the old one, and the old length is cut from the authentication bytes. *)
Lemma c36_concatenates : forall r f, request_verdict (slen (r_fname r)) f = Accept ->
  let name := before_zero (skipn 8 f) in
  request_decode r f =
    Ret ({| r_header := number_at f 0 4; r_session := number_at f 4 4;
            r_fname := r_fname r ++ string_of (latin1_utf8 name);
            r_auth := skipn (9 + slen (r_fname r) + length name + high_count name) f |}, None).
Proof. intros r f. apply request_decode_spec. Qed.

Lemma ret_inj : forall (A E : Type) (a b : A) (e : E), Ret (a, e) = Ret (b, e) -> a = b.
Proof. intros; congruence. Qed.
(** C36: hence a reused receiver never holds the name that the frame carries
    unless the old name was empty. *)
Lemma c36_reused : forall r r' f, r_fname r <> "" -> request_decode r f = Ret (r', None) ->
  r_fname r' <> string_of (latin1_utf8 (before_zero (skipn 8 f))) /\
  exists k, r_fname r' = r_fname r ++ k.
Proof.
  intros r r' f NE D. destruct (request_decode_spec r f) as [V A]. rewrite D in V. symmetry in V. cbn [verdict_of] in V.
  specialize (A V). cbv zeta in A. rewrite D in A. apply ret_inj in A. subst r'. cbn [r_fname]. split; eauto.
  intros E. apply (f_equal slen) in E.
  rewrite <- !bytes_of_length, bytes_of_app, app_length in E.
  assert (H : length (bytes_of (r_fname r)) = 0%nat) by (revert E; generalize (length (bytes_of (r_fname r))); intros; lia).
  rewrite bytes_of_length in H. destruct (r_fname r); [congruence|discriminate].
Qed.

(** ** Building *)
Definition request_body_item (all f0 f1 : string) (r : request) : outcome (request * error) :=
  if one_of f0 ["frametype"; "version"; "descriptor"; "stream"; "txwilling"; "rxwilling"; "fileordir"; "reqtype"; "udplite"] then
    do h <- sf_set sar (r_header r) f0 f1; Ret (r_set_header r h, None)
  else Ret (r, Some ("Request.New: Invalid Flag " ++ f0 ++ "=" ++ f1 ++ "<" ++ all ++ ">")).

Lemma request_flags_cons : forall all f v rest d, clean f -> clean v ->
  request_flags all (item_text (f, v) :: rest) d = ebind (request_body_item all f v d) (fun d => request_flags all rest d).
Proof. intros. cbn [request_flags]. rewrite split_item by auto. cbn [index nth_error obind]. reflexivity. Qed.

Lemma request_body_verdict : forall all f v d, verdict_of (request_body_item all f v d) = request_item_verdict sar (f, v).
Proof.
  intros all f v d. unfold request_body_item, request_item_verdict. rewrite is_in_one_of. destruct (is_in f _); [|reflexivity].
  unfold setting_verdict. pose proof (sf_set_known (r_header d) f v) as K. destruct (known_option sar f v).
  - destruct K as (h' & ->). reflexivity.
  - rewrite K. reflexivity.
Qed.

Definition request_rel (d d' : request) (items : list (string * string)) : Prop :=
  sf_setflags sar (r_header d) items = Ret (r_header d') /\
  r_session d' = r_session d /\ r_fname d' = r_fname d /\ r_auth d' = r_auth d.
Lemma request_rel_nil : forall d, request_rel d d [].
Proof. intros; repeat split; reflexivity. Qed.
Lemma request_rel_cons : forall all f v d d1 d2 l, request_body_item all f v d = Ret (d1, None) -> request_rel d1 d2 l ->
  request_rel d d2 ((f, v) :: l).
Proof.
  intros all f v d d1 d2 l H (R1 & R2 & R3 & R4). unfold request_body_item in H.
  destruct (one_of f _); [|discriminate]. inv_bind H. inversion H; subst. unfold request_rel. cbn [sf_setflags]. rewrite E. cbn [obind].
  cbn [r_set_header r_header r_session r_fname r_auth] in *. auto.
Qed.

Lemma trim_commas : forall n, trim_right "," (commas n) = "".
Proof. induction n; [reflexivity|]. cbn [commas trim_right]. rewrite IHn. reflexivity. Qed.
Lemma trim_right_nonempty : forall c s, s <> "" -> (forall x, In x (bytes_of s) -> x <> c) -> forall t, trim_right c t = "" -> trim_right c (s ++ t) = s.
Proof.
  induction s as [|a s IH]; intros NE H t T; [congruence|].
  cbn [append trim_right]. destruct s as [|a' s'].
  - cbn [append]. rewrite T. destruct (Ascii.eqb_spec a c) as [->|N]; [|reflexivity]. exfalso; apply (H c); [left; reflexivity|reflexivity].
  - rewrite IH; [reflexivity|discriminate| |exact T]. intros x I; apply H; right; exact I.
Qed.
Lemma trim_right_last : forall c a s t, s <> "" -> trim_right c (s ++ t) = s -> trim_right c (a ++ s ++ t) = a ++ s.
Proof.
  induction a as [|x a IH]; intros s t NE T; [exact T|].
  cbn [append trim_right]. rewrite IH by auto. destruct (a ++ s) eqn:E; [|reflexivity].
  destruct a; [destruct s; [congruence|discriminate]|discriminate].
Qed.

Lemma trim_flag_list : forall items n, items <> [] -> clean_items items ->
  trim_right "," (flag_list items ++ commas n) = flag_list items.
Proof.
  intros items n NE C. destruct (exists_last NE) as (l & p & ->).
  assert (Cp : clean (fst p) /\ clean (snd p)) by (apply C; apply in_app_iff; right; left; auto).
  assert (G : trim_right "," (item_text p ++ commas n) = item_text p).
  { apply trim_right_nonempty.
    - unfold item_text. destruct (fst p); discriminate.
    - intros x I E. subst x. destruct p as [f v]. revert I. apply item_no_comma; apply Cp.
    - apply trim_commas. }
  destruct l as [|q l].
  - cbn [app]. change (flag_list [p]) with (item_text p). exact G.
  - rewrite flag_list_snoc by discriminate. change (("," ++ item_text p)%string) with (String "," (item_text p)).
    replace ((flag_list (q :: l) ++ String "," (item_text p)) ++ commas n) with ((flag_list (q :: l) ++ ",") ++ item_text p ++ commas n).
    + rewrite trim_right_last; auto.
      * rewrite <- str_app_assoc. reflexivity.
      * unfold item_text. destruct (fst p); discriminate.
    + rewrite <- !str_app_assoc. reflexivity.
Qed.

Lemma commas_clean : forall n x, In x (bytes_of (commas n)) -> x = ","%char.
Proof. induction n; cbn; intros x H; [destruct H|]. destruct H; auto. Qed.
Lemma remove_spaces_app_commas : forall items n, clean_items items ->
  remove_spaces (flag_list items ++ commas n) = flag_list items ++ commas n.
Proof.
  intros. apply remove_spaces_clean. rewrite bytes_of_app. intros I. apply in_app_iff in I. destruct I as [I|I].
  - revert I. apply flag_list_no_space; auto.
  - apply commas_clean in I. discriminate.
Qed.

(** C70: what becomes of building a request; trailing commas are allowed. *)
Lemma c70_verdict : forall r items n info,
  items <> [] -> (forall p, In p items -> clean (fst p) /\ clean (snd p)) ->
  verdict_of (request_new r (flag_list items ++ commas n) info) = first_bad (map (request_item_verdict sar) items).
Proof.
  intros r items n info NE C. unfold request_new.
  destruct (sf_set_known (r_header r) "version" "v1" : exists h', _) as (h1 & E1). rewrite E1. cbn [obind].
  destruct (sf_set_known h1 "frametype" "request" : exists h', _) as (h2 & E2). rewrite E2. cbn [obind]. cbv zeta.
  rewrite remove_spaces_app_commas, trim_flag_list, split_flag_list by auto.
  pose proof (loop_verdict request (request_flags (flag_list items)) (request_body_item (flag_list items)) (fun _ => eq_refl) (request_flags_cons (flag_list items))
    (fun _ => True) (request_item_verdict sar) (fun f v d _ => request_body_verdict _ f v d) (fun _ _ _ _ _ _ => I)
    items (r_set_header r h2) C I) as V.
  rewrite <- V. destruct (request_flags (flag_list items) (map item_text items) (r_set_header r h2)) as [[d' [e|]]| |]; reflexivity.
Qed.

Definition request_fields : list string :=
  ["frametype"; "version"; "descriptor"; "stream"; "txwilling"; "rxwilling"; "reqtype"; "udplite"].

(** C70: an accepted construction: version 1, request frame, exactly the requested
    flags, the caller's session and name. *)
Lemma c70_result : forall r items n info,
  items <> [] -> (forall p, In p items -> clean (fst p) /\ clean (snd p)) ->
  (forall p, In p items -> request_item_verdict sar p = Accept) ->
  r_header r < 2 ^ 32 ->
  let settings := ("version", "v1") :: ("frametype", "request") :: items in
  exists r', request_new r (flag_list items ++ commas n) info = Ret (r', None) /\
    set_exactly sar (r_header r) (r_header r') settings /\
    r_session r' = ri_session info mod 2 ^ 32 /\ r_fname r' = ri_fname info /\
    length (r_auth r') = length (r_auth r).
Proof.
  intros d items n info NE C A Bh settings.
  assert (V : verdict_of (request_new d (flag_list items ++ commas n) info) = Accept).
  { rewrite c70_verdict by auto. clear - A. induction items as [|p l IH]; [reflexivity|].
    cbn [map first_bad]. rewrite (A p) by (left; auto). apply IH. intros q Q; apply A; right; auto. }
  apply verdict_accept in V. destruct V as (d' & E). exists d'. split; [exact E|].
  unfold request_new in E. inv_bind E. inv_bind E. cbv zeta in E. rewrite remove_spaces_app_commas, trim_flag_list, split_flag_list in E by auto.
  destruct (request_flags (flag_list items) (map item_text items) (r_set_header d a0)) as [[d1 [e|]]| |] eqn:L; cbn [ebind obind] in E; try discriminate.
  inversion E; subst d'; clear E.
  pose proof (loop_value request (request_flags (flag_list items)) (request_body_item (flag_list items)) (fun _ => eq_refl) (request_flags_cons (flag_list items))
     request_rel request_rel_nil (request_rel_cons (flag_list items)) items _ _ C L) as (R1 & R2 & R3 & R4).
  cbn [r_header r_session r_fname r_auth r_set_header] in *.
  split.
  { apply set_exactly_setflags with (K := request_fields); auto.
    - intros x [<-|[<-|I]]; [cbn; tauto|cbn; tauto|].
      unfold keys in I. apply in_map_iff in I. destruct I as ([f v] & <- & I). specialize (A _ I). unfold request_item_verdict in A.
      cbn [fst]. destruct (is_in f _) eqn:F; [|discriminate]. apply is_in_true in F.
      cbn in F |- *. destruct F as [F|[F|[F|[F|[F|[F|[F|F]]]]]]]; try tauto. subst f. exfalso. discriminate A.
    - unfold settings. cbn [sf_setflags]. rewrite E0. cbn [obind]. rewrite E1. cbn [obind]. exact R1. }
  split; [reflexivity|]. split; [reflexivity|]. rewrite R4. unfold go_copy. apply overwrite_length.
  rewrite firstn_length. lia.
Qed.

(** C70: an empty flag string panics (the error message reads a missing value). *)
Lemma c70_empty : forall r n info, request_new r (commas n) info = Panic.
Proof.
  intros. unfold request_new.
  destruct (sf_set_known (r_header r) "version" "v1" : exists h', _) as (h1 & E1). rewrite E1. cbn [obind].
  destruct (sf_set_known h1 "frametype" "request" : exists h', _) as (h2 & E2). rewrite E2. cbn [obind]. cbv zeta.
  rewrite remove_spaces_clean by (intros I; apply commas_clean in I; discriminate). rewrite trim_commas. reflexivity.
Qed.

(** C37: whatever the flags, a request built on a receiver without authentication
    bytes has none, whatever authentication bytes the caller supplies. *)
Lemma c37_auth_lost : forall r flags info r', r_auth r = [] ->
  request_new r flags info = Ret (r', None) -> r_auth r' = [].
Proof.
  intros r flags info r' A E. unfold request_new in E. inv_bind E. inv_bind E. cbv zeta in E.
  destruct (request_flags _ _ _) as [[d1 [e|]]| |] eqn:L; cbn [ebind obind] in E; try discriminate.
  inversion E; subst r'. cbn [r_auth].
  assert (G : forall all items d d', request_flags all items d = Ret (d', None) -> r_auth d' = r_auth d).
  { clear. intros all items. induction items as [|it rest IH]; intros d d' H; [inversion H; auto|].
    cbn [request_flags] in H. inv_bind H. destruct (one_of a _).
    - destruct (index (split_on "=" it) 1); cbn [obind ebind] in H; try discriminate.
      destruct (sf_set sar (r_header d) a a0); cbn [obind ebind] in H; try discriminate. apply IH in H. exact H.
    - destruct (index (split_on "=" it) 1); cbn [obind ebind] in H; discriminate. }
  apply G in L. rewrite L. cbn [r_set_header r_auth]. rewrite A. reflexivity.
Qed.

(** C37: the header-based constructor panics, whatever it is given. *)
Lemma c37_make_panics : forall r header info, request_make r header info = Panic.
Proof.
  intros. unfold request_make.
  destruct (sf_set_known header "version" "v1" : exists h', _) as (h1 & E1). rewrite E1. cbn [obind].
  destruct (sf_set_known h1 "frametype" "request" : exists h', _) as (h2 & E2). rewrite E2. reflexivity.
Qed.

(** ** Concrete cases *)
Definition ex_request : request := {| r_header := 0x21000001; r_session := 5; r_fname := "fred.txt"; r_auth := bytes_of "key" |}.
Example c32_encode_ex : request_encode ex_request =
  Ret (Frame (wire 4 0x21000001 ++ wire 4 5 ++ bytes_of "fred.txt" ++ zeros 1 ++ bytes_of "key")%list).
Proof. vm_compute. reflexivity. Qed.
Example c33_roundtrip_ex : ascii_name (r_fname ex_request) /\ r_header ex_request < 2 ^ 32.
Proof. split; [|reflexivity]. intros b I. cbn in I. repeat (destruct I as [<-|I]; [vm_compute; auto|]). destruct I. Qed.
(** the name "e-acute": one Latin-1 byte 0xE9, with and without authentication bytes *)
Definition ex_latin : string := String (ascii_of_N 0xE9) "t".
Example c34_non_ascii_ex : no_zero ex_latin /\ ~ ascii_name ex_latin /\
  (forall f, request_encode {| r_header := 0x21000001; r_session := 5; r_fname := ex_latin; r_auth := [] |} = Ret (Frame f) ->
     request_decode zero_request f = Panic) /\
  (forall f, request_encode {| r_header := 0x21000001; r_session := 5; r_fname := ex_latin; r_auth := bytes_of "key" |} = Ret (Frame f) ->
     exists r', request_decode zero_request f = Ret (r', None) /\ slen (r_fname r') = 3%nat /\ r_auth r' = bytes_of "ey").
Proof.
  split; [|split; [|split]].
  - intros b [<-|[<-|[]]]; vm_compute; discriminate.
  - intros A. specialize (A (ascii_of_N 0xE9) (or_introl eq_refl)). vm_compute in A. destruct A; discriminate.
  - intros f H. vm_compute in H. inversion H; subst. vm_compute. reflexivity.
  - intros f H. vm_compute in H. inversion H; subst. eexists. vm_compute. auto.
Qed.
Example c35_panics_iff_ex :
  request_verdict 0 (wire 4 0x21000001 ++ wire 4 5 ++ bytes_of "abc")%list = Crash /\
  request_verdict 0 (wire 4 0x21000001 ++ wire 4 5 ++ bytes_of "abc" ++ zeros 1)%list = Accept /\
  request_verdict 0 (zeros 8) = Reject.
Proof. vm_compute. auto. Qed.
Example c36_concatenates_ex : exists r',
  request_decode {| r_header := 0; r_session := 0; r_fname := "ab"; r_auth := [] |}
    (wire 4 0x21000001 ++ wire 4 5 ++ bytes_of "c" ++ zeros 1 ++ bytes_of "xyz")%list = Ret (r', None) /\
  r_fname r' = "abc" /\ r_auth r' = bytes_of "z".
Proof. eexists. vm_compute. auto. Qed.
Example c37_auth_lost_ex : exists r',
  request_new zero_request "reqtype=get" {| ri_session := 5; ri_fname := "f"; ri_auth := bytes_of "key" |} = Ret (r', None) /\ r_auth r' = [].
Proof. eexists. vm_compute. auto. Qed.
Example c70_result_ex :
  let items := [("descriptor", "d32"); ("stream", "no"); ("txwilling", "yes"); ("rxwilling", "yes"); ("reqtype", "getdir")] in
  map (request_item_verdict sar) items = [Accept; Accept; Accept; Accept; Accept] /\
  exists r', request_new zero_request (flag_list items ++ commas 2) {| ri_session := 5; ri_fname := "f"; ri_auth := [] |} = Ret (r', None) /\
    r_header r' = 0x214F0006.
Proof.
  split; [reflexivity|].
  eexists. split; vm_compute; reflexivity.
Qed.
Example c70_verdict_ex : map (request_item_verdict sar) [("fileordir", "file"); ("reqtype", "fetch"); ("reqstatus", "yes")] = [Kill; Kill; Reject].
Proof. reflexivity. Qed.
