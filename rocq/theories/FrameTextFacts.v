(** * Facts about the texts of frames *)

From Verif Require Import GoBase GoFacts Flags Config Shipped Timestamp Holes Data Status Request Beacon Fileio Dirent Metadata Trans Listen Daemon Sarnet Words Clock Table Screen FrameText SarnetMain.
From Verif Require Import FlagsFacts FlagStrFacts FrameFacts BuildFacts SpecWire SpecFrames SpecDirent SpecWords SpecFrameText SpecFlags WordsFacts TextFacts ConfigFacts FlagsMain SarFacts DirentMain TransferMain.
Local Open Scope string_scope.
Local Open Scope N_scope.

(** ** Numbers *)
Lemma bytes_eq : forall s t, bytes_of s = bytes_of t -> s = t.
Proof. intros s t H. rewrite <- (string_of_bytes_of s), <- (string_of_bytes_of t), H. reflexivity. Qed.
Lemma dec_nonempty : forall l n, decimal l n -> l <> [].
Proof. intros l n H. inversion H; [discriminate|]. destruct l0; discriminate. Qed.
Lemma dec_zero : forall l n, decimal l n -> n = 0 -> no_front_zero l -> l = ["0"%char].
Proof.
  intros l n D. induction D as [d L|l n d D IH L]; intros E F; [subst; reflexivity|].
  assert (n = 0 /\ d = 0) as [-> ->] by lia.
  assert (FL : no_front_zero l). { intros r ->. specialize (F (r ++ [ascii_of_N (48 + 0)])%list eq_refl). destruct r; discriminate. }
  rewrite (IH eq_refl FL) in F. specialize (F _ eq_refl). discriminate.
Qed.
Lemma front_shorter : forall l (a : byte), l <> [] -> no_front_zero (l ++ [a]) -> no_front_zero l /\ l <> ["0"%char].
Proof.
  intros l a N F. split.
  - intros r ->. specialize (F (r ++ [a])%list eq_refl). destruct r; discriminate.
  - intros ->. specialize (F [a] eq_refl). discriminate.
Qed.
Lemma dec_unique : forall l n, decimal l n -> no_front_zero l -> forall l', decimal l' n -> no_front_zero l' -> l = l'.
Proof.
  intros l n D. induction D as [d L|l n d D IH L]; intros F l' D' F'.
  - inversion D' as [d' L' E1 E2|m k d' D2 L' E1 E2]; [reflexivity|]. subst. exfalso.
    assert (k = 0) as -> by lia. destruct (front_shorter m _ (dec_nonempty _ _ D2) F') as [A B]. apply B. exact (dec_zero _ _ D2 eq_refl A).
  - destruct (front_shorter l _ (dec_nonempty _ _ D) F) as [A B].
    inversion D' as [d' L' E1 E2|m k d' D2 L' E1 E2].
    + exfalso. assert (n = 0) as -> by lia. apply B. exact (dec_zero _ _ D eq_refl A).
    + destruct (front_shorter m _ (dec_nonempty _ _ D2) ltac:(rewrite E1; exact F')) as [A2 B2].
      change (10 * k + d' = 10 * n + d) in E2. assert (k = n /\ d' = d) as [-> ->] by lia. rewrite (IH A m D2 A2). reflexivity.
Qed.
Lemma itoa_no_front : forall n, no_front_zero (bytes_of (itoa n)).
Proof. intros n r E. apply itoa_front in E. tauto. Qed.
Lemma itoa_spec : forall n x, x = itoa n <-> decimal (bytes_of x) n /\ no_front_zero (bytes_of x).
Proof.
  intros n x. split.
  - intros ->. split; [apply itoa_decimal|apply itoa_no_front].
  - intros [D F]. apply bytes_eq. exact (dec_unique _ _ D F _ (itoa_decimal n) (itoa_no_front n)).
Qed.

Lemma hex_digit_spec : forall d, d < 16 -> hex_digit d = sixteen d.
Proof.
  intros d H. assert (C : In d (map N.of_nat (seq 0 16))). { apply in_map_iff. exists (N.to_nat d). split; [lia|]. apply in_seq. lia. }
  cbn in C. repeat (destruct C as [<-|C]; [reflexivity|]). destruct C.
Qed.
Lemma sixteen_inj : forall a b, a < 16 -> b < 16 -> sixteen a = sixteen b -> a = b.
Proof.
  intros a b A B E. apply (f_equal N_of_ascii) in E. unfold sixteen in E.
  destruct (N.ltb_spec a 10); destruct (N.ltb_spec b 10); rewrite !N_ascii_embedding in E by lia; lia.
Qed.
Lemma sixteen_zero : forall d, d < 16 -> sixteen d = "0"%char -> d = 0.
Proof. intros d H E. apply (sixteen_inj d 0); [lia..|exact E]. Qed.
Lemma hex_nonempty : forall l n, hexadecimal l n -> l <> [].
Proof. intros l n H. inversion H; [discriminate|]. destruct l0; discriminate. Qed.
Lemma hex_zero : forall l n, hexadecimal l n -> n = 0 -> no_front_zero l -> l = ["0"%char].
Proof.
  intros l n D. induction D as [d L|l n d D IH L]; intros E F; [subst; reflexivity|].
  assert (n = 0 /\ d = 0) as [-> ->] by lia.
  destruct (front_shorter l _ (hex_nonempty _ _ D) F) as [A B]. destruct (B (IH eq_refl A)).
Qed.
Lemma hex_unique : forall l n, hexadecimal l n -> no_front_zero l -> forall l', hexadecimal l' n -> no_front_zero l' -> l = l'.
Proof.
  intros l n D. induction D as [d L|l n d D IH L]; intros F l' D' F'.
  - inversion D' as [d' L' E1 E2|m k d' D2 L' E1 E2]; [reflexivity|]. subst. exfalso.
    assert (k = 0) as -> by lia. destruct (front_shorter m _ (hex_nonempty _ _ D2) F') as [A B]. apply B. exact (hex_zero _ _ D2 eq_refl A).
  - destruct (front_shorter l _ (hex_nonempty _ _ D) F) as [A B].
    inversion D' as [d' L' E1 E2|m k d' D2 L' E1 E2].
    + exfalso. assert (n = 0) as -> by lia. apply B. exact (hex_zero _ _ D eq_refl A).
    + destruct (front_shorter m _ (hex_nonempty _ _ D2) ltac:(rewrite E1; exact F')) as [A2 B2].
      change (16 * k + d' = 16 * n + d) in E2. assert (k = n /\ d' = d) as [-> ->] by lia. rewrite (IH A m D2 A2). reflexivity.
Qed.
Lemma hex_fun : forall l n m, hexadecimal l n -> hexadecimal l m -> n = m.
Proof.
  intros l n m D. revert m. induction D as [d L|l n d D IH L]; intros m D'.
  - inversion D' as [d' L' E1 E2|k k' d' D2 L' E1 E2].
    + apply sixteen_inj; auto. congruence.
    + destruct k; [|destruct k; discriminate]. destruct (hex_nonempty _ _ D2 eq_refl).
  - inversion D' as [d' L' E1 E2|k k' d' D2 L' E1 E2].
    + destruct l; [|destruct l; discriminate]. destruct (hex_nonempty _ _ D eq_refl).
    + apply app_inj_tail in E1. destruct E1 as [-> E]. apply sixteen_inj in E; auto. subst d'. rewrite (IH _ D2). reflexivity.
Qed.
Lemma bytes_cons : forall a s, bytes_of (String a s) = a :: bytes_of s.
Proof. reflexivity. Qed.
Lemma hex_loop_spec : forall fuel n acc, n < 2 ^ N.of_nat fuel -> exists l, hexadecimal l n /\ (no_front_zero l) /\
  bytes_of (hex_loop fuel n acc) = (l ++ bytes_of acc)%list \/ (fuel = O).
Proof.
  induction fuel as [|fuel IH]; intros n acc H; [exists []; auto|]. cbn [hex_loop].
  destruct (N.ltb_spec n 16) as [L|L].
  - exists [sixteen n]. left. split; [constructor; lia|]. split; [intros r E; congruence|]. rewrite bytes_cons, hex_digit_spec by lia. reflexivity.
  - assert (B : n / 16 < 2 ^ N.of_nat fuel).
    { replace (N.of_nat (S fuel)) with (1 + N.of_nat fuel) in H by lia. rewrite N.pow_add_r in H. apply N.div_lt_upper_bound; [lia|].
      pose proof (N.pow_nonzero 2 (N.of_nat fuel)). lia. }
    destruct (IH (n / 16) (String (hex_digit (n mod 16)) acc) B) as (l & [(D & F & E)|E]).
    + exists (l ++ [sixteen (n mod 16)])%list. left. pose proof (N.mod_lt n 16 ltac:(lia)) as M. split; [|split].
      * rewrite (N.div_mod n 16) at 2 by lia. constructor; auto.
      * intros r E2. destruct l as [|a l]; [destruct (hex_nonempty _ _ D eq_refl)|]. exfalso. cbn in E2. assert (a = "0"%char) as -> by congruence.
        specialize (F _ eq_refl). subst l. pose proof (hex_fun _ _ 0 D (hx_one 0 ltac:(lia))) as Z. lia || (assert (1 <= n / 16) by (apply N.div_le_lower_bound; lia); lia).
      * rewrite E, bytes_cons, hex_digit_spec by exact M. rewrite <- app_assoc. reflexivity.
    + subst fuel. cbn in B. assert (1 <= n / 16) by (apply N.div_le_lower_bound; lia). lia.
Qed.
Lemma hex_is : forall n, hexadecimal (bytes_of (hex n)) n /\ no_front_zero (bytes_of (hex n)).
Proof.
  intros n. unfold hex.
  assert (B : n < 2 ^ N.of_nat (S (N.to_nat (N.log2 n)))).
  { rewrite Nat2N.inj_succ, N2Nat.id. destruct (N.eq_dec n 0) as [->|Z]; [reflexivity|]. apply N.log2_spec. lia. }
  destruct (hex_loop_spec _ n "" B) as (l & [(D & F & E)|E]); [|discriminate]. rewrite E. cbn [bytes_of list_ascii_of_string]. rewrite app_nil_r. auto.
Qed.
Lemma hex_spec : forall n x, x = hex n <-> hexadecimal (bytes_of x) n /\ no_front_zero (bytes_of x).
Proof.
  intros n x. destruct (hex_is n) as [D F]. split.
  - intros ->. auto.
  - intros [D' F']. apply bytes_eq. exact (hex_unique _ _ D' F' _ D F).
Qed.
Lemma hex_inj : forall n m, hex n = hex m -> n = m.
Proof. intros n m E. destruct (hex_is n) as [D _]. destruct (hex_is m) as [D' _]. rewrite E in D. exact (hex_fun _ _ _ D D'). Qed.
Lemma hex_bytes_spec : forall l x, x = hex_bytes l <-> bytes_of x = two_digits l.
Proof.
  assert (B : forall l, bytes_of (hex_bytes l) = two_digits l).
  { induction l as [|a l IH]; [reflexivity|]. cbn [hex_bytes two_digits]. rewrite !bytes_cons, IH. pose proof (N_ascii_bounded a).
    rewrite !hex_digit_spec; [reflexivity|apply N.mod_lt; lia|apply N.div_lt_upper_bound; lia]. }
  intros l x. split; [intros ->; apply B|]. intros E. apply bytes_eq. rewrite B, E. reflexivity.
Qed.
Lemma zitoa_spec : forall z x, x = zitoa z <-> exists y, decimal (bytes_of y) (Z.abs_N z) /\ no_front_zero (bytes_of y) /\ x = (if (z <? 0)%Z then "-" else "") ++ y.
Proof.
  intros z x. unfold zitoa. assert (A : Z.abs_N z = Z.to_N (if (z <? 0)%Z then - z else z)).
  { destruct (Z.ltb_spec z 0); rewrite Zabs2N.abs_N_spec; f_equal; lia. }
  split.
  - intros ->. exists (itoa (Z.abs_N z)). split; [apply itoa_decimal|]. split; [apply itoa_no_front|]. rewrite A. destruct (z <? 0)%Z; reflexivity.
  - intros (y & D & F & ->). assert (y = itoa (Z.abs_N z)) as -> by (apply itoa_spec; auto). rewrite A. destruct (z <? 0)%Z; reflexivity.
Qed.

(** ** Parts *)
Lemma getstr_is : forall h f v, sf_getstr sar h f = Ret v <-> reads sar h f v.
Proof.
  intros h f v. destruct (lookup f (t_flags sar)) as [fl|] eqn:L; [exact (getstr_reads f fl h v L)|].
  rewrite (c04_getstr_unknown sar f h L). split; [discriminate|]. intros (fl & n & H & _). congruence.
Qed.
Lemma dgetstr_is : forall h f v, sd_getstr sar h f = Ret v <-> dreads sar h f v.
Proof.
  intros h f v. destruct (lookup f (t_dirent sar)) as [fl|] eqn:L.
  - rewrite (dgetstr_field f fl h L). assert (W : wf_flag 16 fl). { destruct sar_wf as (_ & W & _). apply W with f. apply lookup_In; auto. }
    destruct W as (_ & _ & W3 & W4). split.
    + intros H. apply opt_name_Ret in H. exists fl, (bit_field 16 (f_msb fl) (f_len fl) h). split; auto. split; auto. apply In_lookup; auto.
    + intros (fl' & n & H1 & H2 & H3). assert (fl' = fl) by congruence. subst fl' n. apply opt_name_found; auto. apply lookup_In; auto.
  - unfold sd_getstr, dflag_of. rewrite L. split; [discriminate|]. intros (fl & n & H & _). congruence.
Qed.
Definition part_of (p : part) : outcome string :=
  match p with
  | Lit s => Ret s | Dec n => Ret (itoa n) | Int z => Ret (zitoa z) | Hex n => Ret (hex n) | Sum l => Ret (hex_bytes l)
  | Flag h f => sf_getstr sar h f | DFlag h f => sd_getstr sar h f | Time t => ts_print t
  end.
Lemma ret_iff : forall {A} (a b : A), Ret a = Ret b <-> b = a.
Proof. intros A a b. split; [intros H; injection H; auto|congruence]. Qed.
Lemma part_of_spec : forall p x, part_of p = Ret x <-> part_text p x.
Proof.
  intros [s|n|z|n|l|h f|h f|t] x; cbn [part_of part_text]; rewrite ?ret_iff.
  - reflexivity.
  - apply itoa_spec.
  - apply zitoa_spec.
  - apply hex_spec.
  - apply hex_bytes_spec.
  - apply getstr_is.
  - apply dgetstr_is.
  - reflexivity.
Qed.
Fixpoint text_of (ps : list part) : outcome string :=
  match ps with [] => Ret "" | p :: r => do x <- part_of p; do y <- text_of r; Ret (x ++ y) end.
Lemma text_of_spec : forall ps t, text_of ps = Ret t <-> writes ps t.
Proof.
  induction ps as [|p r IH]; intros t; cbn [text_of writes].
  - rewrite ret_iff. reflexivity.
  - split.
    + destruct (part_of p) as [x| |] eqn:P; cbn [obind]; try discriminate. destruct (text_of r) as [y| |]; cbn [obind]; try discriminate.
      intros H. injection H as <-. exists x, y. split; [apply part_of_spec, P|]. split; [apply IH; reflexivity|reflexivity].
    + intros (x & y & P & W & ->). apply part_of_spec in P. apply IH in W. rewrite P. cbn [obind]. rewrite W. reflexivity.
Qed.
(** Nothing here panics *)
Lemma opt_name_fatal : forall l v, opt_name l v <> Panic.
Proof. induction l as [|[k n] l IH]; intros v; cbn [opt_name]; [discriminate|]. destruct (_ =? _); [discriminate|apply IH]. Qed.
Lemma part_of_no_panic : forall p, part_of p <> Panic.
Proof.
  intros [s|n|z|n|l|h f|h f|t]; cbn [part_of]; try discriminate; try apply opt_name_fatal.
  unfold ts_print. destruct (st_getstr sar (t_header t)) as [nm| |] eqn:E; cbn [obind].
  - repeat (match goal with |- context[if ?b then _ else _] => destruct b end); discriminate.
  - exfalso. exact (opt_name_fatal _ _ E).
  - discriminate.
Qed.
Lemma text_of_no_panic : forall ps, text_of ps <> Panic.
Proof.
  induction ps as [|p r IH]; cbn [text_of]; [discriminate|]. pose proof (part_of_no_panic p). destruct (part_of p); cbn [obind]; try congruence.
  destruct (text_of r); cbn [obind]; congruence.
Qed.
Lemma sapp_assoc : forall a b c : string, (a ++ b) ++ c = a ++ b ++ c.
Proof. induction a as [|x a IH]; intros b c; [reflexivity|]. cbn. rewrite IH. reflexivity. Qed.
Lemma sapp_nil : forall a : string, a ++ "" = a.
Proof. induction a as [|x a IH]; [reflexivity|]. cbn. rewrite IH. reflexivity. Qed.
(** Text before, then the parts *)
Definition from (s : string) (ps : list part) : outcome string := do y <- text_of ps; Ret (s ++ y).
Lemma from_lit : forall s x ps, from s (Lit x :: ps) = from (s ++ x) ps.
Proof. intros. unfold from. cbn [text_of part_of obind]. destruct (text_of ps); cbn [obind]; auto. rewrite sapp_assoc. reflexivity. Qed.
Lemma from_ret : forall s p x ps, part_of p = Ret x -> from s (p :: ps) = from (s ++ x) ps.
Proof. intros s p x ps P. unfold from. cbn [text_of]. rewrite P. cbn [obind]. destruct (text_of ps); cbn [obind]; auto. rewrite sapp_assoc. reflexivity. Qed.
Lemma from_bind : forall s p ps, from s (p :: ps) = do x <- part_of p; from (s ++ x) ps.
Proof. intros s p ps. unfold from. cbn [text_of]. destruct (part_of p); cbn [obind]; auto. destruct (text_of ps); cbn [obind]; auto. rewrite sapp_assoc. reflexivity. Qed.
Lemma from_nil : forall s, from s [] = Ret s.
Proof. intros s. unfold from. cbn. rewrite sapp_nil. reflexivity. Qed.
Lemma from_empty : forall ps, from "" ps = text_of ps.
Proof. intros ps. unfold from. destruct (text_of ps); reflexivity. Qed.
Lemma from_app : forall ps s qs, from s (ps ++ qs) = do t <- from s ps; from t qs.
Proof.
  induction ps as [|p ps IH]; intros s qs.
  - cbn [app]. rewrite from_nil. reflexivity.
  - cbn [app]. rewrite !from_bind. destruct (part_of p); cbn [obind]; auto.
Qed.
Lemma flag_lines_from : forall indent g part fs acc, (forall f, part_of (part f) = g f) ->
  flag_lines indent g fs acc = from acc (flat_map (fun f => [Lit indent; Lit f; Lit ":"; part f; nl]) fs).
Proof.
  intros indent g part fs. induction fs as [|f r IH]; intros acc H; [symmetry; apply from_nil|].
  cbn [flag_lines flat_map app]. rewrite !from_lit, from_bind, H. destruct (g f) as [n| |]; cbn [obind]; auto.
  unfold nl at 1. rewrite from_lit, IH by exact H. rewrite !sapp_assoc. reflexivity.
Qed.
Lemma hflags_from : forall k h fs acc, sf_values sar k = fs -> hflags k h acc = from acc (flags_say h fs).
Proof. intros k h fs acc <-. unfold hflags, flags_say. apply flag_lines_from. reflexivity. Qed.
Lemma dflags_from : forall h acc, flag_lines "    " (sd_getstr sar h) (sd_flags sar) acc =
  from acc (flat_map (fun f => [Lit "    "; Lit f; Lit ":"; DFlag h f; nl]) ["sod"; "property"; "descriptor"; "reserved"]).
Proof. intros h acc. change (sd_flags sar) with ["sod"; "property"; "descriptor"; "reserved"]. apply flag_lines_from. reflexivity. Qed.
Lemma from_nl : forall s ps, from s (nl :: ps) = from (s ++ newline) ps.
Proof. intros. apply from_lit. Qed.
Ltac lits := repeat first [rewrite from_lit | rewrite from_nl | rewrite (from_ret _ (Dec _) _ _ eq_refl) | rewrite (from_ret _ (Hex _) _ _ eq_refl) | rewrite (from_ret _ (Sum _) _ _ eq_refl) | rewrite (from_ret _ (Int _) _ _ eq_refl)].

Lemma yes_is : forall v, v = 0 \/ v = 1 -> String.eqb (yes_no v) "yes" = (v =? 1).
Proof. intros v [-> | ->]; reflexivity. Qed.
Lemma stamp_from : forall label lab h t s, "  " ++ label ++ ":" = lab -> stamp_line label h t s =
  from s (if hd_reqtstamp h =? 1 then [Lit lab; Time t; nl] else []).
Proof.
  intros label lab h t s <-. unfold stamp_line. rewrite getstr_reqtstamp. cbn [obind]. rewrite (yes_is _ (hd_reqtstamp_cases h)).
  destruct (hd_reqtstamp h =? 1); [|symmetry; apply from_nil]. lits. rewrite from_bind. cbn [part_of].
  destruct (ts_print t); cbn [obind]; auto. lits. rewrite from_nil, !sapp_assoc. reflexivity.
Qed.

Ltac norm := cbn [obind]; rewrite ?sapp_assoc; repeat match goal with |- context["" ++ ?x] => change ("" ++ x) with x end;
  change (String (ascii_of_N 10) "") with newline.
Ltac final := cbn [app]; lits; rewrite from_nil; norm; reflexivity.
Lemma beacon_short_is : forall b, beacon_shortprint b = text_of (beacon_says b).
Proof.
  intros b. rewrite <- from_empty. unfold beacon_shortprint, beacon_says. rewrite getstr_freespace. cbn [obind].
  rewrite (yes_is _ (hd_freespace_cases _)). destruct (hd_freespace (b_header b) =? 1); final.
Qed.
Lemma beacon_print_is : forall b, beacon_print b = text_of (beacon_tells b).
Proof.
  intros b. rewrite <- from_empty. unfold beacon_print, beacon_tells. erewrite hflags_from by reflexivity.
  rewrite from_app. lits. rewrite from_nil. norm. rewrite from_app. destruct (from _ (flags_say _ _)) as [s| |]; cbn [obind]; auto.
  rewrite getstr_freespace. cbn [obind]. rewrite (yes_is _ (hd_freespace_cases _)). destruct (hd_freespace (b_header b) =? 1); final.
Qed.
Lemma data_short_is : forall d, data_shortprint d = text_of (data_says d).
Proof.
  intros d. rewrite <- from_empty. unfold data_shortprint, data_says. rewrite (stamp_from "tstamp" "  tstamp:" _ _ _ eq_refl).
  rewrite from_app. lits. rewrite from_nil. norm. rewrite from_app.
  match goal with |- context[from ?s0 (if ?b then ?x else ?y)] => destruct (from s0 (if b then x else y)) as [s| |] end; cbn [obind]; auto. final.
Qed.
Lemma data_print_is : forall d, data_print d = text_of (data_tells d).
Proof.
  intros d. rewrite <- from_empty. unfold data_print, data_tells. erewrite hflags_from by reflexivity.
  rewrite from_app. lits. rewrite from_nil. norm. rewrite from_app. destruct (from _ (flags_say _ _)) as [s| |]; cbn [obind]; auto.
  rewrite (stamp_from "tstamp" "  tstamp:" _ _ _ eq_refl), from_app. match goal with |- context[from ?s0 (if ?b then ?x else ?y)] => destruct (from s0 (if b then x else y)) as [t| |] end; cbn [obind]; auto. final.
Qed.
Lemma request_short_is : forall r, request_shortprint r = text_of (request_says r).
Proof. intros r. rewrite <- from_empty. unfold request_shortprint, request_says, request_end. final. Qed.
Lemma hole_lines_from : forall hs i s, from s (flat_map hole_says (combine (seq i (length hs)) hs)) = Ret (s ++ hole_lines (N.of_nat i) hs).
Proof.
  induction hs as [|h hs IH]; intros i s; [cbn; unfold from; cbn; rewrite sapp_nil; reflexivity|].
  cbn [List.length seq combine flat_map hole_lines]. rewrite from_app. unfold hole_says at 1. cbn [fst snd]. lits. rewrite from_nil. cbn [obind].
  rewrite IH. replace (N.of_nat i + 1) with (N.of_nat (S i)) by lia. rewrite !sapp_assoc. reflexivity.
Qed.
Lemma status_short_is : forall s, status_shortprint s = text_of (status_says s).
Proof.
  intros s. rewrite <- from_empty. unfold status_shortprint, status_says. rewrite (stamp_from "timestamp" "  timestamp:" _ _ _ eq_refl).
  rewrite from_app. lits. rewrite from_nil. norm. rewrite from_app.
  match goal with |- context[from ?s0 (if ?b then ?x else ?y)] => destruct (from s0 (if b then x else y)) as [t| |] end; cbn [obind]; auto. lits. rewrite from_bind. cbn [part_of].
  destruct (sf_getstr sar (s_header s) "errcode") as [e| |]; cbn [obind]; auto. final.
Qed.
Lemma status_print_is : forall s, status_print s = text_of (status_tells s).
Proof.
  intros s. rewrite <- from_empty. unfold status_print, status_tells. erewrite hflags_from by reflexivity.
  rewrite from_app. lits. rewrite from_nil. norm. rewrite from_app. destruct (from _ (flags_say _ _)) as [t| |]; cbn [obind]; auto.
  rewrite (stamp_from "timestamp" "  timestamp:" _ _ _ eq_refl), from_app. lits. rewrite from_nil. norm. rewrite from_app.
  match goal with |- context[from ?s0 (if ?b then ?x else ?y)] => destruct (from s0 (if b then x else y)) as [u| |] end; cbn [obind]; auto. rewrite from_app. lits. rewrite from_nil. cbn [obind].
  rewrite (hole_lines_from _ 0), !sapp_assoc. reflexivity.
Qed.
Lemma dirent_end_is : forall d s, dirent_end d s =
  from s [Lit "    Path:"; Lit (de_path d); nl; Lit "    Size:"; Dec (de_size d); nl; Lit "    Mtime:"; Time (de_mtime d); nl; Lit "    Ctime:"; Time (de_ctime d)].
Proof.
  intros d s. unfold dirent_end. lits. rewrite from_bind. cbn [part_of]. destruct (ts_print (de_mtime d)); cbn [obind]; auto.
  lits. rewrite from_bind. cbn [part_of]. destruct (ts_print (de_ctime d)); cbn [obind]; auto. rewrite from_nil, !sapp_assoc. reflexivity.
Qed.
Lemma dirent_short_is : forall d, dirent_shortprint d = text_of (entry_says "  Dir Entry: 0x" [] d).
Proof.
  intros d. rewrite <- from_empty. unfold dirent_shortprint, entry_says. rewrite from_app. lits. rewrite from_nil. norm. cbn [flat_map app].
  rewrite dirent_end_is. reflexivity.
Qed.
Lemma dirent_print_is : forall d, dirent_print d = text_of (entry_says "  Directory Entry: 0x" ["sod"; "property"; "descriptor"; "reserved"] d).
Proof.
  intros d. rewrite <- from_empty. unfold dirent_print, entry_says. rewrite dflags_from. rewrite from_app. lits. rewrite from_nil. norm.
  rewrite from_app. destruct (from _ (flat_map _ _)); cbn [obind]; auto. apply dirent_end_is.
Qed.
Lemma csumtype_none : forall h, match sf_getstr sar h "csumtype" with Ret cs => String.eqb cs "none" = (hd_csumtype h =? 0) | _ => hd_csumtype h <> 0 end.
Proof.
  intros h. erewrite getstr_field by (vm_compute; reflexivity). cbn [f_opts f_msb f_len]. unfold hd_csumtype.
  generalize (bit_field 32 28 4 h). intros v. cbn [opt_name].
  repeat match goal with |- context[N.eqb ?a v] => destruct (N.eqb_spec a v) as [<-|]; [reflexivity|] end. intros ->. congruence.
Qed.
Lemma sums_from : forall label m s, meta_sums label m s = from s ([Lit "  session:"; Dec (m_session m); nl] ++ sum_says label m).
Proof.
  intros label m s. unfold meta_sums, sum_says. pose proof (csumtype_none (m_header m)) as C. rewrite from_app. lits. rewrite from_nil. cbn [obind].
  destruct (sf_getstr sar (m_header m) "csumtype") as [cs| |] eqn:E; cbn [obind].
  - rewrite C. destruct (hd_csumtype (m_header m) =? 0); [rewrite from_nil, !sapp_assoc; reflexivity|]. lits. rewrite from_bind. cbn [part_of]. rewrite E. cbn [obind]. final.
  - destruct (N.eqb_spec (hd_csumtype (m_header m)) 0); [congruence|]. lits. rewrite from_bind. cbn [part_of]. rewrite E. reflexivity.
  - destruct (N.eqb_spec (hd_csumtype (m_header m)) 0); [congruence|]. lits. rewrite from_bind. cbn [part_of]. rewrite E. reflexivity.
Qed.
Lemma from_from : forall s ps, (do d <- text_of ps; Ret (s ++ d)) = from s ps.
Proof. reflexivity. Qed.
Lemma meta_short_is : forall m, meta_shortprint m = text_of (meta_says m).
Proof.
  intros m. rewrite <- from_empty. unfold meta_shortprint, meta_says. rewrite sums_from, dirent_short_is.
  set (A := ([Lit "  session:"; Dec (m_session m); nl] ++ sum_says "checksum" m)%list). set (B := entry_says _ _ _).
  assert (E : ([Lit "Metadata: 0x"; Hex (m_header m); nl; Lit "  session:"; Dec (m_session m); nl] ++ sum_says "checksum" m ++ B
    = [Lit "Metadata: 0x"; Hex (m_header m); nl] ++ A ++ B)%list) by (unfold A; rewrite <- app_assoc; reflexivity).
  rewrite E. clear E. rewrite from_app. lits. rewrite from_nil. norm. rewrite from_app. destruct (from _ A) as [s| |]; cbn [obind]; auto.
Qed.
Lemma meta_print_is : forall m, meta_print m = text_of (meta_tells m).
Proof.
  intros m. rewrite <- from_empty. unfold meta_print, meta_tells. erewrite hflags_from by reflexivity. rewrite dirent_print_is.
  rewrite from_app. lits. rewrite from_nil. norm. rewrite from_app.
  destruct (from _ (flags_say _ _)) as [s| |]; cbn [obind]; auto. rewrite sums_from.
  set (A := ([Lit "  session:"; Dec (m_session m); nl] ++ sum_says "Checksum" m)%list). set (B := entry_says _ _ _).
  assert (E : ([Lit "  session:"; Dec (m_session m); nl] ++ sum_says "Checksum" m ++ B = A ++ B)%list) by (unfold A; rewrite <- app_assoc; reflexivity).
  rewrite E. clear E. rewrite from_app. destruct (from _ A) as [t| |]; cbn [obind]; auto.
Qed.
Lemma short_is : forall f, frame_shortprint f = text_of (says f).
Proof. intros [b|r|m|d|s]; [apply beacon_short_is|apply request_short_is|apply meta_short_is|apply data_short_is|apply status_short_is]. Qed.
