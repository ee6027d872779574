(** * Timestamps: the properties (proofs) *)

From Verif Require Import GoBase GoFacts Flags SpecFlags FlagsFacts Config Shipped ConfigFacts SpecWire SarFacts Timestamp SpecTime.
Local Open Scope string_scope.
Local Open Scope N_scope.

Lemma ts_type_cases : forall v L, ts_type v = Some L ->
  v = 1 \/ v = 2 \/ v = 3 \/ v = 4 \/ v = 5.
Proof.
  intros v L H. destruct v as [|p]; [discriminate|].
  do 3 (destruct p as [p|p|]; try discriminate; auto 6).
Qed.

Ltac frame_step :=
  first [ rewrite put_uint_make by (rewrite ?app_length, ?be_bytes_length; simpl; lia)
        | rewrite copy_range_make by (rewrite ?app_length, ?be_bytes_length; simpl; lia) ]; cbn [obind].

(** C11: a numeric timestamp is sent as type byte, seconds, nanoseconds, zeros. *)
Lemma c11_put_layout : forall t L, t_header t < 256 -> ts_type (t_header t) = Some L ->
  ts_put t = Ret (ts_wire (t_header t) L (t_secs t) (t_nsecs t)) /\
  length (ts_wire (t_header t) L (t_secs t) (t_nsecs t)) = 16%nat.
Proof.
  intros t L B H. unfold ts_put. rewrite st_name_eq by auto.
  change (make_bytes 16) with ([] ++ make_bytes 16)%list.
  unfold ts_wire. rewrite !wire_be. change zeros with make_bytes.
  replace (be_bytes 1 (t_header t)) with [byte_of_N (t_header t)]
    by (cbn [be_bytes]; change (256 ^ N.of_nat 0) with 1; rewrite N.div_1_r; reflexivity).
  destruct (ts_type_cases _ _ H) as [E|[E|[E|[E|E]]]]; rewrite E in *; injection H as <-;
    cbn [tl_secs tl_nanos]; rewrite copy_range_make by (simpl; lia); cbn [obind];
    match goal with |- context[opt_name ?o ?v] => let r := eval vm_compute in (opt_name o v) in change (opt_name o v) with r end;
    cbn [obind];
    repeat (match goal with |- context[String.eqb ?a ?b] => let r := eval vm_compute in (String.eqb a b) in change (String.eqb a b) with r end);
    cbv iota; repeat frame_step; rewrite ?be_bytes_u32; cbn [app length Nat.sub];
    (split; [f_equal; rewrite <- ?app_assoc; reflexivity |
             rewrite ?app_length, ?be_bytes_length, ?make_bytes_length; simpl; reflexivity]).
Qed.
Example c11_put_layout_ex :
  ts_put {| t_header := 3; t_secs := 0x01020304; t_nsecs := 5; t_local := ""; t_ttype := "posix32_32" |}
  = Ret (map ascii_of_N [3; 1; 2; 3; 4; 0; 0; 0; 5; 0; 0; 0; 0; 0; 0; 0]).
Proof. vm_compute; reflexivity. Qed.

Ltac eval_eqbs :=
  repeat (match goal with |- context[String.eqb ?a ?b] => let r := eval vm_compute in (String.eqb a b) in
            match r with true => idtac | false => idtac end; change (String.eqb a b) with r end; cbv iota).

Lemma opt_name_tstamp_other : forall v, 6 <= v -> opt_name (f_opts (t_tstamps sar)) v = Fatal.
Proof.
  intros v H.
  change (f_opts (t_tstamps sar)) with [("localinterp", 0); ("posix32", 1); ("posix64", 2); ("posix32_32", 3);
    ("posix64_32", 4); ("epoch2000_32", 5)].
  cbn [opt_name]. repeat match goal with |- context[?a =? v] => destruct (N.eqb_spec a v); [lia|] end. reflexivity.
Qed.

(** C14: decoding sixteen bytes: the numbers of the layout for types 1..5, an error
    for type 0, the end of the process for all others. *)
Lemma c14_get_spec : forall t b, length b = 16%nat ->
  match ts_type (number_at b 0 1) with
  | Some L => ts_get t b = Ret ({| t_header := number_at b 0 1; t_secs := number_at b 1 (tl_secs L);
                                   t_nsecs := number_at b (1 + tl_secs L) (tl_nanos L);
                                   t_local := ""; t_ttype := tl_name L |}, None)
  | None => if number_at b 0 1 =? 0 then exists t' e, ts_get t b = Ret (t', Some e) else ts_get t b = Fatal
  end.
Proof.
  intros t b Lb. destruct (index_number b 0) as (c & I & E); [lia|].
  unfold ts_get. rewrite I. cbn [obind]. rewrite E.
  pose proof (number_at_bound b 0 1 : number_at b 0 1 < 256) as B.
  rewrite st_getstr_eq by auto.
  assert (C : number_at b 0 1 = 0 \/ number_at b 0 1 = 1 \/ number_at b 0 1 = 2 \/ number_at b 0 1 = 3 \/
              number_at b 0 1 = 4 \/ number_at b 0 1 = 5 \/ 6 <= number_at b 0 1) by lia.
  assert (K : forall v, v <> 0 -> 6 <= v -> ts_type v = None).
  { intros v _ H. destruct (ts_type v) eqn:T; auto. apply ts_type_cases in T. lia. }
  destruct C as [C|[C|[C|[C|[C|[C|C]]]]]].
  7:{ rewrite K by lia. replace (number_at b 0 1 =? 0) with false by (symmetry; apply N.eqb_neq; lia).
      rewrite opt_name_tstamp_other by auto. reflexivity. }
  all: rewrite C; cbn [ts_type tl_secs tl_nanos tl_name];
    match goal with |- context[opt_name ?o ?v] => let r := eval vm_compute in (opt_name o v) in change (opt_name o v) with r end;
    cbn [obind]; eval_eqbs; rewrite ?number_at_0; cbv iota.
  1:{ change (0 =? 0) with true. cbv iota. rewrite slice_ok by lia. cbn [obind]. eauto. }
  all: repeat (rewrite get_uint_number by lia; cbn [obind]); reflexivity.
Qed.
Example c14_get_spec_ex :
  ts_get zero_timestamp (make_bytes 16) = Ret ({| t_header := 0; t_secs := 0; t_nsecs := 0;
     t_local := string_of (make_bytes 14); t_ttype := "localinterp" |}, Some "timestamp.Get: Invalid Timestamp type:localinterp")
  /\ ts_get zero_timestamp (ascii_of_N 9 :: make_bytes 15) = Fatal.
Proof. split; vm_compute; reflexivity. Qed.

(** C14: when it succeeds, fails, and kills. *)
Lemma c14_get_exactly_when : forall t b, length b = 16%nat ->
  ((exists t', ts_get t b = Ret (t', None)) <-> 1 <= number_at b 0 1 <= 5) /\
  ((exists t' e, ts_get t b = Ret (t', Some e)) <-> number_at b 0 1 = 0) /\
  (ts_get t b = Fatal <-> 6 <= number_at b 0 1) /\
  ts_get t b <> Panic.
Proof.
  intros t b Lb. pose proof (c14_get_spec t b Lb) as S.
  destruct (ts_type (number_at b 0 1)) as [L|] eqn:T.
  - apply ts_type_cases in T. rewrite S.
    split; [split; [intros _; lia | intros _; eauto]|].
    split; [split; [intros (t' & e & H); discriminate | intros; lia]|].
    split; [split; [discriminate | intros; lia] | discriminate].
  - destruct (N.eqb_spec (number_at b 0 1) 0) as [E|E].
    + destruct S as (t' & e & S). rewrite S, E.
      split; [split; [intros (t'' & H); discriminate | intros; lia]|].
      split; [split; [auto | eauto]|]. split; [split; [discriminate | intros; lia] | discriminate].
    + rewrite S.
      assert (6 <= number_at b 0 1).
      { assert (C : number_at b 0 1 = 1 \/ number_at b 0 1 = 2 \/ number_at b 0 1 = 3 \/
              number_at b 0 1 = 4 \/ number_at b 0 1 = 5 \/ 6 <= number_at b 0 1) by lia.
        destruct C as [C|[C|[C|[C|[C|C]]]]]; auto; rewrite C in T; discriminate. }
      split; [split; [intros (t' & H0); discriminate | intros; lia]|].
      split; [split; [intros (t' & e & H0); discriminate | intros; lia]|].
      split; [split; auto | discriminate].
Qed.

(** C11: a numeric timestamp whose values fit is read back unchanged. *)
Lemma c11_roundtrip : forall t t0 L, t_header t < 256 -> ts_type (t_header t) = Some L -> ts_fits L t ->
  exists b, ts_put t = Ret b /\ length b = 16%nat /\
    ts_get t0 b = Ret ({| t_header := t_header t; t_secs := t_secs t; t_nsecs := t_nsecs t;
                          t_local := ""; t_ttype := tl_name L |}, None).
Proof.
  intros t t0 L B T [F1 F2]. destruct (c11_put_layout t L B T) as [P LL].
  exists (ts_wire (t_header t) L (t_secs t) (t_nsecs t)). split; [exact P|]. split; [exact LL|].
  pose proof (c14_get_spec t0 _ LL) as S.
  assert (E0 : number_at (ts_wire (t_header t) L (t_secs t) (t_nsecs t)) 0 1 = t_header t).
  { unfold ts_wire. rewrite number_at_wire0. apply N.mod_small. exact B. }
  assert (E1 : number_at (ts_wire (t_header t) L (t_secs t) (t_nsecs t)) 1 (tl_secs L) = t_secs t).
  { unfold ts_wire. rewrite number_at_wire by (rewrite wire_length; reflexivity). apply N.mod_small. exact F1. }
  assert (E2 : number_at (ts_wire (t_header t) L (t_secs t) (t_nsecs t)) (1 + tl_secs L) (tl_nanos L) = t_nsecs t).
  { unfold ts_wire. rewrite (app_assoc (wire 1 _)). rewrite number_at_wire by (rewrite app_length, !wire_length; reflexivity).
    apply N.mod_small. exact F2. }
  rewrite E0, T, E1, E2 in S. exact S.
Qed.
Example c11_roundtrip_ex :
  let t := {| t_header := 4; t_secs := 0x102030405060708; t_nsecs := 999999999; t_local := ""; t_ttype := "posix64_32" |} in
  exists L, ts_type (t_header t) = Some L /\ ts_fits L t.
Proof. eexists; split; [reflexivity | split; vm_compute; reflexivity]. Qed.

Lemma st_set_eq : forall name v, lookup name (f_opts (t_tstamps sar)) = Some v -> st_set sar 0 name = Ret v.
Proof.
  intros name v H. unfold st_set. rewrite H. f_equal.
  assert (v < 2 ^ 8).
  { destruct sar_wf as (_ & _ & W). destruct W as (_ & W & _). apply W with name. apply lookup_In; auto. }
  pose proof (set_bits_field_same 8 (t_tstamps sar) 0 v) as E.
  change (f_msb (t_tstamps sar)) with 0 in E. change (f_len (t_tstamps sar)) with 8 in E.
  specialize (E ltac:(lia) ltac:(lia) H0). unfold bit_field in E. change (8 - 0 - 8) with 0 in E. change (2 ^ 0) with 1 in E.
  rewrite N.div_1_r in E.
  pose proof (set_bits_bound 8 (t_tstamps sar) 0 v) as B.
  change (f_msb (t_tstamps sar)) with 0 in B. change (f_len (t_tstamps sar)) with 8 in B.
  specialize (B ltac:(lia) ltac:(lia) H0). rewrite N.mod_small in E by auto. exact E.
Qed.

Lemma u64_of_Z_neg : forall z, (- 2 ^ 63 <= z < 0)%Z -> 2 ^ 63 <= u64_of_Z z.
Proof.
  intros. unfold u64_of_Z.
  assert (E : (z mod 2 ^ 64 = z + 2 ^ 64)%Z) by (symmetry; apply (Z.mod_unique_pos _ _ (-1)); lia).
  rewrite E. change (2 ^ 63) with (Z.to_N (2 ^ 63)). apply Z2N.inj_le; lia.
Qed.

Ltac ts_start :=
  unfold ts_new;
  match goal with |- context[remove_spaces ?s] => let r := eval vm_compute in (remove_spaces s) in change (remove_spaces s) with r end;
  erewrite st_set_eq by (vm_compute; reflexivity); cbn [obind]; cbv zeta; eval_eqbs; unfold stamp; cbn [tl_name].

(** C12: posix32: seconds since 1970 stored exactly when they fit 32 bits, otherwise an error. *)
Lemma c12_posix32 : forall t ts, real_time ts ->
  ((0 <= unix_secs ts < 2 ^ 32)%Z ->
   ts_new t "posix32" ts = Ret (stamp 1 {| tl_name := "posix32"; tl_secs := 4; tl_nanos := 0 |} (unix_secs ts) 0, None)) /\
  (~ (0 <= unix_secs ts < 2 ^ 32)%Z -> exists t' e, ts_new t "posix32" ts = Ret (t', Some e)).
Proof.
  intros t ts [R _]. unfold MaxUint32. split; intros H.
  - ts_start. unfold time_Unix. rewrite i64_of_Z_small by auto. rewrite u64_of_Z_small by lia.
    replace (MaxUint32 <? Z.to_N (unix_secs ts)) with false by (symmetry; apply N.ltb_ge; unfold MaxUint32; lia). reflexivity.
  - ts_start. unfold time_Unix. rewrite i64_of_Z_small by auto.
    replace (MaxUint32 <? u64_of_Z (unix_secs ts)) with true; [eauto|].
    symmetry; apply N.ltb_lt; unfold MaxUint32. destruct (Z_lt_le_dec (unix_secs ts) 0).
    + assert (2 ^ 63 <= u64_of_Z (unix_secs ts)) by (apply u64_of_Z_neg; lia). lia.
    + rewrite u64_of_Z_small by lia. lia.
Qed.
(** C12: posix64: seconds since 1970 stored as 64 bits; there is no error. *)
Lemma c12_posix64 : forall t ts, real_time ts ->
  ts_new t "posix64" ts = Ret (stamp 2 {| tl_name := "posix64"; tl_secs := 8; tl_nanos := 0 |} (unix_secs ts mod 2 ^ 64) 0, None).
Proof.
  intros t ts [R _]. ts_start. unfold time_Unix. rewrite i64_of_Z_small by auto. reflexivity.
Qed.
(** C12: posix32_32, for every time whose nanoseconds since 1970 fit 64 bits
    (1678 to 2262), outside the last second before 1970. *)
Lemma c12_posix32_32 : forall t ts, real_time ts -> (- 2 ^ 63 <= nanos_of ts < 2 ^ 63)%Z ->
  ((0 <= unix_secs ts < 2 ^ 32)%Z ->
   ts_new t "posix32_32" ts =
     Ret (stamp 3 {| tl_name := "posix32_32"; tl_secs := 4; tl_nanos := 4 |} (unix_secs ts) (unix_nanos ts), None)) /\
  ((2 ^ 32 <= unix_secs ts \/ unix_secs ts < -1 \/ (unix_secs ts = -1 /\ unix_nanos ts = 0))%Z ->
   exists t' e, ts_new t "posix32_32" ts = Ret (t', Some e)).
Proof.
  intros t ts [R RN] B. unfold nanos_of in B. split; intros H.
  - ts_start. unfold time_UnixNano. rewrite i64_of_Z_small by auto.
    rewrite Z.quot_div_nonneg, Z.rem_mod_nonneg by lia.
    rewrite Z.div_add_l by lia. rewrite Z.div_small by lia. rewrite Z.add_0_r.
    rewrite (Z.add_comm (_ * _)), Z.mod_add by lia. rewrite Z.mod_small by lia.
    rewrite !u64_of_Z_small by lia.
    replace (MaxUint32 <? Z.to_N (unix_secs ts)) with false by (symmetry; apply N.ltb_ge; unfold MaxUint32; lia). reflexivity.
  - ts_start. unfold time_UnixNano. rewrite i64_of_Z_small by auto.
    set (n := (unix_secs ts * 1000000000 + unix_nanos ts)%Z) in *.
    replace (MaxUint32 <? u64_of_Z (Z.quot n 1000000000)) with true; [eauto|].
    symmetry; apply N.ltb_lt; unfold MaxUint32.
    destruct (Z_lt_le_dec n 0).
    + assert (Z.quot n 1000000000 < 0)%Z.
      { assert (n <= -1000000000)%Z by (unfold n in *; lia).
        pose proof (Z.quot_opp_l n 1000000000). rewrite Z.quot_div_nonneg in H1 by lia.
        assert (1 <= (- n) / 1000000000)%Z by (apply Z.div_le_lower_bound; lia). lia. }
      assert (2 ^ 63 <= u64_of_Z (Z.quot n 1000000000)); [|lia].
      apply u64_of_Z_neg. split; [|auto]. pose proof (Z.quot_opp_l n 1000000000). rewrite Z.quot_div_nonneg in H1 by lia.
      assert ((- n) / 1000000000 <= - n)%Z by (apply Z.div_le_upper_bound; lia). lia.
    + rewrite Z.quot_div_nonneg by lia. unfold n. rewrite Z.div_add_l by lia. rewrite Z.div_small by lia.
      rewrite Z.add_0_r. rewrite u64_of_Z_small by (unfold n in *; lia). unfold n in *; lia.
Qed.
(** C12: posix64_32, for every such time from 1970 on; no error. *)
Lemma c12_posix64_32 : forall t ts, real_time ts -> (0 <= nanos_of ts < 2 ^ 63)%Z ->
  ts_new t "posix64_32" ts =
    Ret (stamp 4 {| tl_name := "posix64_32"; tl_secs := 8; tl_nanos := 4 |} (unix_secs ts) (unix_nanos ts), None).
Proof.
  intros t ts [R RN] B. unfold nanos_of in B.
  ts_start. unfold time_UnixNano. rewrite i64_of_Z_small by lia.
  rewrite Z.quot_div_nonneg, Z.rem_mod_nonneg by lia.
  rewrite Z.div_add_l by lia. rewrite Z.div_small by lia. rewrite Z.add_0_r.
  rewrite (Z.add_comm (_ * _)), Z.mod_add by lia. rewrite Z.mod_small by lia.
  rewrite !u64_of_Z_small by lia.
  replace (MaxUint32 <? Z.to_N (unix_nanos ts)) with false by (symmetry; apply N.ltb_ge; unfold MaxUint32; lia). reflexivity.
Qed.
(** C12: epoch2000_32: seconds since 2000-01-01 when they fit 32 bits, otherwise an error. *)
Lemma c12_epoch2000 : forall t ts, real_time ts -> (- 2 ^ 63 + 946684800 <= unix_secs ts)%Z ->
  ((0 <= unix_secs ts - 946684800 < 2 ^ 32)%Z ->
   ts_new t "epoch2000_32" ts =
     Ret (stamp 5 {| tl_name := "epoch2000_32"; tl_secs := 4; tl_nanos := 0 |} (unix_secs ts - 946684800) 0, None)) /\
  (~ (0 <= unix_secs ts - 946684800 < 2 ^ 32)%Z -> exists t' e, ts_new t "epoch2000_32" ts = Ret (t', Some e)).
Proof.
  intros t ts [R _] B. split; intros H.
  - ts_start. unfold time_Unix, epoch2k_unix. rewrite !i64_of_Z_small by (rewrite ?i64_of_Z_small; lia).
    rewrite u64_of_Z_small by lia.
    replace (MaxUint32 <? Z.to_N (unix_secs ts - 946684800)) with false by (symmetry; apply N.ltb_ge; unfold MaxUint32; lia). reflexivity.
  - ts_start. unfold time_Unix, epoch2k_unix. rewrite !i64_of_Z_small by (rewrite ?i64_of_Z_small; lia).
    replace (MaxUint32 <? u64_of_Z (unix_secs ts - 946684800)) with true; [eauto|].
    symmetry; apply N.ltb_lt; unfold MaxUint32. destruct (Z_lt_le_dec (unix_secs ts - 946684800) 0).
    + assert (2 ^ 63 <= u64_of_Z (unix_secs ts - 946684800)) by (apply u64_of_Z_neg; lia). lia.
    + rewrite u64_of_Z_small by lia. lia.
Qed.
(** C12: an unknown type name terminates the process. *)
Lemma c12_unknown_type : forall t ts flag,
  ~ In (remove_spaces flag) ["localinterp"; "posix32"; "posix64"; "posix32_32"; "posix64_32"; "epoch2000_32"] ->
  ts_new t flag ts = Fatal.
Proof.
  intros t ts flag H. unfold ts_new, st_set.
  replace (lookup (remove_spaces flag) (f_opts (t_tstamps sar))) with (@None N); [reflexivity|].
  symmetry. apply lookup_None. exact H.
Qed.
Example c12_ex :
  let ts := {| unix_secs := 1700000000; unix_nanos := 123456789 |} in
  real_time ts /\ (0 <= nanos_of ts < 2 ^ 63)%Z /\
  ts_new zero_timestamp "posix32_32" ts = Ret ({| t_header := 3; t_secs := 1700000000; t_nsecs := 123456789; t_local := ""; t_ttype := "posix32_32" |}, None) /\
  ts_new zero_timestamp "epoch_2000_32" ts = Fatal.
Proof.
  cbv zeta. split; [unfold real_time; cbn; lia|]. split; [unfold nanos_of; cbn; lia|]. split; vm_compute; reflexivity.
Qed.

(** C12: beyond 2262 the 64-bit nanosecond counter wraps, so a time 2^64 ns later is
    stamped as the earlier one, without error (defect). *)
Lemma c12_far_future_wraps : forall t ts, real_time ts -> (2 ^ 64 <= nanos_of ts < 2 ^ 64 + 2 ^ 32 * 1000000000)%Z ->
  ts_new t "posix32_32" ts =
    Ret (stamp 3 {| tl_name := "posix32_32"; tl_secs := 4; tl_nanos := 4 |}
           ((nanos_of ts - 2 ^ 64) / 1000000000) ((nanos_of ts - 2 ^ 64) mod 1000000000), None) /\
  (2 ^ 32 <= unix_secs ts)%Z.
Proof.
  intros t ts [R RN] B. unfold nanos_of in *. split; [|lia].
  ts_start. unfold time_UnixNano. set (n := (unix_secs ts * 1000000000 + unix_nanos ts)%Z) in *.
  assert (E : i64_of_Z n = (n - 2 ^ 64)%Z).
  { rewrite <- (i64_of_Z_small (n - 2 ^ 64)) by lia. unfold i64_of_Z, u64_of_Z. do 2 f_equal.
    rewrite <- (Z.mod_add (n - 2 ^ 64) 1 (2 ^ 64)) by lia. f_equal. lia. }
  rewrite E. rewrite Z.quot_div_nonneg, Z.rem_mod_nonneg by lia.
  assert (0 <= (n - 2 ^ 64) / 1000000000 < 2 ^ 32)%Z by (split; [apply Z.div_pos; lia | apply Z.div_lt_upper_bound; lia]).
  assert (0 <= (n - 2 ^ 64) mod 1000000000 < 1000000000)%Z by (apply Z.mod_pos_bound; lia).
  rewrite !u64_of_Z_small by lia.
  replace (MaxUint32 <? Z.to_N ((n - 2 ^ 64) / 1000000000)) with false by (symmetry; apply N.ltb_ge; unfold MaxUint32; lia). reflexivity.
Qed.
Example c12_far_future_ex : ts_new zero_timestamp "posix32_32" {| unix_secs := 18446744073; unix_nanos := 709551616 |}
  = Ret ({| t_header := 3; t_secs := 0; t_nsecs := 0; t_local := ""; t_ttype := "posix32_32" |}, None).
Proof. vm_compute; reflexivity. Qed.

(** C13: a local-interpretation timestamp is built (keeping whatever time the receiver
    held) and sent, but never read. *)
Lemma c13_localinterp : forall t ts, exists t' b,
  ts_new t "localinterp" ts = Ret (t', None) /\ t_local t' = "localinterp" /\ t_secs t' = t_secs t /\ t_nsecs t' = t_nsecs t /\
  ts_put t' = Ret b /\ length b = 16%nat /\ number_at b 0 1 = 0 /\
  forall t0, exists t1 e, ts_get t0 b = Ret (t1, Some e).
Proof.
  intros t ts. eexists. eexists.
  split; [ts_start; reflexivity|]. split; [reflexivity|]. split; [reflexivity|]. split; [reflexivity|].
  split; [vm_compute; reflexivity|]. split; [reflexivity|]. split; [reflexivity|].
  intros t0. eexists. eexists. vm_compute. reflexivity.
Qed.
Example c13_ex : exists b, ts_put {| t_header := 0; t_secs := 7; t_nsecs := 0; t_local := "abc"; t_ttype := "localinterp" |} = Ret b.
Proof. eexists; vm_compute; reflexivity. Qed.
(** C13: whatever the local text, a type 0 timestamp encodes and is rejected on decoding. *)
Lemma c13_any_local : forall t, t_header t = 0 -> exists b, ts_put t = Ret b /\ length b = 16%nat /\
  forall t0, exists t1 e, ts_get t0 b = Ret (t1, Some e).
Proof.
  intros t H. unfold ts_put. rewrite H. change (st_name sar 0) with (Ret "localinterp" : outcome string).
  change (copy_range (make_bytes 16) 0 1 [byte_of_N 0]) with (Ret (make_bytes 16)).
  cbn [obind]. eval_eqbs. unfold copy_range. change (1 <=? 15)%nat with true. change (15 <=? length (make_bytes 16))%nat with true.
  cbn [andb]. eexists. split; [reflexivity|].
  set (s := firstn (15 - 1) (bytes_of (t_local t))).
  assert (Ls : (length s <= 14)%nat) by (unfold s; rewrite firstn_length; lia).
  assert (L : length (overwrite (make_bytes 16) 1 s) = 16%nat).
  { rewrite overwrite_length; [reflexivity|]. rewrite make_bytes_length. lia. }
  split; [exact L|]. intros t0.
  apply (c14_get_exactly_when t0 _ L). reflexivity.
Qed.

(** C15: in the last second before 1970, posix32_32 stores a nanosecond count that
    does not fit and is not what is read back; posix64_32 reports an error. *)
Lemma c15_pre1970 : forall t ts, real_time ts -> unix_secs ts = (-1)%Z -> (0 < unix_nanos ts)%Z ->
  (exists t', ts_new t "posix32_32" ts = Ret (t', None) /\ t_secs t' = 0 /\ 1000000000 <= t_nsecs t' /\
     forall b t0 t1, ts_put t' = Ret b -> ts_get t0 b = Ret (t1, None) -> t_nsecs t1 <> t_nsecs t') /\
  (exists t' e, ts_new t "posix64_32" ts = Ret (t', Some e)).
Proof.
  intros t ts [R RN] S P.
  set (n := (unix_secs ts * 1000000000 + unix_nanos ts)%Z).
  assert (Bn : (-1000000000 < n < 0)%Z) by (unfold n; lia).
  assert (Q : Z.quot n 1000000000 = 0%Z).
  { pose proof (Z.quot_opp_l n 1000000000). rewrite Z.quot_div_nonneg in H by lia. rewrite Z.div_small in H by lia. lia. }
  assert (M : Z.rem n 1000000000 = n).
  { pose proof (Z.quot_rem n 1000000000). lia. }
  assert (U : 2 ^ 63 <= u64_of_Z n) by (apply u64_of_Z_neg; lia).
  assert (U' : u64_of_Z n < 2 ^ 64).
  { unfold u64_of_Z. assert (0 <= n mod 2 ^ 64 < 2 ^ 64)%Z by (apply Z.mod_pos_bound; lia). lia. }
  split.
  - eexists. split.
    + ts_start. unfold time_UnixNano. fold n. rewrite i64_of_Z_small by lia. rewrite Q, M.
      change (MaxUint32 <? u64_of_Z 0) with false. reflexivity.
    + cbn [t_secs t_nsecs]. split; [reflexivity|]. split; [lia|].
      intros b t0 t1 Pb G.
      assert (T : ts_type 3 = Some {| tl_name := "posix32_32"; tl_secs := 4; tl_nanos := 4 |}) by reflexivity.
      edestruct (fun t => c11_put_layout t {| tl_name := "posix32_32"; tl_secs := 4; tl_nanos := 4 |}) as [Pb' Lb];
        [ | | rewrite Pb in Pb' ]; [reflexivity | reflexivity |].
      injection Pb' as ->.
      pose proof (c14_get_spec t0 _ Lb) as Sp. cbn [t_header t_secs t_nsecs] in Sp.
      unfold ts_wire in Sp at 1. rewrite number_at_wire0 in Sp.
      change (3 mod 2 ^ (8 * N.of_nat 1)) with 3 in Sp. rewrite T in Sp. rewrite G in Sp.
      injection Sp as ->. cbn [t_nsecs]. intro E.
      pose proof (number_at_bound (ts_wire 3 {| tl_name := "posix32_32"; tl_secs := 4; tl_nanos := 4 |} (u64_of_Z 0) (u64_of_Z n)) 5 4) as NB.
      cbn [tl_secs tl_nanos] in E. change (1 + 4)%nat with 5%nat in E. rewrite E in NB.
      change (2 ^ (8 * N.of_nat 4)) with (2 ^ 32) in NB. lia.
  - ts_start. unfold time_UnixNano. fold n. rewrite i64_of_Z_small by lia. rewrite Q, M.
    replace (MaxUint32 <? u64_of_Z n) with true; [eauto|].
    symmetry; apply N.ltb_lt. unfold MaxUint32. lia.
Qed.
Example c15_ex : ts_new zero_timestamp "posix32_32" {| unix_secs := -1; unix_nanos := 500000000 |} =
  Ret ({| t_header := 3; t_secs := 0; t_nsecs := 18446744073209551616; t_local := ""; t_ttype := "posix32_32" |}, None).
Proof. vm_compute; reflexivity. Qed.
