(** * Facts about the values read from a configuration file *)

From Verif Require Import GoBase GoFacts Flags SpecFlags FlagsFacts FlagStrFacts Config Shipped ConfigFacts SpecConfig ReadShape.
Local Open Scope string_scope.
Local Open Scope N_scope.

(** ** Values *)

Lemma as_string_text : forall v s, as_string v = Ret s -> s = text v.
Proof. intros j s H; destruct j; inversion H; reflexivity. Qed.
Lemma as_num_num : forall v n, as_num v = Ret n -> n = num v.
Proof. intros j n H; destruct j; inversion H; reflexivity. Qed.
Lemma as_obj_members : forall v l, as_obj v = Ret l -> l = members v.
Proof. intros j l H; destruct j; inversion H; reflexivity. Qed.
Lemma as_arr_elements : forall v l, as_arr v = Ret l -> l = elements v.
Proof. intros j l H; destruct j; inversion H; reflexivity. Qed.
Lemma distinct_keys : forall j, distinct j -> NoDup (keys (members j)).
Proof. intros j D; destruct j; cbn in *; try constructor. apply D. Qed.
Lemma distinct_In : forall (l : list (string * json)) k v, fold_right (fun e P => distinct (snd e) /\ P) True l -> In (k, v) l -> distinct v.
Proof. induction l as [|(a, b) l IH]; intros k v D I; [destruct I|]. cbn in D. destruct D as (D1 & D2). destruct I as [E|I]; [inversion E; subst; exact D1|eapply IH; eauto]. Qed.
Lemma distinct_get : forall j k, distinct j -> distinct (get j k).
Proof.
  intros j k D. unfold get. destruct (lookup k (members j)) as [v|] eqn:L; [|exact I]. apply lookup_In in L. destruct j; try destruct L. 
  eapply distinct_In; [apply D|exact L].
Qed.

(* what a successful reading of some object is *)
Ltac undo H :=
  repeat match type of H with
  | obind ?m _ = Ret _ => let x := fresh "x" in let X := fresh "X" in apply obind_Ret in H; destruct H as (x & X & H); cbn [fst snd] in X
  end.
Ltac undone H :=
  undo H;
  repeat match goal with
  | X : as_string _ = Ret _ |- _ => apply as_string_text in X
  | X : as_num _ = Ret _ |- _ => apply as_num_num in X
  | X : as_obj _ = Ret _ |- _ => apply as_obj_members in X
  | X : as_arr _ = Ret _ |- _ => apply as_arr_elements in X
  end.

Lemma ofold_map : forall {V} (read : json -> outcome V) (step : list (string * V) -> string * json -> outcome (list (string * V))) (R : json -> V -> Prop),
  (forall m k v m', step m (k, v) = Ret m' -> exists x, m' = update k x m /\ (distinct v -> R v x)) ->
  forall j m, distinct j -> ofold step [] (members j) = Ret m -> reads_map R j m.
Proof.
  intros V read step R H j m D O k. pose proof (distinct_keys j D) as ND.
  pose proof (ofold_member step (fun m => lookup k m) k (fun v _ o => exists x, o = Some x /\ (distinct v -> R v x))) as M.
  specialize (M ltac:(intros s (a, v) s' E N; destruct (H _ _ _ _ E) as (x & -> & _); cbn in N; apply update_lookup_other; congruence)).
  specialize (M ltac:(intros s v s' E; destruct (H _ _ _ _ E) as (x & -> & Y); exists x; split; [apply update_lookup_same|exact Y])).
  specialize (M (members j) [] m ND O). cbv beta in M. destruct (lookup k (members j)) as [v|] eqn:L; [|exact M].
  destruct M as (x & E & Y). exists x. split; [exact E|]. apply Y. replace v with (get j k) by (unfold get; now rewrite L). now apply distinct_get.
Qed.

Lemma options_read : forall w j m, distinct j -> read_options w j = Ret m -> reads_map (fun v n => n = num v mod 2 ^ w) j m.
Proof.
  intros w j m D H. unfold read_options in H. undone H. subst x.
  eapply (ofold_map as_num); [|exact D|exact H]. cbv beta. intros m0 k v m' E. cbn [fst snd] in E. undone E. inversion E; subst. eexists; split; [reflexivity|]. reflexivity.
Qed.
Lemma texts_read : forall l acc r, ofold (fun acc v => do s <- as_string v; Ret (acc ++ [s])%list) acc l = Ret r -> r = (acc ++ map text l)%list.
Proof.
  induction l as [|v l IH]; intros acc r H; cbn [ofold map] in *; [inversion H; now rewrite app_nil_r|].
  apply obind_Ret in H. destruct H as (x & X & H). undone X. inversion X; subst. apply IH in H. subst r. now rewrite <- app_assoc.
Qed.

(** One aspect of a flag *)
Lemma flag_read : forall j f, distinct j -> ofold read_flag_item zero_ftype (members j) = Ret f ->
  reads_flag 32 j f /\ f_frametypes f = map text (elements (get j "frametypes")).
Proof.
  intros j f D H. pose proof (distinct_keys j D) as ND.
  assert (S : forall s e s', read_flag_item s e = Ret s' ->
    (fst e <> "len" -> f_len s' = f_len s) /\ (fst e <> "msb" -> f_msb s' = f_msb s) /\
    (fst e <> "options" -> f_opts s' = f_opts s) /\ (fst e <> "frametypes" -> f_frametypes s' = f_frametypes s)).
  { intros s (k, v) s' E. unfold read_flag_item in E. cbn [fst].
    repeat match type of E with context [String.eqb k ?b] => destruct (String.eqb_spec k b) as [->|?] end; undone E; inversion E; subst;
      repeat split; intros; try reflexivity; congruence. }
  assert (L : f_len f = num (get j "len") mod 2 ^ 32).
  { pose proof (ofold_member read_flag_item f_len "len" (fun v _ n => n = num v mod 2 ^ 32)) as M.
    specialize (M ltac:(intros s e s' E N; apply S in E; apply E; exact N)).
    specialize (M ltac:(intros s v s' E; cbn in E; undone E; inversion E; subst; reflexivity) _ _ _ ND H).
    unfold get. destruct (lookup "len" (members j)); [exact M|]. rewrite M. reflexivity. }
  assert (M : f_msb f = num (get j "msb") mod 2 ^ 32).
  { pose proof (ofold_member read_flag_item f_msb "msb" (fun v _ n => n = num v mod 2 ^ 32)) as M.
    specialize (M ltac:(intros s e s' E N; apply S in E; apply E; exact N)).
    specialize (M ltac:(intros s v s' E; cbn in E; undone E; inversion E; subst; reflexivity) _ _ _ ND H).
    unfold get. destruct (lookup "msb" (members j)); [exact M|]. rewrite M. reflexivity. }
  assert (O : reads_map (fun v n => n = num v mod 2 ^ 32) (get j "options") (f_opts f)).
  { pose proof (ofold_member read_flag_item f_opts "options" (fun v _ o => distinct v -> reads_map (fun v n => n = num v mod 2 ^ 32) v o)) as O.
    specialize (O ltac:(intros s e s' E N; apply S in E; apply E; exact N)).
    specialize (O ltac:(intros s v s' E Dv; cbn in E; undone E; inversion E; subst; apply options_read; auto) _ _ _ ND H).
    pose proof (distinct_get j "options" D) as Do. unfold get in *. destruct (lookup "options" (members j)); [auto|]. rewrite O. intros k. reflexivity. }
  split; [split; [exact L|split; [exact M|exact O]]|].
  pose proof (ofold_member read_flag_item f_frametypes "frametypes" (fun v old new => new = (old ++ map text (elements v))%list)) as F.
  specialize (F ltac:(intros s e s' E N; apply S in E; apply E; exact N)).
  specialize (F ltac:(intros s v s' E; cbn in E; undone E; inversion E; subst; apply texts_read; auto) _ _ _ ND H).
  unfold get. destruct (lookup "frametypes" (members j)); rewrite F; reflexivity.
Qed.
Lemma small_read : forall w j f, distinct j -> ofold (read_small_item w) zero_ftype (members j) = Ret f -> reads_flag w j f.
Proof.
  intros w j f D H. pose proof (distinct_keys j D) as ND.
  assert (S : forall s e s', read_small_item w s e = Ret s' ->
    (fst e <> "len" -> f_len s' = f_len s) /\ (fst e <> "msb" -> f_msb s' = f_msb s) /\ (fst e <> "options" -> f_opts s' = f_opts s)).
  { intros s (k, v) s' E. unfold read_small_item in E. cbn [fst].
    repeat match type of E with context [String.eqb k ?b] => destruct (String.eqb_spec k b) as [->|?] end; undone E; inversion E; subst;
      repeat split; intros; try reflexivity; congruence. }
  split; [|split].
  - pose proof (ofold_member (read_small_item w) f_len "len" (fun v _ n => n = num v mod 2 ^ w)) as M.
    specialize (M ltac:(intros s e s' E N; apply S in E; apply E; exact N)).
    specialize (M ltac:(intros s v s' E; cbn in E; undone E; inversion E; subst; reflexivity) _ _ _ ND H).
    unfold get. destruct (lookup "len" (members j)); [exact M|]. rewrite M. cbn [num zero_ftype f_len]. symmetry. apply N.mod_0_l. apply N.pow_nonzero. discriminate.
  - pose proof (ofold_member (read_small_item w) f_msb "msb" (fun v _ n => n = num v mod 2 ^ w)) as M.
    specialize (M ltac:(intros s e s' E N; apply S in E; apply E; exact N)).
    specialize (M ltac:(intros s v s' E; cbn in E; undone E; inversion E; subst; reflexivity) _ _ _ ND H).
    unfold get. destruct (lookup "msb" (members j)); [exact M|]. rewrite M. cbn [num zero_ftype f_msb]. symmetry. apply N.mod_0_l. apply N.pow_nonzero. discriminate.
  - pose proof (ofold_member (read_small_item w) f_opts "options" (fun v _ o => distinct v -> reads_map (fun v n => n = num v mod 2 ^ w) v o)) as O.
    specialize (O ltac:(intros s e s' E N; apply S in E; apply E; exact N)).
    specialize (O ltac:(intros s v s' E Dv; cbn in E; undone E; inversion E; subst; apply options_read; auto) _ _ _ ND H).
    pose proof (distinct_get j "options" D) as Do. unfold get in *. destruct (lookup "options" (members j)); [auto|]. rewrite O. intros k. reflexivity.
Qed.
Lemma command_read : forall j c, distinct j -> ofold read_cmd_item {| c_usage := ""; c_help := "" |} (members j) = Ret c ->
  c_help c = text (get j "help") /\ c_usage c = text (get j "usage").
Proof.
  intros j c D H. pose proof (distinct_keys j D) as ND.
  assert (S : forall s e s', read_cmd_item s e = Ret s' -> (fst e <> "help" -> c_help s' = c_help s) /\ (fst e <> "usage" -> c_usage s' = c_usage s)).
  { intros s (k, v) s' E. unfold read_cmd_item in E. cbn [fst].
    repeat match type of E with context [String.eqb k ?b] => destruct (String.eqb_spec k b) as [->|?] end; undone E; inversion E; subst;
      repeat split; intros; try reflexivity; congruence. }
  split.
  - pose proof (ofold_member read_cmd_item c_help "help" (fun v _ n => n = text v)) as M.
    specialize (M ltac:(intros s e s' E N; apply S in E; apply E; exact N)).
    specialize (M ltac:(intros s v s' E; cbn in E; undone E; inversion E; subst; reflexivity) _ _ _ ND H).
    unfold get. destruct (lookup "help" (members j)); exact M.
  - pose proof (ofold_member read_cmd_item c_usage "usage" (fun v _ n => n = text v)) as M.
    specialize (M ltac:(intros s e s' E N; apply S in E; apply E; exact N)).
    specialize (M ltac:(intros s v s' E; cbn in E; undone E; inversion E; subst; reflexivity) _ _ _ ND H).
    unfold get. destruct (lookup "usage" (members j)); exact M.
Qed.
Lemma timers_read : forall j t, distinct j -> ofold read_timer zero_timeouts (members j) = Ret t ->
  let n k := num (get j k) in
  t = Build_timeouts (Z.of_N (n "metadata")) (Z.of_N (n "request")) (Z.of_N (n "status")) (Z.of_N (n "transfer")) (n "binterval") (Z.of_N (n "datacounter")).
Proof.
  intros j t D H n. pose proof (distinct_keys j D) as ND.
  assert (S : forall s e s', read_timer s e = Ret s' ->
    (fst e <> "metadata" -> to_metadata s' = to_metadata s) /\ (fst e <> "request" -> to_request s' = to_request s) /\
    (fst e <> "status" -> to_status s' = to_status s) /\ (fst e <> "transfer" -> to_transfer s' = to_transfer s) /\
    (fst e <> "binterval" -> to_binterval s' = to_binterval s) /\ (fst e <> "datacounter" -> to_datacounter s' = to_datacounter s)).
  { intros [m r s x b d] (k, v) s' E. unfold read_timer in E. cbn [fst].
    repeat match type of E with context [String.eqb k ?b] => destruct (String.eqb_spec k b) as [->|?] end; undone E; inversion E; subst;
      repeat split; intros; try reflexivity; congruence. }
  assert (G : forall (P : timeouts -> Z) k, P zero_timeouts = 0%Z ->
    (forall s e s', read_timer s e = Ret s' -> fst e <> k -> P s' = P s) ->
    (forall s v s', read_timer s (k, v) = Ret s' -> P s' = Z.of_N (num v)) -> P t = Z.of_N (n k)).
  { intros P k Z0 A B. pose proof (ofold_member read_timer P k (fun v _ z => z = Z.of_N (num v)) A B _ _ _ ND H) as M.
    unfold n, get. destruct (lookup k (members j)); [exact M|]. rewrite M, Z0. reflexivity. }
  assert (B : to_binterval t = n "binterval").
  { pose proof (ofold_member read_timer to_binterval "binterval" (fun v _ z => z = num v)) as M.
    specialize (M ltac:(intros s e s' E N; apply S in E; apply E; exact N)).
    specialize (M ltac:(intros [] v s' E; cbn in E; undone E; inversion E; subst; reflexivity) _ _ _ ND H).
    unfold n, get. destruct (lookup "binterval" (members j)); exact M. }
  assert (A1 := G to_metadata "metadata" eq_refl ltac:(intros s e s' E N; apply S in E; apply E; exact N) ltac:(intros [] v s' E; cbn in E; undone E; inversion E; subst; reflexivity)).
  assert (A2 := G to_request "request" eq_refl ltac:(intros s e s' E N; apply S in E; apply E; exact N) ltac:(intros [] v s' E; cbn in E; undone E; inversion E; subst; reflexivity)).
  assert (A3 := G to_status "status" eq_refl ltac:(intros s e s' E N; apply S in E; apply E; exact N) ltac:(intros [] v s' E; cbn in E; undone E; inversion E; subst; reflexivity)).
  assert (A4 := G to_transfer "transfer" eq_refl ltac:(intros s e s' E N; apply S in E; apply E; exact N) ltac:(intros [] v s' E; cbn in E; undone E; inversion E; subst; reflexivity)).
  assert (A5 := G to_datacounter "datacounter" eq_refl ltac:(intros s e s' E N; apply S in E; apply E; exact N) ltac:(intros [] v s' E; cbn in E; undone E; inversion E; subst; reflexivity)).
  destruct t. cbn in *. congruence.
Qed.
(** The fields of the frame types *)
Definition fields_of (m : list (string * list string)) (ft : string) : list string := match lookup ft m with Some l => l | None => [] end.
Lemma frameflag_read : forall m e m' ft, read_frameflag m e = Ret m' ->
  (fst e <> ft -> fields_of m' ft = fields_of m ft) /\ (fst e = ft -> fields_of m' ft = (fields_of m ft ++ map text (elements (snd e)))%list).
Proof.
  intros m (k, v) m' ft H. unfold read_frameflag in H. cbn [fst snd] in *. undone H. subst x. revert m H. generalize (elements v). clear v.
  induction l as [|j l IH]; intros m H; cbn [ofold map] in *; [inversion H; subst; split; intros; [reflexivity|now rewrite app_nil_r]|].
  apply obind_Ret in H. destruct H as (m1 & E & H). undone E. inversion E; subst m1; clear E. apply IH in H. destruct H as (A & B). split.
  - intros N. rewrite A by auto. unfold fields_of. rewrite update_lookup_other by congruence. reflexivity.
  - intros ->. rewrite B by auto. unfold fields_of at 1. rewrite update_lookup_same. fold (fields_of m ft). rewrite <- app_assoc, X. reflexivity.
Qed.
Lemma frameflags_read : forall j m ft, distinct j -> ofold read_frameflag [] (members j) = Ret m -> fields_of m ft = map text (elements (get j ft)).
Proof.
  intros j m ft D H. pose proof (distinct_keys j D) as ND.
  pose proof (ofold_member read_frameflag (fun m => fields_of m ft) ft (fun v old new => new = (old ++ map text (elements v))%list)) as M.
  specialize (M ltac:(intros s e s' E N; apply (frameflag_read _ _ _ ft) in E; apply E; exact N)).
  specialize (M ltac:(intros s v s' E; apply (frameflag_read _ _ _ ft) in E; apply E; reflexivity) _ _ _ ND H).
  unfold get. destruct (lookup ft (members j)); rewrite M; reflexivity.
Qed.

(** ** The document *)

Lemma key_other : forall c e c', read_key c e = Ret c' ->
  (forall k, fst e <> k -> lookup k (cs_str c') = lookup k (cs_str c)) /\ (forall k, fst e <> k -> lookup k (cs_num c') = lookup k (cs_num c)) /\
  (fst e <> "timeout" -> cs_timeout c' = cs_timeout c) /\ (fst e <> "commands" -> cs_commands c' = cs_commands c) /\
  (fst e <> "frameflags" -> cs_frameflags c' = cs_frameflags c) /\ (fst e <> "flags" -> cs_flags c' = cs_flags c) /\
  (fst e <> "direntflags" -> cs_dirent c' = cs_dirent c) /\ (fst e <> "timestamps" -> cs_tstamps c' = cs_tstamps c).
Proof.
  intros c (k, v) c' E. unfold read_key in E. cbn [fst].
  destruct (one_of k string_keys).
  { undone E. inversion E; subst. repeat split; intros; try reflexivity. apply update_lookup_other. congruence. }
  destruct (one_of k num_keys).
  { undone E. inversion E; subst. repeat split; intros; try reflexivity. apply update_lookup_other. congruence. }
  repeat match type of E with context [String.eqb k ?b] => destruct (String.eqb_spec k b) as [->|?] end; undone E; inversion E; subst;
    repeat split; intros; try reflexivity; congruence.
Qed.
Lemma key_text : forall c k v c', In k settings_texts -> read_key c (k, v) = Ret c' -> lookup k (cs_str c') = Some (text v).
Proof.
  intros c k v c' I E. unfold read_key in E. change settings_texts with string_keys in I. apply one_of_iff in I. rewrite I in E. undone E.
  inversion E; subst. apply update_lookup_same.
Qed.
Lemma key_num : forall c k v c', In k settings_numbers -> read_key c (k, v) = Ret c' -> lookup k (cs_num c') = Some (num v).
Proof.
  intros c k v c' I E. unfold read_key in E. replace (one_of k string_keys) with false in E.
  2: { symmetry. unfold settings_numbers in I. cbn in I. repeat destruct I as [<-|I]; try reflexivity; destruct I. }
  change settings_numbers with num_keys in I. apply one_of_iff in I. rewrite I in E. undone E. inversion E; subst. apply update_lookup_same.
Qed.

Section Document.
Variables (obj : list (string * json)) (c : confst).
Hypothesis D : distinct (JObj obj).
Hypothesis H : ofold read_key init_confst obj = Ret c.
Let doc := JObj obj.

Lemma doc_keys : NoDup (keys obj).
Proof. apply D. Qed.
Lemma doc_text : forall k, In k settings_texts -> conf_str c k = text (get doc k).
Proof.
  intros k I. pose proof (ofold_member read_key (fun c => lookup k (cs_str c)) k (fun v _ o => o = Some (text v))) as M.
  specialize (M ltac:(intros s e s' E N; apply key_other in E; apply E; exact N) ltac:(intros s v s' E; eapply key_text; eauto) _ _ _ doc_keys H).
  unfold conf_str, get. cbn [doc members]. cbv beta in M. destruct (lookup k obj); rewrite M; reflexivity.
Qed.
Lemma doc_num : forall k, In k settings_numbers -> conf_num c k = num (get doc k).
Proof.
  intros k I. pose proof (ofold_member read_key (fun c => lookup k (cs_num c)) k (fun v _ o => o = Some (num v))) as M.
  specialize (M ltac:(intros s e s' E N; apply key_other in E; apply E; exact N) ltac:(intros s v s' E; eapply key_num; eauto) _ _ _ doc_keys H).
  unfold conf_num, get. cbn [doc members]. cbv beta in M. destruct (lookup k obj); rewrite M; reflexivity.
Qed.
Lemma doc_part : forall {A} (P : confst -> A) k (step : A -> string * json -> outcome A),
  (forall s e s', read_key s e = Ret s' -> fst e <> k -> P s' = P s) ->
  (forall s v s', read_key s (k, v) = Ret s' -> ofold step (P s) (members v) = Ret (P s')) ->
  ofold step (P init_confst) (members (get doc k)) = Ret (P c).
Proof.
  intros A P k step O M. pose proof (ofold_member read_key P k (fun v a b => ofold step a (members v) = Ret b) O M _ _ _ doc_keys H) as X.
  unfold get. cbn [doc members]. destruct (lookup k obj); [exact X|]. rewrite X. reflexivity.
Qed.
Ltac part := let E := fresh in intros ? ? ? E; cbn in E; undone E; inversion E; subst; assumption.
Ltac other := let E := fresh in let N := fresh in intros ? ? ? E N; apply key_other in E; apply E; exact N.
Lemma doc_timeout : ofold read_timer zero_timeouts (members (get doc "timeout")) = Ret (cs_timeout c).
Proof. apply (doc_part cs_timeout "timeout" read_timer); [other|part]. Qed.
Lemma doc_commands : ofold read_cmd [] (members (get doc "commands")) = Ret (cs_commands c).
Proof. apply (doc_part cs_commands "commands" read_cmd); [other|part]. Qed.
Lemma doc_frameflags : ofold read_frameflag [] (members (get doc "frameflags")) = Ret (cs_frameflags c).
Proof. apply (doc_part cs_frameflags "frameflags" read_frameflag); [other|part]. Qed.
Lemma doc_flags : ofold read_flag [] (members (get doc "flags")) = Ret (cs_flags c).
Proof. apply (doc_part cs_flags "flags" read_flag); [other|part]. Qed.
Lemma doc_dirent : ofold read_dflag [] (members (get doc "direntflags")) = Ret (cs_dirent c).
Proof. apply (doc_part cs_dirent "direntflags" read_dflag); [other|part]. Qed.
Lemma doc_timestamps : ofold (read_small_item 8) zero_ftype (members (get doc "timestamps")) = Ret (cs_tstamps c).
Proof. apply (doc_part cs_tstamps "timestamps" (read_small_item 8)); [other|part]. Qed.
End Document.
