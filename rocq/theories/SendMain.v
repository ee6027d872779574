(** * What the command line sends: the properties (proofs) *)

From Verif Require Import GoBase GoFacts Flags SpecFlags FlagsFacts FlagStrFacts SarFacts Config Shipped ConfigFacts FlagsMain SpecWire Timestamp Data SpecFrames Beacon SpecBeacon BuildFacts BeaconMain Trans Sarnet Transfer SpecTransfer TransferMain Words SpecWords WordsFacts Cli SpecCli CliFacts CliFacts2 CliMain SpecRun RunFacts RunMain SpecSend.
Local Open Scope string_scope.
Local Open Scope N_scope.

(** ** Building a beacon *)

Lemma first_bad_valid : forall c items, almost_valid c -> (forall f v, In (f, v) items -> value c (Flag f) = KText v) ->
  (forall p, In p items -> In (fst p) ["descriptor"; "stream"; "txwilling"; "rxwilling"; "udplite"; "freespace"]) ->
  first_bad (map (beacon_item_verdict sar) items) = Kill \/ first_bad (map (beacon_item_verdict sar) items) = Accept.
Proof.
  intros c items V A. induction items as [|(f, v) items IH]; intros N; [right; reflexivity|]. cbn [map first_bad].
  assert (X : beacon_item_verdict sar (f, v) = Accept \/ beacon_item_verdict sar (f, v) = Kill).
  { destruct (V f v) as [Y|(-> & [->| ->])]; [apply A; left; auto|left; apply item_accept; [apply (N (f, v)); left; auto|exact Y]|right; reflexivity..]. }
  destruct X as [->| ->]; [|left; reflexivity]. apply IH; [intros; apply A; right; auto|intros; apply N; right; auto].
Qed.
(** A beacon that is built at all is built from the settings *)
Lemma new_items : forall env c info b e, keys (cl_global c) = keys (cl_global sar_cli) -> almost_valid c ->
  beacon_new env zero_beacon (sf_setglobal sar "beacon" c) info = Ret (b, e) ->
  exists items, map fst items = ["descriptor"; "stream"; "txwilling"; "rxwilling"; "udplite"; "freespace"] /\
    (forall f v, In (f, v) items -> value c (Flag f) = KText v) /\
    beacon_built env 0 (("version", "v1") :: ("frametype", "beacon") :: flat_map beacon_settings items) info (Ret (b, e)) /\
    incl (keys (flat_map beacon_settings items)) beacon_fields.
Proof.
  intros env c info b e K V H. destruct (beacon_items c K V) as (items & E & M & A & C). rewrite E in H. exists items.
  assert (NE : items <> []) by (intros ->; discriminate M).
  assert (FN : forall p, In p items -> In (fst p) ["descriptor"; "stream"; "txwilling"; "rxwilling"; "udplite"; "freespace"])
    by (intros p P; rewrite <- M; apply in_map; exact P).
  split; [exact M|]. split; [exact A|].
  assert (ALL : forall p, In p items -> beacon_item_verdict sar p = Accept).
  { destruct (first_bad_valid c items V A FN) as [F|F].
    - pose proof (c71_verdict env zero_beacon items info NE C) as W. rewrite F, H in W. specialize (W ltac:(discriminate)). destruct e; discriminate W.
    - intros p P. eapply first_bad_all; [exact F|]. apply in_map. exact P. }
  split.
  - rewrite <- H. apply (c38_new env zero_beacon items info NE C ALL). vm_compute. reflexivity.
  - intros x X. revert x X. apply keys_flat_map. intros; apply beacon_settings_keys; auto.
Qed.
Lemma built_of : forall env c info b, bi_freespace info = 0 -> keys (cl_global c) = keys (cl_global sar_cli) -> almost_valid c ->
  beacon_new env zero_beacon (sf_setglobal sar "beacon" c) info = Ret (b, None) ->
  exists h w n, beacon_encode b = Ret (Frame (beacon_wire h w n (bi_eid info))) /\
    h < 2 ^ 32 /\ space_width h = Some w /\ n < 2 ^ (8 * N.of_nat w) /\
    reads sar h "version" "v1" /\ reads sar h "frametype" "beacon" /\
    (forall k v, In k ["descriptor"; "stream"; "txwilling"; "rxwilling"; "udplite"] -> value c (Flag k) = KText v -> reads sar h k v) /\
    (value c (Flag "freespace") = KText "no" -> reads sar h "freespace" "no") /\
    (value c (Flag "freespace") = KText "yes" ->
       match free_space env 0 with
       | Some space => n = space /\ reads sar h "freespace" "yes"
       | None => reads sar h "freespace" "no"
       end).
Proof.
  intros env c info b I0 K V H. destruct (new_items env c info b None K V H) as (items & M & A & B & I).
  assert (I2 : incl (keys (("version", "v1") :: ("frametype", "beacon") :: flat_map beacon_settings items)) beacon_fields).
  { intros x [<-|[<-|X]]; [cbn; auto|cbn; auto|apply I; exact X]. }
  destruct (built_fits env 0 _ info _ b I2 ltac:(vm_compute; reflexivity) B eq_refl) as (HB & w & W & LT).
  assert (EI : b_eid b = bi_eid info).
  { unfold beacon_built in B. destruct (asks_space _ _); [|destruct B as (b' & B & _ & _ & X); inversion B; subst; exact X].
    destruct (se_getwd env); [destruct B as (b' & B); inversion B|]. destruct (free_space env (bi_freespace info)) as [n|].
    - destruct (space_descriptor n) as [d|]; [|destruct B as (b' & B); inversion B]. destruct B as (b' & B & _ & _ & X). inversion B; subst; exact X.
    - destruct B as (b' & B & _ & _ & X). inversion B; subst; exact X. }
  pose proof (c39_encode b) as EN. rewrite W in EN. exists (b_header b), w, (b_freespace b). rewrite <- EI. split; [exact EN|]. split; [exact HB|]. split; [exact W|]. split; [exact LT|].
  destruct items as [|(f1, v1) [|(f2, v2) [|(f3, v3) [|(f4, v4) [|(f5, v5) [|(f6, v6) [|]]]]]]]; try discriminate M. inversion M; subst f1 f2 f3 f4 f5 f6. clear M.
  assert (R : exists l, set_exactly sar 0 (b_header b) ((("version", "v1") :: ("frametype", "beacon") :: flat_map beacon_settings
      [("descriptor", v1); ("stream", v2); ("txwilling", v3); ("rxwilling", v4); ("udplite", v5); ("freespace", v6)]) ++ l) /\
      (v6 = "no" -> l = []) /\ (l = [] \/ l = [("freespace", "no")] \/ exists d, l = [("freespaced", d)]) /\
      (v6 = "yes" -> match free_space env 0 with Some n => b_freespace b = n /\ exists d, l = [("freespaced", d)] | None => l = [("freespace", "no")] end)).
  { unfold beacon_built in B. match type of B with (if ?x then _ else _) => destruct x eqn:Q end.
    - assert (N6 : v6 <> "no") by (intros ->; discriminate Q).
      destruct (se_getwd env); [destruct B as (b' & B); inversion B|]. rewrite I0 in B. destruct (free_space env 0) as [n|].
      + destruct (space_descriptor n) as [d|]; [|destruct B as (b' & B); inversion B]. destruct B as (b' & B & S & FS & _). inversion B; subst b'.
        exists [("freespaced", d)]. split; [exact S|]. split; [congruence|]. split; [right; right; eauto|eauto].
      + destruct B as (b' & B & S & _). inversion B; subst b'. exists [("freespace", "no")]. split; [exact S|]. split; [congruence|]. auto.
    - assert (N6 : v6 <> "yes") by (intros ->; discriminate Q). destruct B as (b' & B & S & _). inversion B; subst b'. exists []. rewrite app_nil_r. split; [exact S|]. split; [reflexivity|]. split; [auto|congruence]. }
  destruct R as (l & (_ & R & _) & N6 & L & Y6).
  assert (G : forall f v, f <> "freespaced" -> f <> "freespace" ->
    last_setting (("version", "v1") :: ("frametype", "beacon") :: flat_map beacon_settings
      [("descriptor", v1); ("stream", v2); ("txwilling", v3); ("rxwilling", v4); ("udplite", v5); ("freespace", v6)]) f = Some v ->
    reads sar (b_header b) f v).
  { intros f v NF NS X. apply R. destruct L as [->|[->|(d & ->)]]; [rewrite app_nil_r; exact X|..]; unfold last_setting in *; rewrite rev_app_distr; cbn [rev app lookup].
    - rewrite (proj2 (String.eqb_neq f "freespace") NS). exact X.
    - rewrite (proj2 (String.eqb_neq f "freespaced") NF). exact X. }
  split; [apply G; try discriminate; reflexivity|]. split; [apply G; try discriminate; reflexivity|]. split; [|split].
  - intros k v J X. cbn in J. assert (Z : forall a b, KText a = KText b -> a = b) by (intros; congruence).
    repeat (destruct J as [<-|J]; [apply G; try discriminate; match goal with |- _ = Some ?v => erewrite (A _ _) in X by (cbn; auto 10) end; apply Z in X; subst v; reflexivity|]).
    destruct J.
  - intros X. assert (v6 = "no") by (rewrite (A "freespace" v6) in X by (cbn; auto 10); congruence). subst v6. rewrite (N6 eq_refl), app_nil_r in R.
    apply R. reflexivity.
  - intros X. assert (v6 = "yes") by (rewrite (A "freespace" v6) in X by (cbn; auto 10); congruence). subst v6. specialize (Y6 eq_refl).
    destruct (free_space env 0) as [n|]; [destruct Y6 as (-> & d & ->); split; [reflexivity|]|subst l]; apply R; reflexivity.
Qed.
Lemma fair_built : forall E c info b e, fair E -> bi_freespace info = 0 -> keys (cl_global c) = keys (cl_global sar_cli) -> almost_valid c ->
  beacon_new (ce_sys E) zero_beacon (sf_setglobal sar "beacon" c) info <> Ret (b, Some e).
Proof.
  intros E c info b e (_ & _ & GW & FS) I0 K V H. destruct (new_items _ c info b (Some e) K V H) as (items & _ & _ & B & _).
  unfold beacon_built in B. rewrite GW, I0 in B. destruct (asks_space _ _); [|destruct B as (b' & B & _); inversion B].
  destruct (free_space (ce_sys E) 0) as [n|] eqn:F; [|destruct B as (b' & B & _); inversion B].
  specialize (FS n eq_refl). destruct (space_descriptor n); [destruct B as (b' & B & _); inversion B|congruence].
Qed.

(** ** One step of a beacon command *)

(** The texts of the addresses still to do; [None]: nothing is sent for this *)
Definition item_text (x : bact) : option string :=
  match x with BHost true _ => None | BHost false t => Some t | BGroup t => Some t | BLoop _ _ _ => None end.
Definition item_to (r : string -> option udpaddr) (x : bact) : option udpaddr :=
  match item_text x with Some t => address r t | None => None end.
Definition is_loop (x : bact) : bool := match x with BLoop _ _ _ => true | _ => false end.

Inductive sstep (E : cenv) (s : ystate) (i : nat) (rest : list bact) : bact -> list bact -> list (udpaddr * list byte) -> Prop :=
| ss_skip : forall x, is_loop x = false -> (item_to (ce_resolve E) x = None \/ ~ fair E) -> sstep E s i rest x rest []
| ss_begin : forall x to b f, is_loop x = false -> item_to (ce_resolve E) x = Some to -> beacon_encode b = Ret (Frame f) -> beacon_of E to (y_cli s) f ->
    sstep E s i rest x (BLoop to b (bc_count (y_beacon s)) :: rest) []
| ss_done : forall to b, sstep E s i rest (BLoop to b 0) rest []
| ss_refused : forall to b more e, beacon_encode b = Ret (EncErr e) -> sstep E s i rest (BLoop to b more) rest []
| ss_fails : forall to b more, ~ fair E -> sstep E s i rest (BLoop to b more) rest []
| ss_sent : forall to b more f, more <> 0 -> beacon_encode b = Ret (Frame f) ->
    sstep E s i rest (BLoop to b more) (BLoop to b (more - 1) :: rest) [(to, f)].

Lemma frames_send : forall s i to f, frames_by i (y_send s i to f) = (frames_by i s ++ [(to, f)])%list.
Proof. intros s i to f. unfold frames_by. cbn [y_send y_sent]. rewrite filter_app, map_app. cbn [filter fst snd]. rewrite Nat.eqb_refl. reflexivity. Qed.

Lemma begin_cases : forall E s i to r l, inv s -> almost_valid (y_cli s) -> held s i -> begin_beacons E (y_beacon s) to = Ret (r, l) ->
  (r = None /\ ~ fair E) \/
  exists b f, r = Some (BLoop to b (bc_count (y_beacon s))) /\ beacon_encode b = Ret (Frame f) /\ beacon_of E to (y_cli s) f.
Proof.
  intros E s i to r l [IK _ _ _ IB _] V HD H. destruct (IB i HD) as (F & _). unfold begin_beacons in H.
  destruct (ce_dial E to) as [local|] eqn:DI; [|inversion H; subst; left; split; [reflexivity|intros (_ & X & _); exact (X to DI)]].
  rewrite F in H. set (info := {| bi_freespace := 0; bi_eid := local ++ "-" ++ itoa (ce_pid E) |}) in *.
  destruct (beacon_new (ce_sys E) zero_beacon (sf_setglobal sar "beacon" (y_cli s)) info) as [(b & e)| |] eqn:N; [|discriminate..]. cbn [obind] in H.
  destruct e as [e|]; inversion H; subst.
  - left. split; [reflexivity|]. intros FE. exact (fair_built E (y_cli s) info b e FE eq_refl IK V N).
  - right. destruct (built_of (ce_sys E) (y_cli s) info b eq_refl IK V N) as (h & w & n & EN & BO). exists b. eexists. split; [reflexivity|]. split; [exact EN|].
    exists local, h, w, n. split; [exact DI|]. split; [reflexivity|exact BO].
Qed.
Lemma step_cases : forall E s i x rest s', inv s -> almost_valid (y_cli s) -> task_is s i (TBeacon (x :: rest)) -> beacon_step E s i x rest = Ret s' ->
  exists todo sent, sstep E s i rest x todo sent /\ task_is s' i (TBeacon todo) /\ frames_by i s' = (frames_by i s ++ sent)%list /\
    (forall j, j <> i -> frames_by j s' = frames_by j s) /\ (forall j, j <> i -> nth_error (y_tasks s') j = nth_error (y_tasks s) j).
Proof.
  intros E s i x rest s' I V T H. assert (HD : held s i) by (exists (x :: rest); exact T). unfold task_is in *.
  assert (SN : forall t, nth_error (set_nth (y_tasks s) i t) i = Some t) by (intros; eapply set_nth_same; eauto).
  assert (SO : forall t j, j <> i -> nth_error (set_nth (y_tasks s) i t) j = nth_error (y_tasks s) j) by (intros; apply set_nth_other; auto).
  assert (Q : forall todo, sstep E s i rest x todo [] -> y_sent s' = y_sent s -> y_tasks s' = set_nth (y_tasks s) i (TBeacon todo) ->
    exists todo sent, sstep E s i rest x todo sent /\ nth_error (y_tasks s') i = Some (TBeacon todo) /\ frames_by i s' = (frames_by i s ++ sent)%list /\
    (forall j, j <> i -> frames_by j s' = frames_by j s) /\ (forall j, j <> i -> nth_error (y_tasks s') j = nth_error (y_tasks s) j)).
  { intros todo S Y Z. exists todo, []. unfold frames_by. rewrite Y, Z, app_nil_r. repeat split; auto. }
  destruct x as [off text|text|to b more]; cbn [beacon_step] in H.
  - destruct (udp_address (ce_resolve E) text) as ([to|] & [e|]) eqn:U.
    1,3,4: inversion H; subst; apply (Q rest); auto; apply ss_skip; [reflexivity|left; unfold item_to, item_text, address; destruct off; [reflexivity|now rewrite U]].
    destruct off; [inversion H; subst; apply (Q rest); auto; apply ss_skip; [reflexivity|left; reflexivity]|].
    destruct (begin_beacons E (y_beacon s) to) as [(r & l)| |] eqn:B; [|discriminate..]. cbn [obind] in H. inversion H; subst.
    apply (Q (then_do r rest)); auto. destruct (begin_cases E s i to r l I V HD B) as [(-> & NF)|(b & f & -> & EN & BO)].
    + apply ss_skip; [reflexivity|auto].
    + cbn [then_do]. eapply ss_begin; eauto. unfold item_to, item_text, address. now rewrite U.
  - destruct (udp_address (ce_resolve E) text) as ([to|] & [e|]) eqn:U.
    1,3,4: inversion H; subst; apply (Q rest); auto; apply ss_skip; [reflexivity|left; unfold item_to, item_text, address; now rewrite U].
    destruct (begin_beacons E (y_beacon s) to) as [(r & l)| |] eqn:B; [|discriminate..]. cbn [obind] in H. inversion H; subst.
    apply (Q (then_do r rest)); auto. destruct (begin_cases E s i to r l I V HD B) as [(-> & NF)|(b & f & -> & EN & BO)].
    + apply ss_skip; [reflexivity|auto].
    + cbn [then_do]. eapply ss_begin; eauto. unfold item_to, item_text, address. now rewrite U.
  - destruct (N.eqb_spec more 0) as [->|NZ]; [inversion H; subst; apply (Q rest); auto; apply ss_done|].
    destruct (beacon_encode b) as [[f|e]| |] eqn:EN; [..|discriminate|discriminate]; cbn [obind] in H.
    + destruct (ce_write E) eqn:CW.
      * destruct (beacon_shortprint_ok b); [|discriminate..]. cbn [obind] in H. inversion H; subst.
        exists (BLoop to b (more - 1) :: rest), [(to, f)]. split; [apply ss_sent; auto|]. cbn [y_show become y_with_tasks y_tasks]. split; [apply SN|].
        split; [exact (frames_send s i to f)|]. split; [|auto].
        intros j NJ. unfold frames_by. cbn [y_show become y_with_tasks y_send y_sent]. rewrite filter_app, map_app. cbn [filter fst snd].
        rewrite (proj2 (Nat.eqb_neq i j)) by auto. apply app_nil_r.
      * inversion H; subst. apply (Q rest); auto. apply ss_fails. intros (X & _). congruence.
    + inversion H; subst. apply (Q rest); auto. eapply ss_refused; eauto.
Qed.
(** Steps of others, and lines, leave a beacon command alone *)
Lemma others : forall s l s' i todo, ystep s l = Some s' -> task_is s i (TBeacon todo) -> (forall E, l <> YStep E i) ->
  task_is s' i (TBeacon todo) /\ frames_by i s' = frames_by i s.
Proof.
  intros s l s' i todo H T NL. unfold task_is in *. unfold ystep in H. destruct (y_dead s); [discriminate|]. destruct l as [line|E j|fs ps]; [| |inj H; cbn; auto].
  - apply Some_inj in H. subst s'. destruct (get_line line) as [(g & l)| |]; cbn [obind or_die]; auto. destruct g; auto. cbn. split; [|reflexivity].
    rewrite nth_error_app1; auto. apply nth_error_Some. congruence.
  - assert (N : j <> i) by (intros ->; exact (NL E eq_refl)). apply step_moved in H. unfold frames_by. destruct H; cbn; rewrite ?set_nth_other by auto; auto.
    + rewrite H6, set_nth_other by auto. split; [exact T|]. destruct H5. now rewrite k_sent.
    + rewrite H6. rewrite nth_error_app1; [rewrite set_nth_other by auto; rewrite H3; auto|]. rewrite set_nth_length. apply nth_error_Some. congruence.
    + rewrite H2, set_nth_other by auto. split; [exact T|]. destruct H1. now rewrite k_sent.
    + destruct (beacon_step_kept _ _ _ _ _ _ H0) as (_ & _ & _ & _ & _ & _ & _ & _ & _ & t & X). rewrite X, set_nth_other by auto. split; [exact T|].
      destruct x as [off text|text|to b more]; cbn [beacon_step] in H0.
      * destruct (udp_address (ce_resolve E) text) as ([to|] & [e|]); try (inversion H0; subst; reflexivity). destruct off; [inversion H0; subst; reflexivity|].
        destruct (begin_beacons E (y_beacon s) to) as [(r & l)| |]; [|discriminate..]. cbn [obind] in H0. inversion H0; subst. reflexivity.
      * destruct (udp_address (ce_resolve E) text) as ([to|] & [e|]); try (inversion H0; subst; reflexivity).
        destruct (begin_beacons E (y_beacon s) to) as [(r & l)| |]; [|discriminate..]. cbn [obind] in H0. inversion H0; subst. reflexivity.
      * destruct (more =? 0); [inversion H0; subst; reflexivity|]. destruct (beacon_encode b) as [[f|e]| |]; [..|discriminate|discriminate]; cbn [obind] in H0; [|inversion H0; subst; reflexivity].
        destruct (ce_write E); [|inversion H0; subst; reflexivity]. destruct (beacon_shortprint_ok b); [|discriminate..]. cbn [obind] in H0. inversion H0; subst.
        cbn [y_show become y_with_tasks y_send y_sent]. rewrite filter_app, map_app. cbn [filter fst snd]. rewrite (proj2 (Nat.eqb_neq j i)) by auto. apply app_nil_r.
Qed.

Lemma frames_moved : forall s l s' i t, ystep s l = Some s' -> nth_error (y_tasks s) i = t -> (forall x todo, t <> Some (TBeacon (x :: todo))) ->
  frames_by i s' = frames_by i s.
Proof.
  intros s l s' i t H T NB. unfold ystep in H. destruct (y_dead s); [discriminate|]. destruct l as [line|E j|fs ps]; [| |inj H; reflexivity].
  - apply Some_inj in H. subst s'. destruct (get_line line) as [(g & l)| |]; cbn [obind or_die]; auto. destruct g; auto.
  - apply step_moved in H. unfold frames_by. destruct H; cbn; auto.
    + destruct H5. now rewrite k_sent.
    + now rewrite H3.
    + destruct H1. now rewrite k_sent.
    + assert (N : j <> i) by (intros ->; apply (NB x rest); congruence).
      destruct x as [off text|text|to b more]; cbn [beacon_step] in H0.
      * destruct (udp_address (ce_resolve E) text) as ([to|] & [e|]); try (inversion H0; subst; reflexivity). destruct off; [inversion H0; subst; reflexivity|].
        destruct (begin_beacons E (y_beacon s) to) as [(r & l)| |]; [|discriminate..]. cbn [obind] in H0. inversion H0; subst. reflexivity.
      * destruct (udp_address (ce_resolve E) text) as ([to|] & [e|]); try (inversion H0; subst; reflexivity).
        destruct (begin_beacons E (y_beacon s) to) as [(r & l)| |]; [|discriminate..]. cbn [obind] in H0. inversion H0; subst. reflexivity.
      * destruct (more =? 0); [inversion H0; subst; reflexivity|]. destruct (beacon_encode b) as [[f|e]| |]; [..|discriminate|discriminate]; cbn [obind] in H0; [|inversion H0; subst; reflexivity].
        destruct (ce_write E); [|inversion H0; subst; reflexivity]. destruct (beacon_shortprint_ok b); [|discriminate..]. cbn [obind] in H0. inversion H0; subst.
        cbn [y_show become y_with_tasks y_send y_sent]. rewrite filter_app, map_app. cbn [filter fst snd]. rewrite (proj2 (Nat.eqb_neq j i)) by auto. apply app_nil_r.
Qed.
Lemma frames_end : forall s l s' i, ystep s l = Some s' -> task_is s i TEnd -> frames_by i s' = frames_by i s.
Proof. intros s l s' i H T. eapply frames_moved; [exact H|exact T|discriminate]. Qed.

(** ** Progress of a beacon command *)
Section Prog.
  Variable (ok : cenv -> Prop) (c : cliflags) (Q : bact -> list (udpaddr * list byte) -> Prop).
  Let cnt := cl_bcount c.
  Definition begun (x : bact) (to : udpaddr) (f : list byte) : Prop := exists E, ok E /\ item_to (ce_resolve E) x = Some to /\ beacon_of E to c f.
  Variable (Qskip : forall E x, ok E -> item_to (ce_resolve E) x = None \/ ~ fair E -> Q x [])
           (Qall : forall x to f, begun x to f -> Q x (repeat (to, f) (N.to_nat cnt)))
           (Qfail : forall E x to f k, begun x to f -> ok E -> ~ fair E -> (k <= N.to_nat cnt)%nat -> Q x (repeat (to, f) k)).
  Inductive prog : list bact -> list bact -> list (udpaddr * list byte) -> Prop :=
  | pg_between : forall done rest bursts, Forall (fun x => is_loop x = false) rest -> Forall2 Q done bursts -> prog (done ++ rest) rest (concat bursts)
  | pg_in : forall done x rest bursts to b more f, Forall (fun x => is_loop x = false) rest -> Forall2 Q done bursts -> begun x to f -> beacon_encode b = Ret (Frame f) -> more <= cnt ->
      prog (done ++ x :: rest) (BLoop to b more :: rest) (concat bursts ++ repeat (to, f) (N.to_nat (cnt - more))).
  Lemma concat_snoc : forall {A} (l : list (list A)) x, (concat l ++ x)%list = concat (l ++ [x]).
  Proof. intros A l x. rewrite concat_app. cbn [concat]. now rewrite app_nil_r. Qed.
  Lemma prog_step : forall todo0 E s i rest x todo sent sent', ok E -> y_cli s = c -> bc_count (y_beacon s) = cnt ->
    prog todo0 (x :: rest) sent -> sstep E s i rest x todo sent' -> prog todo0 todo (sent ++ sent').
  Proof.
    intros todo0 E s i rest x todo sent sent' O C CN P S. inversion P; subst.
    - inversion H; subst. assert (D : forall (l : list bact) (a : bact) l', (l ++ a :: l')%list = ((l ++ [a]) ++ l')%list) by (intros; now rewrite <- app_assoc).
      assert (SK : Q x [] -> prog (done ++ x :: rest) rest (concat bursts ++ [])).
      { intros q. rewrite D, concat_snoc. apply pg_between; [assumption|]. apply Forall2_app; auto. }
      inversion S; subst; try discriminate.
      + apply SK. eapply Qskip; eauto.
      + replace (concat bursts ++ [])%list with (concat bursts ++ repeat (to, f) (N.to_nat (cnt - cnt)))%list by now rewrite N.sub_diag.
        rewrite CN. apply pg_in; auto; [|lia]. exists E. rewrite C in *. auto.
    - assert (D : forall (l : list bact) (a : bact) l', (l ++ a :: l')%list = ((l ++ [a]) ++ l')%list) by (intros; now rewrite <- app_assoc).
      assert (SK : forall l, Q x0 l -> prog (done ++ x0 :: rest) rest ((concat bursts ++ l) ++ [])).
      { intros l q. rewrite D, app_nil_r, concat_snoc. apply pg_between; [assumption|]. apply Forall2_app; auto. }
      inversion S; subst; try discriminate.
      + apply SK. rewrite N.sub_0_r. now apply Qall.
      + congruence.
      + apply SK. eapply Qfail; eauto. lia.
      + rewrite <- app_assoc. assert (f0 = f) by congruence. subst f0.
        replace (repeat (to, f) (N.to_nat (cnt - more)) ++ [(to, f)])%list with (repeat (to, f) (N.to_nat (cnt - (more - 1)))); [apply pg_in; auto; lia|].
        replace (N.to_nat (cnt - (more - 1))) with (N.to_nat (cnt - more) + 1)%nat by lia. now rewrite repeat_app.
  Qed.

  Definition going (todo0 : list bact) (i : nat) (s : ystate) : Prop :=
    (exists todo, task_is s i (TBeacon todo) /\ y_cli s = c /\ bc_count (y_beacon s) = cnt /\ prog todo0 todo (frames_by i s)) \/
    (task_is s i TEnd /\ prog todo0 [] (frames_by i s)).
  Lemma going_step : forall todo0 i s l s', reachable s -> ystep s l = Some s' -> (forall E, l = YStep E i -> ok E) -> going todo0 i s -> going todo0 i s'.
  Proof.
    intros todo0 i s l s' R Y O G. pose proof (reachable_inv _ R) as I. pose proof (reachable_almost _ R) as V.
    destruct G as [(todo & T & C & CN & P)|(T & P)].
    - destruct (lock_step _ _ _ _ _ I Y T) as (C' & CN' & _).
      assert (OT : (forall E, l <> YStep E i) -> going todo0 i s').
      { intros NE. destruct (others _ _ _ _ _ Y T NE) as (T' & F'). left. exists todo. rewrite F'. split; [exact T'|]. split; [congruence|]. split; [congruence|exact P]. }
      destruct l as [line|E j|fs ps]; [apply OT; discriminate| |apply OT; discriminate]. destruct (Nat.eq_dec j i) as [->|NJ]; [|apply OT; congruence]. clear OT.
      specialize (O E eq_refl). unfold ystep in Y. destruct (y_dead s); [discriminate|]. unfold task_step in Y. pose proof T as T0. unfold task_is in T. rewrite T in Y.
      destruct todo as [|x rest]; apply Some_inj in Y; subst s'.
      + right. split; [cbn; eapply set_nth_same; eauto|exact P].
      + destruct (beacon_step E s i x rest) as [s1| |] eqn:B; cbn [or_die].
        * destruct (step_cases E s i x rest s1 I V T0 B) as (todo & sent & S & T' & F' & _). left. exists todo. rewrite F'.
          split; [exact T'|]. cbn [or_die] in C', CN'. split; [congruence|]. split; [congruence|]. eapply prog_step; eauto.
        * left. exists (x :: rest). split; [exact T|]. auto.
        * left. exists (x :: rest). split; [exact T|]. auto.
    - right. split; [eapply stuck_step; eauto|]. rewrite (frames_end _ _ _ _ Y T). exact P.
  Qed.
  Lemma going_run : forall todo0 i ls s, reachable s -> only_in ok i ls -> going todo0 i s -> going todo0 i (yrun s ls).
  Proof.
    intros todo0 i ls. induction ls as [|l ls IH]; intros s R O G; [exact G|]. cbn [yrun]. assert (O' : only_in ok i ls) by (intros E IE; apply O; right; exact IE).
    pose proof (reachable_run s [l] R) as R1. cbn [yrun] in R1. destruct (ystep s l) as [s1|] eqn:Y; apply IH; auto.
    apply (going_step todo0 i s l s1 R Y); [|exact G]. intros E EQ. apply O. left. now symmetry.
  Qed.
End Prog.

(** ** The theorems *)
Lemma F2_impl : forall {A B} (P Q : A -> B -> Prop) l l', (forall x y, P x y -> Q x y) -> Forall2 P l l' -> Forall2 Q l l'.
Proof. intros A B P Q l l' I H. induction H; constructor; auto. Qed.
Lemma cmd_beacon_todo : forall c b args b' l todo, cmd_beacon c b ("beacon" :: args) = (b', l, todo) ->
  bc_count b' = cl_bcount c /\ Forall (fun x => is_loop x = false) todo /\
  exists todo1, (todo = todo1 \/ (beacon_targets c args = [] /\ todo1 = [] /\ Forall (fun x => item_text x = None) todo)) /\
    map item_text todo1 = map Some (beacon_targets c args).
Proof.
  intros c b args b' l todo H. destruct args as [|a [|a2 rest]]; cbn [cmd_beacon] in H.
  - assert (todo = [] /\ bc_count b' = cl_bcount c) as (-> & X) by (destruct (_ && _); inversion H; subst; auto). split; [exact X|]. split; [constructor|]. exists []. auto.
  - unfold beacon_targets. destruct (String.eqb a "?"); [inversion H; subst; split; [reflexivity|]; split; [constructor|]; exists []; auto|].
    destruct (String.eqb a "off"); [inversion H; subst; split; [reflexivity|]; split; [constructor|]; exists []; auto|].
    destruct (String.eqb a "v4"); [inversion H; subst; split; [reflexivity|]; split; [repeat constructor|]; eexists; split; [left; reflexivity|reflexivity]|].
    destruct (String.eqb a "v6"); [inversion H; subst; split; [reflexivity|]; split; [repeat constructor|]; eexists; split; [left; reflexivity|reflexivity]|].
    inversion H; subst; split; [reflexivity|]; split; [repeat constructor|]; eexists; split; [left; reflexivity|reflexivity].
  - apply pair_equal_spec in H as (H & <-). apply pair_equal_spec in H as (<- & _). split; [reflexivity|].
    split; [change (BHost (String.eqb a "off") a2 :: map (BHost (String.eqb a "off")) rest) with (map (BHost (String.eqb a "off")) (a2 :: rest)); apply Forall_forall; intros x IX; apply in_map_iff in IX as (y & <- & _); reflexivity|].
    unfold beacon_targets. destruct (String.eqb a "off").
    + exists []. split; [right; split; [reflexivity|]; split; [reflexivity|]|reflexivity].
      apply (proj2 (Forall_forall _ (map (BHost true) (a2 :: rest)))). intros x IX. apply in_map_iff in IX as (y & <- & _). reflexivity.
    + eexists. split; [left; reflexivity|]. change (map item_text (map (BHost false) (a2 :: rest)) = map Some (a2 :: rest)). rewrite map_map. reflexivity.
Qed.

(** A goroutine that has not begun has sent nothing *)
Definition unsent (s : ystate) : Prop := forall i, (forall todo, ~ task_is s i (TBeacon todo)) -> ~ task_is s i TEnd -> frames_by i s = [].
Lemma task_after : forall s l s' i, inv s -> ystep s l = Some s' -> (exists todo, task_is s i (TBeacon todo)) \/ task_is s i TEnd ->
  (exists todo, task_is s' i (TBeacon todo)) \/ task_is s' i TEnd.
Proof. intros s l s' i I Y [(todo & T)|T]; [eapply lock_task; eauto|right; eapply stuck_step; eauto]. Qed.
Lemma unsent_step : forall s l s', inv s -> ystep s l = Some s' -> unsent s -> unsent s'.
Proof.
  intros s l s' I Y U i NB NE.
  assert (X : ~ ((exists todo, task_is s i (TBeacon todo)) \/ task_is s i TEnd)).
  { intros X. destruct (task_after _ _ _ _ I Y X) as [(todo & T)|T]; [exact (NB todo T)|exact (NE T)]. }
  rewrite (frames_moved s l s' i _ Y eq_refl); [apply U; [intros todo T; apply X; left; eauto|intros T; apply X; auto]|].
  intros x todo T. apply X. left. exists (x :: todo). exact T.
Qed.
Lemma reachable_unsent : forall s, reachable s -> unsent s.
Proof.
  intros s (fs & cwd & peers & ls & ->). assert (I : inv (ystart fs cwd peers)) by apply start_inv.
  assert (U : unsent (ystart fs cwd peers)) by (intros i _ _; reflexivity). revert I U. generalize (ystart fs cwd peers). induction ls as [|l ls IH]; intros s I U; [exact U|].
  cbn [yrun]. destruct (ystep s l) as [s1|] eqn:Y; apply IH; auto; [eapply step_inv; eauto|eapply unsent_step; eauto].
Qed.

(** A beacon command at its beginning *)
Lemma begins : forall s E i args s', reachable s -> task_is s i (TStart ("beacon" :: args)) -> ystep s (YStep E i) = Some s' ->
  exists b l todo, cmd_beacon (y_cli s) (y_beacon s) ("beacon" :: args) = (b, l, todo) /\ task_is s' i (TBeacon todo) /\ y_cli s' = y_cli s /\
    bc_count (y_beacon s') = cl_bcount (y_cli s) /\ frames_by i s' = [].
Proof.
  intros s E i args s' R T Y. pose proof (reachable_unsent _ R i) as U. unfold ystep in Y. destruct (y_dead s); [discriminate|].
  unfold task_step in Y. unfold task_is in *. rewrite T in Y. unfold start_step in Y.
  change (lookup "beacon" setting_commands) with (@None (cliflags -> list string -> setting)) in Y.
  change (lookup "beacon" transfer_commands) with (@None tcommand) in Y. change (String.eqb "beacon" "beacon") with true in Y. cbv iota in Y.
  destruct (existsb holds_climu (y_tasks s)); [discriminate|]. destruct (cmd_beacon (y_cli s) (y_beacon s) ("beacon" :: args)) as ((b & l) & todo) eqn:C. apply Some_inj in Y. subst s'.
  exists b, l, todo. split; [reflexivity|]. split; [cbn; eapply set_nth_same; eauto|]. split; [reflexivity|].
  split; [exact (proj1 (cmd_beacon_todo _ _ _ _ _ _ C))|]. apply U; rewrite T; [intros; discriminate|discriminate].
Qed.
Lemma item_address : forall r x text, item_text x = Some text -> item_to r x = address r text.
Proof. intros r x text H. unfold item_to. now rewrite H. Qed.

(** The progress of a command as a list of what was sent for each text *)
Lemma texts_of : forall (P : string -> list (udpaddr * list byte) -> Prop) done bursts texts,
  Forall2 (fun x b => forall text, item_text x = Some text -> P text b) done bursts -> map item_text done = map Some texts -> Forall2 P texts bursts.
Proof.
  intros P done bursts texts H. revert texts. induction H; intros [|t texts] M; cbn in M; try discriminate; constructor; inversion M; auto.
Qed.
Lemma silent_of : forall done (bursts : list (list (udpaddr * list byte))),
  Forall2 (fun x b => item_text x = None -> b = []) done bursts -> Forall (fun x => item_text x = None) done -> concat bursts = [].
Proof. intros done bursts H F. induction H; [reflexivity|]. inversion F; subst. cbn. rewrite H by assumption. auto. Qed.
Lemma map_prefix : forall (l r : list bact) (t : list string), map item_text (l ++ r) = map Some t -> exists t1 t2, t = (t1 ++ t2)%list /\ map item_text l = map Some t1 /\ map item_text r = map Some t2.
Proof.
  induction l as [|x l IH]; intros r t H; [exists [], t; auto|]. destruct t as [|t0 t]; cbn in H; [discriminate|]. inversion H as [[A B]].
  apply IH in B as (t1 & t2 & -> & B1 & B2). exists (t0 :: t1), t2. cbn. rewrite A, B1. auto.
Qed.

(** C91: whatever happens, a beacon command sends, for each of its addresses in turn, at
    most the set number of copies of one beacon that says what the settings say, and
    nothing else *)
Lemma c91_at_most : forall s E i args s' ls, reachable s -> task_is s i (TStart ("beacon" :: args)) -> ystep s (YStep E i) = Some s' ->
  exists texts more bursts, beacon_targets (y_cli s) args = (texts ++ more)%list /\
    Forall2 (some_sent (fun E => In (YStep E i) ls) (y_cli s)) texts bursts /\ frames_by i (yrun s' ls) = concat bursts.
Proof.
  intros s E i args s' ls R T Y. destruct (begins _ _ _ _ _ R T Y) as (b & l & todo & C & T' & C' & CN & F).
  destruct (cmd_beacon_todo _ _ _ _ _ _ C) as (_ & NL & todo1 & A & M).
  assert (R' : reachable s') by (pose proof (reachable_run s [YStep E i] R) as X; cbn [yrun] in X; now rewrite Y in X).
  set (ok := fun E => In (YStep E i) ls). set (c := y_cli s) in *.
  set (Q := fun x b => (item_text x = None -> b = []) /\ forall text, item_text x = Some text -> some_sent ok c text b).
  assert (G : going ok c Q todo i s').
  { left. exists todo. rewrite F. repeat split; auto. apply (pg_between ok c Q [] todo []); auto. }
  assert (OK : only_in ok i ls) by (intros e H; exact H).
  assert (SK : forall E x, ok E -> item_to (ce_resolve E) x = None \/ ~ fair E -> Q x []).
  { intros e x _ _. split; [auto|left; reflexivity]. }
  assert (AL : forall x to f, begun ok c x to f -> Q x (repeat (to, f) (N.to_nat (cl_bcount c)))).
  { intros x to f (e & OK' & IT & BO). split; [intros N; unfold item_to in IT; rewrite N in IT; discriminate|]. intros text TX. right. rewrite (item_address _ _ _ TX) in IT.
       exists e, to, f, (N.to_nat (cl_bcount c)). auto. }
  assert (FA : forall E x to f k, begun ok c x to f -> ok E -> ~ fair E -> (k <= N.to_nat (cl_bcount c))%nat -> Q x (repeat (to, f) k)).
  { intros e x to f k (e' & OK' & IT & BO) _ _ LE. split; [intros N; unfold item_to in IT; rewrite N in IT; discriminate|]. intros text TX. right. rewrite (item_address _ _ _ TX) in IT.
       exists e', to, f, k. auto. }
  apply (going_run ok c Q SK AL FA todo i ls s' R' OK) in G.
  assert (P : exists todo', prog ok c Q todo todo' (frames_by i (yrun s' ls))) by (destruct G as [(t & _ & _ & _ & P)|(_ & P)]; eauto). clear G. destruct P as (todo' & P).
  assert (H : exists done rest bursts, todo = (done ++ rest)%list /\ Forall2 Q done bursts /\ frames_by i (yrun s' ls) = concat bursts).
  { inversion P; subst; [eauto 6|]. exists (done ++ [x])%list, rest, (bursts ++ [repeat (to, f) (N.to_nat (cl_bcount c - more))])%list.
    rewrite <- app_assoc. split; [reflexivity|]. split; [|apply concat_snoc]. apply Forall2_app; [assumption|]. constructor; [|constructor].
    match goal with H : begun _ _ _ _ _ |- _ => destruct H as (e & OK' & IT & BO) end. split; [intros N; unfold item_to in IT; rewrite N in IT; discriminate|]. intros text TX. right. rewrite (item_address _ _ _ TX) in IT.
    exists e, to, f, (N.to_nat (cl_bcount c - more)). repeat split; auto. lia. }
  destruct H as (done & rest & bursts & D & FQ & FR). rewrite FR. destruct A as [A|(Z & _ & N)].
  - subst todo1. rewrite D in M. destruct (map_prefix _ _ _ M) as (t1 & t2 & X & M1 & _). exists t1, t2, bursts. split; [exact X|]. split; [|reflexivity].
    eapply texts_of; [|exact M1]. eapply F2_impl; [|exact FQ]. intros x y (_ & H). exact H.
  - exists [], [], []. rewrite Z. split; [reflexivity|]. split; [constructor|]. cbn. eapply silent_of; [|].
    + eapply F2_impl; [|exact FQ]. intros x y (H & _). exact H.
    + rewrite D in N. apply Forall_app in N. tauto.
Qed.
(** C91: if the system lets it and its command has finished, it has sent exactly the set
    number of copies to each of its addresses, and nothing else *)
Lemma c91_exactly : forall (ok : cenv -> Prop) s E i args s' ls r, (forall E, ok E -> fair E /\ ce_resolve E = r) -> reachable s -> task_is s i (TStart ("beacon" :: args)) -> ystep s (YStep E i) = Some s' ->
  only_in ok i ls -> task_is (yrun s' ls) i TEnd ->
  exists bursts, Forall2 (all_sent ok r (y_cli s)) (beacon_targets (y_cli s) args) bursts /\ frames_by i (yrun s' ls) = concat bursts.
Proof.
  intros ok s E i args s' ls r FO R T Y OK TE. destruct (begins _ _ _ _ _ R T Y) as (b & l & todo & C & T' & C' & CN & F).
  destruct (cmd_beacon_todo _ _ _ _ _ _ C) as (_ & NL & todo1 & A & M).
  assert (R' : reachable s') by (pose proof (reachable_run s [YStep E i] R) as X; cbn [yrun] in X; now rewrite Y in X).
  set (c := y_cli s) in *.
  set (Q := fun x b => (item_text x = None -> b = []) /\ forall text, item_text x = Some text -> all_sent ok r c text b).
  assert (G : going ok c Q todo i s').
  { left. exists todo. rewrite F. repeat split; auto. apply (pg_between ok c Q [] todo []); auto. }
  assert (SK : forall E x, ok E -> item_to (ce_resolve E) x = None \/ ~ fair E -> Q x []).
  { intros e x O [N|N]; destruct (FO e O) as (FE & RE); [|contradiction]. split; [auto|]. intros text TX. unfold all_sent. rewrite (item_address _ _ _ TX), RE in N. now rewrite N. }
  assert (AL : forall x to f, begun ok c x to f -> Q x (repeat (to, f) (N.to_nat (cl_bcount c)))).
  { intros x to f (e & O & IT & BO). destruct (FO e O) as (FE & RE). split; [intros N; unfold item_to in IT; rewrite N in IT; discriminate|]. intros text TX. rewrite (item_address _ _ _ TX), RE in IT.
       unfold all_sent. rewrite IT. exists e, f. auto. }
  assert (FA : forall E x to f k, begun ok c x to f -> ok E -> ~ fair E -> (k <= N.to_nat (cl_bcount c))%nat -> Q x (repeat (to, f) k)).
  { intros e x to f k _ O NF. destruct (FO e O) as (FE & _). contradiction. }
  apply (going_run ok c Q SK AL FA todo i ls s' R' OK) in G.
  destruct G as [(t & X & _)|(_ & P)]; [unfold task_is in *; congruence|].
  assert (H : exists bursts, Forall2 Q todo bursts /\ frames_by i (yrun s' ls) = concat bursts).
  { inversion P; subst. exists bursts. rewrite app_nil_r. auto. }
  destruct H as (bursts & FQ & FR). rewrite FR. destruct A as [A|(Z & _ & N)].
  - subst todo1. exists bursts. split; [|reflexivity].
    eapply texts_of; [|exact M]. eapply F2_impl; [|exact FQ]. intros x y (_ & H). exact H.
  - exists []. rewrite Z. split; [constructor|]. cbn. eapply silent_of; [|exact N]. eapply F2_impl; [|exact FQ]. intros x y (H & _). exact H.
Qed.

Lemma begun_moved : forall s l s' i todo, ystep s l = Some s' -> task_is s' i (TBeacon todo) ->
  (exists todo0, task_is s i (TBeacon todo0)) \/ exists args, task_is s i (TStart ("beacon" :: args)).
Proof.
  intros s l s' i todo H T. unfold task_is in *. unfold ystep in H. destruct (y_dead s); [discriminate|]. destruct l as [line|E j|fs ps]; [| |inj H; cbn in T; eauto].
  - apply Some_inj in H. subst s'. destruct (get_line line) as [(g & l)| |]; cbn [obind or_die] in T; [destruct g; cbn in T|..]; eauto.
    left. exists todo. destruct (Nat.lt_ge_cases i (length (y_tasks s))); [rewrite nth_error_app1 in T; auto|].
    rewrite nth_error_app2 in T by auto. destruct (i - length (y_tasks s))%nat as [|[|]]; cbn in T; discriminate.
  - apply step_moved in H.
    assert (G : forall t2, nth_error (set_nth (y_tasks s) j t2) i = Some (TBeacon todo) -> (j = i /\ t2 = TBeacon todo) \/ exists t, nth_error (y_tasks s) i = Some (TBeacon t)).
    { intros t2 X. apply set_nth_cases in X as [(-> & ->)|(_ & X)]; eauto. }
    destruct H; eauto.
    + cbn in T. apply G in T as [(_ & ?)|?]; [discriminate|auto].
    + cbn in T. apply G in T as [(-> & ?)|?]; eauto.
    + rewrite H6 in T. apply G in T as [(_ & ->)|?]; [exfalso; eapply plain_not_held; eauto|auto].
    + rewrite H6 in T. destruct (Nat.lt_ge_cases i (length (y_tasks s))).
      * rewrite nth_error_app1 in T by (now rewrite set_nth_length). apply G in T as [(_ & ?)|?]; [discriminate|auto].
      * rewrite nth_error_app2 in T by (now rewrite set_nth_length). rewrite set_nth_length in T. destruct (i - length (y_tasks s))%nat as [|[|]]; cbn in T; discriminate.
    + rewrite H2 in T. apply G in T as [(_ & ?)|?]; [discriminate|auto].
    + destruct (beacon_step_kept _ _ _ _ _ _ H0) as (_ & _ & _ & _ & _ & _ & _ & _ & _ & t & X). rewrite X in T. apply G in T as [(-> & _)|?]; eauto.
    + cbn in T. apply G in T as [(_ & ?)|?]; [discriminate|auto].
Qed.
(** A step of something else leaves a goroutine as it is *)
Lemma untouched : forall s l s' i t, ystep s l = Some s' -> (forall E, l <> YStep E i) -> task_is s i t -> task_is s' i t.
Proof.
  intros s l s' i t H NL T. unfold task_is in *. unfold ystep in H. destruct (y_dead s); [discriminate|]. destruct l as [line|E j|fs ps]; [| |inj H; cbn; auto].
  - apply Some_inj in H. subst s'. destruct (get_line line) as [(g & l)| |]; cbn [obind or_die]; auto. destruct g; auto. cbn.
    rewrite nth_error_app1; auto. apply nth_error_Some. congruence.
  - assert (N : j <> i) by (intros ->; exact (NL E eq_refl)). apply step_moved in H. destruct H; cbn; rewrite ?set_nth_other by auto; auto.
    + rewrite H6, set_nth_other by auto. exact T.
    + rewrite H6. rewrite nth_error_app1; [rewrite set_nth_other by auto; auto|]. rewrite set_nth_length. apply nth_error_Some. congruence.
    + rewrite H2, set_nth_other by auto. exact T.
    + destruct (beacon_step_kept _ _ _ _ _ _ H0) as (_ & _ & _ & _ & _ & _ & _ & _ & _ & t' & X). rewrite X, set_nth_other by auto. exact T.
Qed.
(** C91: everything that is ever sent is a beacon of a beacon command, for one of its
    addresses, and says what the settings said when the command began *)
Lemma c91_only : forall fs cwd peers ls i to f, let s0 := ystart fs cwd peers in In (i, to, f) (y_sent (yrun s0 ls)) ->
  exists l1 E0 l2 args s' E text, ls = (l1 ++ YStep E0 i :: l2)%list /\
    task_is (yrun s0 l1) i (TStart ("beacon" :: args)) /\ ystep (yrun s0 l1) (YStep E0 i) = Some s' /\
    In (YStep E i) l2 /\ In text (beacon_targets (y_cli (yrun s0 l1)) args) /\ address (ce_resolve E) text = Some to /\
    beacon_of E to (y_cli (yrun s0 l1)) f.
Proof.
  intros fs cwd peers ls i to f s0 S.
  assert (W : (exists todo, task_is (yrun s0 ls) i (TBeacon todo)) \/ frames_by i (yrun s0 ls) <> [] -> 
    exists l1 E0 l2 args s', ls = (l1 ++ YStep E0 i :: l2)%list /\ task_is (yrun s0 l1) i (TStart ("beacon" :: args)) /\ ystep (yrun s0 l1) (YStep E0 i) = Some s').
  { clear S. induction ls as [|l ls IH] using rev_ind.
    - intros [(todo & T)|N]; [|cbn in N; congruence]. unfold task_is in T. cbn in T. destruct i; discriminate.
    - intros W. assert (EX : (exists l1 E0 l2 args s', ls = (l1 ++ YStep E0 i :: l2)%list /\ task_is (yrun s0 l1) i (TStart ("beacon" :: args)) /\ ystep (yrun s0 l1) (YStep E0 i) = Some s') ->
        exists l1 E0 l2 args s', (ls ++ [l])%list = (l1 ++ YStep E0 i :: l2)%list /\ task_is (yrun s0 l1) i (TStart ("beacon" :: args)) /\ ystep (yrun s0 l1) (YStep E0 i) = Some s').
      { intros (l1 & E0 & l2 & args & s' & -> & T). exists l1, E0, (l2 ++ [l])%list, args, s'. rewrite <- app_assoc. auto. }
      rewrite yrun_app in W. cbn [yrun] in W. destruct (ystep (yrun s0 ls) l) as [s1|] eqn:Y; [|auto].
      assert (NEW : forall args todo, task_is (yrun s0 ls) i (TStart ("beacon" :: args)) -> task_is s1 i (TBeacon todo) ->
        exists l1 E0 l2 args s', (ls ++ [l])%list = (l1 ++ YStep E0 i :: l2)%list /\ task_is (yrun s0 l1) i (TStart ("beacon" :: args)) /\ ystep (yrun s0 l1) (YStep E0 i) = Some s').
      { intros args todo H T'. assert (D : exists E0, l = YStep E0 i).
        { destruct l as [line|E0 j|fs' ps']; [|destruct (Nat.eq_dec j i) as [->|NJ]; [eauto|]|].
          - exfalso. pose proof (untouched _ _ _ i _ Y ltac:(discriminate) H) as X. unfold task_is in *. congruence.
          - exfalso. pose proof (untouched _ _ _ i _ Y ltac:(congruence) H) as X. unfold task_is in *. congruence.
          - exfalso. pose proof (untouched _ _ _ i _ Y ltac:(discriminate) H) as X. unfold task_is in *. congruence. }
        destruct D as (E0 & ->). exists ls, E0, [], args, s1. auto. }
      destruct (nth_error (y_tasks (yrun s0 ls)) i) as [t|] eqn:T.
      + destruct (match t with TBeacon (_ :: _) => true | _ => false end) eqn:B.
        * destruct t as [|[|x todo]| | | |]; try discriminate. apply EX, IH. left. exists (x :: todo). exact T.
        * destruct W as [(todo & W)|W].
          -- destruct (begun_moved _ _ _ _ _ Y W) as [H|(args & H)]; [auto|]. eauto.
          -- rewrite (frames_moved _ _ _ _ _ Y T) in W; [auto|]. intros x todo X. inversion X; subst. discriminate.
      + destruct W as [(todo & W)|W].
        * destruct (begun_moved _ _ _ _ _ Y W) as [H|(args & H)]; [auto|]. eauto.
        * rewrite (frames_moved _ _ _ _ _ Y T) in W; [auto|]. discriminate. }
  assert (X : In (to, f) (frames_by i (yrun s0 ls))).
  { apply in_map_iff. exists (i, to, f). split; [reflexivity|]. apply filter_In. split; [exact S|]. cbn. apply Nat.eqb_refl. }
  destruct W as (l1 & E0 & l2 & args & s' & L & T & Y). { right. intros N. rewrite N in X. destruct X. }
  assert (R : reachable (yrun s0 l1)) by (exists fs, cwd, peers, l1; reflexivity).
  destruct (c91_at_most _ _ _ _ _ l2 R T Y) as (texts & more & bursts & TG & F & FR).
  assert (Z : yrun s0 ls = yrun s' l2) by (rewrite L, yrun_app; cbn [yrun]; now rewrite Y). rewrite Z, FR in X.
  apply in_concat in X as (burst & IB & X).
  assert (P : exists text, In text texts /\ some_sent (fun E => In (YStep E i) l2) (y_cli (yrun s0 l1)) text burst).
  { clear - F IB. induction F as [|a b la lb H F IH]; [destruct IB|]. destruct IB as [<-|IB]; [exists a; cbn; auto|]. destruct (IH IB) as (t & A & B). exists t. cbn. auto. }
  destruct P as (text & IT & [->|(E & to' & f' & k & OK & AD & BO & _ & ->)]); [destruct X|].
  apply repeat_spec in X. inversion X; subst to' f'. exists l1, E0, l2, args, s', E, text.
  split; [exact L|]. split; [exact T|]. split; [exact Y|]. split; [exact OK|]. split; [rewrite TG; apply in_or_app; auto|]. auto.
Qed.
(** Three addresses and two beacons: two are sent to the second and two to the third *)
Example c91_ex :
  let s := yrun ex_ystart [YLine "s[1]:bcount 2"; YStep ex_cenv 0; YLine "s[2]:beacon 10.0.0.2 10.0.0.3 10.0.0.4"] in
  let s1 := yrun s [YStep ex_cenv 1] in
  let s2 := yrun s1 (repeat (YStep ex_cenv 1) 9) in
  task_is s 1 (TStart ["beacon"; "10.0.0.2"; "10.0.0.3"; "10.0.0.4"]) /\ ystep s (YStep ex_cenv 1) = Some s1 /\ fair ex_cenv /\
  task_is s2 1 TEnd /\ map (fun x => ua_ip (fst x)) (frames_by 1 s2) = ["10.0.0.3:7542"; "10.0.0.3:7542"; "10.0.0.4:7542"; "10.0.0.4:7542"].
Proof.
  cbv zeta. split; [vm_compute; reflexivity|]. split; [cbn [yrun]; vm_compute; reflexivity|].
  split; [split; [reflexivity|]; split; [intros a; discriminate|]; split; [reflexivity|]; intros n H; vm_compute in H; inversion H; subst; vm_compute; discriminate|].
  split; vm_compute; reflexivity.
Qed.
