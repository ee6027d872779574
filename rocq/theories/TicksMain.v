(** * C161: building frames while the clock moves *)

From Verif Require Import GoBase GoFacts Flags Config Shipped Timestamp SpecTime TimeMain Data Status Ticks SpecTicks.
Local Open Scope string_scope.
Local Open Scope N_scope.

(** ** The loop over the flags, for any kind of frame *)
Inductive alike {A} (R : A -> A -> Prop) : outcome (A * error) -> outcome (A * error) -> Prop :=
| al_ok : forall a b, R a b -> alike R (Ret (a, None)) (Ret (b, None))
| al_err : forall a b e, alike R (Ret (a, Some e)) (Ret (b, Some e))
| al_panic : alike R Panic Panic
| al_fatal : alike R Fatal Fatal.
Lemma alike_refl {A} (R : A -> A -> Prop) (r : outcome (A * error)) : (forall a, R a a) -> alike R r r.
Proof. intros H. destruct r as [(a, [e|])| |]; constructor. apply H. Qed.
Lemma alike_bind {A} (R S : A -> A -> Prop) m m' k k' : alike R m m' -> (forall a b, R a b -> alike S (k a) (k' b)) ->
  alike S (ebind m k) (ebind m' k').
Proof. intros [a b H|a b e| |] K; cbn [ebind]; [apply K; exact H|constructor|constructor|constructor]. Qed.
Lemma alike_eq {A} (r r' : outcome (A * error)) : alike eq r r' <-> same_result r r'.
Proof. split; intros []; subst; constructor. reflexivity. Qed.

Fixpoint loop_c {A} (step : gotime -> string -> A -> outcome (A * error)) (clock : nat -> gotime) (n : nat) (items : list string) (a : A) :=
  match items with
  | [] => Ret (a, None)
  | it :: rest => ebind (step (clock n) it a) (fun a => loop_c step clock (S n) rest a)
  end.
Fixpoint loop_1 {A} (step : gotime -> string -> A -> outcome (A * error)) (now : gotime) (items : list string) (a : A) :=
  match items with
  | [] => Ret (a, None)
  | it :: rest => ebind (step now it a) (fun a => loop_1 step now rest a)
  end.
Lemma loops {A} (step : gotime -> string -> A -> outcome (A * error)) (R : A -> A -> Prop) (p : string -> bool) (clock : nat -> gotime) :
  (forall i, ordinary (clock i)) ->
  (forall x y it a b, ordinary x -> ordinary y -> R a b -> alike R (step x it a) (step y it b)) ->
  (forall x y it a, p it = false -> step x it a = step y it a) ->
  (forall x it a b, ordinary x -> p it = true -> R a b -> alike eq (step x it a) (step x it b)) ->
  (forall a, R a a) ->
  forall items n now a b, ordinary now -> R a b -> (forall k, last_of p items = Some k -> now = clock (n + k)%nat) -> (last_of p items = None -> a = b) ->
  alike eq (loop_c step clock n items a) (loop_1 step now items b).
Proof.
  intros OC H1 H2 H3 H4. induction items as [|it r IH]; intros n now a b ON AB L N; cbn [loop_c loop_1 last_of] in *.
  - rewrite N by reflexivity. constructor. reflexivity.
  - destruct (last_of p r) as [k|] eqn:LR.
    + apply (alike_bind R); [apply H1; auto|]. intros a' b' AB'. apply IH; auto; [|discriminate].
      intros k' [= <-]. rewrite (L (S k) eq_refl). f_equal. lia.
    + assert (Q : alike eq (step (clock n) it a) (step now it b)).
      { destruct (p it) eqn:P.
        - rewrite (L 0%nat eq_refl). rewrite Nat.add_0_r. apply H3; auto.
        - rewrite (N eq_refl). rewrite (H2 (clock n) now it b P). apply alike_refl. reflexivity. }
      apply (alike_bind eq); [exact Q|]. intros a' b' ->. apply IH; auto; discriminate.
Qed.

(** ** Timestamps *)
Definition akin (t1 t2 : timestamp) : Prop := t_header t1 = t_header t2 /\ t_local t1 = t_local t2 /\ t_ttype t1 = t_ttype t2.
Definition full_types : list string := ["posix32"; "posix64"; "posix32_32"; "posix64_32"; "epoch2000_32"].
Definition num_of (ty : string) : N :=
  if String.eqb ty "posix32" then 1 else if String.eqb ty "posix64" then 2 else if String.eqb ty "posix32_32" then 3
  else if String.eqb ty "posix64_32" then 4 else 5.
Lemma now_full a ty : ordinary a -> In ty full_types ->
  exists ta, (forall t, ts_now a t ty = Ret (ta, None)) /\ t_header ta = num_of ty /\ t_local ta = "" /\ t_ttype ta = ty.
Proof.
  intros (R & B) I. destruct R as (R1 & R2). assert (R : real_time a) by (split; assumption).
  assert (NB : (0 <= nanos_of a < 2 ^ 63)%Z) by (unfold nanos_of; lia).
  cbn in I. destruct I as [<-|[<-|[<-|[<-|[<-|[]]]]]]; eexists; (split; [intros t; unfold ts_now|]).
  - rewrite (proj1 (c12_posix32 t a R)) by lia. reflexivity.
  - repeat split.
  - rewrite (c12_posix64 t a R). reflexivity.
  - repeat split.
  - rewrite (proj1 (c12_posix32_32 t a R ltac:(lia))) by lia. reflexivity.
  - repeat split.
  - rewrite (c12_posix64_32 t a R NB). reflexivity.
  - repeat split.
  - rewrite (proj1 (c12_epoch2000 t a R ltac:(lia))) by lia. reflexivity.
  - repeat split.
Qed.
Lemma now_local a t : ts_now a t "localinterp" =
  Ret ({| t_header := 0; t_secs := t_secs t; t_nsecs := t_nsecs t; t_local := "localinterp"; t_ttype := "localinterp" |}, None).
Proof. unfold ts_now, ts_new. vm_compute. reflexivity. Qed.
Lemma now_akin a b t1 t2 ty : ordinary a -> ordinary b -> akin t1 t2 -> In ty ("localinterp" :: full_types) ->
  exists t1' t2', ts_now a t1 ty = Ret (t1', None) /\ ts_now b t2 ty = Ret (t2', None) /\ akin t1' t2'.
Proof.
  intros A B K [<-|I].
  - rewrite !now_local. do 2 eexists. repeat split.
  - destruct (now_full a ty A I) as (ta & HA & A1 & A2 & A3). destruct (now_full b ty B I) as (tb & HB & B1 & B2 & B3).
    exists ta, tb. rewrite HA, HB. repeat split; congruence.
Qed.
Lemma one_of_in x l : one_of x l = true <-> In x l.
Proof.
  unfold one_of. rewrite existsb_exists. split.
  - intros (y & I & E). apply String.eqb_eq in E. subst. exact I.
  - intros I. exists x. split; [exact I|apply String.eqb_refl].
Qed.

(** ** Data frames *)
Definition dlike (d1 d2 : data) : Prop :=
  d_header d1 = d_header d2 /\ d_session d1 = d_session d2 /\ d_offset d1 = d_offset d2 /\ d_payload d1 = d_payload d2 /\ akin (d_tstamp d1) (d_tstamp d2).
Definition data_step (now : gotime) (it : string) (d : data) : outcome (data * error) := data_flags now [it] d.
Lemma data_cons now it rest d : data_flags now (it :: rest) d = ebind (data_step now it d) (fun d => data_flags now rest d).
Proof.
  unfold data_step. cbn [data_flags]. destruct (index (split_on "=" it) 0); cbn [obind ebind]; try reflexivity.
  match goal with |- ebind ?m _ = _ => destruct m as [(x, [e|])| |] end; reflexivity.
Qed.
Lemma data_loop now items d : data_flags now items d = loop_1 data_step now items d.
Proof.
  revert d. induction items as [|it r IH]; intros d; [reflexivity|]. rewrite data_cons. cbn [loop_1].
  destruct (data_step now it d) as [(x, [e|])| |]; cbn [ebind]; auto.
Qed.
Lemma data_loop_c clock items : forall n d, data_flags_c clock n items d = loop_c data_step clock n items d.
Proof.
  induction items as [|it r IH]; intros n d; [reflexivity|]. cbn [data_flags_c loop_c].
  change (data_flags (clock n) [it] d) with (data_step (clock n) it d). destruct (data_step (clock n) it d) as [(x, [e|])| |]; cbn [ebind]; auto.
Qed.
Lemma names_in f1 : one_of f1 tstamp_names = true -> In f1 ("localinterp" :: full_types).
Proof. intros H. apply one_of_in in H. exact H. Qed.
Lemma data_step_like x y it a b : ordinary x -> ordinary y -> dlike a b -> alike dlike (data_step x it a) (data_step y it b).
Proof.
  intros X Y (H & S & O & P & T). unfold data_step. cbn [data_flags].
  destruct (index (split_on "=" it) 0) as [f0| |]; cbn [obind]; [|constructor|constructor].
  apply (alike_bind dlike); [|intros; constructor; assumption].
  destruct (one_of f0 _).
  - destruct (index _ 1); cbn [obind]; [|constructor|constructor]. rewrite H. destruct (sf_set _ _ _ _); cbn [obind]; [|constructor|constructor].
    constructor. repeat split; auto; apply T.
  - destruct (String.eqb f0 "transfer").
    + destruct (index _ 1); cbn [obind]; [|constructor|constructor]. destruct (String.eqb _ "bundle"); constructor. repeat split; auto; apply T.
    + destruct (String.eqb f0 "reqtstamp"); [|constructor].
      destruct (index _ 1) as [f1| |]; cbn [obind]; [|constructor|constructor].
      destruct (String.eqb f1 "no").
      * rewrite H. destruct (sf_set _ _ _ _); cbn [obind]; [|constructor|constructor]. constructor. repeat split; auto; apply T.
      * destruct (one_of f1 tstamp_names) eqn:NM.
        -- rewrite H. destruct (sf_set _ _ _ _); cbn [obind]; [|constructor|constructor].
           destruct (now_akin x y _ _ f1 X Y T (names_in _ NM)) as (t1 & t2 & E1 & E2 & K). rewrite E1, E2. cbn [obind].
           constructor. repeat split; auto; apply K.
        -- destruct (String.eqb f1 "yes"); [|constructor].
           rewrite H. destruct (sf_set _ _ _ _); cbn [obind]; [|constructor|constructor].
           destruct (now_akin x y _ _ "posix32" X Y T) as (t1 & t2 & E1 & E2 & K); [right; left; reflexivity|]. rewrite E1, E2. cbn [obind].
           constructor. repeat split; auto; apply K.
Qed.
Lemma data_step_same x y it a : data_time_flag it = false -> data_step x it a = data_step y it a.
Proof.
  unfold data_time_flag, data_step. cbn [data_flags]. destruct (split_on "=" it) as [|f0 [|f1 r]]; cbn [index nth_error obind]; [reflexivity| |].
  - destruct (one_of f0 _); [reflexivity|]. destruct (String.eqb f0 "transfer"); [reflexivity|]. destruct (String.eqb f0 "reqtstamp"); reflexivity.
  - intros P. destruct (one_of f0 _); [reflexivity|]. destruct (String.eqb f0 "transfer"); [reflexivity|].
    destruct (String.eqb f0 "reqtstamp"); [|reflexivity]. destruct (String.eqb f1 "no"); [reflexivity|]. cbn [andb] in P.
    destruct (one_of f1 tstamp_names) eqn:NM.
    + assert (L : f1 = "localinterp").
      { apply names_in in NM. destruct NM as [<-|I]; [reflexivity|]. exfalso. assert (Q : one_of f1 ("yes" :: full_types) = true) by (apply one_of_in; right; exact I).
        unfold one_of, full_types in Q. rewrite P in Q. discriminate. }
      subst f1. destruct (sf_set _ _ _ _); cbn [obind]; [|reflexivity|reflexivity]. rewrite !now_local. reflexivity.
    + destruct (String.eqb f1 "yes") eqn:Y; [|reflexivity]. cbn [existsb] in P. rewrite Y in P. discriminate.
Qed.
Lemma data_step_full x it a b : ordinary x -> data_time_flag it = true -> dlike a b -> alike eq (data_step x it a) (data_step x it b).
Proof.
  intros X P (H & S & O & PL & T). unfold data_time_flag in P. unfold data_step. cbn [data_flags].
  destruct (split_on "=" it) as [|f0 [|f1 r]]; [discriminate|discriminate|]. cbn [index nth_error obind].
  apply andb_true_iff in P. destruct P as (F & P). apply String.eqb_eq in F. subst f0.
  replace (one_of "reqtstamp" ["version"; "descriptor"; "reqstatus"; "eod"]) with false by reflexivity.
  replace (String.eqb "reqtstamp" "transfer") with false by reflexivity. rewrite String.eqb_refl.
  apply one_of_in in P.
  assert (Q : exists ty, In ty full_types /\ forall d, (if String.eqb f1 "no" then
             do h <- sf_set sar (d_header d) "reqtstamp" f1; Ret (d_set_header d h, None)
           else if one_of f1 tstamp_names then
             do h <- sf_set sar (d_header d) "reqtstamp" "yes";
             do ' (t, e) <- ts_now x (d_tstamp d) f1;
             Ret (d_set_tstamp (d_set_header d h) t, e)
           else if String.eqb f1 "yes" then
             do h <- sf_set sar (d_header d) "reqtstamp" "yes";
             do ' (t, e) <- ts_now x (d_tstamp d) "posix32";
             Ret (d_set_tstamp (d_set_header d h) t, e)
           else Ret (d, Some (f1 ++ " invalid timestamp type in data"))) =
           (do h <- sf_set sar (d_header d) "reqtstamp" "yes"; do ' (t, e) <- ts_now x (d_tstamp d) ty; Ret (d_set_tstamp (d_set_header d h) t, e))).
  { cbn in P. destruct P as [<-|[<-|[<-|[<-|[<-|[<-|[]]]]]]];
      [exists "posix32"|exists "posix32"|exists "posix64"|exists "posix32_32"|exists "posix64_32"|exists "epoch2000_32"];
      (split; [cbn; tauto|intros d; reflexivity]). }
  destruct Q as (ty & I & Q). rewrite !Q, H. destruct (sf_set _ _ _ _); cbn [obind ebind]; [|constructor|constructor].
  destruct (now_full x ty X I) as (ta & E & _). rewrite !E. cbn [obind ebind].
  constructor. unfold d_set_tstamp, d_set_header. cbn. congruence.
Qed.
(** C161: a data frame built from flags while the clock moves, between 2000 and 2105, is the frame that is built when all of it happens at
    one instant, that of the last flag that asks for the time; if none does, at any instant. *)
Lemma c161_data : forall clock now d flags info, (forall i, ordinary (clock i)) -> ordinary now ->
  (forall k, last_of data_time_flag (flags_of flags) = Some k -> now = clock k) ->
  same_result (data_new_c clock d flags info) (data_new now d flags info).
Proof.
  intros clock now d flags info OC ON L. apply alike_eq. unfold data_new_c, data_new.
  destruct (sf_set _ _ "version" _); cbn [obind]; [|constructor|constructor]. destruct (sf_set _ _ "frametype" _); cbn [obind]; [|constructor|constructor].
  apply (alike_bind eq); [|intros x y ->; apply alike_refl; reflexivity]. rewrite data_loop, data_loop_c.
  apply (loops data_step dlike data_time_flag clock OC); auto.
  - intros. apply data_step_like; auto.
  - intros. apply data_step_same. assumption.
  - intros. apply data_step_full; auto.
  - intros x. repeat split.
  - repeat split.
Qed.

(** ** Status frames *)
Definition slike (s1 s2 : status) : Prop :=
  s_header s1 = s_header s2 /\ s_session s1 = s_session s2 /\ s_progress s1 = s_progress s2 /\ s_inrespto s1 = s_inrespto s2 /\
  s_holes s1 = s_holes s2 /\ akin (s_tstamp s1) (s_tstamp s2).
Definition status_step (now : gotime) (it : string) (s : status) : outcome (status * error) := status_flags now [it] s.
Lemma status_cons now it rest s : status_flags now (it :: rest) s = ebind (status_step now it s) (fun s => status_flags now rest s).
Proof.
  unfold status_step. cbn [status_flags]. destruct (index (split_on "=" it) 0); cbn [obind ebind]; try reflexivity.
  match goal with |- ebind ?m _ = _ => destruct m as [(x, [e|])| |] end; reflexivity.
Qed.
Lemma status_loop now items s : status_flags now items s = loop_1 status_step now items s.
Proof.
  revert s. induction items as [|it r IH]; intros s; [reflexivity|]. rewrite status_cons. cbn [loop_1].
  destruct (status_step now it s) as [(x, [e|])| |]; cbn [ebind]; auto.
Qed.
Lemma status_loop_c clock items : forall n s, status_flags_c clock n items s = loop_c status_step clock n items s.
Proof.
  induction items as [|it r IH]; intros n s; [reflexivity|]. cbn [status_flags_c loop_c].
  change (status_flags (clock n) [it] s) with (status_step (clock n) it s). destruct (status_step (clock n) it s) as [(x, [e|])| |]; cbn [ebind]; auto.
Qed.
Definition status_names : list string := ["localinterp"; "posix32"; "posix64"; "posix32_32"; "posix64_32"].
Lemma snames_in f1 : one_of f1 status_names = true -> In f1 ("localinterp" :: full_types).
Proof. intros H. apply one_of_in in H. cbn in *. tauto. Qed.
Lemma status_step_like x y it a b : ordinary x -> ordinary y -> slike a b -> alike slike (status_step x it a) (status_step y it b).
Proof.
  intros X Y (H & S & P & I & HO & T). unfold status_step. cbn [status_flags]. fold status_names.
  destruct (index (split_on "=" it) 0) as [f0| |]; cbn [obind]; [|constructor|constructor].
  apply (alike_bind slike); [|intros; constructor; assumption].
  destruct (one_of f0 ["descriptor"; "stream"; "metadatarecvd"; "allholes"; "reqholes"; "errcode"]).
  - destruct (index _ 1); cbn [obind]; [|constructor|constructor]. rewrite H. destruct (sf_set _ _ _ _); cbn [obind]; [|constructor|constructor].
    constructor. repeat split; auto; apply T.
  - destruct (String.eqb f0 "reqtstamp").
    + destruct (index _ 1) as [f1| |]; cbn [obind]; [|constructor|constructor]. rewrite H. destruct (sf_set _ _ _ _); cbn [obind]; [|constructor|constructor].
      cbv zeta. destruct (String.eqb f1 "yes"); [|constructor; repeat split; auto; apply T]. cbn [s_set_header s_tstamp].
      destruct (now_akin x y _ _ "posix32" X Y T) as (t1 & t2 & E1 & E2 & K); [right; left; reflexivity|]. rewrite E1, E2. cbn [obind].
      constructor. repeat split; auto; apply K.
    + destruct (one_of f0 status_names) eqn:NM; [|constructor].
      destruct (now_akin x y _ _ f0 X Y T (snames_in _ NM)) as (t1 & t2 & E1 & E2 & K). rewrite E1, E2. cbn [obind]. cbv zeta.
      cbn [s_set_tstamp s_header]. rewrite H. destruct (sf_set _ _ _ _); cbn [obind]; [|constructor|constructor].
      constructor. repeat split; auto; apply K.
Qed.
Lemma status_step_same x y it a : status_time_flag it = false -> status_step x it a = status_step y it a.
Proof.
  unfold status_time_flag, status_step. cbn [status_flags]. fold status_names. destruct (split_on "=" it) as [|f0 r]; cbn [index nth_error obind]; [reflexivity|].
  intros P. apply orb_false_iff in P. destruct P as (P1 & P2).
  destruct (one_of f0 ["descriptor"; "stream"; "metadatarecvd"; "allholes"; "reqholes"; "errcode"]); [reflexivity|].
  destruct (String.eqb f0 "reqtstamp").
  - cbn [andb] in P2. destruct r as [|f1 r]; cbn [index nth_error obind]; [reflexivity|]. rewrite P2. reflexivity.
  - destruct (one_of f0 status_names) eqn:NM; [|reflexivity].
    assert (L : f0 = "localinterp").
    { apply one_of_in in NM. destruct NM as [<-|IN]; [reflexivity|]. exfalso.
      assert (Q : one_of f0 ["posix32"; "posix64"; "posix32_32"; "posix64_32"] = true) by (apply one_of_in; exact IN).
      unfold one_of in Q. rewrite P1 in Q. discriminate. }
    subst f0. rewrite !now_local. reflexivity.
Qed.
Lemma status_step_full x it a b : ordinary x -> status_time_flag it = true -> slike a b -> alike eq (status_step x it a) (status_step x it b).
Proof.
  intros X F (H & S & P & I & HO & T). unfold status_time_flag in F. unfold status_step. cbn [status_flags]. fold status_names.
  destruct (split_on "=" it) as [|f0 r]; [discriminate|]. cbn [index nth_error obind].
  apply orb_true_iff in F. destruct F as [F|F].
  - apply one_of_in in F. assert (I1 : In f0 full_types) by (cbn in *; tauto). assert (I2 : one_of f0 status_names = true) by (apply one_of_in; cbn in *; tauto).
    assert (Q1 : one_of f0 ["descriptor"; "stream"; "metadatarecvd"; "allholes"; "reqholes"; "errcode"] = false)
      by (cbn in F; destruct F as [<-|[<-|[<-|[<-|[]]]]]; reflexivity).
    assert (Q2 : String.eqb f0 "reqtstamp" = false) by (cbn in F; destruct F as [<-|[<-|[<-|[<-|[]]]]]; reflexivity).
    rewrite Q1, Q2, I2. destruct (now_full x f0 X I1) as (ta & E & _). rewrite !E. cbn [obind]. cbv zeta. cbn [s_set_tstamp s_header].
    rewrite H. destruct (sf_set _ _ _ _); cbn [obind ebind]; [|constructor|constructor].
    constructor. unfold s_set_header, s_set_tstamp. cbn. congruence.
  - apply andb_true_iff in F. destruct F as (F0 & F1). apply String.eqb_eq in F0. subst f0. destruct r as [|f1 r]; [discriminate|].
    apply String.eqb_eq in F1. subst f1. cbn [index nth_error obind].
    replace (one_of "reqtstamp" ["descriptor"; "stream"; "metadatarecvd"; "allholes"; "reqholes"; "errcode"]) with false by reflexivity.
    rewrite !String.eqb_refl, H. destruct (sf_set _ _ _ _); cbn [obind ebind]; [|constructor|constructor]. cbv zeta. cbn [s_set_header s_tstamp].
    destruct (now_full x "posix32" X) as (ta & E & _); [left; reflexivity|]. rewrite !E. cbn [obind ebind].
    constructor. unfold s_set_header, s_set_tstamp. cbn. congruence.
Qed.
(** C161: the same for a status frame. *)
Lemma c161_status : forall clock now s flags info, (forall i, ordinary (clock i)) -> ordinary now ->
  (forall k, last_of status_time_flag (flags_of flags) = Some k -> now = clock k) ->
  same_result (status_new_c clock s flags info) (status_new now s flags info).
Proof.
  intros clock now s flags info OC ON L. apply alike_eq. unfold status_new_c, status_new.
  destruct (sf_set _ _ "version" _); cbn [obind]; [|constructor|constructor]. destruct (sf_set _ _ "frametype" _); cbn [obind]; [|constructor|constructor].
  apply (alike_bind eq); [|intros x y ->; apply alike_refl; reflexivity]. rewrite status_loop, status_loop_c.
  apply (loops status_step slike status_time_flag clock OC); auto.
  - intros. apply status_step_like; auto.
  - intros. apply status_step_same. assumption.
  - intros. apply status_step_full; auto.
  - intros x. repeat split.
  - repeat split.
Qed.

(** ** The instant in the frame *)
Lemma now_instant a ty t t' : ordinary a -> In ty full_types -> ts_now a t ty = Ret (t', None) -> of_instant a t'.
Proof.
  intros (R & B) I. destruct R as (R1 & R2). assert (R : real_time a) by (split; assumption).
  assert (NB : (0 <= nanos_of a < 2 ^ 63)%Z) by (unfold nanos_of; lia). unfold ts_now.
  cbn in I. destruct I as [<-|[<-|[<-|[<-|[<-|[]]]]]].
  - rewrite (proj1 (c12_posix32 t a R)) by lia. cbn. intros [= <-]. unfold of_instant, stamp; cbn. lia.
  - rewrite (c12_posix64 t a R). cbn [obind]. intros [= <-]. unfold of_instant, stamp. cbn [t_secs t_nsecs]. rewrite Z.mod_small by lia. lia.
  - rewrite (proj1 (c12_posix32_32 t a R ltac:(lia))) by lia. cbn. intros [= <-]. unfold of_instant, stamp; cbn. lia.
  - rewrite (c12_posix64_32 t a R NB). cbn. intros [= <-]. unfold of_instant, stamp; cbn. lia.
  - rewrite (proj1 (c12_epoch2000 t a R ltac:(lia))) by lia. cbn [obind]. intros [= <-]. unfold of_instant, stamp. cbn [t_secs t_nsecs]. lia.
Qed.
Lemma now_kept a t t' : ts_now a t "localinterp" = Ret (t', None) -> t_secs t' = t_secs t /\ t_nsecs t' = t_nsecs t.
Proof. rewrite now_local. intros [= <-]. split; reflexivity. Qed.
Lemma instant_kept a t t' : t_secs t' = t_secs t /\ t_nsecs t' = t_nsecs t -> of_instant a t -> of_instant a t'.
Proof. intros (H1 & H2). unfold of_instant. rewrite H1, H2. auto. Qed.
(** One flag: the time is put in, or stays *)
Lemma data_step_time x it d d' : ordinary x -> data_step x it d = Ret (d', None) ->
  (data_time_flag it = true /\ of_instant x (d_tstamp d')) \/
  (data_time_flag it = false /\ t_secs (d_tstamp d') = t_secs (d_tstamp d) /\ t_nsecs (d_tstamp d') = t_nsecs (d_tstamp d)).
Proof.
  intros X. unfold data_step, data_time_flag. cbn [data_flags]. destruct (split_on "=" it) as [|f0 r]; cbn [index nth_error obind]; [discriminate|].
  destruct (one_of f0 ["version"; "descriptor"; "reqstatus"; "eod"]) eqn:O.
  { assert (F : String.eqb f0 "reqtstamp" = false).
    { destruct (String.eqb_spec f0 "reqtstamp") as [->|]; [discriminate O|reflexivity]. }
    destruct r as [|f1 r]; cbn [index nth_error obind ebind]; [discriminate|]. rewrite F. cbn [andb].
    destruct (sf_set _ _ _ _); cbn [obind ebind]; [|discriminate|discriminate]. intros [= <-]. right. repeat split. }
  destruct (String.eqb_spec f0 "transfer") as [->|NT].
  { destruct r as [|f1 r]; cbn [index nth_error obind ebind]; [discriminate|]. replace (String.eqb "transfer" "reqtstamp") with false by reflexivity. cbn [andb].
    destruct (String.eqb f1 "bundle"); cbn [ebind]; intros [= <-]. right. repeat split. }
  destruct (String.eqb f0 "reqtstamp"); [|cbn [ebind]; discriminate].
  destruct r as [|f1 r]; cbn [index nth_error obind ebind]; [discriminate|]. cbn [andb].
  destruct (String.eqb_spec f1 "no") as [->|NN].
  { destruct (sf_set _ _ _ _); cbn [obind ebind]; [|discriminate|discriminate]. intros [= <-]. right. repeat split. }
  destruct (one_of f1 tstamp_names) eqn:NM.
  - destruct (sf_set _ _ _ _); cbn [obind ebind]; [|discriminate|discriminate].
    apply names_in in NM. destruct (ts_now x (d_tstamp d) f1) as [(t, [e|])| |] eqn:E; cbn [obind ebind]; try discriminate. intros [= <-].
    destruct NM as [<-|I].
    + right. apply now_kept in E. split; [reflexivity|exact E].
    + left. split; [|apply (now_instant x f1 (d_tstamp d)); assumption].
      cbn in I. destruct I as [<-|[<-|[<-|[<-|[<-|[]]]]]]; reflexivity.
  - destruct (String.eqb_spec f1 "yes") as [->|NY]; [|cbn [ebind]; discriminate].
    destruct (sf_set _ _ _ _); cbn [obind ebind]; [|discriminate|discriminate].
    destruct (ts_now x (d_tstamp d) "posix32") as [(t, [e|])| |] eqn:E; cbn [obind ebind]; try discriminate. intros [= <-].
    left. split; [reflexivity|]. apply (now_instant x "posix32" (d_tstamp d)); [assumption|left; reflexivity|assumption].
Qed.
Lemma status_step_time x it s s' : ordinary x -> status_step x it s = Ret (s', None) ->
  (status_time_flag it = true /\ of_instant x (s_tstamp s')) \/
  (status_time_flag it = false /\ t_secs (s_tstamp s') = t_secs (s_tstamp s) /\ t_nsecs (s_tstamp s') = t_nsecs (s_tstamp s)).
Proof.
  intros X. unfold status_step, status_time_flag. cbn [status_flags]. fold status_names. destruct (split_on "=" it) as [|f0 r]; cbn [index nth_error obind]; [discriminate|].
  destruct (one_of f0 ["descriptor"; "stream"; "metadatarecvd"; "allholes"; "reqholes"; "errcode"]) eqn:O.
  { assert (F : existsb (String.eqb f0) ["posix32"; "posix64"; "posix32_32"; "posix64_32"] || (String.eqb f0 "reqtstamp" && match r with v :: _ => String.eqb v "yes" | [] => false end) = false).
    { apply one_of_in in O. cbn in O. destruct O as [<-|[<-|[<-|[<-|[<-|[<-|[]]]]]]]; reflexivity. }
    rewrite F. destruct r as [|f1 r]; cbn [index nth_error obind ebind]; [discriminate|].
    destruct (sf_set _ _ _ _); cbn [obind ebind]; [|discriminate|discriminate]. intros [= <-]. right. repeat split. }
  destruct (String.eqb_spec f0 "reqtstamp") as [->|NR].
  - destruct r as [|f1 r]; cbn [index nth_error obind ebind]; [discriminate|].
    destruct (sf_set _ _ _ _); cbn [obind ebind]; [|discriminate|discriminate]. cbv zeta.
    destruct (String.eqb_spec f1 "yes") as [->|NY]; [|cbn [ebind]; intros [= <-]; right; repeat split].
    cbn [s_set_header s_tstamp]. destruct (ts_now x (s_tstamp s) "posix32") as [(t, [e|])| |] eqn:E; cbn [obind ebind]; try discriminate. intros [= <-].
    left. split; [reflexivity|]. apply (now_instant x "posix32" (s_tstamp s)); [assumption|left; reflexivity|assumption].
  - destruct (one_of f0 status_names) eqn:NM; [|cbn [ebind]; discriminate].
    destruct (ts_now x (s_tstamp s) f0) as [(t, [e|])| |] eqn:E; cbn [obind ebind]; try discriminate. cbv zeta. cbn [s_set_tstamp s_header].
    destruct (sf_set _ _ _ _); cbn [obind ebind]; [|discriminate|discriminate]. intros [= <-].
    apply one_of_in in NM. destruct NM as [<-|IN].
    + right. apply now_kept in E. split; [reflexivity|exact E].
    + left. split; [|apply (now_instant x f0 (s_tstamp s)); [assumption|cbn in *; tauto|assumption]].
      apply orb_true_iff. left. exact (proj2 (one_of_in _ _) IN).
Qed.
Lemma loop_time {A} (step : gotime -> string -> A -> outcome (A * error)) (ts : A -> timestamp) (p : string -> bool) (clock : nat -> gotime) :
  (forall i, ordinary (clock i)) ->
  (forall x it a a', ordinary x -> step x it a = Ret (a', None) -> (p it = true /\ of_instant x (ts a')) \/
     (p it = false /\ t_secs (ts a') = t_secs (ts a) /\ t_nsecs (ts a') = t_nsecs (ts a))) ->
  forall items n a a', loop_c step clock n items a = Ret (a', None) ->
  (forall k, last_of p items = Some k -> of_instant (clock (n + k)%nat) (ts a')) /\
  (last_of p items = None -> t_secs (ts a') = t_secs (ts a) /\ t_nsecs (ts a') = t_nsecs (ts a)).
Proof.
  intros OC ST. induction items as [|it r IH]; intros n a a' H; cbn [loop_c last_of] in *.
  - inversion H; subst. split; [discriminate|auto].
  - destruct (step (clock n) it a) as [(a1, [e|])| |] eqn:E; cbn [ebind] in H; try discriminate.
    destruct (IH (S n) a1 a' H) as (I1 & I2). destruct (ST _ _ _ _ (OC n) E) as [(P & Q)|(P & Q)]; rewrite P.
    + destruct (last_of p r) as [k|].
      * split; [|discriminate]. intros k' [= <-]. replace (n + S k)%nat with (S n + k)%nat by lia. apply I1. reflexivity.
      * split; [|discriminate]. intros k' [= <-]. rewrite Nat.add_0_r. apply (instant_kept _ (ts a1)); [apply I2; reflexivity|exact Q].
    + destruct (last_of p r) as [k|].
      * split; [|discriminate]. intros k' [= <-]. replace (n + S k)%nat with (S n + k)%nat by lia. apply I1. reflexivity.
      * split; [discriminate|]. intros _. destruct (I2 eq_refl) as (J1 & J2). destruct Q as (Q1 & Q2). split; congruence.
Qed.
(** C161: a frame with the time in it carries one instant, not parts of two: that of the last flag that asks for it.  Without such a flag
    the time stays what it was. *)
Lemma c161_instant : forall clock d flags info d', (forall i, ordinary (clock i)) -> data_new_c clock d flags info = Ret (d', None) ->
  match last_of data_time_flag (flags_of flags) with
  | Some k => of_instant (clock k) (d_tstamp d')
  | None => t_secs (d_tstamp d') = t_secs (d_tstamp d) /\ t_nsecs (d_tstamp d') = t_nsecs (d_tstamp d)
  end.
Proof.
  intros clock d flags info d' OC. unfold data_new_c.
  destruct (sf_set _ _ "version" _); cbn [obind]; [|discriminate|discriminate]. destruct (sf_set _ _ "frametype" _) as [h| |]; cbn [obind]; [|discriminate|discriminate].
  rewrite data_loop_c. fold (flags_of flags).
  destruct (loop_c data_step clock 0 (flags_of flags) (d_set_header d h)) as [(d1, [e|])| |] eqn:E; cbn [ebind]; try discriminate. intros [= <-].
  destruct (loop_time data_step d_tstamp data_time_flag clock OC (fun x it a a' => data_step_time x it a a') _ _ _ _ E) as (I1 & I2).
  destruct (last_of _ _) as [k|]; [apply (I1 k eq_refl)|apply (I2 eq_refl)].
Qed.
(** C161: the same for a status frame. *)
Lemma c161_status_instant : forall clock s flags info s', (forall i, ordinary (clock i)) -> status_new_c clock s flags info = Ret (s', None) ->
  match last_of status_time_flag (flags_of flags) with
  | Some k => of_instant (clock k) (s_tstamp s')
  | None => t_secs (s_tstamp s') = t_secs (s_tstamp s) /\ t_nsecs (s_tstamp s') = t_nsecs (s_tstamp s)
  end.
Proof.
  intros clock s flags info s' OC. unfold status_new_c.
  destruct (sf_set _ _ "version" _); cbn [obind]; [|discriminate|discriminate]. destruct (sf_set _ _ "frametype" _) as [h| |]; cbn [obind]; [|discriminate|discriminate].
  rewrite status_loop_c. fold (flags_of flags).
  destruct (loop_c status_step clock 0 (flags_of flags) (s_set_header s h)) as [(s1, [e|])| |] eqn:E; cbn [ebind]; try discriminate. intros [= <-].
  destruct (loop_time status_step s_tstamp status_time_flag clock OC (fun x it a a' => status_step_time x it a a') _ _ _ _ E) as (I1 & I2).
  destruct (last_of _ _) as [k|]; [apply (I1 k eq_refl)|apply (I2 eq_refl)].
Qed.
(** Three flags that ask for the time, one second apart: the second is the last that puts it in *)
Definition ex_clock (i : nat) : gotime := {| unix_secs := 1700000000 + Z.of_nat (Nat.min i 1000); unix_nanos := 5 |}.
Definition ex_dinfo : dinfo := {| di_session := 7; di_offset := 0; di_payload := bytes_of "abc" |}.
Example c161_ex : (forall i, ordinary (ex_clock i)) /\
  last_of data_time_flag (flags_of "reqtstamp=yes,descriptor=d32,reqtstamp=posix32_32,reqtstamp=localinterp") = Some 2%nat /\
  exists d, data_new_c ex_clock zero_data "reqtstamp=yes,descriptor=d32,reqtstamp=posix32_32,reqtstamp=localinterp" ex_dinfo = Ret (d, None) /\
    t_secs (d_tstamp d) = 1700000002 /\ t_nsecs (d_tstamp d) = 5.
Proof.
  split; [intros i; unfold ordinary, real_time, ex_clock; cbn [unix_secs unix_nanos]; lia|]. split; [reflexivity|].
  eexists. split; [vm_compute; reflexivity|]. split; reflexivity.
Qed.
