(** * The names that can be set: the properties (proofs) *)

From Verif Require Import GoBase Flags Config Shipped SpecFlags FlagsFacts.
From Coq Require Import Lia.
Local Open Scope string_scope.
Local Open Scope N_scope.

Lemma flag_of_some : forall T f fl, lookup f (t_flags T) = Some fl -> flag_of T f = fl.
Proof. intros T f fl H. unfold flag_of. rewrite H. reflexivity. Qed.
Lemma dflag_of_some : forall T f fl, lookup f (t_dirent T) = Some fl -> dflag_of T f = fl.
Proof. intros T f fl H. unfold dflag_of. rewrite H. reflexivity. Qed.
Lemma in_keys : forall {V} k (m : list (string * V)), In k (keys m) <-> has_key k m = true.
Proof.
  intros V k m. unfold has_key. destruct (lookup k m) as [v|] eqn:E.
  - split; [reflexivity|]. intros _. apply lookup_In in E. unfold keys. apply in_map_iff. exists (k, v). auto.
  - split; [|discriminate]. intros H. apply lookup_None in E. contradiction.
Qed.
Lemma opt_name_in : forall opts v name, opt_name opts v = Ret name -> In name (keys opts).
Proof.
  induction opts as [|[k f] r IH]; intros v name H; cbn in *; [discriminate|]. destruct (f =? v); [injection H as <-; left; reflexivity|right; eapply IH; eauto].
Qed.

(** C154: the flags of a header.  Good says which flags there are; Valid says which options a flag has, and so does Value with a
    number that is not negative; setting succeeds with these, whatever the header, and ends the process with any other. *)
Lemma c154_header : forall T f v,
  (sf_good T f = true <-> exists fl, lookup f (t_flags T) = Some fl) /\
  (sf_valid T f v = true <-> exists n, option_value T f v n) /\
  (forall n, option_value T f v n -> sf_value T f v = Z.of_N n) /\
  (sf_valid T f v = false <-> sf_value T f v = (-1)%Z) /\
  (sf_valid T f v = true -> forall h, exists h', sf_set T h f v = Ret h') /\
  (sf_valid T f v = false -> forall h, sf_set T h f v = Fatal).
Proof.
  intros T f v. unfold sf_valid, sf_good, sf_value, option_value, sf_set, sf_good, has_key, flag_of.
  destruct (lookup f (t_flags T)) as [fl|] eqn:F.
  - split; [split; [intros _; exists fl; reflexivity|reflexivity]|]. destruct (lookup v (f_opts fl)) as [n|] eqn:V.
    + split; [split; [intros _; exists n, fl; auto|reflexivity]|].
      split; [intros m (g & G & M); congruence|]. split; [split; [discriminate|intros H; lia]|]. split; [eauto|discriminate].
    + split; [split; [discriminate|intros (n & g & G & N); congruence]|].
      split; [intros m (g & G & M); congruence|]. split; [tauto|]. split; [discriminate|reflexivity].
  - cbn [f_opts lookup]. split; [split; [discriminate|intros (g & G); discriminate]|].
    split; [split; [discriminate|intros (n & g & G & _); discriminate]|].
    split; [intros m (g & G & _); discriminate|]. split; [tauto|]. split; [discriminate|reflexivity].
Qed.

(** C154: the flags of a directory entry.  FlagD lists the flags, FrameD the options of each; they are those that GoodD and ValidD
    know, those that can be set, and every name that is read from an entry is among them. *)
Lemma c154_dirent : forall T f v,
  (In f (sd_flags T) <-> exists fl, lookup f (t_dirent T) = Some fl) /\ (sd_good T f = true <-> In f (sd_flags T)) /\
  (In v (sd_frame T f) <-> valid_dsetting T (f, v)) /\ (sd_valid T f v = true <-> In v (sd_frame T f)) /\
  (In v (sd_frame T f) -> forall h, exists h', sd_set T h f v = Ret h') /\
  (~ In v (sd_frame T f) -> forall h, sd_set T h f v = Fatal) /\
  (forall h, sd_getstr T h f = Ret v -> In v (sd_frame T f)).
Proof.
  intros T f v. unfold sd_flags, sd_frame. rewrite !in_keys.
  split; [apply has_key_lookup|]. split; [reflexivity|].
  split; [|split; [|split; [|split]]].
  - unfold valid_dsetting. cbn [fst snd]. rewrite has_key_lookup. split.
    + intros (n & N). destruct (lookup f (t_dirent T)) as [fl|] eqn:F.
      * exists fl, n. rewrite (dflag_of_some _ _ _ F) in N. auto.
      * unfold dflag_of in N. rewrite F in N. discriminate.
    + intros (fl & n & F & N). exists n. rewrite (dflag_of_some _ _ _ F). exact N.
  - unfold sd_valid, sd_good, dflag_of. unfold has_key at 1. destruct (lookup f (t_dirent T)) as [fl|] eqn:F; [reflexivity|].
    cbn [f_opts]. split; discriminate.
  - intros H h. unfold sd_set, sd_good, dflag_of in *. unfold has_key in *.
    destruct (lookup f (t_dirent T)) as [fl|] eqn:F; [|discriminate]. destruct (lookup v (f_opts fl)) as [n|]; [eauto|discriminate].
  - intros H h. unfold sd_set, sd_good, dflag_of in *. unfold has_key in *.
    destruct (lookup f (t_dirent T)) as [fl|] eqn:F; [|reflexivity]. destruct (lookup v (f_opts fl)) as [n|]; [congruence|reflexivity].
  - intros h H. eapply opt_name_in. exact H.
Qed.

(** C154: the kinds of timestamp, which FrameT lists, GoodT knows and SetT sets. *)
Lemma c154_time : forall T v,
  (In v (st_frame T) <-> exists n, lookup v (f_opts (t_tstamps T)) = Some n) /\ (st_good T v = true <-> In v (st_frame T)) /\
  (In v (st_frame T) -> forall h, exists h', st_set T h v = Ret h') /\
  (~ In v (st_frame T) -> forall h, st_set T h v = Fatal) /\
  (forall h, st_getstr T h = Ret v -> In v (st_frame T)).
Proof.
  intros T v. unfold st_frame. rewrite !in_keys. split; [apply has_key_lookup|]. split; [reflexivity|]. unfold st_set, has_key.
  split; [|split].
  - destruct (lookup v (f_opts (t_tstamps T))) as [n|]; [eauto|discriminate].
  - destruct (lookup v (f_opts (t_tstamps T))) as [n|]; [congruence|reflexivity].
  - intros h H. eapply opt_name_in. exact H.
Qed.

(** C154: the names of the shipped configuration. *)
Lemma c154_shipped : forall v,
  (In v (sd_flags sar) <-> In v ["sod"; "property"; "descriptor"; "reserved"]) /\
  (In v (sd_frame sar "sod") <-> v = "sod") /\
  (In v (sd_frame sar "descriptor") <-> In v ["d16"; "d32"; "d64"; "d128"]) /\
  (In v (sd_frame sar "property") <-> In v ["normalfile"; "normaldirectory"; "specialfile"; "specialdirectory"]) /\
  (In v (st_frame sar) <-> In v ["localinterp"; "posix32"; "posix64"; "posix32_32"; "posix64_32"; "epoch2000_32"]).
Proof.
  intros v.
  let l := eval vm_compute in (sd_flags sar) in change (sd_flags sar) with l.
  let l := eval vm_compute in (sd_frame sar "sod") in change (sd_frame sar "sod") with l.
  let l := eval vm_compute in (sd_frame sar "descriptor") in change (sd_frame sar "descriptor") with l.
  let l := eval vm_compute in (sd_frame sar "property") in change (sd_frame sar "property") with l.
  let l := eval vm_compute in (st_frame sar) in change (st_frame sar) with l.
  cbn [In]. repeat split; firstorder congruence.
Qed.
Example c154_header_ex : sf_valid sar "descriptor" "d16" = true /\ sf_valid sar "descriptor" "d8" = false /\ sf_good sar "descript" = false /\
  sf_value sar "csumlen" "md5" = 4%Z /\ sf_value sar "csumlen" "sha" = (-1)%Z /\ sf_set sar 0 "descriptor" "d8" = Fatal.
Proof. vm_compute. repeat split. Qed.
Example c154_dirent_ex : (exists h, sd_set sar 0 "descriptor" "d64" = Ret h /\ sd_getstr sar h "descriptor" = Ret "d64") /\ sd_set sar 0 "descriptor" "d8" = Fatal.
Proof. split; [eexists; split; vm_compute; reflexivity|vm_compute; reflexivity]. Qed.
Example c154_time_ex : st_set sar 0 "posix64" = Ret 2 /\ st_good sar "posix16" = false /\ st_set sar 0 "posix16" = Fatal.
Proof. vm_compute. repeat split. Qed.
