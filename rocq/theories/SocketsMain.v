(** * C162: the sockets and files that removed transfers leave open *)

From Verif Require Import GoBase GoFacts Config Trans Fileio FileioMain Transfer SpecTransfer TransferMain Shipped Sockets SpecSockets.
From Coq Require Import Permutation.
Local Open Scope string_scope.
Local Open Scope N_scope.

Lemma socks_in_connected : forall l, socks_in l = connected l.
Proof.
  unfold socks_in, connected, sock_of. induction l as [|t l IH]; [reflexivity|]. cbn [map list_sum fold_right filter].
  unfold list_sum in *. cbn [fold_right]. destruct (tr_conn t); cbn [List.length]; rewrite IH; reflexivity.
Qed.
Lemma files_in_with_file : forall l, files_in l = with_file l.
Proof.
  unfold files_in, with_file, file_of. induction l as [|t l IH]; [reflexivity|]. cbn [map filter].
  unfold list_sum in *. cbn [fold_right]. destruct (tr_fp t); cbn [List.length]; rewrite IH; reflexivity.
Qed.
Lemma connected_app : forall a b, connected (a ++ b) = (connected a + connected b)%nat.
Proof. intros. unfold connected. rewrite filter_app, app_length. reflexivity. Qed.
Lemma with_file_app : forall a b, with_file (a ++ b) = (with_file a + with_file b)%nat.
Proof. intros. unfold with_file. rewrite filter_app, app_length. reflexivity. Qed.
Lemma connected_perm : forall a b, Permutation a b -> connected a = connected b.
Proof.
  induction 1; unfold connected in *; cbn [filter]; repeat match goal with |- context [tr_conn ?x] => destruct (tr_conn x) end; cbn [List.length]; congruence.
Qed.
Lemma with_file_perm : forall a b, Permutation a b -> with_file a = with_file b.
Proof.
  induction 1; unfold with_file in *; cbn [filter]; repeat match goal with |- context [tr_fp ?x] => destruct (tr_fp x) end; cbn [List.length]; congruence.
Qed.

(** What starting a transfer does to the table *)
Lemma start_table : forall E sardir c i ttype peer fname i' r, new_initiator E sardir c i ttype peer fname = Ret (i', r) ->
  match r with
  | Some t => is_table i' = (is_table i ++ [t])%list /\ (ie_dial E peer = false -> tr_conn t = None)
  | None => is_table i' = is_table i \/ is_table i' = removelast (is_table i)
  end.
Proof.
  intros E sardir c i ttype peer fname i' r. unfold new_initiator, initiator_check. rewrite initiator_loop_find.
  destruct (find _ _) as [j|].
  - intros H. inversion H. cbn [is_table]. destruct (without_connection j); [apply tremove_cases|auto].
  - unfold initiator_add. destruct (file_meta _ _ _ _); cbn [obind]; try discriminate.
    destruct (copy_cliflags c) as [cf [e|]]; cbn [obind]; try discriminate.
    intros H. inversion H. cbn [is_table tr_conn]. split; [reflexivity|]. intros ->. reflexivity.
Qed.

(** The transfers that a step takes out of the table *)
Lemma step_table : forall sardir s h s' l, ld_step sardir s h = Ret (s', l) ->
  exists gone, Permutation (is_table (lg_i s) ++ l) (is_table (lg_i s') ++ gone).
Proof.
  assert (R : forall l l' : list transfer, l' = l \/ l' = removelast l -> exists gone, Permutation (l ++ []) (l' ++ gone)).
  { intros l l' [->| ->]; [exists []; reflexivity|]. destruct (removelast_prefix l) as (r & Hr). exists r. rewrite app_nil_r. rewrite Hr at 1. reflexivity. }
  intros sardir s [E c tt p f|t|[]| |k m] s' l; cbn [ld_step]; [|intros H; inversion H; subst; cbn [lg_i is_table with_table] ..].
  - destruct (new_initiator _ _ _ _ _ _ _) as [[i r]| |] eqn:N; cbn [obind]; try discriminate. apply start_table in N.
    destruct r as [t|]; intros H; inversion H; subst; cbn [lg_i].
    + destruct N as (-> & _). exists []. rewrite app_nil_r. reflexivity.
    + apply R. exact N.
  - apply R. apply tremove_cases.
  - exists []. reflexivity.
  - exists []. reflexivity.
  - exists []. destruct (lg_beacons s); reflexivity.
  - exists []. reflexivity.
Qed.

(** What is open, with what has been removed *)
Definition accounted (s : ledger) (started gone : list transfer) : Prop :=
  Permutation started (is_table (lg_i s) ++ gone) /\
  (lg_beacons s + connected (is_table (lg_i s)) <= lg_socks s)%nat /\ (lg_socks s <= lg_beacons s + connected started)%nat /\
  (with_file (is_table (lg_i s)) <= lg_files s)%nat /\ (lg_files s <= with_file started)%nat.

Lemma step_accounted : forall sardir s h s' l started gone, ld_step sardir s h = Ret (s', l) -> accounted s started gone ->
  exists gone', accounted s' (started ++ l) gone'.
Proof.
  intros sardir s h s' l started gone H (A1 & A2 & A3 & A4 & A5). destruct (step_table _ _ _ _ _ H) as (g & G). exists (g ++ gone)%list.
  split.
  { rewrite A1. transitivity ((is_table (lg_i s) ++ l) ++ gone)%list.
    - rewrite <- !app_assoc. apply Permutation_app_head. apply Permutation_app_comm.
    - rewrite G. rewrite app_assoc. reflexivity. }
  pose proof (connected_perm _ _ G) as C. pose proof (with_file_perm _ _ G) as W. rewrite !connected_app in C. rewrite !with_file_app in W.
  rewrite connected_app, with_file_app.
  destruct h as [E c tt p f|t|[]| |k m]; cbn [ld_step] in H.
  - destruct (new_initiator _ _ _ _ _ _ _) as [[i r]| |] eqn:N; cbn [obind] in H; try discriminate. apply start_table in N.
    destruct r as [t|]; inversion H; subst; cbn [lg_i lg_socks lg_files lg_beacons] in *.
    + rewrite <- (socks_in_connected [t]) in *. rewrite <- (files_in_with_file [t]) in *. unfold socks_in, files_in, list_sum in *. cbn [map fold_right] in *. lia.
    + change (connected []) with 0%nat in *. change (with_file []) with 0%nat in *. lia.
  - inversion H; subst. cbn [lg_i lg_socks lg_files lg_beacons] in *. change (connected []) with 0%nat in *. change (with_file []) with 0%nat in *. lia.
  - inversion H; subst. cbn [lg_i lg_socks lg_files lg_beacons] in *. change (connected []) with 0%nat in *. change (with_file []) with 0%nat in *. lia.
  - inversion H; subst. cbn [lg_i lg_socks lg_files lg_beacons] in *. change (connected []) with 0%nat in *. change (with_file []) with 0%nat in *. lia.
  - inversion H; subst. clear H. destruct (lg_beacons s) eqn:B; cbn [lg_i lg_socks lg_files lg_beacons] in *; change (connected []) with 0%nat in *; change (with_file []) with 0%nat in *; rewrite ?B; lia.
  - inversion H; subst. cbn [lg_i lg_socks lg_files lg_beacons] in *. rewrite socks_in_connected, files_in_with_file. change (connected []) with 0%nat in *. change (with_file []) with 0%nat in *. lia.
Qed.
Lemma run_accounted : forall sardir hs s s' l started gone, ld_run sardir hs s = Ret (s', l) -> accounted s started gone ->
  exists gone', accounted s' (started ++ l) gone'.
Proof.
  intros sardir. induction hs as [|h hs IH]; intros s s' l started gone; cbn [ld_run].
  - intros H A. inversion H; subst. rewrite app_nil_r. eauto.
  - destruct (ld_step sardir s h) as [[s1 l1]| |] eqn:S1; cbn [obind]; try discriminate.
    destruct (ld_run sardir hs s1) as [[s2 l2]| |] eqn:R; cbn [obind]; try discriminate.
    intros H A. inversion H; subst. destruct (step_accounted _ _ _ _ _ _ _ S1 A) as (g & A'). rewrite app_assoc. eapply IH; eauto.
Qed.
Lemma fresh_accounted : forall s, fresh s -> accounted s [] [].
Proof. intros s (F1 & F2 & F3 & F4). unfold accounted. rewrite F1, F2, F3, F4. cbn. repeat split; auto. Qed.

(** C162: whatever happens, the transfers started are those of the table and those removed; the sockets and files of the table
    are open, and those of removed transfers are still open except for those that the garbage collector has closed. *)
Lemma c162_bounds : forall sardir hs s s' started, fresh s -> ld_run sardir hs s = Ret (s', started) ->
  exists removed, Permutation started (is_table (lg_i s') ++ removed) /\
    (lg_beacons s' + connected (is_table (lg_i s')) <= lg_socks s' <= lg_beacons s' + connected started)%nat /\
    (with_file (is_table (lg_i s')) <= lg_files s' <= with_file started)%nat.
Proof.
  intros sardir hs s s' started F R. apply fresh_accounted in F. destruct (run_accounted _ _ _ _ _ _ _ R F) as (g & A1 & A2 & A3 & A4 & A5).
  cbn [app] in *. exists g. auto.
Qed.

Lemma run_kept : forall sardir hs s s' l, no_collection hs -> ld_run sardir hs s = Ret (s', l) -> (lg_beacons s <= lg_socks s)%nat ->
  (lg_socks s' + lg_beacons s = lg_socks s + lg_beacons s' + connected l)%nat /\ lg_files s' = (lg_files s + with_file l)%nat /\
  (lg_beacons s' <= lg_socks s')%nat.
Proof.
  intros sardir. induction hs as [|h hs IH]; intros s s' l NC; cbn [ld_run].
  - intros H. inversion H; subst. change (connected []) with 0%nat in *. change (with_file []) with 0%nat in *. lia.
  - destruct (ld_step sardir s h) as [[s1 l1]| |] eqn:S1; cbn [obind]; try discriminate.
    destruct (ld_run sardir hs s1) as [[s2 l2]| |] eqn:R; cbn [obind]; try discriminate.
    intros H B. inversion H; subst. clear H. rewrite connected_app, with_file_app.
    assert (X : (lg_socks s1 + lg_beacons s = lg_socks s + lg_beacons s1 + connected l1)%nat /\ lg_files s1 = (lg_files s + with_file l1)%nat /\
                (lg_beacons s1 <= lg_socks s1)%nat).
    { destruct h as [E c tt p f|t|[]| |k m]; cbn [ld_step] in S1.
      - destruct (new_initiator _ _ _ _ _ _ _) as [[i r]| |]; cbn [obind] in S1; try discriminate.
        destruct r as [t|]; inversion S1; subst; cbn [lg_i lg_socks lg_files lg_beacons] in *.
        + rewrite <- (socks_in_connected [t]) in *. rewrite <- (files_in_with_file [t]) in *. unfold socks_in, files_in, list_sum in *. cbn [map fold_right] in *. lia.
        + change (connected []) with 0%nat in *. change (with_file []) with 0%nat in *. lia.
      - inversion S1; subst. cbn [lg_i lg_socks lg_files lg_beacons] in *. change (connected []) with 0%nat in *. change (with_file []) with 0%nat in *. lia.
      - inversion S1; subst. cbn [lg_i lg_socks lg_files lg_beacons] in *. change (connected []) with 0%nat in *. change (with_file []) with 0%nat in *. lia.
      - inversion S1; subst. cbn [lg_i lg_socks lg_files lg_beacons] in *. change (connected []) with 0%nat in *. change (with_file []) with 0%nat in *. lia.
      - inversion S1; subst. clear S1. destruct (lg_beacons s) eqn:Be; cbn [lg_i lg_socks lg_files lg_beacons] in *; change (connected []) with 0%nat in *; change (with_file []) with 0%nat in *; rewrite ?Be; lia.
      - exfalso. apply (NC k m). left. reflexivity. }
    destruct X as (X1 & X2 & X3). destruct (IH s1 s' l2) as (Y1 & Y2 & Y3); auto; [intros k m I; apply (NC k m); right; exact I|]. lia.
Qed.

(** C162: the program itself closes nothing of a transfer: until the garbage collector runs, every socket and every file of every
    transfer ever started is open, whatever has been removed. *)
Lemma c162_open : forall sardir hs s s' started, fresh s -> no_collection hs -> ld_run sardir hs s = Ret (s', started) ->
  lg_socks s' = (lg_beacons s' + connected started)%nat /\ lg_files s' = with_file started.
Proof.
  intros sardir hs s s' started (F1 & F2 & F3 & F4) NC R. destruct (run_kept _ _ _ _ _ NC R) as (A & B & _); lia.
Qed.

(** C162: a garbage collector that closes all it may leaves those of the table (and of beacons) open. *)
Lemma c162_collected : forall sardir hs s s1 started, fresh s -> ld_run sardir hs s = Ret (s1, started) ->
  exists s', ld_run sardir (hs ++ [HCollect (lg_socks s1) (lg_files s1)]) s = Ret (s', started) /\ lg_i s' = lg_i s1 /\
    lg_socks s' = (lg_beacons s' + connected (is_table (lg_i s')))%nat /\ lg_files s' = with_file (is_table (lg_i s')).
Proof.
  intros sardir hs s s1 started F R. destruct (c162_bounds _ _ _ _ _ F R) as (g & _ & B1 & B2).
  assert (APP : forall a b s s1 l s2 l2, ld_run sardir a s = Ret (s1, l) -> ld_run sardir b s1 = Ret (s2, l2) ->
            ld_run sardir (a ++ b) s = Ret (s2, (l ++ l2)%list)).
  { clear. induction a as [|h a IH]; intros b s s1 l s2 l2; cbn [ld_run app].
    - intros H. inversion H; subst. auto.
    - destruct (ld_step sardir s h) as [[u k]| |]; cbn [obind]; try discriminate.
      destruct (ld_run sardir a u) as [[v k2]| |] eqn:RA; cbn [obind]; try discriminate.
      intros H RB. inversion H; subst. rewrite (IH _ _ _ _ _ _ RA RB). cbn [obind]. rewrite app_assoc. reflexivity. }
  eexists. split; [|split; [|split]].
  - erewrite (APP hs _ s s1 started); [rewrite app_nil_r; reflexivity|exact R|reflexivity].
  - reflexivity.
  - cbn [lg_i lg_socks lg_files lg_beacons]. rewrite socks_in_connected. lia.
  - cbn [lg_i lg_socks lg_files lg_beacons]. rewrite files_in_with_file. lia.
Qed.

(** C162: once the sockets that the system has are open, no transfer that is started gets a connection, however many of the others
    are removed, until the garbage collector runs. *)
Lemma c162_exhausted : forall limit sardir hs s s' started,
  limited limit sardir hs s -> no_collection hs -> no_beacons hs -> (limit <= lg_socks s)%nat ->
  ld_run sardir hs s = Ret (s', started) -> connected started = 0%nat /\ lg_socks s' = lg_socks s.
Proof.
  intros limit sardir. induction hs as [|h hs IH]; intros s s' started LI NC NB LE; cbn [ld_run].
  - intros H. inversion H; subst. auto.
  - destruct (ld_step sardir s h) as [[s1 l1]| |] eqn:S1; cbn [obind]; try discriminate.
    destruct (ld_run sardir hs s1) as [[s2 l2]| |] eqn:R; cbn [obind]; try discriminate.
    intros H. inversion H; subst. clear H. rewrite connected_app. destruct LI as (L1 & L2). specialize (L2 _ _ S1).
    assert (X : connected l1 = 0%nat /\ lg_socks s1 = lg_socks s).
    { destruct h as [E c tt p f|t|d| |k m]; cbn [ld_step] in S1.
      - destruct (new_initiator _ _ _ _ _ _ _) as [[i r]| |] eqn:N; cbn [obind] in S1; try discriminate. apply start_table in N.
        destruct r as [t|]; inversion S1; subst; cbn [lg_i lg_socks lg_files lg_beacons] in *; [|auto].
        destruct N as (_ & N). specialize (N (L1 LE)). unfold connected, sock_of. cbn [filter]. rewrite N. cbn [List.length]. lia.
      - inversion S1; subst. auto.
      - specialize (L1 LE). subst d. inversion S1; subst. auto.
      - exfalso. apply (proj1 (NB _ (or_introl eq_refl))). reflexivity.
      - exfalso. apply (NC k m). left. reflexivity. }
    destruct X as (X1 & X2). destruct (IH s1 s' l2) as (Y1 & Y2); auto.
    + intros k m I. apply (NC k m). right. exact I.
    + intros x I. apply NB. right. exact I.
    + lia.
    + lia.
Qed.

(** C162: then transfers are started in vain: one that is started gets no connection, and the start after it is refused, and
    leaves the table as it was with or without that one. *)
Lemma c162_vain : forall sardir E c i ttype peer fname i1 t, Forall (fun u => tr_conn u <> None) (is_table i) -> ie_dial E peer = false ->
  new_initiator E sardir c i ttype peer fname = Ret (i1, Some t) ->
  tr_conn t = None /\
  forall E' c' ttype' peer' fname', exists i2, new_initiator E' sardir c' i1 ttype' peer' fname' = Ret (i2, None) /\
    (is_table i2 = is_table i \/ is_table i2 = (is_table i ++ [t])%list) /\
    (is_table i2 = is_table i <-> find (in_the_way (overwrites (is_fs i1) (is_cwd i1) sardir ttype' fname') fname' peer') (is_table i) = None).
Proof.
  intros sardir E c i ttype peer fname i1 t AC D N. apply start_table in N. destruct N as (T & C). specialize (C D). split; [exact C|].
  intros E' c' ttype' peer' fname'.
  set (P := in_the_way (overwrites (is_fs i1) (is_cwd i1) sardir ttype' fname') fname' peer').
  assert (LT : forall l : list transfer, l <> (l ++ [t])%list).
  { intros l H. apply (f_equal (@List.length _)) in H. rewrite app_length in H. cbn in H. lia. }
  assert (FA : forall l, find P (l ++ [t]) = match find P l with Some u => Some u | None => Some t end).
  { induction l as [|u l IH]; cbn [app find].
    - unfold P, in_the_way, without_connection. rewrite C. reflexivity.
    - destruct (P u); auto. }
  assert (F : find P (is_table i1) = match find P (is_table i) with Some u => Some u | None => Some t end) by (rewrite T; apply FA).
  destruct (find P (is_table i)) as [u|] eqn:FU.
  - eexists. split; [apply (c80_refused E' sardir c' i1 ttype' peer' fname' u F)|]. cbn [is_table].
    apply find_some in FU. destruct FU as (FU & _). rewrite Forall_forall in AC. specialize (AC u FU).
    unfold without_connection. destruct (tr_conn u); [|congruence]. rewrite T. split; [auto|]. split; [|discriminate].
    intros X. exfalso. symmetry in X. apply LT in X. exact X.
  - eexists. split; [apply (c80_refused E' sardir c' i1 ttype' peer' fname' t F)|]. cbn [is_table].
    unfold without_connection. rewrite C. rewrite T, removelast_last. split; [auto|]. split; auto.
Qed.

(** Examples: a transfer is started and removed, again and again *)
Definition exs_fresh : ledger := {| lg_i := exi_start; lg_socks := 0; lg_files := 0; lg_beacons := 0 |}.
Definition exs_round : list happening :=
  [HStart exi_env sar_cli "put" ex_peer "s/a"; HRemove (ex_transfer 4294967294 ex_peer "a");
   HStart exi_env sar_cli "put" ex_peer2 "s/a"; HRemove (ex_transfer 4294967295 ex_peer2 "a")].
Definition exs_get (o : outcome (ledger * list transfer)) : nat * nat * nat * nat :=
  match o with Ret (s, l) => (List.length (is_table (lg_i s)), List.length l, lg_socks s, lg_files s) | _ => (9, 9, 9, 9)%nat end.
Example c162_open_ex :
  fresh exs_fresh /\ no_collection exs_round /\ exs_get (ld_run "/" exs_round exs_fresh) = (0, 2, 2, 2)%nat /\
  exs_get (ld_run "/" (exs_round ++ [HBeacons true; HCollect 1 5]) exs_fresh) = (0, 2, 2, 0)%nat.
Proof.
  split; [repeat split|]. split; [intros k m; cbn; intuition discriminate|]. split; vm_compute; reflexivity.
Qed.
(** Two sockets are all there are, and both are open *)
Definition exs_off : ienv := {| ie_now := exi_time; ie_pid := 1; ie_dial := fun _ => false; ie_resolve := fun _ => Some ex_peer; ie_chdir := true |}.
Definition exs_full : ledger := match ld_run "/" exs_round exs_fresh with Ret (s, _) => s | _ => exs_fresh end.
Example c162_exhausted_ex :
  let hs := [HStart exs_off sar_cli "put" ex_peer "s/a"; HStart exs_off sar_cli "put" ex_peer2 "s/a"; HStart exs_off sar_cli "put" ex_peer "s/a"] in
  lg_socks exs_full = 2%nat /\ limited 2 "/" hs exs_full /\ no_collection hs /\ no_beacons hs /\
  exs_get (ld_run "/" hs exs_full) = (1, 2, 2, 4)%nat.
Proof.
  intros hs. split; [vm_compute; reflexivity|]. split.
  - cbn [limited hs]. split; [reflexivity|]. intros. split; [reflexivity|]. intros. split; [reflexivity|]. intros. exact I.
  - split; [intros k m; cbn; intuition discriminate|]. split; [intros h; cbn; intuition (subst; discriminate)|]. vm_compute. reflexivity.
Qed.
Example c162_vain_ex : exists i1 t, Forall (fun u => tr_conn u <> None) (is_table exi_s1) /\ ie_dial exs_off ex_peer2 = false /\
  new_initiator exs_off "/s" sar_cli exi_s1 "put" ex_peer2 "a" = Ret (i1, Some t) /\
  new_initiator exi_env "/s" sar_cli i1 "put" ex_peer2 "b" = Ret (with_table i1 (is_table exi_s1), None).
Proof.
  do 2 eexists. split; [vm_compute; repeat constructor; discriminate|]. split; [reflexivity|]. split; vm_compute; reflexivity.
Qed.
