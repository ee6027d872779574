(** * Properties of the address functions and of the disk usage *)

From Coq Require Import DecimalString DecimalN.
From Verif Require Import GoBase GoFacts Trans Sarnet SpecSarnet.
Local Open Scope string_scope.
Local Open Scope N_scope.

(** ** UDPAddress *)
Lemma count_byte_occ : forall c s, count_byte c s = occurrences c s.
Proof.
  induction s; cbn; [reflexivity|]. unfold occurrences, bytes_of in *. cbn [list_ascii_of_string count_occ].
  destruct (ascii_dec a c) as [->|N].
  - rewrite Ascii.eqb_refl. cbn. now rewrite IHs.
  - apply Ascii.eqb_neq in N. rewrite N. exact IHs.
Qed.

(** C77: an address text is accepted exactly when it has two colons or three dots and the
    resolver knows it; the resolver is asked for exactly that text with port 7542. *)
Lemma c77_udp_address : forall resolve s,
  match dialled s with
  | None => exists e, udp_address resolve s = (None, Some e)
  | Some text => match resolve text with
                 | Some a => udp_address resolve s = (Some a, None)
                 | None => exists e, udp_address resolve s = (None, Some e)
                 end
  end.
Proof.
  intros resolve s. unfold dialled, udp_address, is_ipv6, is_ipv4. rewrite !count_byte_occ.
  change (itoa saratoga_port) with "7542".
  destruct (Nat.leb 2 (occurrences ":" s)).
  - assert (E : ("[" ++ s ++ "]") ++ ":" ++ "7542" = "[" ++ s ++ "]:7542").
    { cbn [append]. f_equal. induction s; cbn; [reflexivity|]. now f_equal. }
    rewrite E. destruct (resolve _); eauto.
  - destruct (Nat.eqb (occurrences "." s) 3); eauto. change (":" ++ "7542") with ":7542". destruct (resolve _); eauto.
Qed.
Example c77_ex : forall a,
  udp_address (fun t => if String.eqb t "[fe80::1]:7542" then Some a else None) "fe80::1" = (Some a, None) /\
  udp_address (fun t => if String.eqb t "10.0.0.1:7542" then Some a else None) "10.0.0.1" = (Some a, None) /\
  (exists e, udp_address (fun _ => Some a) "myhost" = (None, Some e)).
Proof. intros a. repeat split; try reflexivity. eexists; reflexivity. Qed.

(** ** RemoveUDPAddrValue *)
Lemma aset_length : forall H n x, length (aset H n x) = length H.
Proof. induction H; destruct n; cbn; auto. Qed.
Lemma nth_aset : forall H n x, (n < length H)%nat -> nth n (aset H n x) [] = x.
Proof. induction H; destruct n; cbn [length aset nth]; intros; try lia; auto. apply IHlist; lia. Qed.
Lemma aset_app : forall H T n x, (length H <= n)%nat -> aset (H ++ T) n x = (H ++ aset T (n - length H) x)%list.
Proof.
  induction H; intros T n x L; cbn [app length] in *.
  - now rewrite Nat.sub_0_r.
  - destruct n; [lia|]. cbn [aset Nat.sub]. f_equal. apply IHlist; lia.
Qed.

Lemma aview_length : forall H s, slice_ok H s -> length (aview H s) = as_len s.
Proof. intros H s [_ L]. unfold aview. rewrite firstn_length, skipn_length. lia. Qed.
Lemma aview_app : forall H T s, (as_arr s < length H)%nat -> aview (H ++ T) s = aview H s.
Proof. intros. unfold aview. rewrite app_nth1; auto. Qed.
Lemma slice_ok_app : forall H T s, slice_ok H s -> slice_ok (H ++ T) s.
Proof. intros H T s [A B]. split; [rewrite app_length; lia|]. rewrite app_nth1; auto. Qed.

Lemma firstn_app_exact : forall A (l r : list A) n, n = length l -> firstn n (l ++ r) = l.
Proof. intros; subst. rewrite firstn_app, Nat.sub_diag, firstn_all, firstn_O, app_nil_r. reflexivity. Qed.

Lemma aappend_ok : forall grow H s elems H0 T, slice_ok H s -> H = (H0 ++ T)%list -> (length H0 <= as_arr s)%nat ->
  exists T' s', aappend grow H s elems = ((H0 ++ T')%list, s') /\ slice_ok (H0 ++ T') s' /\
    aview (H0 ++ T') s' = (aview H s ++ elems)%list /\ (length H0 <= as_arr s')%nat /\
    as_len s' = (as_len s + length elems)%nat.
Proof.
  intros grow H s elems H0 T [A B] E L. unfold aappend, acap.
  destruct (Nat.leb_spec (as_len s + length elems) (length (nth (as_arr s) H []) - as_off s)).
  - subst H. rewrite aset_app by auto. do 2 eexists. split; [reflexivity|].
    cbn [as_arr as_off as_len]. rewrite <- aset_app by auto.
    set (H := (H0 ++ T)%list) in *. set (x := nth (as_arr s) H []) in *.
    assert (LO : length (overwrite x (as_off s + as_len s) elems) = length x).
    { unfold overwrite. rewrite !app_length, firstn_length, skipn_length. lia. }
    unfold slice_ok, aview. cbn [as_arr as_off as_len]. rewrite nth_aset by auto. rewrite aset_length, LO.
    repeat split; auto; try lia. fold x. unfold overwrite.
    rewrite skipn_app, firstn_length. replace (as_off s - Nat.min (as_off s + as_len s) (length x))%nat with O by lia.
    cbn [skipn]. rewrite skipn_firstn_comm. replace (as_off s + as_len s - as_off s)%nat with (as_len s) by lia.
    rewrite app_assoc. apply firstn_app_exact. rewrite app_length, firstn_length, skipn_length. lia.
  - subst H. exists (T ++ [aview (H0 ++ T) s ++ elems ++ repeat junk (grow (as_len s + length elems)%nat)])%list.
    eexists. split; [rewrite <- (app_assoc H0 T); reflexivity|]. cbn [as_arr as_off as_len].
    assert (LV : length (aview (H0 ++ T) s) = as_len s) by (apply aview_length; split; auto).
    assert (NT : nth (length (H0 ++ T)) (H0 ++ T ++ [aview (H0 ++ T) s ++ elems ++ repeat junk (grow (as_len s + length elems)%nat)])%list []
                 = (aview (H0 ++ T) s ++ elems ++ repeat junk (grow (as_len s + length elems)%nat))%list).
    { rewrite (app_assoc H0 T), app_nth2 by lia. now rewrite Nat.sub_diag. }
    split; [|split; [|split]].
    + unfold slice_ok. cbn [as_arr as_off as_len]. rewrite NT, !app_length, LV. cbn [length]. lia.
    + unfold aview at 1. cbn [as_arr as_off as_len]. rewrite NT. cbn [skipn]. rewrite app_assoc.
      apply firstn_app_exact. rewrite app_length, LV. reflexivity.
    + rewrite app_length. lia.
    + reflexivity.
Qed.

Lemma skipn_skipn_add : forall A (l : list A) i j, skipn i (skipn j l) = skipn (j + i) l.
Proof. intros A l i j. revert l. induction j; intros l; [reflexivity|]. destruct l; cbn [skipn Nat.add]; [now rewrite !skipn_nil|apply IHj]. Qed.

Lemma aslice_sub_ok : forall H s i j, slice_ok H s -> (i <= j <= as_len s)%nat ->
  aslice_sub H s i j = Ret {| as_arr := as_arr s; as_off := as_off s + i; as_len := j - i |} /\
  aview H {| as_arr := as_arr s; as_off := as_off s + i; as_len := j - i |} = firstn (j - i) (skipn i (aview H s)).
Proof.
  intros H s i j [A B] L. unfold aslice_sub, acap. split.
  - destruct (Nat.leb_spec i j); [|lia]. destruct (Nat.leb_spec j (length (nth (as_arr s) H []) - as_off s)); [reflexivity|lia].
  - unfold aview. cbn [as_arr as_off as_len].
    rewrite skipn_firstn_comm, firstn_firstn, skipn_skipn_add. replace (Nat.min (j - i) (as_len s - i)) with (j - i)%nat by lia. reflexivity.
Qed.

Lemma remove_index_ok : forall grow H a i, slice_ok H a -> (i < as_len a)%nat ->
  exists T a', remove_index grow H a i = Ret ((H ++ T)%list, a') /\ slice_ok (H ++ T) a' /\
    aview (H ++ T) a' = (firstn i (aview H a) ++ skipn (S i) (aview H a))%list /\ as_len a' = (as_len a - 1)%nat.
Proof.
  intros grow H a i OK L. unfold remove_index.
  set (ret := {| as_arr := length H; as_off := 0; as_len := 0 |}).
  set (H1 := (H ++ [[]])%list).
  assert (OK1 : slice_ok H1 a) by (apply slice_ok_app; auto).
  assert (OKr : slice_ok H1 ret).
  { unfold H1, ret. split; cbn [as_arr as_off as_len]; [rewrite app_length; cbn; lia|]. lia. }
  destruct (aslice_sub_ok H1 a 0 i OK1 ltac:(lia)) as [E V]. rewrite E. cbn [obind]. rewrite V.
  assert (VA : aview H1 a = aview H a) by (apply aview_app, OK).
  destruct (aappend_ok grow H1 ret (firstn (i - 0) (skipn 0 (aview H1 a))) H [[]] OKr eq_refl ltac:(cbn; lia))
    as (T' & s' & E1 & OK' & V' & L' & N').
  rewrite E1.
  assert (OK2 : slice_ok (H ++ T') a) by (apply slice_ok_app; auto).
  destruct (aslice_sub_ok (H ++ T') a (S i) (as_len a) OK2 ltac:(lia)) as [E2 V2]. rewrite E2. cbn [obind]. rewrite V2.
  destruct (aappend_ok grow (H ++ T') s' (firstn (as_len a - S i) (skipn (S i) (aview (H ++ T') a))) H T' OK' eq_refl L')
    as (T'' & s'' & E3 & OK'' & V'' & L'' & N'').
  rewrite E3. exists T'', s''. split; [reflexivity|]. split; [auto|].
  rewrite (aview_app H T' a) in V'' by apply OK. rewrite (aview_app H T' a) in N'' by apply OK. pose proof (aview_length _ _ OK) as LV.
  split.
  - rewrite V'', V'. change (aview H1 ret) with (@nil udpaddr). rewrite app_nil_l. change (skipn 0 (aview H1 a)) with (aview H1 a). rewrite VA, Nat.sub_0_r. f_equal.
    apply firstn_all2. rewrite skipn_length. lia.
  - rewrite N'', N'. change (skipn 0 (aview H1 a)) with (aview H1 a). rewrite VA, !firstn_length, !skipn_length. cbn [ret as_len]. lia.
Qed.

Definition differs (val x : udpaddr) : bool := negb (String.eqb (udpaddr_string x) (udpaddr_string val)).

Lemma filter_all : forall A (f : A -> bool) l, (forall x, In x l -> f x = true) -> filter f l = l.
Proof. induction l; cbn; intros H; auto. rewrite H by auto. f_equal. apply IHl. intros; apply H; auto. Qed.

Lemma remove_loop_done : forall rec grow val steps H a i, slice_ok H a -> filter (differs val) (aview H a) = aview H a ->
  (as_len a - i < steps)%nat -> remove_loop rec grow val steps H a i = Ret (Some (H, a)).
Proof.
  induction steps; intros H a i OK F L; [lia|]. cbn [remove_loop].
  destruct (Nat.ltb_spec i (as_len a)); [|reflexivity].
  unfold index. destruct (nth_error (aview H a) i) as [x|] eqn:E.
  - cbn [obind]. assert (D : differs val x = true).
    { assert (I : In x (filter (differs val) (aview H a))) by (rewrite F; eapply nth_error_In; eauto).
      apply filter_In in I. tauto. }
    unfold differs in D. apply negb_true_iff in D. rewrite D. apply IHsteps; auto; lia.
  - apply nth_error_None in E. rewrite aview_length in E by auto. lia.
Qed.

Lemma filter_idem : forall A (f : A -> bool) l, filter f (filter f l) = filter f l.
Proof. intros. apply filter_all. intros x I. apply filter_In in I. tauto. Qed.

Lemma remove_value_ok : forall fuel grow val H a, slice_ok H a -> (as_len a < fuel)%nat ->
  exists T a', remove_value fuel grow val H a = Ret (Some ((H ++ T)%list, a')) /\ slice_ok (H ++ T) a' /\
    aview (H ++ T) a' = filter (differs val) (aview H a).
Proof.
  induction fuel; intros grow val H a OK L; [lia|]. cbn [remove_value].
  set (rec := fun H a => remove_value fuel grow val H a).
  assert (G : forall steps i, (as_len a - i < steps)%nat ->
            filter (differs val) (firstn i (aview H a)) = firstn i (aview H a) ->
            exists T a', remove_loop rec grow val steps H a i = Ret (Some ((H ++ T)%list, a')) /\ slice_ok (H ++ T) a' /\
              aview (H ++ T) a' = filter (differs val) (aview H a)).
  { induction steps; intros i Ls F; [lia|]. cbn [remove_loop].
    destruct (Nat.ltb_spec i (as_len a)) as [Li|Li].
    - unfold index. destruct (nth_error (aview H a) i) as [x|] eqn:E;
        [|apply nth_error_None in E; rewrite aview_length in E by auto; lia].
      cbn [obind].
      assert (SP : aview H a = (firstn i (aview H a) ++ x :: skipn (S i) (aview H a))%list).
      { clear - E. revert i E. generalize (aview H a). induction l; intros i E; destruct i; cbn in *; try discriminate.
        - now inversion E.
        - f_equal. now apply IHl. }
      destruct (String.eqb (udpaddr_string x) (udpaddr_string val)) eqn:Q.
      + destruct (remove_index_ok grow H a i OK Li) as (T1 & a1 & E1 & OK1 & V1 & N1). rewrite E1. cbn [obind].
        destruct (IHfuel grow val (H ++ T1)%list a1 OK1 ltac:(lia)) as (T2 & a2 & E2 & OK2 & V2).
        unfold rec at 1. rewrite E2. cbn [obind]. rewrite <- app_assoc in *.
        exists (T1 ++ T2)%list, a2.
        assert (V : aview (H ++ T1 ++ T2) a2 = filter (differs val) (aview H a)).
        { rewrite V2, V1, filter_app. rewrite SP at 3. rewrite filter_app. cbn [filter].
          unfold differs at 4. rewrite Q. reflexivity. }
        split; [|split; auto]. apply remove_loop_done; auto.
        * rewrite V. apply filter_idem.
        * assert (N2 : (as_len a2 <= as_len a)%nat).
          { rewrite <- (aview_length _ _ OK2), V, <- (aview_length _ _ OK). clear. induction (aview H a); cbn; auto.
            destruct (differs val a0); cbn; lia. }
          lia.
      + apply IHsteps; [lia|].
        assert (F' : firstn (S i) (aview H a) = (firstn i (aview H a) ++ [x])%list).
        { rewrite SP at 1. rewrite firstn_app, firstn_firstn. replace (Nat.min (S i) i) with i by lia. f_equal.
          assert (Li' : length (firstn i (aview H a)) = i) by (rewrite firstn_length, aview_length; auto; lia).
          rewrite Li'. replace (S i - i)%nat with 1%nat by lia. reflexivity. }
        rewrite F', filter_app, F. cbn [filter]. unfold differs at 1. rewrite Q. reflexivity.
    - exists [], a. rewrite app_nil_r. split; [reflexivity|]. split; auto.
      rewrite firstn_all2 in F by (rewrite aview_length; auto). now rewrite F. }
  apply G; [lia|reflexivity].
Qed.

(** C68: removing an address gives the list without any entry that reads the same, in the
    same order; all memory that existed before, with the list of the caller, is unchanged. *)
Lemma c68_remove : forall grow val H a, slice_ok H a ->
  exists T a', remove_udpaddr_value grow val H a = Ret (Some ((H ++ T)%list, a')) /\
    aview (H ++ T) a' = filter (fun x => negb (String.eqb (udpaddr_string x) (udpaddr_string val))) (aview H a) /\
    aview (H ++ T) a = aview H a.
Proof.
  intros grow val H a OK. unfold remove_udpaddr_value.
  destruct (remove_value_ok (S (as_len a)) grow val H a OK ltac:(lia)) as (T & a' & E & OK' & V).
  exists T, a'. split; [exact E|]. split; [exact V|]. apply aview_app, OK.
Qed.

(** *** Two addresses read the same exactly when they are the same *)
Lemma itoa_inj : forall n m, itoa n = itoa m -> n = m.
Proof.
  intros n m H. unfold itoa in H. apply Unsigned.to_uint_inj.
  assert (NN : forall k, N.to_uint k <> Decimal.Nil) by (destruct k; cbn; [discriminate|]; apply DecimalPos.Unsigned.to_uint_nonnil).
  pose proof (NilZero.usu (N.to_uint n) (NN n)) as A. pose proof (NilZero.usu (N.to_uint m) (NN m)) as B.
  rewrite H in A. congruence.
Qed.

Lemma bytes_app : forall s t, bytes_of (s ++ t) = (bytes_of s ++ bytes_of t)%list.
Proof. induction s; cbn; intros; auto. unfold bytes_of in *. now rewrite <- IHs. Qed.
Lemma bytes_inj : forall s t, bytes_of s = bytes_of t -> s = t.
Proof. intros s t H. rewrite <- (string_of_list_ascii_of_string s), <- (string_of_list_ascii_of_string t). unfold bytes_of in H. now rewrite H. Qed.
Lemma count_zero : forall c s, Nat.ltb 0 (count_byte c s) = false <-> ~ occurs c s.
Proof.
  intros. rewrite count_byte_occ. unfold occurrences, occurs. rewrite Nat.ltb_ge.
  rewrite (count_occ_not_In ascii_dec). lia.
Qed.
Lemma count_pos : forall c s, Nat.ltb 0 (count_byte c s) = true <-> occurs c s.
Proof.
  intros. rewrite count_byte_occ. unfold occurrences, occurs. rewrite Nat.ltb_lt.
  rewrite (count_occ_In ascii_dec). lia.
Qed.
Lemma cut_unique : forall (c : ascii) l l' r r', ~ In c l -> ~ In c l' -> (l ++ c :: r)%list = (l' ++ c :: r')%list -> l = l' /\ r = r'.
Proof.
  induction l; destruct l'; cbn; intros r r' A B E.
  - inversion E; auto.
  - inversion E; subst. tauto.
  - inversion E; subst. tauto.
  - inversion E; subst. destruct (IHl l' r r') as [-> ->]; tauto.
Qed.
Lemma app_assoc_s : forall a b c : string, (a ++ b) ++ c = a ++ b ++ c.
Proof. induction a; cbn; intros; auto. now f_equal. Qed.

Lemma udpaddr_text : forall a, proper_address a ->
  (~ occurs ":" (ua_ip a) /\ ua_zone a = "" /\ udpaddr_string a = ua_ip a ++ ":" ++ itoa (ua_port a)) \/
  (occurs ":" (ua_ip a) /\ ~ occurs "]" (ua_zone a) /\
   udpaddr_string a = "[" ++ (ua_ip a ++ (if String.eqb (ua_zone a) "" then "" else "%" ++ ua_zone a)) ++ "]:" ++ itoa (ua_port a)).
Proof.
  intros a [(P1 & P2 & P3) [(C & Z)|(C & Z)]]; [left|right]; split; auto; split; auto; unfold udpaddr_string.
  - rewrite Z. cbn [String.eqb]. change (String.eqb "" "") with true. cbv iota.
    assert (E : ua_ip a ++ "" = ua_ip a) by (apply bytes_inj; rewrite bytes_app; cbn; apply app_nil_r). rewrite E.
    apply count_zero in C. apply count_zero in P1. rewrite C, P1. reflexivity.
  - assert (O : occurs ":" (ua_ip a ++ (if String.eqb (ua_zone a) "" then "" else "%" ++ ua_zone a))).
    { unfold occurs. rewrite bytes_app. apply in_or_app. now left. }
    apply count_pos in O. rewrite O. reflexivity.
Qed.

(** C68: for the addresses the net package makes, "reads the same" means equal. *)
Lemma c68_same_text : forall a b, proper_address a -> proper_address b ->
  (udpaddr_string a = udpaddr_string b <-> a = b).
Proof.
  intros a b PA PB. split; [|now intros ->]. intros H.
  pose proof (udpaddr_text a PA) as TA. pose proof (udpaddr_text b PB) as TB.
  destruct a as [ia pa za], b as [ib pb zb]. cbn [ua_ip ua_port ua_zone] in *.
  destruct PA as [(A1 & A2 & A3) _]. destruct PB as [(B1 & B2 & B3) _]. cbn [ua_ip] in *.
  destruct TA as [(C1 & Z1 & E1)|(C1 & Z1 & E1)], TB as [(C2 & Z2 & E2)|(C2 & Z2 & E2)];
    rewrite E1, E2 in H; apply (f_equal bytes_of) in H.
  - rewrite !bytes_app in H. cbn [bytes_of list_ascii_of_string app] in H. apply cut_unique in H; auto.
    destruct H as [Hi Hp]. apply bytes_inj in Hi. apply bytes_inj, itoa_inj in Hp. congruence.
  - exfalso. rewrite !bytes_app in H. cbn [bytes_of list_ascii_of_string app] in H.
    destruct (bytes_of ia) as [|c l] eqn:Q; cbn in H; inversion H.
    apply A2. unfold occurs. rewrite Q. subst c. now left.
  - exfalso. rewrite !bytes_app in H. cbn [bytes_of list_ascii_of_string app] in H.
    destruct (bytes_of ib) as [|c l] eqn:Q; cbn in H; inversion H.
    apply B2. unfold occurs. rewrite Q. subst c. now left.
  - rewrite !bytes_app in H. cbn [bytes_of list_ascii_of_string app] in H. inversion H as [H'].
    assert (ZO : forall i z, ~ occurs "]" i -> ~ occurs "]" z ->
              ~ In "]"%char (list_ascii_of_string i ++ list_ascii_of_string (if String.eqb z "" then "" else "%" ++ z))).
    { intros i z X Y I. apply in_app_or in I. destruct I as [I|I]; [auto|].
      destruct (String.eqb z ""); [destruct I|]. cbn in I. destruct I as [I|I]; [discriminate|auto]. }
    apply cut_unique in H'; [|apply ZO; auto|apply ZO; auto].
    destruct H' as [Hi Hp]. inversion Hp as [Hp']. apply bytes_inj, itoa_inj in Hp'. subst pb.
    destruct (String.eqb_spec za "") as [->|Na], (String.eqb_spec zb "") as [->|Nb].
    + rewrite !app_nil_r in Hi. apply bytes_inj in Hi. congruence.
    + exfalso. cbn in Hi. rewrite app_nil_r in Hi. apply A1. unfold occurs. rewrite Hi. apply in_or_app. right. now left.
    + exfalso. cbn in Hi. rewrite app_nil_r in Hi. apply B1. unfold occurs. rewrite <- Hi. apply in_or_app. right. now left.
    + cbn in Hi. apply cut_unique in Hi; auto. destruct Hi as [Hi Hz]. apply bytes_inj in Hi. apply bytes_inj in Hz. congruence.
Qed.
Example c68_ex : let a1 := {| ua_ip := "10.0.0.1"; ua_port := 7542; ua_zone := "" |} in
  let a2 := {| ua_ip := "fe80::1"; ua_port := 7542; ua_zone := "eth0" |} in
  let s := {| as_arr := 0; as_off := 0; as_len := 4 |} in
  proper_address a1 /\ proper_address a2 /\ slice_ok [[a1; a2; a1; a1]] s /\
  exists H s', remove_udpaddr_value (fun n => n) a1 [[a1; a2; a1; a1]] s = Ret (Some (H, s')) /\ aview H s' = [a2].
Proof.
  cbv zeta. split; [|split; [|split]].
  - split; [repeat split|left; split; [|reflexivity]]; intros O; vm_compute in O; intuition discriminate.
  - split; [repeat split|right; split; [vm_compute; tauto|]]; intros O; vm_compute in O; intuition discriminate.
  - split; cbn; lia.
  - do 2 eexists. split; [vm_compute; reflexivity|]. vm_compute. reflexivity.
Qed.

(** ** Disk usage *)

(** C78: sizes are exact as long as the file system has fewer than 2^64 bytes; used and
    free always add up to the size modulo 2^64. *)
Lemma c78_usage : forall s, (0 <= sf_bsize s < 2 ^ 63)%Z ->
  let b := Z.to_N (sf_bsize s) in
  (sf_blocks s * b < 2 ^ 64 -> sf_bfree s <= sf_blocks s -> sf_bavail s <= sf_bfree s ->
     du_size s = sf_blocks s * b /\ du_free s = sf_bfree s * b /\ du_available s = sf_bavail s * b /\
     du_used s = (sf_blocks s - sf_bfree s) * b) /\
  (du_used s + du_free s) mod 2 ^ 64 = du_size s /\
  du_size s = (sf_blocks s * b) mod 2 ^ 64 /\ du_free s = (sf_bfree s * b) mod 2 ^ 64 /\
  du_available s = (sf_bavail s * b) mod 2 ^ 64.
Proof.
  intros s B b.
  assert (U : u64_of_Z (sf_bsize s) = b).
  { unfold u64_of_Z, b. rewrite Z.mod_small; auto. split; [lia|]. eapply Z.lt_trans; [apply B|]. reflexivity. }
  unfold du_used, du_size, du_free, du_available, u64, wrap, go_sub. rewrite U.
  assert (P : 2 ^ 64 <> 0) by discriminate.
  split; [|split; [|auto]].
  - intros L1 L2 L3.
    assert (F : sf_bfree s * b <= sf_blocks s * b) by (apply N.mul_le_mono_r; auto).
    assert (A : sf_bavail s * b <= sf_bfree s * b) by (apply N.mul_le_mono_r; auto).
    rewrite !(N.mod_small _ (2 ^ 64)) by lia. repeat split.
    replace (sf_blocks s * b + 2 ^ 64 - sf_bfree s * b) with ((sf_blocks s * b - sf_bfree s * b) + 1 * 2 ^ 64) by lia.
    rewrite N.mod_add by auto. rewrite N.mod_small by lia. symmetry. apply N.mul_sub_distr_r.
  - set (x := (sf_blocks s * b) mod 2 ^ 64). set (y := (sf_bfree s * b) mod 2 ^ 64).
    assert (X : x < 2 ^ 64) by (apply N.mod_upper_bound; auto). assert (Y : y < 2 ^ 64) by (apply N.mod_upper_bound; auto).
    rewrite N.add_mod_idemp_l by auto. replace (x + 2 ^ 64 - y + y) with (x + 1 * 2 ^ 64) by lia.
    rewrite N.mod_add by auto. apply N.mod_small; auto.
Qed.
Example c78_ex : let s := {| sf_bsize := 4096; sf_blocks := 1000; sf_bfree := 400; sf_bavail := 300 |} in
  du_used s = 2457600 /\ du_available s = 1228800.
Proof. vm_compute. split; reflexivity. Qed.
