(** * Facts about decoders on a part of a buffer *)

From Coq Require Import Lia.
From Verif Require Import GoBase GoFacts Flags Config Shipped Timestamp Data Holes Status Request Beacon Dirent Metadata Part.
Local Open Scope string_scope.
Local Open Scope nat_scope.

Definition agrees {A} (exact part : outcome (A * error)) : Prop :=
  (exact <> Panic -> part = exact) /\ (exact = Panic -> forall a, part <> Ret (a, None)).
Lemma agrees_refl : forall A (m : outcome (A * error)), agrees m m.
Proof. intros A m. split; [reflexivity|]. intros -> a. discriminate. Qed.
Lemma agrees_panic : forall A (m : outcome (A * error)), (forall a, m <> Ret (a, None)) -> agrees Panic m.
Proof. intros A m H. split; [intros X; now contradiction X|]. intros _. exact H. Qed.
Lemma agrees_bind : forall A B (m : outcome B) (k k' : B -> outcome (A * error)), (forall b, agrees (k b) (k' b)) -> agrees (obind m k) (obind m k').
Proof. intros A B m k k' H. destruct m; cbn [obind]; [apply H| |]; apply agrees_refl. Qed.
Lemma agrees_eq : forall A (m m' : outcome (A * error)), m' = m -> agrees m m'.
Proof. intros A m m' ->. apply agrees_refl. Qed.
Lemma bind_panic : forall A B (m : outcome B) (k : B -> outcome (A * error)), (forall b a, k b <> Ret (a, None)) -> forall a, obind m k <> Ret (a, None).
Proof. intros A B m k H a. destruct m; cbn [obind]; [apply H| |]; discriminate. Qed.

Section Part.
Variables (buf : list byte) (n : nat).
Hypothesis L : n <= List.length buf.
Let p := {| p_buf := buf; p_len := n |}.

Lemma part_bytes : p_bytes p = firstn n buf.
Proof. reflexivity. Qed.
Lemma len_bytes : List.length (firstn n buf) = n.
Proof. rewrite firstn_length. lia. Qed.
Lemma skip_bytes : forall i, firstn (n - i) (skipn i buf) = skipn i (firstn n buf).
Proof. intros i. symmetry. apply skipn_firstn_comm. Qed.
Lemma sub_in : forall i j, i <= j -> j <= n -> p_sub p i j = Ret {| p_buf := skipn i buf; p_len := j - i |}.
Proof.
  intros i j I J. unfold p_sub. cbn [p_buf p]. rewrite (proj2 (Nat.leb_le i j) I). rewrite (proj2 (Nat.leb_le j _)) by lia. reflexivity.
Qed.
Lemma slice_in : forall i j, i <= j -> j <= n -> slice (firstn n buf) i j = Ret (firstn (j - i) (skipn i buf)).
Proof.
  intros i j I J. unfold slice. rewrite len_bytes, (proj2 (Nat.leb_le i j) I), (proj2 (Nat.leb_le j n) J). cbn [andb]. f_equal.
  rewrite <- skip_bytes, firstn_firstn. f_equal. lia.
Qed.
Lemma slice_out : forall i j, n < j -> slice (firstn n buf) i j = Panic.
Proof. intros i j J. unfold slice. rewrite len_bytes, (proj2 (Nat.leb_gt j n) J), Bool.andb_false_r. reflexivity. Qed.
Lemma uint_in : forall k i j, i <= j -> j <= n -> p_uint k p i j = get_uint k (firstn n buf) i j.
Proof.
  intros k i j I J. unfold p_uint, get_uint. rewrite sub_in, slice_in by assumption. cbn [obind p_len p_buf].
  rewrite firstn_length, skipn_length. replace (Nat.min (j - i) (List.length buf - i)) with (j - i) by lia.
  destruct (Nat.leb_spec k (j - i)) as [K|K]; [|reflexivity]. rewrite firstn_firstn. do 3 f_equal. lia.
Qed.
Lemma uint_out : forall k i j, n < j -> get_uint k (firstn n buf) i j = Panic.
Proof. intros k i j J. unfold get_uint. now rewrite slice_out. Qed.
Lemma from_in : forall i, i <= n -> p_from p i = Ret {| p_buf := skipn i buf; p_len := n - i |}.
Proof. intros i I. unfold p_from. cbn [p_len p_buf p]. now rewrite (proj2 (Nat.leb_le i n) I). Qed.
Lemma from_out : forall i, n < i -> p_from p i = Panic.
Proof. intros i I. unfold p_from. cbn [p_len p]. now rewrite (proj2 (Nat.leb_gt i n) I). Qed.
Lemma slice_from_in : forall i, i <= n -> slice_from (firstn n buf) i = Ret (firstn (n - i) (skipn i buf)).
Proof. intros i I. unfold slice_from. rewrite len_bytes, (proj2 (Nat.leb_le i n) I), skip_bytes. reflexivity. Qed.
Lemma slice_from_out : forall i, n < i -> slice_from (firstn n buf) i = Panic.
Proof. intros i I. unfold slice_from. rewrite len_bytes, (proj2 (Nat.leb_gt i n) I). reflexivity. Qed.
Lemma len_from : forall i, i <= n -> List.length (firstn (n - i) (skipn i buf)) = n - i.
Proof. intros i I. rewrite firstn_length, skipn_length. lia. Qed.
End Part.

(** ** Timestamps *)
Lemma uint_all : forall k buf n i j, p_uint k {| p_buf := buf; p_len := n |} i j = get_uint k buf i j.
Proof.
  intros k buf n i j. unfold p_uint, get_uint, p_sub, slice. cbn [p_buf].
  destruct (Nat.leb_spec i j) as [I|I]; cbn [andb]; [|reflexivity]. destruct (Nat.leb_spec j (List.length buf)) as [J|J]; [|reflexivity].
  cbn [obind p_len p_buf]. rewrite firstn_length, skipn_length. replace (Nat.min (j - i) (List.length buf - i)) with (j - i) by lia.
  destruct (Nat.leb_spec k (j - i)) as [K|K]; [|reflexivity]. rewrite firstn_firstn. do 3 f_equal. lia.
Qed.
Lemma ts_behind : forall t buf n, 1 <= n -> ts_get_p t {| p_buf := buf; p_len := n |} = ts_get t buf.
Proof.
  intros t buf n N. unfold ts_get_p, ts_get. unfold p_at. cbn [p_len p_buf]. rewrite (proj2 (Nat.ltb_lt 0 n)) by lia.
  destruct (index buf 0) as [b0| |]; cbn [obind]; try reflexivity.
  destruct (st_getstr sar (N_of_ascii b0)) as [ty| |]; cbn [obind]; try reflexivity.
  rewrite !uint_all. repeat (match goal with |- (if ?c then _ else _) = _ => destruct c; [reflexivity|] end).
  unfold p_sub, slice. cbn [p_buf]. destruct (Nat.leb 1 15 && Nat.leb 15 (List.length buf))%bool; reflexivity.
Qed.
Lemma get_uint_16 : forall k b i j, 16 <= List.length b -> j <= 16 -> get_uint k (firstn 16 b) i j = get_uint k b i j.
Proof.
  intros k b i j H J. unfold get_uint, slice. rewrite firstn_length, (Nat.min_l 16) by lia.
  rewrite (proj2 (Nat.leb_le j 16) J), (proj2 (Nat.leb_le j (List.length b))) by lia. destruct (Nat.leb i j); [|reflexivity]. cbn [andb obind].
  rewrite skipn_firstn_comm, firstn_firstn. replace (Nat.min (j - i) (16 - i)) with (j - i) by lia. reflexivity.
Qed.
Lemma slice_16 : forall (b : list byte) i j, 16 <= List.length b -> j <= 16 -> slice (firstn 16 b) i j = slice b i j.
Proof.
  intros b i j H J. unfold slice. rewrite firstn_length, (Nat.min_l 16) by lia.
  rewrite (proj2 (Nat.leb_le j 16) J), (proj2 (Nat.leb_le j (List.length b))) by lia. destruct (Nat.leb i j); [|reflexivity]. cbn [andb].
  rewrite skipn_firstn_comm, firstn_firstn. replace (Nat.min (j - i) (16 - i)) with (j - i) by lia. reflexivity.
Qed.
Lemma ts_16 : forall t b, 16 <= List.length b -> ts_get t (firstn 16 b) = ts_get t b.
Proof.
  intros t b H. unfold ts_get. replace (index (firstn 16 b) 0) with (index b 0).
  2:{ destruct b; [cbn in H; lia|reflexivity]. }
  destruct (index b 0) as [b0| |]; cbn [obind]; try reflexivity.
  destruct (st_getstr sar (N_of_ascii b0)) as [ty| |]; cbn [obind]; try reflexivity.
  rewrite !get_uint_16, !slice_16 by (assumption || lia). reflexivity.
Qed.

(** ** Data *)
Lemma agrees_data_tail : forall buf n d pos k need, n <= List.length buf ->
  agrees (d_offset_payload d (firstn n buf) pos k need) (d_offset_payload_p d {| p_buf := buf; p_len := n |} pos k need).
Proof.
  intros buf n d pos k need L. unfold d_offset_payload, d_offset_payload_p. destruct (le_lt_dec (pos + k) n) as [H|H].
  - rewrite uint_in by (assumption || lia). apply agrees_bind. intros off. rewrite from_in, slice_from_in by assumption. cbn [obind p_len].
    unfold p_bytes. cbn [p_len p_buf]. rewrite len_from by assumption. apply agrees_refl.
  - rewrite uint_out by assumption. apply agrees_panic. apply bind_panic. intros b a. rewrite from_out by assumption. discriminate.
Qed.
Lemma agrees_data : forall buf n d, n <= List.length buf -> agrees (data_decode d (firstn n buf)) (data_decode_p d {| p_buf := buf; p_len := n |}).
Proof.
  intros buf n d L. unfold data_decode, data_decode_p. cbn [p_len]. rewrite len_bytes by assumption.
  destruct (Nat.ltb_spec n 10) as [S10|S10]; [apply agrees_refl|].
  rewrite !uint_in by (assumption || lia). apply agrees_bind. intros h. apply agrees_bind. intros s. apply agrees_bind. intros rt.
  assert (D : forall d pos need e1 e2, agrees
    (do ds <- sf_getstr sar h "descriptor";
     if String.eqb ds "d16" then d_offset_payload d (firstn n buf) pos 2 need else if String.eqb ds "d32" then d_offset_payload d (firstn n buf) pos 4 false
     else if String.eqb ds "d64" then d_offset_payload d (firstn n buf) pos 8 false else if String.eqb ds "d128" then Ret (d, Some (e1 ds)) else Ret (d, Some (e2 ds)))
    (do ds <- sf_getstr sar h "descriptor";
     if String.eqb ds "d16" then d_offset_payload_p d {| p_buf := buf; p_len := n |} pos 2 need else if String.eqb ds "d32" then d_offset_payload_p d {| p_buf := buf; p_len := n |} pos 4 false
     else if String.eqb ds "d64" then d_offset_payload_p d {| p_buf := buf; p_len := n |} pos 8 false else if String.eqb ds "d128" then Ret (d, Some (e1 ds)) else Ret (d, Some (e2 ds)))).
  { intros d0 pos need e1 e2. apply agrees_bind. intros ds. repeat (match goal with |- context [if ?c then _ else _] => destruct c; [first [apply agrees_data_tail; assumption|apply agrees_refl]|] end). apply agrees_refl. }
  destruct (String.eqb rt "yes").
  - destruct (le_lt_dec 24 n) as [H|H].
    + rewrite sub_in, slice_in by (assumption || lia). cbn [obind]. change (24 - 8) with 16. rewrite ts_behind by lia.
      rewrite ts_16 by (rewrite skipn_length; lia). apply agrees_bind. intros (t & [e|]); [apply agrees_refl|].
      apply (D _ 24 true (fun ds => (ds ++ "d128 not supported in data")%string) (fun ds => (ds ++ " invalid descriptor in data")%string)).
    + rewrite slice_out by (assumption || lia). cbn [obind]. apply agrees_panic. apply bind_panic. intros tb. apply bind_panic. intros (t & [e|]); [discriminate|].
      apply bind_panic. intros ds a. repeat (match goal with |- context [if ?c then _ else _] => destruct c; [first [discriminate|unfold d_offset_payload_p; apply bind_panic; intros off a'; rewrite from_out by lia; discriminate]|] end). discriminate.
  - apply (D _ 8 false (fun ds => (ds ++ "d128 not supported in data")%string) (fun ds => (ds ++ "invalid descriptor in data")%string)).
Qed.

(** ** Status *)
Lemma holes_in : forall buf n k m pos, n <= List.length buf -> pos + m * (k + k) <= n ->
  dec_holes_p k m {| p_buf := buf; p_len := n |} pos = dec_holes k m (firstn n buf) pos.
Proof.
  intros buf n k m pos L. revert pos. induction m as [|m IH]; intros pos H; [reflexivity|]. cbn [dec_holes_p dec_holes].
  rewrite !uint_in by (assumption || lia). rewrite IH by lia. reflexivity.
Qed.
Lemma agrees_status_tail : forall buf n s pos k, n <= List.length buf -> 0 < k ->
  agrees (s_fields s (firstn n buf) pos k) (s_fields_p s {| p_buf := buf; p_len := n |} pos k).
Proof.
  intros buf n s pos k L K. unfold s_fields, s_fields_p. destruct (le_lt_dec (pos + k + k) n) as [H|H].
  - rewrite !uint_in by (assumption || lia). apply agrees_bind. intros pr. apply agrees_bind. intros ir.
    rewrite from_in, slice_from_in by assumption. cbn [obind p_len]. rewrite len_from by assumption. rewrite holes_in; [apply agrees_refl|assumption|].
    assert (X : (n - (pos + k + k)) / 2 / k * (k + k) <= n - (pos + k + k)).
    { rewrite Nat.div_div by lia. pose proof (Nat.mul_div_le (n - (pos + k + k)) (2 * k)). replace (k + k) with (2 * k) by lia. rewrite Nat.mul_comm. apply H0. lia. }
    lia.
  - destruct (le_lt_dec (pos + k) n) as [H1|H1].
    + rewrite !uint_in by (assumption || lia). apply agrees_bind. intros pr. rewrite uint_out by assumption. cbn [obind].
      apply agrees_panic. apply bind_panic. intros ir a. rewrite from_out by assumption. discriminate.
    + rewrite uint_out by assumption. cbn [obind]. apply agrees_panic. apply bind_panic. intros pr. apply bind_panic. intros ir a. rewrite from_out by assumption. discriminate.
Qed.
Lemma agrees_status : forall buf n s, n <= List.length buf -> agrees (status_decode s (firstn n buf)) (status_decode_p s {| p_buf := buf; p_len := n |}).
Proof.
  intros buf n s L. unfold status_decode, status_decode_p. cbn [p_len]. rewrite len_bytes by assumption.
  destruct (Nat.ltb_spec n 12) as [S12|S12]; [apply agrees_refl|].
  rewrite !uint_in by (assumption || lia). apply agrees_bind. intros h. apply agrees_bind. intros se. apply agrees_bind. intros rt.
  assert (D : forall s pos, agrees
    (do ds <- sf_getstr sar h "descriptor";
     if String.eqb ds "d16" then s_fields s (firstn n buf) pos 2 else if String.eqb ds "d32" then s_fields s (firstn n buf) pos 4
     else if String.eqb ds "d64" then s_fields s (firstn n buf) pos 8 else if String.eqb ds "d128" then Ret (s, Some "d128 not supported in status") else Ret (s, Some "invalid descriptor in status"))
    (do ds <- sf_getstr sar h "descriptor";
     if String.eqb ds "d16" then s_fields_p s {| p_buf := buf; p_len := n |} pos 2 else if String.eqb ds "d32" then s_fields_p s {| p_buf := buf; p_len := n |} pos 4
     else if String.eqb ds "d64" then s_fields_p s {| p_buf := buf; p_len := n |} pos 8 else if String.eqb ds "d128" then Ret (s, Some "d128 not supported in status") else Ret (s, Some "invalid descriptor in status"))).
  { intros s0 pos. apply agrees_bind. intros ds. repeat (match goal with |- context [if ?c then _ else _] => destruct c; [first [apply agrees_status_tail; [assumption|lia]|apply agrees_refl]|] end). apply agrees_refl. }
  destruct (String.eqb rt "yes").
  - destruct (le_lt_dec 24 n) as [H|H].
    + rewrite sub_in, slice_in by (assumption || lia). cbn [obind]. change (24 - 8) with 16. rewrite ts_behind by lia.
      rewrite ts_16 by (rewrite skipn_length; lia). cbn [s_tstamp]. destruct (ts_get (s_tstamp s) (skipn 8 buf)) as [(t & [e|])| |]; cbn [obind]; try apply agrees_refl.
      apply D.
    + rewrite slice_out by (assumption || lia). cbn [obind]. apply agrees_panic. destruct (p_sub {| p_buf := buf; p_len := n |} 8 24) as [tb| |]; cbn [obind]; try discriminate.
      cbn [s_tstamp]. destruct (ts_get_p (s_tstamp s) tb) as [(t & [e|])| |]; cbn [obind]; try discriminate.
      apply bind_panic. intros ds a. repeat (match goal with |- context [if ?c then _ else _] => destruct c;
        [first [discriminate|unfold s_fields_p; apply bind_panic; intros x1; apply bind_panic; intros x2 a'; rewrite from_out by lia; discriminate]|] end). discriminate.
  - apply D.
Qed.

(** ** Beacons *)
Lemma agrees_beacon_tail : forall buf n b k, n <= List.length buf -> agrees (b_space_eid b (firstn n buf) k) (b_space_eid_p b {| p_buf := buf; p_len := n |} k).
Proof.
  intros buf n b k L. unfold b_space_eid, b_space_eid_p. destruct (le_lt_dec (4 + k) n) as [H|H].
  - rewrite uint_in by (assumption || lia). apply agrees_bind. intros fr. rewrite from_in, slice_from_in by assumption. apply agrees_refl.
  - rewrite uint_out by assumption. apply agrees_panic. apply bind_panic. intros x a. rewrite from_out by assumption. discriminate.
Qed.
Lemma agrees_beacon : forall buf n b, n <= List.length buf -> agrees (beacon_decode b (firstn n buf)) (beacon_decode_p b {| p_buf := buf; p_len := n |}).
Proof.
  intros buf n b L. unfold beacon_decode, beacon_decode_p. destruct (le_lt_dec 4 n) as [H|H].
  - rewrite uint_in by (assumption || lia). apply agrees_bind. intros h. apply agrees_bind. intros fs.
    rewrite from_in, slice_from_in by assumption. destruct (String.eqb fs "yes"); [|apply agrees_refl]. apply agrees_bind. intros ds.
    repeat (match goal with |- context [if ?c then _ else _] => destruct c; [first [apply agrees_beacon_tail; assumption|apply agrees_refl]|] end). apply agrees_refl.
  - rewrite uint_out by assumption. apply agrees_panic. apply bind_panic. intros h. apply bind_panic. intros fs. rewrite from_out by assumption.
    destruct (String.eqb fs "yes"); [|discriminate]. apply bind_panic. intros ds a.
    repeat (match goal with |- context [if ?c then _ else _] => destruct c; [first [discriminate|unfold b_space_eid_p; apply bind_panic; intros off a'; rewrite from_out by lia; discriminate]|] end). discriminate.
Qed.

(** ** Requests *)
Lemma request_part : forall buf n r, n <= List.length buf -> request_decode_p r {| p_buf := buf; p_len := n |} = request_decode r (firstn n buf).
Proof.
  intros buf n r L. unfold request_decode, request_decode_p. cbn [p_len]. rewrite len_bytes by assumption.
  destruct (Nat.ltb_spec n 9) as [S9|S9]; [reflexivity|]. rewrite !uint_in by (assumption || lia).
  destruct (get_uint 4 (firstn n buf) 0 4); cbn [obind]; try reflexivity. destruct (get_uint 4 (firstn n buf) 4 8); cbn [obind]; try reflexivity.
  rewrite from_in, slice_from_in by (assumption || lia). cbn [obind]. unfold p_bytes. cbn [p_len p_buf].
  destruct (_ =? n); [reflexivity|]. set (pos := 8 + 1 + _). destruct (le_lt_dec pos n) as [H|H].
  - rewrite from_in, slice_from_in by assumption. reflexivity.
  - rewrite from_out, slice_from_out by assumption. reflexivity.
Qed.

(** ** Directory entries and metadata *)
Lemma agrees_times : forall buf n d pos, n <= List.length buf -> agrees (de_times_path d (firstn n buf) pos) (de_times_path_p d {| p_buf := buf; p_len := n |} pos).
Proof.
  intros buf n d pos L. unfold de_times_path, de_times_path_p. destruct (le_lt_dec (pos + 4 + 4) n) as [H|H].
  - rewrite !sub_in, !slice_in by (assumption || lia). apply agrees_bind. intros t5. cbn [obind]. unfold p_bytes at 1. cbn [p_len p_buf].
    apply agrees_bind. intros ts. apply agrees_bind. intros (mt & [e|]); [apply agrees_refl|]. unfold p_bytes at 1. cbn [p_len p_buf].
    apply agrees_bind. intros ts'. apply agrees_bind. intros (ct & [e|]); [apply agrees_refl|]. rewrite from_in, slice_from_in by assumption. apply agrees_refl.
  - destruct (le_lt_dec (pos + 4) n) as [H1|H1].
    + rewrite (sub_in buf n L pos (pos + 4)), (slice_in buf n L pos (pos + 4)) by (assumption || lia). apply agrees_bind. intros t5. cbn [obind]. unfold p_bytes at 1. cbn [p_len p_buf].
      apply agrees_bind. intros ts. apply agrees_bind. intros (mt & [e|]); [apply agrees_refl|]. rewrite slice_out by (assumption || lia). cbn [obind].
      apply agrees_panic. apply bind_panic. intros cb. apply bind_panic. intros ts'. apply bind_panic. intros (ct & [e|]) a; [discriminate|]. rewrite from_out by assumption. discriminate.
    + apply agrees_bind. intros t5. rewrite slice_out by (assumption || lia). cbn [obind]. apply agrees_panic. apply bind_panic. intros mb. apply bind_panic. intros ts.
      apply bind_panic. intros (mt & [e|]); [discriminate|]. apply bind_panic. intros cb. apply bind_panic. intros ts'. apply bind_panic. intros (ct & [e|]) a; [discriminate|].
      rewrite from_out by lia. discriminate.
Qed.
Lemma times_out : forall buf n d pos, n < pos -> forall a, de_times_path_p d {| p_buf := buf; p_len := n |} pos <> Ret (a, None).
Proof.
  intros buf n d pos H. unfold de_times_path_p. apply bind_panic. intros t5. apply bind_panic. intros mb. apply bind_panic. intros ts.
  apply bind_panic. intros (mt & [e|]); [discriminate|]. apply bind_panic. intros cb. apply bind_panic. intros ts'. apply bind_panic. intros (ct & [e|]) a; [discriminate|].
  rewrite from_out by lia. discriminate.
Qed.
Lemma agrees_size : forall buf n d k, n <= List.length buf -> agrees (de_size_rest d (firstn n buf) k) (de_size_rest_p d {| p_buf := buf; p_len := n |} k).
Proof.
  intros buf n d k L. unfold de_size_rest, de_size_rest_p. destruct (le_lt_dec (2 + k) n) as [H|H].
  - rewrite uint_in by (assumption || lia). apply agrees_bind. intros sz. apply agrees_times. exact L.
  - rewrite uint_out by assumption. apply agrees_panic. apply bind_panic. intros sz a. apply times_out. exact H.
Qed.
Lemma agrees_dirent : forall buf n d, n <= List.length buf -> agrees (dirent_decode d (firstn n buf)) (dirent_decode_p d {| p_buf := buf; p_len := n |}).
Proof.
  intros buf n d L. unfold dirent_decode, dirent_decode_p. cbn [p_len]. rewrite len_bytes by assumption.
  destruct (Nat.ltb_spec n 12) as [S12|S12]; [apply agrees_refl|]. rewrite uint_in by (assumption || lia). apply agrees_bind. intros h. apply agrees_bind. intros ds.
  repeat (match goal with |- context [if ?c then _ else _] => destruct c; [first [apply agrees_size; assumption|apply agrees_refl]|] end). apply agrees_refl.
Qed.
Lemma agrees_meta : forall buf n m, n <= List.length buf -> agrees (meta_decode m (firstn n buf)) (meta_decode_p m {| p_buf := buf; p_len := n |}).
Proof.
  intros buf n m L. unfold meta_decode, meta_decode_p. cbn [p_len]. rewrite len_bytes by assumption.
  destruct (Nat.ltb_spec n 8) as [S8|S8]; [apply agrees_refl|]. rewrite !uint_in by (assumption || lia). apply agrees_bind. intros h. apply agrees_bind. intros s.
  set (c := N.to_nat (sf_get sar h "csumlen") * 4). destruct (le_lt_dec (8 + c) n) as [H|H].
  - rewrite sub_in, slice_in, from_in, slice_from_in by (assumption || lia). cbn [obind].
    pose proof (agrees_dirent (skipn (8 + c) buf) (n - (8 + c)) (m_dir m)) as (A & B). { rewrite skipn_length. lia. }
    unfold p_bytes at 1. cbn [p_len p_buf]. destruct (dirent_decode (m_dir m) _) as [(d & e)| |].
    + rewrite A by discriminate. apply agrees_refl.
    + split; [intros X; now contradiction X|]. intros _ a.
      destruct (dirent_decode_p _ _) as [(d & [e|])| |]; cbn [obind]; try discriminate. now contradiction (B eq_refl d).
    + rewrite A by discriminate. apply agrees_refl.
  - rewrite slice_out by (assumption || lia). cbn [obind]. apply agrees_panic. apply bind_panic. intros cs a. rewrite from_out by assumption. discriminate.
Qed.
