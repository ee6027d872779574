(** * C141: decoding part of a larger buffer *)

From Coq Require Import Lia.
From Verif Require Import GoBase GoFacts Flags Config Shipped Timestamp Data Holes Status Request Beacon Dirent Metadata Part PartFacts.
Local Open Scope string_scope.
Local Open Scope nat_scope.

(** C141: data frames: Decode of the first n bytes of a buffer does what it does with a copy of these bytes; where the copy would crash it, it never succeeds *)
Lemma c141_data : forall (buf : list byte) (n : nat) d, n <= List.length buf ->
  (data_decode d (firstn n buf) <> Panic -> data_decode_p d {| p_buf := buf; p_len := n |} = data_decode d (firstn n buf)) /\
  (data_decode d (firstn n buf) = Panic -> forall d', data_decode_p d {| p_buf := buf; p_len := n |} <> Ret (d', None)).
Proof. intros buf n d L. exact (agrees_data buf n d L). Qed.

(** C141: the same for status frames *)
Lemma c141_status : forall (buf : list byte) (n : nat) s, n <= List.length buf ->
  (status_decode s (firstn n buf) <> Panic -> status_decode_p s {| p_buf := buf; p_len := n |} = status_decode s (firstn n buf)) /\
  (status_decode s (firstn n buf) = Panic -> forall s', status_decode_p s {| p_buf := buf; p_len := n |} <> Ret (s', None)).
Proof. intros buf n s L. exact (agrees_status buf n s L). Qed.

(** C141: the same for beacons *)
Lemma c141_beacon : forall (buf : list byte) (n : nat) b, n <= List.length buf ->
  (beacon_decode b (firstn n buf) <> Panic -> beacon_decode_p b {| p_buf := buf; p_len := n |} = beacon_decode b (firstn n buf)) /\
  (beacon_decode b (firstn n buf) = Panic -> forall b', beacon_decode_p b {| p_buf := buf; p_len := n |} <> Ret (b', None)).
Proof. intros buf n b L. exact (agrees_beacon buf n b L). Qed.

(** C141: the same for directory entries *)
Lemma c141_dirent : forall (buf : list byte) (n : nat) d, n <= List.length buf ->
  (dirent_decode d (firstn n buf) <> Panic -> dirent_decode_p d {| p_buf := buf; p_len := n |} = dirent_decode d (firstn n buf)) /\
  (dirent_decode d (firstn n buf) = Panic -> forall d', dirent_decode_p d {| p_buf := buf; p_len := n |} <> Ret (d', None)).
Proof. intros buf n d L. exact (agrees_dirent buf n d L). Qed.

(** C141: the same for metadata *)
Lemma c141_meta : forall (buf : list byte) (n : nat) m, n <= List.length buf ->
  (meta_decode m (firstn n buf) <> Panic -> meta_decode_p m {| p_buf := buf; p_len := n |} = meta_decode m (firstn n buf)) /\
  (meta_decode m (firstn n buf) = Panic -> forall m', meta_decode_p m {| p_buf := buf; p_len := n |} <> Ret (m', None)).
Proof. intros buf n m L. exact (agrees_meta buf n m L). Qed.

(** C141: requests: Decode of the first n bytes of a buffer always does what it does with a copy of these bytes *)
Lemma c141_request : forall (buf : list byte) (n : nat) r, n <= List.length buf ->
  request_decode_p r {| p_buf := buf; p_len := n |} = request_decode r (firstn n buf).
Proof. intros buf n r L. exact (request_part buf n r L). Qed.

(** C141: timestamps (defect): Get takes all bytes but the first from the buffer, wherever the slice ends *)
Lemma c141_timestamp : forall (buf : list byte) (n : nat) t,
  ts_get_p t {| p_buf := buf; p_len := n |} = if Nat.eqb n 0 then Panic else ts_get t buf.
Proof. intros buf n t. destruct n as [|n]; [reflexivity|]. cbn [Nat.eqb]. apply ts_behind. lia. Qed.

(** ** A slice that ends where its buffer ends *)
Lemma from_all : forall buf i, (do q <- p_from {| p_buf := buf; p_len := List.length buf |} i; Ret (p_bytes q)) = slice_from buf i.
Proof.
  intros buf i. unfold p_from, slice_from. cbn [p_len p_buf]. destruct (Nat.leb_spec i (List.length buf)) as [H|H]; [|reflexivity].
  cbn [obind]. unfold p_bytes. cbn [p_len p_buf]. now rewrite firstn_all2 by (rewrite skipn_length; lia).
Qed.
Lemma sub_all : forall buf n i j, (do q <- p_sub {| p_buf := buf; p_len := n |} i j; Ret (p_bytes q)) = slice buf i j.
Proof.
  intros buf n i j. unfold p_sub, slice. cbn [p_buf]. destruct (Nat.leb i j && Nat.leb j (List.length buf))%bool; reflexivity.
Qed.
Lemma bind_all : forall A (m : outcome part) (l : outcome (list byte)) (k : part -> outcome A) (k' : list byte -> outcome A),
  (do q <- m; Ret (p_bytes q)) = l -> (forall q, m = Ret q -> k q = k' (p_bytes q)) -> (do q <- m; k q) = (do b <- l; k' b).
Proof. intros A m l k k' <- H. destruct m; cbn [obind]; try reflexivity. apply H. reflexivity. Qed.
Lemma len_all : forall buf i q, p_from {| p_buf := buf; p_len := List.length buf |} i = Ret q -> List.length (p_bytes q) = p_len q.
Proof.
  intros buf i q H. unfold p_from in H. cbn [p_len p_buf] in H. destruct (Nat.leb_spec i (List.length buf)) as [I|I]; [|discriminate].
  injection H as <-. unfold p_bytes. cbn [p_len p_buf]. rewrite firstn_length, skipn_length. lia.
Qed.
Lemma ts_all : forall t buf n i j q, p_sub {| p_buf := buf; p_len := n |} i j = Ret q -> i + 16 = j -> ts_get_p t q = ts_get t (p_bytes q).
Proof.
  intros t buf n i j q H E. unfold p_sub in H. cbn [p_buf] in H. destruct (Nat.leb_spec i j); [|discriminate]. destruct (Nat.leb_spec j (List.length buf)); [|discriminate].
  cbn [andb] in H. injection H as <-. unfold p_bytes. cbn [p_len p_buf]. replace (j - i) with 16 by lia. rewrite ts_behind by lia. rewrite ts_16; [reflexivity|]. rewrite skipn_length. lia.
Qed.
Ltac same := repeat match goal with |- context [if ?c then _ else _] => destruct c; try reflexivity end; try reflexivity.
Lemma data_tail_all : forall d buf pos k need, d_offset_payload_p d {| p_buf := buf; p_len := List.length buf |} pos k need = d_offset_payload d buf pos k need.
Proof.
  intros d buf pos k need. unfold d_offset_payload_p, d_offset_payload. rewrite uint_all. destruct (get_uint _ _ _ _); cbn [obind]; try reflexivity.
  apply bind_all; [apply from_all|]. intros q Q. now rewrite (len_all _ _ _ Q).
Qed.
Lemma holes_all : forall buf n k m pos, dec_holes_p k m {| p_buf := buf; p_len := n |} pos = dec_holes k m buf pos.
Proof. intros buf n k m. induction m as [|m IH]; intros pos; [reflexivity|]. cbn [dec_holes_p dec_holes]. now rewrite !uint_all, IH. Qed.
Lemma status_tail_all : forall s buf pos k, s_fields_p s {| p_buf := buf; p_len := List.length buf |} pos k = s_fields s buf pos k.
Proof.
  intros s buf pos k. unfold s_fields_p, s_fields. rewrite !uint_all. destruct (get_uint _ _ pos _); cbn [obind]; try reflexivity.
  destruct (get_uint _ _ (pos + k) _); cbn [obind]; try reflexivity. apply bind_all; [apply from_all|]. intros q Q. now rewrite (len_all _ _ _ Q), holes_all.
Qed.
Lemma dirent_all : forall buf d, dirent_decode_p d {| p_buf := buf; p_len := List.length buf |} = dirent_decode d buf.
Proof.
  intros buf d. unfold dirent_decode_p, dirent_decode. cbn [p_len]. rewrite uint_all.
  destruct (Nat.ltb _ _); [reflexivity|]. destruct (get_uint _ _ _ _); cbn [obind]; try reflexivity. destruct (sd_getstr _ _ _); cbn [obind]; try reflexivity.
  assert (X : forall d k, de_size_rest_p d {| p_buf := buf; p_len := List.length buf |} k = de_size_rest d buf k).
  { intros d0 k. unfold de_size_rest_p, de_size_rest. rewrite uint_all. destruct (get_uint _ _ _ _); cbn [obind]; try reflexivity.
    unfold de_times_path_p, de_times_path. destruct (st_set _ _ _); cbn [obind]; try reflexivity. apply bind_all; [apply sub_all|]. intros q _.
    destruct (copy_from _ _ _); cbn [obind]; try reflexivity. destruct (ts_get _ _) as [(mt & [e|])| |]; cbn [obind]; try reflexivity.
    apply bind_all; [apply sub_all|]. intros q' _. destruct (copy_from _ _ _); cbn [obind]; try reflexivity. destruct (ts_get _ _) as [(ct & [e|])| |]; cbn [obind]; try reflexivity.
    apply bind_all; [apply from_all|]. reflexivity. }
  rewrite !X. reflexivity.
Qed.

Lemma dirent_from : forall d buf i q, p_from {| p_buf := buf; p_len := List.length buf |} i = Ret q -> dirent_decode_p d q = dirent_decode d (p_bytes q).
Proof.
  intros d buf i q H. unfold p_from in H. cbn [p_len p_buf] in H. destruct (Nat.leb_spec i (List.length buf)) as [I|I]; [|discriminate].
  injection H as <-. unfold p_bytes. cbn [p_len p_buf]. rewrite firstn_all2 by (rewrite skipn_length; lia). rewrite <- dirent_all, skipn_length. reflexivity.
Qed.

(** C141: a slice with no spare capacity, which is what the listener and the client hand over, is decoded as the list of its bytes *)
Lemma c141_whole : forall (buf : list byte), let whole := {| p_buf := buf; p_len := List.length buf |} in
  (forall d, data_decode_p d whole = data_decode d buf) /\ (forall s, status_decode_p s whole = status_decode s buf) /\
  (forall b, beacon_decode_p b whole = beacon_decode b buf) /\ (forall d, dirent_decode_p d whole = dirent_decode d buf) /\
  (forall m, meta_decode_p m whole = meta_decode m buf) /\ (forall r, request_decode_p r whole = request_decode r buf).
Proof.
  intros buf whole. unfold whole. clear whole. apply conj; [|apply conj; [|apply conj; [|apply conj; [|apply conj]]]].
  - intros d. unfold data_decode_p, data_decode. cbn [p_len]. rewrite !uint_all. destruct (Nat.ltb _ _); [reflexivity|].
    destruct (get_uint _ _ 0 4); cbn [obind]; try reflexivity. destruct (get_uint _ _ 4 8); cbn [obind]; try reflexivity.
    destruct (sf_getstr _ _ "reqtstamp"); cbn [obind]; try reflexivity. destruct (String.eqb _ "yes"); [|destruct (sf_getstr _ _ _); cbn [obind]; try reflexivity; now rewrite !data_tail_all].
    apply bind_all; [apply sub_all|]. intros q Q. rewrite (ts_all _ _ _ _ _ _ Q) by reflexivity. destruct (ts_get _ _) as [(t & [e|])| |]; cbn [obind]; try reflexivity.
    destruct (sf_getstr _ _ _); cbn [obind]; try reflexivity. now rewrite !data_tail_all.
  - intros s. unfold status_decode_p, status_decode. cbn [p_len]. rewrite !uint_all. destruct (Nat.ltb _ _); [reflexivity|].
    destruct (get_uint _ _ 0 4); cbn [obind]; try reflexivity. destruct (get_uint _ _ 4 8); cbn [obind]; try reflexivity.
    destruct (sf_getstr _ _ "reqtstamp"); cbn [obind]; try reflexivity.
    match goal with |- obind ?m _ = obind ?m' _ => assert (M : m = m') end.
    { destruct (String.eqb _ "yes"); [|reflexivity]. apply bind_all; [apply sub_all|]. intros q Q. now rewrite (ts_all _ _ _ _ _ _ Q) by reflexivity. }
    rewrite M. match goal with |- obind ?m _ = obind ?m _ => destruct m as [((s' & pos) & [e|])| |] end; cbn [obind]; try reflexivity.
    destruct (sf_getstr _ _ _); cbn [obind]; try reflexivity. now rewrite !status_tail_all.
  - intros b. unfold beacon_decode_p, beacon_decode. rewrite uint_all. destruct (get_uint _ _ _ _); cbn [obind]; try reflexivity.
    destruct (sf_getstr _ _ "freespace"); cbn [obind]; try reflexivity. destruct (String.eqb _ "yes").
    + destruct (sf_getstr _ _ _); cbn [obind]; try reflexivity.
      assert (X : forall b k, b_space_eid_p b {| p_buf := buf; p_len := List.length buf |} k = b_space_eid b buf k).
      { intros b0 k. unfold b_space_eid_p, b_space_eid. rewrite uint_all. destruct (get_uint _ _ _ _); cbn [obind]; try reflexivity. apply bind_all; [apply from_all|]. reflexivity. }
      rewrite !X. repeat (match goal with |- (if ?c then _ else _) = _ => destruct c; [reflexivity|] end). apply bind_all; [apply from_all|]. reflexivity.
    + apply bind_all; [apply from_all|]. reflexivity.
  - intros d. apply dirent_all.
  - intros m. unfold meta_decode_p, meta_decode. cbn [p_len]. rewrite !uint_all. destruct (Nat.ltb _ _); [reflexivity|].
    destruct (get_uint _ _ 0 4); cbn [obind]; try reflexivity. destruct (get_uint _ _ 4 8); cbn [obind]; try reflexivity.
    apply bind_all; [apply sub_all|]. intros cs _. apply bind_all; [apply from_all|]. intros q Q.
    now rewrite (dirent_from _ _ _ _ Q).
  - intros r. rewrite request_part by lia. now rewrite firstn_all.
Qed.

Definition ex_buf (l : list N) : list byte := List.map ascii_of_N l.
(** A data frame with the payload [9; 8] in a larger buffer.  A status frame with a timestamp, cut to 12 bytes: its copy
    crashes Decode; in a larger buffer it is an error.  A timestamp of one byte is read from the bytes behind it. *)
Example c141_ex :
  let data_buf := ex_buf [0x23; 0; 0; 0; 0; 0; 0; 7; 0; 5; 9; 8; 1; 1; 1; 1]%N in
  let status_buf := (ex_buf [0x24; 0x48; 0; 0; 0; 0; 0; 7; 0; 0; 0; 0] ++ make_bytes 30)%list%N in
  let stamp_buf := ex_buf [1; 0; 0; 0; 9; 3]%N in
  data_decode_p zero_data {| p_buf := data_buf; p_len := 12 |}
    = Ret ({| d_header := 587202560; d_session := 7; d_tstamp := zero_timestamp; d_offset := 5; d_payload := ex_buf [9; 8]%N |}, None) /\
  status_decode zero_status (firstn 12 status_buf) = Panic /\
  (exists s e, status_decode_p zero_status {| p_buf := status_buf; p_len := 12 |} = Ret (s, Some e)) /\
  ts_get zero_timestamp (firstn 1 stamp_buf) = Panic /\
  ts_get_p zero_timestamp {| p_buf := stamp_buf; p_len := 1 |}
    = Ret ({| t_header := 1; t_secs := 9; t_nsecs := 0; t_local := ""; t_ttype := "posix32" |}, None).
Proof.
  apply conj; [vm_compute; reflexivity|]. apply conj; [vm_compute; reflexivity|]. apply conj; [|apply conj; vm_compute; reflexivity].
  eexists. eexists. vm_compute. reflexivity.
Qed.
