(** * Frames, their backing arrays, and who else can write to them *)

From Verif Require Import GoBase GoFacts Flags SpecFlags FlagsFacts Config Shipped ConfigFacts SpecWire SarFacts Timestamp SpecTime Holes Data Status Request Beacon Fileio Dirent Metadata Trans Listen Memory SpecMemory MemoryFacts.
Local Open Scope string_scope.
Local Open Scope N_scope.


Lemma wrote_new : forall M b, nothing_written M {| mb := (mb M ++ [b])%list; mh := mh M |}.
Proof. intros M b. split; [apply kept_app|apply kept_refl]. Qed.

Lemma slice_len : forall (l : list byte) i j r, slice l i j = Ret r -> length r = (j - i)%nat.
Proof.
  intros l i j r E. unfold slice in E. destruct (Nat.leb_spec i j) as [B1|B1]; [|discriminate]. destruct (Nat.leb_spec j (length l)) as [B2|B2]; [|discriminate].
  cbn [andb] in E. injection E as <-. rewrite firstn_length, skipn_length. lia.
Qed.
(** ** Decoding *)
Lemma payload_apart : forall M d f pos k need,
  decoded_apart data_value data_apart M (md_offset_payload M d f pos k need) (d_offset_payload (data_value M d) (seen (mb M) f) pos k need).
Proof.
  intros M d f pos k need. unfold md_offset_payload, d_offset_payload.
  destruct (get_uint k (seen (mb M) f) pos (pos + k)) as [off| |]; cbn [obind decoded_apart]; auto.
  destruct (slice_from (seen (mb M) f) (pos + k)) as [pay| |]; cbn [obind decoded_apart]; auto.
  rewrite fresh_copy_eq. cbn [sl_length]. set (p := {| sl_array := length (mb M); sl_start := 0; sl_length := length pay; sl_capacity := length pay |}).
  destruct (need && Nat.eqb (length pay) 0); cbn [decoded_apart]; unfold data_value; cbn [md_header md_session md_tstamp md_offset md_payload mb d_header d_session d_tstamp].
  - unfold p. rewrite seen_whole. split; [reflexivity|]. split; [apply wrote_new|]. discriminate.
  - unfold p. rewrite seen_whole. split; [reflexivity|]. split; [apply wrote_new|]. intros _. split; [unfold data_apart; cbn; apply beyond_end|].
    intros M2 (K & _). f_equal. etransitivity; [|apply (seen_whole (mb M) pay (length pay))].
    eapply seen_new; [|apply alive_whole|exact K]. cbn. apply beyond_end.
Qed.
(** C146: Decoding a data frame writes to nothing that existed, and the frame does not change when the datagram's buffer does. *)
Lemma c146_data : forall M d f, alive (mb M) (md_payload d) ->
  decoded_apart data_value data_apart M (mdata_decode M d f) (data_decode (data_value M d) (seen (mb M) f)).
Proof.
  intros M d f L. unfold mdata_decode, data_decode. set (fr := seen (mb M) f).
  destruct (Nat.ltb (length fr) 10); [cbn; split; [reflexivity|split; [apply unchanged|discriminate]]|].
  destruct (get_uint 4 fr 0 4) as [h| |]; cbn [obind decoded_apart]; auto.
  destruct (get_uint 4 fr 4 8) as [s| |]; cbn [obind decoded_apart]; auto.
  destruct (sf_getstr sar h "reqtstamp") as [rt| |]; cbn [obind decoded_apart]; auto.
  destruct (String.eqb rt "yes").
  - destruct (slice fr 8 24) as [tb| |]; cbn [obind decoded_apart]; auto. cbn [md_tstamp d_tstamp data_value].
    destruct (ts_get (md_tstamp d) tb) as [[t [e|]]| |]; cbn [obind decoded_apart]; auto.
    { split; [reflexivity|split; [apply unchanged|discriminate]]. }
    destruct (sf_getstr sar h "descriptor") as [ds| |]; cbn [obind decoded_apart]; auto.
    destruct (String.eqb ds "d16"); [apply (payload_apart M {| md_header := h; md_session := s; md_tstamp := t; md_offset := md_offset d; md_payload := md_payload d |})|].
    destruct (String.eqb ds "d32"); [apply (payload_apart M {| md_header := h; md_session := s; md_tstamp := t; md_offset := md_offset d; md_payload := md_payload d |})|].
    destruct (String.eqb ds "d64"); [apply (payload_apart M {| md_header := h; md_session := s; md_tstamp := t; md_offset := md_offset d; md_payload := md_payload d |})|].
    destruct (String.eqb ds "d128"); cbn; (split; [reflexivity|split; [apply unchanged|discriminate]]).
  - destruct (sf_getstr sar h "descriptor") as [ds| |]; cbn [obind decoded_apart]; auto.
    destruct (String.eqb ds "d16"); [apply (payload_apart M {| md_header := h; md_session := s; md_tstamp := md_tstamp d; md_offset := md_offset d; md_payload := md_payload d |})|].
    destruct (String.eqb ds "d32"); [apply (payload_apart M {| md_header := h; md_session := s; md_tstamp := md_tstamp d; md_offset := md_offset d; md_payload := md_payload d |})|].
    destruct (String.eqb ds "d64"); [apply (payload_apart M {| md_header := h; md_session := s; md_tstamp := md_tstamp d; md_offset := md_offset d; md_payload := md_payload d |})|].
    destruct (String.eqb ds "d128"); cbn; (split; [reflexivity|split; [apply unchanged|discriminate]]).
Qed.
(** C146: The same for a request. *)
Lemma c146_request : forall M r f,
  decoded_apart request_value request_apart M (mrequest_decode M r f) (request_decode (request_value M r) (seen (mb M) f)).
Proof.
  intros M r f. unfold mrequest_decode, request_decode. set (fr := seen (mb M) f).
  destruct (Nat.ltb (length fr) 9); [cbn; split; [reflexivity|split; [apply unchanged|discriminate]]|].
  destruct (get_uint 4 fr 0 4) as [h| |]; cbn [obind decoded_apart]; auto.
  destruct (get_uint 4 fr 4 8) as [s| |]; cbn [obind decoded_apart]; auto.
  destruct (slice_from fr 8) as [tl| |]; cbn [obind decoded_apart]; auto. cbn [r_fname request_value].
  destruct (Nat.eqb _ _).
  { cbn [decoded_apart]. split; [reflexivity|]. split; [apply unchanged|]. intros _. split; [exact I|]. reflexivity. }
  destruct (slice_from fr _) as [au| |]; cbn [obind decoded_apart]; auto. rewrite fresh_copy_eq. cbn [decoded_apart]. unfold request_value. cbn [mr_header mr_session mr_fname mr_auth mb].
  rewrite seen_whole. split; [reflexivity|]. split; [apply wrote_new|]. intros _. split; [unfold request_apart; cbn; apply beyond_end|].
  intros M2 (K & _). f_equal. etransitivity; [|apply (seen_whole (mb M) au (length au))].
  eapply seen_new; [|apply alive_whole|exact K]. cbn. apply beyond_end.
Qed.
(** C146: The same for metadata. *)
Lemma c146_metadata : forall M m f, alive (mb M) f ->
  decoded_apart metadata_value metadata_apart M (mmeta_decode M m f) (meta_decode (metadata_value M m) (seen (mb M) f)).
Proof.
  intros M m f L. unfold mmeta_decode, meta_decode. set (fr := seen (mb M) f).
  destruct (Nat.ltb (length fr) 8); [cbn; split; [reflexivity|split; [apply unchanged|discriminate]]|].
  destruct (get_uint 4 fr 0 4) as [h| |]; cbn [obind decoded_apart]; auto.
  destruct (get_uint 4 fr 4 8) as [s| |]; cbn [obind decoded_apart]; auto.
  set (c := (N.to_nat (sf_get sar h "csumlen") * 4)%nat).
  destruct (slice fr 8 (8 + c)) as [cs| |] eqn:SL; cbn [obind decoded_apart]; auto.
  assert (LC : length cs = c).
  { rewrite (slice_len _ _ _ _ SL). lia. }
  rewrite <- LC. rewrite fresh_copy_eq. cbn [mb]. rewrite (seen_kept (mb M) (mb M ++ [cs]) f L) by apply kept_app. fold fr.
  destruct (slice_from fr (8 + length cs)) as [tl| |]; cbn [obind decoded_apart]; auto. cbn [m_dir metadata_value].
  destruct (dirent_decode (mm_dir m) tl) as [[d e]| |]; cbn [obind decoded_apart]; auto. unfold metadata_value. cbn [mm_header mm_session mm_checksum mm_dir mb].
  rewrite seen_whole. split; [reflexivity|]. split; [apply wrote_new|]. intros _. split; [unfold metadata_apart; cbn; apply beyond_end|].
  intros M2 (K & _). f_equal. etransitivity; [|apply (seen_whole (mb M) cs (length cs))].
  eapply seen_new; [|apply alive_whole|exact K]. cbn. apply beyond_end.
Qed.
(** the loop over the holes: the values and what happens to the arrays *)
Lemma holes_loop : forall grow k n M s f pos, alive (mh M) s ->
  match mdec_holes grow k n M s f pos with
  | Ret (M', s') => exists hs, dec_holes k n (seen (mb M) f) pos = Ret hs /\ mb M' = mb M /\ appended (mh M) s hs (mh M') s' /\ length hs = n
  | Panic => dec_holes k n (seen (mb M) f) pos = Panic
  | Fatal => dec_holes k n (seen (mb M) f) pos = Fatal
  end.
Proof.
  intros grow k n. induction n; intros M s f pos L; cbn [mdec_holes dec_holes].
  - exists []. split; [reflexivity|]. split; [reflexivity|]. split; [apply appended_none; exact L|reflexivity].
  - destruct (get_uint k (seen (mb M) f) pos (pos + k)) as [st| |]; cbn [obind]; auto.
    destruct (get_uint k (seen (mb M) f) (pos + k) (pos + k + k)) as [en| |]; cbn [obind]; auto.
    set (x := {| h_start := i64_of_N st; h_end := i64_of_N en |}). set (z := {| h_start := 0; h_end := 0 |}).
    pose proof (append_one_spec grow z (mh M) s x L) as AP. destruct (append_one grow z (mh M) s x) as (H1 & s1).
    specialize (IHn {| mb := mb M; mh := H1 |} (Some s1) f (pos + k + k)%nat (ap_alive _ _ _ _ _ AP)). cbn [mb mh] in IHn.
    destruct (mdec_holes grow k n {| mb := mb M; mh := H1 |} (Some s1) f (pos + k + k)) as [(M' & s')| |]; cbn [obind].
    + destruct IHn as (hs & E & B & A & N). exists (x :: hs). rewrite E. cbn [obind]. split; [reflexivity|]. split; [exact B|]. split; [|cbn; congruence].
      eapply appended_step; eauto.
    + rewrite IHn. reflexivity.
    + rewrite IHn. reflexivity.
Qed.
(** What decoding a status does to the arrays, whatever holes the status had *)
Definition status_outcome (M : mem) (s : mstatus) (res : outcome (mem * mstatus * error)) (spec : outcome (status * error)) : Prop :=
  match res with
  | Ret (M1, x, e) => spec = Ret (status_value M1 x, e) /\ mb M1 = mb M
      /\ exists hs, appended (mh M) (ms_holes s) hs (mh M1) (ms_holes x) /\ s_holes (status_value M1 x) = (seen (mh M) (ms_holes s) ++ hs)%list
                    /\ (e <> None -> hs = [])
  | Panic => spec = Panic
  | Fatal => spec = Fatal
  end.
Lemma fields_outcome : forall grow M s f pos k, alive (mh M) (ms_holes s) ->
  status_outcome M s (ms_fields grow M s f pos k) (s_fields (status_value M s) (seen (mb M) f) pos k).
Proof.
  intros grow M s f pos k L. unfold ms_fields, s_fields. set (fr := seen (mb M) f).
  destruct (get_uint k fr pos (pos + k)) as [p| |]; cbn [obind status_outcome]; auto.
  destruct (get_uint k fr (pos + k) (pos + k + k)) as [i| |]; cbn [obind status_outcome]; auto.
  destruct (slice_from fr (pos + k + k)) as [rs| |]; cbn [obind status_outcome]; auto.
  pose proof (holes_loop grow k (length rs / 2 / k) M (ms_holes s) f (pos + k + k) L) as HL. fold fr in HL.
  destruct (mdec_holes grow k (length rs / 2 / k) M (ms_holes s) f (pos + k + k)) as [(M1 & l)| |]; cbn [obind status_outcome].
  - destruct HL as (hs & -> & B & A & _). cbn [obind]. unfold status_value. cbn [ms_header ms_session ms_tstamp ms_progress ms_inrespto ms_holes s_header s_session s_tstamp s_holes].
    rewrite (ap_seen _ _ _ _ _ A). split; [reflexivity|]. split; [exact B|]. exists hs. split; [exact A|]. split; [reflexivity|]. congruence.
  - rewrite HL. reflexivity.
  - rewrite HL. reflexivity.
Qed.
Lemma stays : forall M s x e spec, alive (mh M) (ms_holes s) -> ms_holes x = ms_holes s -> spec = Ret (status_value M x, e) ->
  status_outcome M s (Ret (M, x, e)) spec.
Proof.
  intros M s x e spec L E S. cbn. split; [exact S|]. split; [reflexivity|]. exists []. rewrite E. split; [apply appended_none; exact L|].
  split; [rewrite app_nil_r; reflexivity|]. auto.
Qed.
Lemma outcome_from : forall M s s' res spec, ms_holes s' = ms_holes s -> status_outcome M s' res spec -> status_outcome M s res spec.
Proof. intros M s s' res spec E H. unfold status_outcome in *. rewrite E in H. exact H. Qed.
Lemma decode_outcome : forall grow M s f, alive (mh M) (ms_holes s) ->
  status_outcome M s (mstatus_decode grow M s f) (status_decode (status_value M s) (seen (mb M) f)).
Proof.
  intros grow M s f L. unfold mstatus_decode, status_decode. set (fr := seen (mb M) f).
  destruct (Nat.ltb (length fr) 12); [apply stays; auto|].
  destruct (get_uint 4 fr 0 4) as [h| |]; cbn [obind status_outcome]; auto.
  destruct (get_uint 4 fr 4 8) as [se| |]; cbn [obind status_outcome]; auto.
  destruct (sf_getstr sar h "reqtstamp") as [rt| |]; cbn [obind status_outcome]; auto. cbn [ms_tstamp ms_progress ms_inrespto ms_holes s_tstamp status_value].
  assert (D : forall t pos, status_outcome M s
     (do ds <- sf_getstr sar h "descriptor";
      (let s := {| ms_header := h; ms_session := se; ms_tstamp := t; ms_progress := ms_progress s; ms_inrespto := ms_inrespto s; ms_holes := ms_holes s |} in
       if String.eqb ds "d16" then ms_fields grow M s f pos 2
        else if String.eqb ds "d32" then ms_fields grow M s f pos 4
        else if String.eqb ds "d64" then ms_fields grow M s f pos 8
        else if String.eqb ds "d128" then Ret (M, s, Some "d128 not supported in status")
        else Ret (M, s, Some "invalid descriptor in status")))
     (do ds <- sf_getstr sar h "descriptor";
      (let s := status_value M {| ms_header := h; ms_session := se; ms_tstamp := t; ms_progress := ms_progress s; ms_inrespto := ms_inrespto s; ms_holes := ms_holes s |} in
       if String.eqb ds "d16" then s_fields s fr pos 2
        else if String.eqb ds "d32" then s_fields s fr pos 4
        else if String.eqb ds "d64" then s_fields s fr pos 8
        else if String.eqb ds "d128" then Ret (s, Some "d128 not supported in status")
        else Ret (s, Some "invalid descriptor in status")))).
  { intros t pos. destruct (sf_getstr sar h "descriptor") as [ds| |]; cbn [obind status_outcome]; auto. cbv zeta.
    set (s' := {| ms_header := h; ms_session := se; ms_tstamp := t; ms_progress := ms_progress s; ms_inrespto := ms_inrespto s; ms_holes := ms_holes s |}).
    destruct (String.eqb ds "d16"); [apply (outcome_from M s s'); [reflexivity|]; apply fields_outcome; exact L|].
    destruct (String.eqb ds "d32"); [apply (outcome_from M s s'); [reflexivity|]; apply fields_outcome; exact L|].
    destruct (String.eqb ds "d64"); [apply (outcome_from M s s'); [reflexivity|]; apply fields_outcome; exact L|].
    destruct (String.eqb ds "d128"); apply stays; auto. }
  destruct (String.eqb rt "yes").
  - destruct (slice fr 8 24) as [tb| |]; cbn [obind status_outcome]; auto.
    destruct (ts_get (ms_tstamp s) tb) as [[t [e|]]| |]; cbn [obind status_outcome]; auto.
    + apply stays; auto.
    + apply D.
  - cbn [obind]. apply D.
Qed.
(** C146: The same for a status into which nothing was decoded before, as the listener's. *)
Lemma c146_status : forall grow M s f, ms_holes s = None ->
  decoded_apart status_value status_apart M (mstatus_decode grow M s f) (status_decode (status_value M s) (seen (mb M) f)).
Proof.
  intros grow M s f N. pose proof (decode_outcome grow M s f) as O. rewrite N in O. specialize (O I). unfold status_outcome in O. unfold decoded_apart.
  destruct (mstatus_decode grow M s f) as [[[M1 x] e]| |]; auto. destruct O as (S & B & hs & A & _ & _). rewrite N in A. split; [exact S|].
  split.
  - split; [rewrite B; apply kept_refl|]. intros a y E. eapply ap_other; eauto. discriminate.
  - intros _. assert (P : made_since (mh M) (ms_holes x)).
    { destruct hs as [|h hs]; [pose proof (ap_same _ _ _ _ _ A) as Q; cbn in Q; specialize (Q (le_n _)); destruct (ms_holes x); [contradiction|exact I]|].
      apply (ap_new _ _ _ _ _ A). cbn. lia. }
    split; [exact P|]. intros M2 (_ & K). unfold status_value. f_equal. eapply seen_new; [exact P|exact (ap_alive _ _ _ _ _ A)|exact K].
Qed.

(** ** Filling in the caller's values *)
(** C146: New and Make give a data frame a payload of its own, equal to the caller's. *)
Lemma c146_new_data : forall M d session offset pay,
  decoded_apart data_value data_apart M (let '(M1, x) := mdata_fill M d session offset pay in Ret (M1, x, None))
    (Ret (d_fill (data_value M d) {| di_session := session; di_offset := offset; di_payload := seen (mb M) pay |}, None)).
Proof.
  intros M d session offset pay. unfold mdata_fill. rewrite fresh_copy_eq. cbn [decoded_apart]. unfold data_value, d_fill.
  cbn [md_header md_session md_tstamp md_offset md_payload mb d_header d_session d_tstamp di_session di_offset di_payload].
  set (src := seen (mb M) pay). rewrite seen_whole. split; [reflexivity|]. split; [apply wrote_new|]. intros _. split; [unfold data_apart; cbn; apply beyond_end|].
  intros M2 (K & _). f_equal. etransitivity; [|apply (seen_whole (mb M) src (length src))].
  eapply seen_new; [|apply alive_whole|exact K]. cbn. apply beyond_end.
Qed.

(** ** Encoding *)
Definition at_end (M : mem) (b : list byte) : mem := {| mb := (mb M ++ [b])%list; mh := mh M |}.
Definition the_end (M : mem) (n : nat) : sref := {| sl_array := length (mb M); sl_start := 0; sl_length := n; sl_capacity := n |}.
Lemma edit_end : forall M b g n, length b = n -> (forall b', g b = Ret b' -> length b' = length b) ->
  edit (at_end M b) (the_end M n) g = match g b with Ret b' => Ret (at_end M b') | Panic => Panic | Fatal => Fatal end.
Proof.
  intros M b g n <- L. unfold edit, at_end, the_end. cbn [mb mh]. rewrite seen_whole. destruct (g b) as [b'| |]; cbn [obind]; auto.
  unfold store. cbn [sl_array sl_start]. rewrite nth_last, set_last. rewrite overwrite_all; auto. symmetry; auto.
Qed.
Lemma put_keeps : forall k b i j v b', put_uint k b i j v = Ret b' -> length b' = length b.
Proof.
  intros k b i j v b' E. unfold put_uint in E. destruct (Nat.leb_spec i j) as [B1|B1]; [|discriminate]. destruct (Nat.leb_spec j (length b)) as [B2|B2]; [|discriminate].
  destruct (Nat.leb_spec k (j - i)) as [B3|B3]; [|discriminate]. cbn [andb] in E. injection E as <-.
  apply overwrite_length. rewrite <- wire_be, wire_length. lia.
Qed.
Lemma copy_range_keeps : forall (b : list byte) i j s b', copy_range b i j s = Ret b' -> length b' = length b.
Proof.
  intros b i j s b' E. unfold copy_range in E. destruct (Nat.leb_spec i j) as [B1|B1]; [|discriminate]. destruct (Nat.leb_spec j (length b)) as [B2|B2]; [|discriminate].
  cbn [andb] in E. injection E as <-. apply overwrite_length. rewrite firstn_length. lia.
Qed.
Lemma copy_from_keeps : forall (b : list byte) i s b', copy_from b i s = Ret b' -> length b' = length b.
Proof.
  intros b i s b' E. unfold copy_from in E. destruct (Nat.leb_spec i (length b)) as [B1|B1]; [|discriminate].
  injection E as <-. apply overwrite_length. rewrite firstn_length. lia.
Qed.
Lemma encoded_end : forall M b n, length b = n -> encoded_apart M (Ret (at_end M b, inl (the_end M n))) (Ret (Frame b)).
Proof.
  intros M b n <-. cbn [encoded_apart]. unfold the_end, at_end. cbn [mb]. rewrite seen_whole. split; [reflexivity|]. split; [apply wrote_new|]. split; [apply beyond_end|].
  intros M2 (K & _). etransitivity; [|apply (seen_whole (mb M) b (length b))]. eapply seen_new; [|apply alive_whole|exact K]. cbn. apply beyond_end.
Qed.
Lemma seen_at_end : forall M b s, alive (mb M) s -> seen (mb (at_end M b)) s = seen (mb M) s.
Proof. intros M b s L. apply seen_kept; auto. apply kept_app. Qed.
Ltac estep :=
  match goal with
  | |- context [edit (at_end ?M ?b) (the_end ?M ?n) (fun z => put_uint ?k z ?i ?j ?v)] =>
      rewrite (edit_end M b (fun z => put_uint k z i j v) n) by (eauto using put_keeps);
      let E := fresh "E" in let b' := fresh "b" in
      destruct (put_uint k b i j v) as [b'| |] eqn:E;
      [let L := fresh "L" in assert (L : length b' = n) by (apply put_keeps in E; congruence)|..]; cbn [obind encoded_apart]; auto
  | |- context [edit (at_end ?M ?b) (the_end ?M ?n) (fun z => copy_range z ?i ?j ?v)] =>
      rewrite (edit_end M b (fun z => copy_range z i j v) n) by (eauto using copy_range_keeps);
      let E := fresh "E" in let b' := fresh "b" in
      destruct (copy_range b i j v) as [b'| |] eqn:E;
      [let L := fresh "L" in assert (L : length b' = n) by (apply copy_range_keeps in E; congruence)|..]; cbn [obind encoded_apart]; auto
  | |- context [edit (at_end ?M ?b) (the_end ?M ?n) (fun z => copy_from z ?i ?v)] =>
      rewrite (edit_end M b (fun z => copy_from z i v) n) by (eauto using copy_from_keeps);
      let E := fresh "E" in let b' := fresh "b" in
      destruct (copy_from b i v) as [b'| |] eqn:E;
      [let L := fresh "L" in assert (L : length b' = n) by (apply copy_from_keeps in E; congruence)|..]; cbn [obind encoded_apart]; auto
  end.
Lemma made_length : forall n, length (make_bytes n) = n.
Proof. intros. apply repeat_length. Qed.
(** C146: The bytes an encoded data frame gives are its own. *)
Lemma c146_data_out : forall M d, alive (mb M) (md_payload d) -> encoded_apart M (mdata_encode M d) (data_encode (data_value M d)).
Proof.
  intros M d L. unfold mdata_encode, data_encode. cbn [data_value d_header d_session d_tstamp d_offset d_payload].
  destruct (sf_getstr sar (md_header d) "reqtstamp") as [rt| |]; cbn [obind encoded_apart]; auto.
  destruct (sf_getstr sar (md_header d) "descriptor") as [ds| |]; cbn [obind encoded_apart]; auto.
  destruct (String.eqb ds "d128"); [split; reflexivity|]. destruct (negb (one_of ds ["d16"; "d32"; "d64"])); [split; reflexivity|].
  unfold alloc. set (pay := seen (mb M) (md_payload d)).
  match goal with |- context [repeat zero_byte ?n] => set (fl := n) end. fold (make_bytes fl). pose proof (made_length fl) as L0.
  change {| mb := mb M ++ [make_bytes fl]; mh := mh M |} with (at_end M (make_bytes fl)). fold (the_end M fl).
  estep. estep. destruct (String.eqb rt "yes").
  - destruct (ts_put (md_tstamp d)) as [tb| |]; cbn [obind encoded_apart]; auto. estep.
    destruct (String.eqb ds "d16"); [|destruct (String.eqb ds "d32")]; estep; rewrite seen_at_end by exact L; fold pay; estep; apply encoded_end; assumption.
  - cbn [obind]. destruct (String.eqb ds "d16"); [|destruct (String.eqb ds "d32")]; estep; rewrite seen_at_end by exact L; fold pay; estep; apply encoded_end; assumption.
Qed.
(** C146: The same for a request. *)
Lemma c146_request_out : forall M r, alive (mb M) (mr_auth r) -> encoded_apart M (mrequest_encode M r) (request_encode (request_value M r)).
Proof.
  intros M r L. unfold mrequest_encode, request_encode. cbn [request_value r_header r_session r_fname r_auth].
  unfold alloc. set (au := seen (mb M) (mr_auth r)).
  match goal with |- context [repeat zero_byte ?n] => set (fl := n) end. fold (make_bytes fl). pose proof (made_length fl) as L0.
  change {| mb := mb M ++ [make_bytes fl]; mh := mh M |} with (at_end M (make_bytes fl)). fold (the_end M fl).
  estep. estep. estep. estep. destruct (mr_auth r) as [p|] eqn:P.
  - rewrite seen_at_end by exact L. fold au. estep.
    + destruct au as [|x xs]; cbn [obind].
      * unfold copy_from in E3. destruct (_ <=? _)%nat; [|discriminate]. injection E3 as <-. rewrite firstn_nil, overwrite_nil. apply encoded_end. assumption.
      * apply encoded_end. assumption.
    + destruct au as [|x xs]; cbn [obind]; [|reflexivity]. exfalso. unfold copy_from in E3. destruct (Nat.leb_spec (8 + slen (mr_fname r) + 1) (length b3)) as [Z|Z]; [discriminate|].
      replace (length b3) with fl in Z by congruence. unfold fl in Z. lia.
    + destruct au as [|x xs]; cbn [obind]; [|reflexivity]. unfold copy_from in E3. destruct (_ <=? _)%nat; discriminate.
  - cbn [obind]. apply encoded_end. assumption.
Qed.
(** C146: The same for metadata. *)
Lemma c146_metadata_out : forall M m, alive (mb M) (mm_checksum m) -> encoded_apart M (mmeta_encode M m) (meta_encode (metadata_value M m)).
Proof.
  intros M m L. unfold mmeta_encode, meta_encode. cbn [metadata_value m_header m_session m_checksum m_dir].
  destruct (dirent_encode (mm_dir m)) as [er| |]; cbn [obind encoded_apart]; auto. unfold alloc. set (cs := seen (mb M) (mm_checksum m)).
  match goal with |- context [repeat zero_byte ?n] => set (fl := n) end. fold (make_bytes fl). pose proof (made_length fl) as L0.
  change {| mb := mb M ++ [make_bytes fl]; mh := mh M |} with (at_end M (make_bytes fl)). fold (the_end M fl).
  estep. estep. destruct (Nat.ltb 0 (length cs)).
  - rewrite seen_at_end by exact L. fold cs. estep. estep. apply encoded_end. assumption.
  - cbn [obind]. estep. apply encoded_end. assumption.
Qed.
Lemma holes_end : forall k hs M b n pos, length b = n ->
  match enc_holes k hs b pos with
  | Ret b' => menc_holes k hs (at_end M b) (the_end M n) pos = Ret (at_end M b') /\ length b' = n
  | Panic => menc_holes k hs (at_end M b) (the_end M n) pos = Panic
  | Fatal => menc_holes k hs (at_end M b) (the_end M n) pos = Fatal
  end.
Proof.
  intros k hs M. induction hs as [|h hs IH]; intros b n pos L; cbn [enc_holes menc_holes]; [auto|].
  rewrite (edit_end M b (fun b => put_uint k b pos (pos + k) (wrap (8 * N.of_nat k) (u64_of_Z (h_start h)))) n) by eauto using put_keeps.
  destruct (put_uint k b pos (pos + k) _) as [b1| |] eqn:E1; cbn [obind]; auto. apply put_keeps in E1.
  rewrite (edit_end M b1 (fun b => put_uint k b (pos + k) (pos + k + k) (wrap (8 * N.of_nat k) (u64_of_Z (h_end h)))) n) by (try congruence; eauto using put_keeps).
  destruct (put_uint k b1 (pos + k) (pos + k + k) _) as [b2| |] eqn:E2; cbn [obind]; auto. apply put_keeps in E2. apply IH. congruence.
Qed.
(** C146: The same for a status. *)
Lemma c146_status_out : forall M s, encoded_apart M (mstatus_encode M s) (status_encode (status_value M s)).
Proof.
  intros M s. unfold mstatus_encode, status_encode. cbn [status_value s_header s_session s_progress s_inrespto s_holes].
  destruct (sf_getstr sar (ms_header s) "reqtstamp") as [rt| |]; cbn [obind encoded_apart]; auto.
  destruct (sf_getstr sar (ms_header s) "descriptor") as [ds| |]; cbn [obind encoded_apart]; auto.
  destruct (String.eqb ds "d128"); [split; reflexivity|]. destruct (negb (one_of ds ["d16"; "d32"; "d64"])); [split; reflexivity|].
  unfold alloc. set (hs := seen (mh M) (ms_holes s)). set (k := if String.eqb ds "d16" then 2%nat else if String.eqb ds "d32" then 4%nat else 8%nat).
  match goal with |- context [repeat zero_byte ?n] => set (fl := n) end. fold (make_bytes fl). pose proof (made_length fl) as L0.
  change {| mb := mb M ++ [make_bytes fl]; mh := mh M |} with (at_end M (make_bytes fl)). fold (the_end M fl).
  estep. estep. estep. estep. change (seen (mh (at_end M b3)) (ms_holes s)) with hs.
  pose proof (holes_end k hs M b3 fl (8 + k + k)) as HE. 
  destruct (enc_holes k hs b3 (8 + k + k)) as [bb| |]; cbn [obind]; [destruct HE as (-> & LL); auto; cbn [obind]; apply encoded_end; assumption|rewrite HE by assumption; reflexivity..].
Qed.

(** ** The listeners *)
Definition stable_from (n k : nat) (M M' : mem) : Prop :=
  (forall a x, (n <= a)%nat -> nth_error (mb M) a = Some x -> nth_error (mb M') a = Some x)
  /\ (forall a x, (k <= a)%nat -> nth_error (mh M) a = Some x -> nth_error (mh M') a = Some x).
Lemma stable_refl : forall n k M, stable_from n k M M.
Proof. intros. split; auto. Qed.
Lemma stable_trans : forall n k M M1 M2, stable_from n k M M1 -> stable_from n k M1 M2 -> stable_from n k M M2.
Proof. intros n k M M1 M2 (A & B) (C & D). split; auto. Qed.
Lemma stable_written : forall n k M M', nothing_written M M' -> stable_from n k M M'.
Proof. intros n k M M' (A & B). split; auto. Qed.
Lemma stable_older : forall n k M M1 M2, (n <= length (mb M))%nat -> (k <= length (mh M))%nat -> stable_from n k M1 M2 -> older_overwritten M M1 M2.
Proof.
  intros n k M M1 M2 L L' (A & B). split; intros a x N E; apply nth_error_None in N; [apply A|apply B]; auto; lia.
Qed.
Lemma kept_longer : forall {A} (H H' : list (list A)), all_kept H H' -> (length H <= length H')%nat.
Proof.
  intros A H H' K. destruct (Nat.le_gt_cases (length H) (length H')) as [L|L]; [exact L|]. exfalso.
  destruct (nth_error H (length H')) as [x|] eqn:E; [|apply nth_error_None in E; lia]. apply K in E.
  assert (nth_error H' (length H') <> None) by congruence. apply nth_error_Some in H0. lia.
Qed.
Lemma received : forall M buf dg, alive (mb M) (Some buf) ->
  slice (seen (copy_in (mb M) (Some buf) dg) (Some buf)) 0 (Nat.min (sl_length buf) (length dg)) = Ret (firstn (sl_length buf) dg).
Proof.
  intros M buf dg (x & E & L & C). unfold copy_in, store. rewrite (nth_of_error _ _ _ E), Nat.add_0_r.
  set (fd := firstn (sl_length buf) dg). assert (LF : length fd = Nat.min (sl_length buf) (length dg)) by apply firstn_length.
  unfold seen. rewrite (nth_of_error _ _ _ (set_arr_same (mb M) (sl_array buf) (overwrite x (sl_start buf) fd) x E)).
  assert (S : skipn (sl_start buf) (overwrite x (sl_start buf) fd) = (fd ++ skipn (sl_start buf + length fd) x)%list).
  { unfold overwrite. rewrite skipn_app, firstn_length, Nat.min_l by lia. rewrite skipn_all2 by (rewrite firstn_length; lia).
    rewrite Nat.sub_diag. reflexivity. }
  rewrite S. unfold slice. cbn [Nat.leb]. rewrite firstn_length, app_length, skipn_length.
  replace (Nat.min (sl_length buf) (length dg) <=? _)%nat with true by (symmetry; apply Nat.leb_le; lia). cbn [andb skipn].
  rewrite Nat.sub_0_r. rewrite firstn_firstn. rewrite Nat.min_l by lia. rewrite <- LF. rewrite firstn_app, Nat.sub_diag. cbn [firstn]. rewrite app_nil_r, firstn_all. reflexivity.
Qed.
Lemma rx_stable : forall {F V} (value : mem -> F -> V) apart M (res : outcome (mem * F * error)) spec n k, decoded_apart value apart M res spec ->
  (n <= length (mb M))%nat -> (k <= length (mh M))%nat ->
  match res with
  | Ret (M1, x, None) => spec = Ret (value M1 x, None) /\ nothing_written M M1 /\ forall M2, stable_from n k M1 M2 -> value M2 x = value M1 x
  | Ret (M1, x, Some e) => spec = Ret (value M1 x, Some e) /\ nothing_written M M1
  | Panic => spec = Panic
  | Fatal => spec = Fatal
  end.
Proof.
  intros F V value apart M res spec n k D Ln Lk. unfold decoded_apart in D. destruct res as [[[M1 x] [e|]]| |]; auto.
  - destruct D as (S & W & _). auto.
  - destruct D as (S & W & A). split; [exact S|]. split; [exact W|]. intros M2 ST. apply (proj2 (A eq_refl)). eapply stable_older; eauto.
Qed.
Definition round_ok (n k : nat) (M : mem) (res : outcome (mem * mheard)) (spec : outcome heard) : Prop :=
  match res with
  | Ret (M', h) => spec = Ret (heard_value M' h) /\ stable_from n k M M'
      /\ (length (mb M) <= length (mb M'))%nat /\ (length (mh M) <= length (mh M'))%nat
      /\ (forall s, alive (mb M) (Some s) -> alive (mb M') (Some s))
      /\ forall M2, stable_from n k M' M2 -> heard_value M2 h = heard_value M' h
  | Panic => spec = Panic
  | Fatal => spec = Fatal
  end.
Lemma round_after : forall n k M M1 res spec, stable_from n k M M1 -> (length (mb M) <= length (mb M1))%nat -> (length (mh M) <= length (mh M1))%nat ->
  (forall s, alive (mb M) (Some s) -> alive (mb M1) (Some s)) -> round_ok n k M1 res spec -> round_ok n k M res spec.
Proof.
  intros n k M M1 res spec S L L' A R. unfold round_ok in *. destruct res as [(M' & h)| |]; auto. destruct R as (E & S' & B & B' & A' & H).
  split; [exact E|]. split; [eapply stable_trans; eauto|]. split; [lia|]. split; [lia|]. auto.
Qed.
Lemma written_alive : forall M M', nothing_written M M' -> forall s, alive (mb M) (Some s) -> alive (mb M') (Some s).
Proof. intros M M' (A & _) s L. eapply alive_kept; eauto. Qed.
Lemma round_now : forall n k M M1 h spec, nothing_written M M1 -> spec = Ret (heard_value M1 h) ->
  (forall M2, stable_from n k M1 M2 -> heard_value M2 h = heard_value M1 h) -> round_ok n k M (Ret (M1, h)) spec.
Proof.
  intros n k M M1 h spec W E H. split; [exact E|]. split; [apply stable_written; exact W|]. split; [apply kept_longer, W|]. split; [apply kept_longer, W|].
  split; [apply written_alive; exact W|]. exact H.
Qed.
Lemma bad_round : forall n k M M1 now h s p from, nothing_written M M1 ->
  round_ok n k M (do x <- bad_frame now h s p from; Ret (M1, to_heard x)) (bad_frame now h s p from).
Proof.
  intros n k M M1 now h s p from W. unfold bad_frame.
  destruct (sf_getstr sar h "descriptor") as [ds| |]; cbn [obind round_ok]; auto.
  match goal with |- context [status_new ?a ?b ?c ?d] => destruct (status_new a b c d) as [[st [e|]]| |] end; cbn [obind]; try reflexivity;
    cbn [to_heard]; (apply round_now; [exact W|reflexivity|reflexivity]).
Qed.
Lemma one_round : forall grow now mtu M buf dg from n k,
  alive (mb M) (Some buf) -> sl_length buf = Z.to_nat (mtu + 40) -> (sl_array buf < n)%nat -> (n <= length (mb M))%nat -> (k <= length (mh M))%nat ->
  round_ok n k M (mlisten_one grow now mtu M buf dg from) (listen_one now mtu dg from).
Proof.
  intros grow now mtu M buf dg from n k LB SB BN NL KL. unfold mlisten_one, listen_one.
  replace (Z.to_nat (mtu - 60 + 100)) with (sl_length buf) by (rewrite SB; f_equal; lia). rewrite firstn_length.
  set (M1 := {| mb := copy_in (mb M) (Some buf) dg; mh := mh M |}).
  assert (T1 : stable_from n k M M1).
  { split; [|auto]. intros a x La E. unfold M1, copy_in, store. cbn [mb]. rewrite set_arr_other by lia. exact E. }
  assert (L1 : length (mb M1) = length (mb M)) by (unfold M1, copy_in, store; cbn [mb]; apply set_arr_length).
  assert (A1 : forall s, alive (mb M) (Some s) -> alive (mb M1) (Some s)).
  { intros s (x & E & R). destruct LB as (y & Ey & Ry). unfold M1, copy_in, store. cbn [mb]. destruct (Nat.eq_dec (sl_array buf) (sl_array s)) as [P|P].
    - exists (overwrite y (sl_start buf + 0) (firstn (sl_length buf) dg)). rewrite <- P. rewrite (nth_of_error _ _ _ Ey). rewrite (set_arr_same _ _ _ _ Ey). split; [reflexivity|].
      assert (x = y) by (rewrite P in Ey; congruence). subst y. rewrite overwrite_length; [lia|]. rewrite firstn_length. lia.
    - exists x. rewrite set_arr_other by exact P. auto. }
  apply (round_after n k M M1); [exact T1|lia|cbn; lia|exact A1|].
  assert (D1 : round_ok n k M1 (Ret (M1, MDropped)) (Ret Dropped)) by (apply round_now; [apply unchanged|reflexivity|reflexivity]).
  destruct (Nat.ltb (Nat.min (sl_length buf) (length dg)) 8); [exact D1|].
  destruct (mtu - 60 <? Z.of_nat (Nat.min (sl_length buf) (length dg)))%Z; [exact D1|].
  assert (RV : slice (seen (mb M1) (Some buf)) 0 (Nat.min (sl_length buf) (length dg)) = Ret (firstn (sl_length buf) dg)) by exact (received M buf dg LB).
  rewrite RV. cbn [obind].
  set (fd := firstn (sl_length buf) dg). replace (Nat.min (sl_length buf) (length dg)) with (length fd) by (unfold fd; apply firstn_length).
  rewrite fresh_copy_eq. fold (the_end M1 (length fd)). fold (at_end M1 fd).
  set (M2 := at_end M1 fd). assert (W2 : nothing_written M1 M2) by apply wrote_new.
  assert (S2 : seen (mb M2) (Some (the_end M1 (length fd))) = fd) by apply seen_whole. rewrite S2.
  assert (LF : alive (mb M2) (Some (the_end M1 (length fd)))) by apply alive_whole.
  assert (N2 : (n <= length (mb M2))%nat) by (pose proof (kept_longer _ _ (proj1 W2)); lia).
  assert (K2 : (k <= length (mh M2))%nat) by (pose proof (kept_longer _ _ (proj2 W2)); cbn in *; lia).
  apply (round_after n k M1 M2); [apply stable_written; exact W2|apply kept_longer, W2|apply kept_longer, W2|apply written_alive; exact W2|].
  assert (D2 : round_ok n k M2 (Ret (M2, MDropped)) (Ret Dropped)) by (apply round_now; [apply unchanged|reflexivity|reflexivity]).
  destruct (get_uint 4 fd 0 4) as [h| |]; cbn [obind round_ok]; auto.
  destruct (sf_getstr sar h "version") as [v| |]; cbn [obind round_ok]; auto.
  destruct (negb (String.eqb v "v1")).
  { destruct (status_new now zero_status "errcode=badpacket" no_info) as [[st [e|]]| |]; cbn [obind]; auto; try reflexivity.
    apply round_now; [apply unchanged|reflexivity|reflexivity]. }
  destruct (sf_getstr sar h "frametype") as [ft| |]; cbn [obind round_ok]; auto.
  destruct (String.eqb ft "beacon").
  { destruct (beacon_decode zero_beacon fd) as [[b [e|]]| |]; cbn [obind]; auto; try reflexivity.
    apply round_now; [apply unchanged|destruct b; reflexivity|reflexivity]. }
  destruct (String.eqb ft "request").
  { pose proof (rx_stable _ _ _ _ _ n k (c146_request M2 mrequest0 (Some (the_end M1 (length fd)))) N2 K2) as R. rewrite S2 in R.
    change (request_value M2 mrequest0) with zero_request in R.
    destruct (mrequest_decode M2 mrequest0 (Some (the_end M1 (length fd)))) as [[[M3 x] [e|]]| |]; cbn [obind].
    - destruct R as (-> & W). cbn [obind]. apply round_now; [exact W|reflexivity|reflexivity].
    - destruct R as (-> & W & ST). cbn [obind]. apply round_now; [exact W|reflexivity|]. intros M4 T. cbn. rewrite (ST M4 T). reflexivity.
    - rewrite R. reflexivity.
    - rewrite R. reflexivity. }
  destruct (String.eqb ft "data").
  { pose proof (rx_stable _ _ _ _ _ n k (c146_data M2 mdata0 (Some (the_end M1 (length fd))) I) N2 K2) as R. rewrite S2 in R.
    change (data_value M2 mdata0) with zero_data in R.
    destruct (mdata_decode M2 mdata0 (Some (the_end M1 (length fd)))) as [[[M3 x] [e|]]| |]; cbn [obind].
    - destruct R as (-> & W). cbn [obind]. apply bad_round. exact W.
    - destruct R as (-> & W & ST). cbn [obind]. apply round_now; [exact W|reflexivity|]. intros M4 T. cbn. rewrite (ST M4 T). reflexivity.
    - rewrite R. reflexivity.
    - rewrite R. reflexivity. }
  destruct (String.eqb ft "metadata").
  { pose proof (rx_stable _ _ _ _ _ n k (c146_metadata M2 mmetadata0 (Some (the_end M1 (length fd))) LF) N2 K2) as R. rewrite S2 in R.
    change (metadata_value M2 mmetadata0) with zero_metadata in R.
    destruct (mmeta_decode M2 mmetadata0 (Some (the_end M1 (length fd)))) as [[[M3 x] [e|]]| |]; cbn [obind].
    - destruct R as (-> & W). cbn [obind]. rewrite (seen_kept _ _ _ LF (proj1 W)), S2. destruct (get_uint 4 fd 4 8) as [se| |]; cbn [obind round_ok]; auto.
      apply bad_round. exact W.
    - destruct R as (-> & W & ST). cbn [obind]. apply round_now; [exact W| |].
      + unfold meta_val. cbn [heard_value frame_value metadata_value m_header m_session m_checksum m_dir].
        replace (dirent_copy (mm_dir x)) with (mm_dir x) by (destruct (mm_dir x); reflexivity). reflexivity.
      + intros M4 T. cbn. rewrite (ST M4 T). reflexivity.
    - rewrite R. reflexivity.
    - rewrite R. reflexivity. }
  destruct (String.eqb ft "status"); [|exact D2].
  pose proof (rx_stable _ _ _ _ _ n k (c146_status grow M2 mstatus0 (Some (the_end M1 (length fd))) eq_refl) N2 K2) as R. rewrite S2 in R.
  change (status_value M2 mstatus0) with zero_status in R.
  destruct (mstatus_decode grow M2 mstatus0 (Some (the_end M1 (length fd)))) as [[[M3 x] [e|]]| |]; cbn [obind].
  - destruct R as (-> & W). cbn [obind]. rewrite (seen_kept _ _ _ LF (proj1 W)), S2. destruct (get_uint 4 fd 4 8) as [se| |]; cbn [obind round_ok]; auto.
    apply bad_round. exact W.
  - destruct R as (-> & W & ST). cbn [obind]. destruct (status_shortprint_ok (status_value M3 x)) as [?| |]; cbn [obind round_ok]; auto.
    destruct (status_print_ok (status_value M3 x)) as [?| |]; cbn [obind]; auto; try reflexivity.
    apply round_now; [exact W|reflexivity|]. intros M4 T. cbn. rewrite (ST M4 T). reflexivity.
  - rewrite R. reflexivity.
  - rewrite R. reflexivity.
Qed.
(** C147: Whatever arrives at the listeners, in whatever order, every frame they have delivered is at the end, and whatever the
    program writes to older memory then, still the one its datagram stood for when it arrived. *)
Lemma c147_delivered : forall grow mtu bufs l M, buffers_ready mtu bufs M ->
  match mlisten grow mtu bufs M l with
  | Ret (M1, hs) => each_alone mtu l = Ret (map (heard_value M1) hs)
      /\ forall M2, older_overwritten M M1 M2 -> map (heard_value M2) hs = map (heard_value M1) hs
  | Panic => each_alone mtu l = Panic
  | Fatal => each_alone mtu l = Fatal
  end.
Proof.
  intros grow mtu bufs l M RB.
  enough (G : forall l Mi, (forall i, alive (mb Mi) (Some (bufs i))) -> (length (mb M) <= length (mb Mi))%nat -> (length (mh M) <= length (mh Mi))%nat ->
    match mlisten grow mtu bufs Mi l with
    | Ret (M1, hs) => each_alone mtu l = Ret (map (heard_value M1) hs) /\ stable_from (length (mb M)) (length (mh M)) Mi M1
        /\ forall M2, stable_from (length (mb M)) (length (mh M)) M1 M2 -> map (heard_value M2) hs = map (heard_value M1) hs
    | Panic => each_alone mtu l = Panic
    | Fatal => each_alone mtu l = Fatal
    end).
  { specialize (G l M (fun i => proj1 (RB i)) (le_n _) (le_n _)). destruct (mlisten grow mtu bufs M l) as [(M1 & hs)| |]; auto.
    destruct G as (E & _ & S). split; [exact E|]. intros M2 (O1 & O2). apply S. split; intros a x La Ea; [apply O1|apply O2]; auto; apply nth_error_None; exact La. }
  clear l. induction l as [|a l IH]; intros Mi A LB LH; cbn [mlisten each_alone].
  - split; [reflexivity|]. split; [apply stable_refl|reflexivity].
  - assert (BN : (sl_array (bufs (ar_socket a)) < length (mb M))%nat).
    { destruct (RB (ar_socket a)) as ((x & E & _) & _). apply nth_error_Some. congruence. }
    pose proof (one_round grow (ar_now a) mtu Mi (bufs (ar_socket a)) (ar_bytes a) (ar_from a) _ _ (A _) (proj2 (RB _)) BN LB LH) as R.
    unfold round_ok in R. destruct (mlisten_one grow (ar_now a) mtu Mi (bufs (ar_socket a)) (ar_bytes a) (ar_from a)) as [(M' & h)| |]; cbn [obind].
    + destruct R as (E & S & B & B' & A' & H). rewrite E. cbn [obind]. assert (LB' : (length (mb M) <= length (mb M'))%nat) by lia. assert (LH' : (length (mh M) <= length (mh M'))%nat) by lia.
      specialize (IH M' (fun i => A' _ (A i)) LB' LH'). destruct (mlisten grow mtu bufs M' l) as [(M1 & hs)| |]; cbn [obind].
      * destruct IH as (E2 & S2 & H2). rewrite E2. cbn [obind map]. split; [rewrite (H M1 S2); reflexivity|]. split; [eapply stable_trans; eauto|].
        intros M2 T. rewrite (H2 M2 T). f_equal. rewrite (H M1 S2). apply H. eapply stable_trans; eauto.
      * rewrite IH. reflexivity.
      * rewrite IH. reflexivity.
    + rewrite R. reflexivity.
    + rewrite R. reflexivity.
Qed.
(** C147: A listener's buffer is made unless the MTU is below -40, where the listener panics; it is as large as it should be. *)
Lemma c147_buffer : forall M mtu,
  (new_buf M mtu = Panic <-> (mtu < -40)%Z)
  /\ forall M' b, new_buf M mtu = Ret (M', b) -> alive (mb M') (Some b) /\ sl_length b = Z.to_nat (mtu + 40) /\ made_since (mb M) (Some b) /\ nothing_written M M'.
Proof.
  intros M mtu. unfold new_buf. destruct (Z.ltb_spec (mtu - 60 + 100) 0) as [L|L].
  - split; [split; [intros _; lia|reflexivity]|discriminate].
  - split; [split; [discriminate|lia]|]. intros M' b E. unfold alloc in E. injection E as <- <-. split.
    + exists (repeat zero_byte (Z.to_nat (mtu - 60 + 100))). cbn. rewrite last_error, repeat_length. repeat split; lia.
    + cbn. split; [f_equal; lia|]. split; [apply beyond_end|]. apply wrote_new.
Qed.
Lemma fill_loop : forall grow M hs n i Mi s, alive (mh M) hs -> all_kept (mh M) (mh Mi) -> alive (mh Mi) s -> made_since (mh M) s ->
  (i + n = length (seen (mh M) hs))%nat ->
  let '(M', s') := mfill_holes grow n i Mi s hs in
  mb M' = mb Mi /\ all_kept (mh M) (mh M') /\ alive (mh M') s' /\ made_since (mh M) s' /\ seen (mh M') s' = (seen (mh Mi) s ++ skipn i (seen (mh M) hs))%list.
Proof.
  intros grow M hs n. induction n; intros i Mi s LH K LS MS LEN; cbn [mfill_holes].
  - rewrite skipn_all2 by lia. rewrite app_nil_r. auto.
  - rewrite (seen_kept _ _ _ LH K). set (l := seen (mh M) hs) in *. set (z := {| h_start := 0; h_end := 0 |}).
    pose proof (append_one_spec grow z (mh Mi) s (nth i l z) LS) as AP. destruct (append_one grow z (mh Mi) s (nth i l z)) as (H1 & s1).
    assert (KT : all_kept (mh M) H1).
    { intros a x E. eapply (ap_other _ _ _ _ _ AP); [apply K; exact E|]. intros t -> P. cbn in MS. rewrite P in MS. congruence. }
    assert (M1 : made_since (mh M) (Some s1)).
    { destruct (le_lt_dec 1 (room s)) as [R|R].
      - pose proof (ap_same _ _ _ _ _ AP R) as Q. destruct s as [s|]; [|cbn in R; lia]. destruct Q as (Q & _). cbn in MS |- *. rewrite Q. exact MS.
      - destruct (ap_new _ _ _ _ _ AP R) as (Q & _). cbn in Q |- *. destruct (nth_error (mh M) (sl_array s1)) as [w|] eqn:W; [|reflexivity]. apply K in W. congruence. }
    specialize (IHn (S i) {| mb := mb Mi; mh := H1 |} (Some s1) LH KT (ap_alive _ _ _ _ _ AP) M1). cbn [mb mh] in IHn. fold l in IHn.
    destruct (mfill_holes grow n (S i) {| mb := mb Mi; mh := H1 |} (Some s1) hs) as (M' & s'). destruct IHn as (B & K' & A' & N' & V); [lia|].
    split; [exact B|]. split; [exact K'|]. split; [exact A'|]. split; [exact N'|]. rewrite V, (ap_seen _ _ _ _ _ AP), <- app_assoc. f_equal. cbn [app].
    assert (Li : (i < length l)%nat) by lia. clear - Li. revert i Li. induction l as [|y l IH]; intros i Li; [cbn in Li; lia|]. destruct i; [reflexivity|]. cbn in *. apply IH. lia.
Qed.
(** C146: New and Make give a status that had no holes before holes of its own, equal to the caller's. *)
Lemma c146_new_status : forall grow M s session progress inrespto hs, ms_holes s = None -> alive (mh M) hs ->
  decoded_apart status_value status_apart M (let '(M1, x) := mstatus_fill grow M s session progress inrespto hs in Ret (M1, x, None))
    (Ret (s_fill (status_value M s) {| si_session := session; si_progress := progress; si_inrespto := inrespto; si_holes := seen (mh M) hs |}, None)).
Proof.
  intros grow M s session progress inrespto hs N L. unfold mstatus_fill. rewrite N.
  pose proof (fill_loop grow M hs (length (seen (mh M) hs)) 0 M None L (kept_refl _) I I eq_refl) as F.
  destruct (mfill_holes grow (length (seen (mh M) hs)) 0 M None hs) as (M1 & l). destruct F as (B & K & A & MS & V). cbn [decoded_apart].
  unfold status_value, s_fill. cbn [ms_header ms_session ms_tstamp ms_progress ms_inrespto ms_holes s_header s_tstamp s_holes si_session si_progress si_inrespto si_holes].
  rewrite N. rewrite V. cbn [seen app skipn]. split; [reflexivity|]. split; [split; [rewrite B; apply kept_refl|exact K]|]. intros _. split; [exact MS|].
  intros M2 (_ & O). rewrite (seen_new _ _ _ _ MS A O), V. reflexivity.
Qed.

(** ** Copies of frames *)
Lemma over_spec : forall {A} (x h1 h2 : list A) p r, (p + r <= length x)%nat -> (length h1 <= r)%nat ->
  firstn (length h1) (skipn p (overwrite (overwrite x p h1) p (firstn r h2))) = written_over h1 h2.
Proof.
  intros A x h1 h2 p r L R. set (g := firstn r h2).
  assert (S : forall (y : list A) q, (p + length q <= length y)%nat -> skipn p (overwrite y p q) = (q ++ skipn (p + length q) y)%list).
  { intros y q Ly. unfold overwrite. rewrite skipn_app, firstn_length, Nat.min_l by lia. rewrite skipn_all2 by (rewrite firstn_length; lia).
    rewrite Nat.sub_diag. reflexivity. }
  assert (LG : length g = Nat.min r (length h2)) by apply firstn_length.
  rewrite S by (rewrite overwrite_length by lia; lia).
  assert (S2 : skipn (p + length g) (overwrite x p h1) = skipn (length g) (h1 ++ skipn (p + length h1) x)).
  { rewrite <- (S x h1) by lia. generalize (length g) (overwrite x p h1). clear. intros n. induction p; intros l; [reflexivity|]. destruct l; [destruct n; reflexivity|]. cbn. apply IHp. }
  rewrite S2. unfold written_over. destruct (le_lt_dec (length g) (length h1)) as [Q|Q].
  - rewrite firstn_app. rewrite firstn_all2 by lia. rewrite skipn_app. replace (length g - length h1)%nat with 0%nat by lia. cbn [skipn].
    rewrite firstn_app, skipn_length. replace (length h1 - length g - (length h1 - length g))%nat with 0%nat by lia. cbn [firstn]. rewrite app_nil_r.
    rewrite firstn_all2 by (rewrite skipn_length; lia). destruct (le_lt_dec (length h2) r) as [Z|Z].
    + unfold g. rewrite (firstn_all2 h2 Z). rewrite (firstn_all2 (n := length h1) h2) by (rewrite Nat.min_r in LG by lia; lia). reflexivity.
    + rewrite Nat.min_l in LG by lia. assert (E : length h1 = r) by lia. rewrite (skipn_all2 (n := length g)) by lia. rewrite (skipn_all2 (n := length h2)) by lia. unfold g. rewrite E. reflexivity.
  - rewrite firstn_app. replace (length h1 - length g)%nat with 0%nat by lia. cbn [firstn]. rewrite app_nil_r. unfold g. rewrite firstn_firstn, Nat.min_l by lia.
    rewrite skipn_all2 by lia. rewrite app_nil_r. reflexivity.
Qed.
(** C148: A status and a copy of it, decoded into one after the other: the second decoding replaces the holes that the first one
    gave, as far as they are in the array both had, that is when it had room for them. *)
Lemma c148_status : forall grow M s c f1 f2 M1 s1 M2 c2, alive (mh M) (ms_holes s) -> ms_holes c = ms_holes s ->
  mstatus_decode grow M s f1 = Ret (M1, s1, None) -> mstatus_decode grow M1 c f2 = Ret (M2, c2, None) ->
  exists h1 h2, let old := s_holes (status_value M s) in
    s_holes (status_value M1 s1) = (old ++ h1)%list
    /\ s_holes (status_value M2 c2) = (old ++ h2)%list
    /\ s_holes (status_value M2 s1) = (old ++ (if (List.length h1 <=? room (ms_holes s))%nat then written_over h1 h2 else h1))%list.
Proof.
  intros grow M s c f1 f2 M1 s1 M2 c2 L EC D1 D2.
  pose proof (decode_outcome grow M s f1 L) as O1. rewrite D1 in O1. cbn [status_outcome] in O1. destruct O1 as (_ & B1 & h1 & A1 & V1 & _).
  assert (LC : alive (mh M1) (ms_holes c)).
  { rewrite EC. destruct (ms_holes s) as [t|] eqn:Et; [|exact I]. destruct L as (x & E & La & C). exists (overwrite x (sl_start t + sl_length t) (firstn (room (Some t)) h1)).
    split; [apply (ap_own _ _ _ _ _ A1 t x eq_refl E)|]. rewrite overwrite_length; [auto|]. rewrite firstn_length. cbn [room]. lia. }
  pose proof (decode_outcome grow M1 c f2 LC) as O2. rewrite D2 in O2. cbn [status_outcome] in O2. destruct O2 as (_ & B2 & h2 & A2 & V2 & _).
  exists h1, h2. cbv zeta. cbn [status_value s_holes]. split; [exact V1|].
  assert (OLD : seen (mh M1) (ms_holes c) = seen (mh M) (ms_holes s)).
  { rewrite EC. destruct (ms_holes s) as [t|] eqn:Et; [|reflexivity]. destruct L as (x & E & La & C). unfold seen.
    rewrite (nth_of_error _ _ _ E), (nth_of_error _ _ _ (ap_own _ _ _ _ _ A1 t x eq_refl E)). unfold overwrite.
    rewrite skipn_app, firstn_app. rewrite skipn_firstn_comm, firstn_firstn. rewrite Nat.min_l by lia.
    match goal with |- (_ ++ firstn ?n _)%list = _ => replace n with 0%nat; [cbn [firstn]; apply app_nil_r|] end.
    rewrite firstn_length, skipn_length. lia. }
  rewrite OLD in V2. split; [exact V2|]. rewrite EC in A2.
  destruct (Nat.leb_spec (length h1) (room (ms_holes s))) as [R|R].
  - destruct (ms_holes s) as [t|] eqn:Et.
    + pose proof (ap_same _ _ _ _ _ A1 R) as Q. destruct (ms_holes s1) as [u|]; [|contradiction]. destruct Q as (q1 & q2 & q3 & q4).
      destruct L as (x & E & La & C). pose proof (ap_own _ _ _ _ _ A1 t x eq_refl E) as E1. rewrite (firstn_all2 h1 R) in E1.
      pose proof (ap_own _ _ _ _ _ A2 t _ eq_refl E1) as E2. unfold seen at 1. rewrite q1, q2, q3. rewrite (nth_of_error _ _ _ E2).
      unfold seen. rewrite (nth_of_error _ _ _ E). cbn [room] in *.
      set (p := (sl_start t + sl_length t)%nat) in *. set (y := overwrite (overwrite x p h1) p (firstn (sl_capacity t - sl_length t) h2)).
      assert (SP : skipn (sl_start t) y = (firstn (sl_length t) (skipn (sl_start t) x) ++ skipn p y)%list).
      { assert (P1 : firstn p y = firstn p x).
        { unfold y. unfold overwrite at 1. rewrite firstn_app, firstn_firstn, Nat.min_id, firstn_length. rewrite overwrite_length by lia.
          replace (p - Nat.min p (length x))%nat with 0%nat by lia. cbn [firstn]. rewrite app_nil_r. unfold overwrite.
          rewrite firstn_app, firstn_firstn, Nat.min_id, firstn_length. replace (p - Nat.min p (length x))%nat with 0%nat by lia. cbn [firstn]. apply app_nil_r. }
        rewrite <- (firstn_skipn p y) at 1. rewrite skipn_app, P1, firstn_length. replace (sl_start t - Nat.min p (length x))%nat with 0%nat by lia. cbn [skipn].
        f_equal. rewrite skipn_firstn_comm. f_equal. unfold p. lia. }
      rewrite SP. rewrite firstn_app. rewrite firstn_all2 by (rewrite firstn_length; lia). f_equal.
      rewrite firstn_length, skipn_length. replace (sl_length t + length h1 - Nat.min (sl_length t) (length x - sl_start t))%nat with (length h1) by lia.
      apply over_spec; [unfold p; lia|exact R].
    + cbn [room] in R. destruct h1; [|cbn in R; lia]. pose proof (ap_same _ _ _ _ _ A1 (le_n _)) as Q. destruct (ms_holes s1); [contradiction|].
      unfold written_over. cbn. destruct (length h2); reflexivity.
  - destruct (ap_new _ _ _ _ _ A1 R) as (Q & _). pose proof (ap_alive _ _ _ _ _ A1) as AL. rewrite <- V1. cbn [status_value s_holes]. destruct (ms_holes s1) as [u|]; [|reflexivity].
    destruct AL as (x & E & _). unfold seen. rewrite (nth_of_error _ _ _ E). rewrite (nth_of_error (mh M2) (sl_array u) x); [reflexivity|].
    apply (ap_other _ _ _ _ _ A2); auto. intros t Et P. rewrite Et in *. cbn in Q. rewrite <- P in Q. destruct L as (w & W & _). congruence.
Qed.
(** C148: New on a request writes the authentication field over the one that the request has, and so in every copy of the request
    as well; as many bytes as both have.  Nothing else is changed.  Without such a field nothing is stored. *)
Lemma c148_request : forall M r session fname auth, alive (mb M) (mr_auth r) ->
  let '(M1, r1) := mrequest_fill M r session fname auth in
  let now := seen (mb M) auth in
  request_value M1 r1 = {| r_header := mr_header r; r_session := u32 session; r_fname := fname; r_auth := written_over (r_auth (request_value M r)) now |}
  /\ (forall c, mr_auth c = mr_auth r -> r_auth (request_value M1 c) = written_over (r_auth (request_value M c)) now)
  /\ (forall s t, mr_auth r = Some t -> sl_array s <> sl_array t -> seen (mb M1) (Some s) = seen (mb M) (Some s))
  /\ mh M1 = mh M
  /\ (mr_auth r = None -> M1 = M).
Proof.
  intros M r session fname auth L. unfold mrequest_fill. cbv zeta. set (now := seen (mb M) auth).
  assert (G : seen (copy_in (mb M) (mr_auth r) now) (mr_auth r) = written_over (seen (mb M) (mr_auth r)) now).
  { destruct (mr_auth r) as [t|] eqn:Et; [|unfold written_over; cbn; destruct (length now); reflexivity].
    pose proof (firstn_seen_length (mb M) t L) as SL. destruct L as (x & E & La & C). unfold copy_in, store. rewrite (nth_of_error _ _ _ E), Nat.add_0_r.
    unfold seen at 1. rewrite (nth_of_error _ _ _ (set_arr_same _ _ _ _ E)). unfold written_over. rewrite SL. unfold seen. rewrite (nth_of_error _ _ _ E).
    set (g := firstn (sl_length t) now). assert (LG : length g = Nat.min (sl_length t) (length now)) by apply firstn_length.
    unfold overwrite. rewrite skipn_app, firstn_length, Nat.min_l by lia. rewrite skipn_all2 by (rewrite firstn_length; lia). rewrite Nat.sub_diag. cbn [app skipn].
    rewrite firstn_app. rewrite firstn_all2 by lia. f_equal. destruct (le_lt_dec (length now) (sl_length t)) as [Z|Z].
    - rewrite Nat.min_r in LG by lia. rewrite LG. rewrite skipn_firstn_comm. f_equal. clear. revert x. induction (sl_start t); intros x; [reflexivity|]. destruct x; [destruct (length now); reflexivity|]. cbn. apply IHn.
    - replace (sl_length t - length g)%nat with 0%nat by lia. cbn [firstn]. rewrite skipn_all2; [reflexivity|]. rewrite firstn_length. lia. }
  split; [unfold request_value; cbn [mr_header mr_session mr_fname mr_auth mb r_auth]; rewrite G; reflexivity|].
  split; [intros c Ec; unfold request_value; cbn [mb r_auth]; rewrite Ec; exact G|].
  split.
  - intros s t Et N. rewrite Et. cbn [mb]. unfold copy_in, store, seen.
    assert (NE : forall (H : list (list byte)) a b z, a <> b -> nth b (set_arr H a z) [] = nth b H []).
    { clear. intros H. induction H; intros [|p] [|q] z Npq; cbn; auto; congruence. }
    rewrite NE; auto.
  - split; [reflexivity|]. intros ->. cbn. destruct M; reflexivity.
Qed.

(** ** Examples *)
Definition ex_t : gotime := {| unix_secs := 0; unix_nanos := 0 |}.
Definition ex_peer : udpaddr := {| ua_ip := "10.0.0.1"; ua_port := 7542; ua_zone := "" |}.
Definition ex_data (payload : string) : list byte := (wire 4 0x23000000 ++ wire 4 5 ++ wire 2 7 ++ bytes_of payload)%list.
Definition ex_status (l : list N) : list byte := (wire 4 0x24000000 ++ wire 4 5 ++ wire 2 9 ++ wire 2 3 ++ concat (map (wire 2) l))%list.
Definition whole (a n : nat) : sref := {| sl_array := a; sl_start := 0; sl_length := n; sl_capacity := n |}.
(** A data frame in a buffer of 16 bytes is decoded; then the buffer is overwritten; the decoded payload stays *)
Definition ex_mem : mem := {| mb := [ex_data "abcdef"]; mh := [[{| h_start := 1; h_end := 2 |}; {| h_start := 0; h_end := 0 |}; {| h_start := 0; h_end := 0 |}]] |}.
Example c146_ex :
  alive (mb ex_mem) (Some (whole 0 16)) /\
  exists M1 d, mdata_decode ex_mem mdata0 (Some (whole 0 16)) = Ret (M1, d, None) /\ d_payload (data_value M1 d) = bytes_of "abcdef" /\
    older_overwritten ex_mem M1 {| mb := copy_in (mb M1) (Some (whole 0 16)) (ex_data "123456"); mh := mh M1 |} /\
    d_payload (data_value {| mb := copy_in (mb M1) (Some (whole 0 16)) (ex_data "123456"); mh := mh M1 |} d) = bytes_of "abcdef" /\
    exists M2 s, mdata_encode M1 d = Ret (M2, inl s) /\ seen (mb M2) (Some s) = ex_data "abcdef" /\ sl_array s = 2%nat.
Proof.
  split; [exists (ex_data "abcdef"); repeat split; vm_compute; lia|].
  eexists. eexists. split; [vm_compute; reflexivity|]. split; [vm_compute; reflexivity|]. split.
  - split; intros a x N E; [|exact E]. destruct a; [discriminate|exact E].
  - split; [vm_compute; reflexivity|]. eexists. eexists. split; [vm_compute; reflexivity|]. split; vm_compute; reflexivity.
Qed.
(** Two data frames come in through the same buffer of 1540 bytes; both payloads are there afterwards *)
Example c147_ex : exists M b, new_buf ex_mem 1500 = Ret (M, b) /\ buffers_ready 1500 (fun _ => b) M /\ sl_length b = 1540%nat /\
  exists M1 d1 d2, mlisten (fun n => 2 * n)%nat 1500 (fun _ => b) M
      [ {| ar_socket := 0; ar_now := ex_t; ar_bytes := ex_data "first"; ar_from := ex_peer |};
        {| ar_socket := 0; ar_now := ex_t; ar_bytes := ex_data "SECOND"; ar_from := ex_peer |} ]
    = Ret (M1, [MToRx ex_peer (MData d1); MToRx ex_peer (MData d2)]) /\
    d_payload (data_value M1 d1) = bytes_of "first" /\ d_payload (data_value M1 d2) = bytes_of "SECOND".
Proof.
  destruct (c147_buffer ex_mem 1500) as (_ & B). destruct (new_buf ex_mem 1500) as [[M b]| |] eqn:E; [|vm_compute in E; discriminate..].
  exists M, b. destruct (B M b eq_refl) as (A & L & _). split; [reflexivity|]. split; [intros i; split; [exact A|exact L]|]. split; [exact L|].
  assert (Q : match new_buf ex_mem 1500 with
    | Ret (M, b) => match mlisten (fun n => 2 * n)%nat 1500 (fun _ => b) M
      [ {| ar_socket := 0; ar_now := ex_t; ar_bytes := ex_data "first"; ar_from := ex_peer |};
        {| ar_socket := 0; ar_now := ex_t; ar_bytes := ex_data "SECOND"; ar_from := ex_peer |} ] with
        | Ret (M1, [MToRx p (MData d1); MToRx q (MData d2)]) => p = ex_peer /\ q = ex_peer /\ d_payload (data_value M1 d1) = bytes_of "first" /\ d_payload (data_value M1 d2) = bytes_of "SECOND"
        | _ => False end
    | _ => False end) by (vm_compute; repeat split; reflexivity).
  rewrite E in Q. destruct (mlisten _ _ _ _ _) as [[M1 hs]| |]; try contradiction.
  destruct hs as [|[|p [| | |d1|]|] [|[|q [| | |d2|]|] [|]]]; try contradiction. destruct Q as (-> & -> & P1 & P2). exists M1, d1, d2. auto.
Qed.
(** A status with one hole and room for two more, and a copy of it; a frame with one hole is decoded into each.  The first
    one's new hole becomes the second one's.  A request's authentication field and that of a copy, when New is called. *)
Example c148_ex :
  let s := {| ms_header := 0; ms_session := 0; ms_tstamp := s_tstamp zero_status; ms_progress := 0; ms_inrespto := 0;
              ms_holes := Some {| sl_array := 0; sl_start := 0; sl_length := 1; sl_capacity := 3 |} |} in
  let M := {| mb := [ex_status [4; 5]; ex_status [6; 7]; bytes_of "secret"; bytes_of "PW"]; mh := mh ex_mem |} in
  alive (mh M) (ms_holes s) /\ room (ms_holes s) = 2%nat /\
  (exists M1 s1 M2 c2, mstatus_decode (fun n => n) M s (Some (whole 0 16)) = Ret (M1, s1, None) /\ mstatus_decode (fun n => n) M1 s (Some (whole 1 16)) = Ret (M2, c2, None) /\
    s_holes (status_value M1 s1) = [{| h_start := 1; h_end := 2 |}; {| h_start := 4; h_end := 5 |}] /\
    s_holes (status_value M2 s1) = [{| h_start := 1; h_end := 2 |}; {| h_start := 6; h_end := 7 |}]) /\
  let r := {| mr_header := 0; mr_session := 0; mr_fname := ""; mr_auth := Some (whole 2 6) |} in
  alive (mb M) (mr_auth r) /\
  let '(M1, r1) := mrequest_fill M r 5 "name" (Some (whole 3 2)) in
  r_auth (request_value M1 r1) = bytes_of "PWcret" /\ r_auth (request_value M1 r) = bytes_of "PWcret".
Proof.
  cbv zeta. split; [exists (nth 0 (mh ex_mem) []); repeat split; cbn; lia|]. split; [reflexivity|]. split.
  - eexists. eexists. eexists. eexists. split; [vm_compute; reflexivity|]. split; [vm_compute; reflexivity|]. split; vm_compute; reflexivity.
  - split; [exists (bytes_of "secret"); repeat split; vm_compute; lia|]. split; vm_compute; reflexivity.
Qed.
