(** * Sending a file: the theorems *)

From Verif Require Import GoBase GoFacts Flags SpecFlags FlagsFacts Config Shipped ConfigFacts SpecWire SarFacts Timestamp SpecTime TimeMain FlagStrFacts Holes SpecHoles HolesMain Data SpecFrames FrameFacts BuildFacts DataMain Status SpecStatus StatusMain TransferMain Fileio SpecFileio FileioFacts FileioMain Listen SpecListen ListenMain Client SpecClient ClientFacts.
Local Open Scope string_scope.
Local Open Scope N_scope.

(** C123: The room for bytes of the file in a frame is what is left of the MTU after the largest IP header, the UDP header, the
    first eight bytes, the offset if its width is mentioned, and the timestamp if there is one. *)
Lemma c123_room : forall mtu items, usable items -> maxpaylen mtu (flag_list items) = Ret (room mtu items).
Proof. intros mtu items U. apply usable_iff in U. destruct U as (NE & ND & F). apply maxpaylen_room; assumption. Qed.

(** C123: A file is sent in consecutive parts of that size, each in one frame with its position, up to the first part that is
    shorter.  Exactly the last frame is marked as the end.  A status is asked for with every hundredth frame and with the last.
    The other flags are those that were asked for.  A frame that cannot be sent is reported and not sent again. *)
Lemma c123_sends : forall s session items, usable items -> (0 < room (c_mtu s) items)%Z ->
  let plen := Z.to_nat (room (c_mtu s) items) in let last := last_part (c_file s) plen in
  (forall i, (i <= last)%nat -> good_now (c_now s i) /\ c_readerr s i = false) ->
  exists ds, frames_for s session items plen (S last) ds /\
    forall fuel, (last < fuel)%nat -> senddata fuel s session (flag_list items) = Ret ((handing s 0 ds ++ [CSay "success"])%list, true).
Proof.
  intros s session items U R plen last GR. apply usable_iff in U. destruct U as (NE & ND & F).
  destruct (send_start items NE ND F) as (l & IV & EQ). assert (P : (0 < plen)%nat) by (unfold plen; lia).
  destruct (send_run s session items plen last 0 l P IV) as (ds & l' & LD & FD & IV' & ED); [intros i Hi; apply GR; lia|unfold last; lia|].
  destruct (GR last (le_n _)) as [GL RL].
  destruct (send_step s session items plen last l' P IV' GL RL (le_n _)) as (d & FF & ST & _).
  exists (ds ++ [d])%list. split.
  - split; [rewrite app_length, LD; cbn [List.length]; lia|]. intros i e E. destruct (Nat.lt_ge_cases i last) as [L|L].
    + rewrite nth_error_app1 in E by lia. exact (FD i e E).
    + rewrite nth_error_app2 in E by lia. rewrite LD in E. destruct (i - last)%nat as [|[|k]] eqn:X; cbn [nth_error] in E; try discriminate.
      injection E as <-. replace i with last by lia. exact FF.
  - intros fuel FU. rewrite EQ. destruct (Z.ltb_spec (room (c_mtu s) items) 0); [lia|]. fold plen.
    replace fuel with (last + S (fuel - S last))%nat by lia.
    change (send_loop (last + S (fuel - S last)) s session plen 0 0 0 (flag_list l)) with (send_loop (last + S (fuel - S last)) s session plen 0 (0 * plen) (0 mod 100) (flag_list l)).
    rewrite ED. cbn [Nat.add]. rewrite (ST eq_refl). cbn [obind]. rewrite handing_app, LD. cbn [Nat.add]. rewrite app_assoc. reflexivity.
Qed.

(** C123: If reading the file fails, the frames before are sent and the failure is reported. *)
Lemma c123_read_error : forall s session items k, usable items -> (0 < room (c_mtu s) items)%Z ->
  let plen := Z.to_nat (room (c_mtu s) items) in
  (k <= last_part (c_file s) plen)%nat -> (forall i, (i < k)%nat -> good_now (c_now s i) /\ c_readerr s i = false) -> c_readerr s k = true ->
  exists ds, frames_for s session items plen k ds /\
    forall fuel, (k < fuel)%nat -> senddata fuel s session (flag_list items) = Ret ((handing s 0 ds ++ [CSay "accessdenied"])%list, true).
Proof.
  intros s session items k U R plen K GR RE. apply usable_iff in U. destruct U as (NE & ND & F).
  destruct (send_start items NE ND F) as (l & IV & EQ). assert (P : (0 < plen)%nat) by (unfold plen; lia).
  destruct (send_run s session items plen k 0 l P IV) as (ds & l' & LD & FD & IV' & ED); [intros i Hi; apply GR; lia|lia|].
  exists ds. split; [split; assumption|]. intros fuel FU. rewrite EQ. destruct (Z.ltb_spec (room (c_mtu s) items) 0); [lia|]. fold plen.
  replace fuel with (k + S (fuel - S k))%nat by lia.
  change (send_loop (k + S (fuel - S k)) s session plen 0 0 0 (flag_list l)) with (send_loop (k + S (fuel - S k)) s session plen 0 (0 * plen) (0 mod 100) (flag_list l)).
  rewrite ED. cbn [Nat.add send_loop]. rewrite RE. cbn [obind]. reflexivity.
Qed.

Lemma skipn_more : forall {A} (l : list A) n m, skipn n (skipn m l) = skipn (n + m) l.
Proof.
  intros A l n m. revert l. induction m as [|m IH]; intros l; [rewrite Nat.add_0_r; reflexivity|]. rewrite Nat.add_succ_r.
  destruct l as [|a l]; [rewrite !skipn_nil; reflexivity|]. cbn [skipn]. apply IH.
Qed.
Lemma parts_join : forall file plen k n, (0 < plen)%nat -> (n * plen <= List.length file)%nat -> (List.length file < (n + k) * plen)%nat ->
  concat (map (part file plen) (seq n k)) = skipn (n * plen) file.
Proof.
  intros file plen k. induction k as [|k IH]; intros n P L1 L2; [rewrite Nat.add_0_r in L2; lia|].
  cbn [seq map concat]. unfold part at 1. destruct (Nat.le_gt_cases (S n * plen) (List.length file)) as [L|L].
  - rewrite IH by (try assumption; lia). replace (S n * plen)%nat with (plen + n * plen)%nat by lia.
    rewrite <- skipn_more. apply firstn_skipn.
  - replace (map (part file plen) (seq (S n) k)) with (map (fun _ : nat => @nil byte) (seq (S n) k)).
    + replace (concat (map (fun _ : nat => @nil byte) (seq (S n) k))) with (@nil byte) by (clear; induction (seq (S n) k) as [|a r IH]; [reflexivity|exact IH]).
      rewrite app_nil_r. apply firstn_all2. rewrite skipn_length. lia.
    + apply map_ext_in. intros i I. apply in_seq in I. unfold part. symmetry. rewrite skipn_all2; [apply firstn_nil|]. nia.
Qed.
(** C123: The bytes of the frames, in order, are the file. *)
Lemma c123_whole : forall s session items plen ds, (0 < plen)%nat -> frames_for s session items plen (S (last_part (c_file s) plen)) ds ->
  concat (map d_payload ds) = c_file s /\
  forall i d, nth_error ds i = Some d -> true_chunk (c_file s) (d_offset d, d_payload d) /\
    (i < last_part (c_file s) plen -> List.length (d_payload d) = plen)%nat /\
    (i = last_part (c_file s) plen -> List.length (d_payload d) = List.length (c_file s) mod plen)%nat.
Proof.
  intros s session items plen ds P (LD & FD). split.
  - assert (E : map d_payload ds = map (part (c_file s) plen) (seq 0 (S (last_part (c_file s) plen)))).
    { rewrite <- LD. clear LD. assert (X : forall ds n, (forall i d, nth_error ds i = Some d -> d_payload d = part (c_file s) plen (n + i)) -> map d_payload ds = map (part (c_file s) plen) (seq n (List.length ds))).
      { clear. induction ds as [|d ds IH]; intros n H; [reflexivity|]. cbn [map List.length seq]. f_equal; [rewrite (H 0%nat d eq_refl), Nat.add_0_r; reflexivity|].
        apply IH. intros i e E. replace (S n + i)%nat with (n + S i)%nat by lia. apply H, E. }
      apply X. intros i d E. apply (FD i d E). }
    rewrite E, parts_join; [reflexivity|exact P|lia|]. unfold last_part. pose proof (Nat.div_mod_eq (List.length (c_file s)) plen). pose proof (Nat.mod_upper_bound (List.length (c_file s)) plen). nia.
  - intros i d E. destruct (FD i d E) as (_ & O & PY & _).
    assert (LI : (i <= last_part (c_file s) plen)%nat). { assert (i < List.length ds)%nat by (apply nth_error_Some; congruence). lia. }
    destruct (at_end (c_file s) plen i P LI) as [LE _]. rewrite O, PY. split.
    + intros j J. cbn [fst snd] in *. rewrite Nat2N.id. unfold part in *. rewrite firstn_length, skipn_length in J.
      rewrite nth_error_firstn' by lia. rewrite nth_error_skipn'. f_equal.
    + rewrite part_length by exact LE. unfold last_part in *. pose proof (Nat.div_mod_eq (List.length (c_file s)) plen). pose proof (Nat.mod_upper_bound (List.length (c_file s)) plen).
      split; intros; nia.
Qed.

(** C123: Without room for a single byte the sender never comes to an end: it sends empty frames for position 0 for ever.  With
    less than no room it panics. *)
Lemma c123_no_room : forall s session items, usable items ->
  ((room (c_mtu s) items < 0)%Z -> forall fuel, senddata fuel s session (flag_list items) = Panic) /\
  (room (c_mtu s) items = 0%Z -> (forall i, good_now (c_now s i) /\ c_readerr s i = false) ->
   forall fuel, exists ds, senddata fuel s session (flag_list items) = Ret (handing s 0 ds, false) /\ List.length ds = fuel /\
     forall d, In d ds -> d_offset d = 0 /\ d_payload d = []).
Proof.
  intros s session items U. apply usable_iff in U. destruct U as (NE & ND & F). destruct (send_start items NE ND F) as (l & IV & EQ). split.
  - intros R fuel. rewrite EQ. destruct (Z.ltb_spec (room (c_mtu s) items) 0); [reflexivity|lia].
  - intros R G fuel. rewrite EQ, R. cbn [Z.ltb Z.compare Z.to_nat].
    assert (X : forall fuel n fc l, inv items l -> exists ds, send_loop fuel s session 0 n 0 fc (flag_list l) = Ret (handing s n ds, false) /\ List.length ds = fuel /\
       forall d, In d ds -> d_offset d = 0 /\ d_payload d = []).
    { clear l IV EQ fuel. induction fuel as [|fuel IH]; intros n fc l IV; [exists []; split; [reflexivity|]; split; [reflexivity|intros d []]|].
      set (ask := Nat.eqb (S fc) 100 || false).
      destruct (inv_next items l false ask IV) as (l' & EF & N1 & N2 & N3 & N4 & N5 & N6). cbn [obind] in EF.
      set (info := {| di_session := session; di_offset := N.of_nat 0; di_payload := [] |}).
      destruct (G n) as [Gn Rn]. destruct (new_frame (c_now s n) l' info Gn N1 N2 N3) as (d & ED & D1 & D2 & D3 & D4 & D5).
      assert (IV' : inv items l') by (split; [exact N1|]; split; [exact N2|]; split; [exact N3|]; split; [exact N4|exact N6]).
      destruct (IH (S n) (if ask then 0%nat else S fc) l' IV') as (ds & ES & LD & AD).
      destruct (frame_reads _ _ _ _ D4) as (_ & HR & _).
      assert (PR : data_shortprint_ok d = Ret tt) by (apply (frame_prints (c_now s n) (d_header d) (d_tstamp d) l' Gn HR D5 d); reflexivity).
      exists (d :: ds). split; [|split; [cbn [List.length]; rewrite LD; reflexivity|intros e [<-|I]; [split; assumption|apply AD, I]]].
      cbn [send_loop]. rewrite Rn. unfold read_at. cbn [firstn List.length Nat.ltb Nat.leb obind]. fold ask. change (if ask then "yes" else "no") with (yes_if ask). rewrite EF. cbn [obind].
      fold info. rewrite ED. cbn [obind]. rewrite PR. cbn [obind Nat.add]. rewrite ES. reflexivity. }
    apply X, IV.
Qed.

Lemma frame_stamp : forall s session items plen i d, good_now (c_now s i) -> frame_for s session items plen i d ->
  d_header d < 2 ^ 32 /\ hd_reqtstamp (d_header d) = (if stamps items then 1 else 0) /\ descriptor_width (hd_descriptor (d_header d)) = offset_bytes items /\
  (hd_reqtstamp (d_header d) = 1 -> proper_stamp (d_tstamp d)) /\ t_header (d_tstamp d) < 256.
Proof.
  intros s session items plen i d G (_ & _ & _ & SE & ST). destruct (frame_reads _ _ _ _ SE) as (B & R & W). split; [exact B|]. split; [exact R|]. split; [exact W|].
  destruct (stamps items).
  - destruct (stamped_posix32 _ _ G ST) as [PS TH]. rewrite TH. split; [auto|reflexivity].
  - cbn [stamped] in ST. rewrite R, ST. split; [discriminate|reflexivity].
Qed.
(** C123: Every frame fits what a receiver on a link with the same MTU takes. *)
Lemma c123_fits : forall s session items plen i d f, Z.of_nat plen = room (c_mtu s) items -> good_now (c_now s i) ->
  frame_for s session items plen i d -> data_encode d = Ret (Frame f) -> fits_mtu (c_mtu s) f.
Proof.
  intros s session items plen i d f PL G FF E. destruct (frame_stamp _ _ _ _ _ _ G FF) as (B & R & W & PS & TH).
  pose proof (c23_encode d TH) as EN. rewrite W in EN.
  assert (LP : (List.length (d_payload d) <= plen)%nat). { destruct FF as (_ & _ & -> & _). unfold part. rewrite firstn_length. lia. }
  unfold room in PL.
  assert (WD : forall w, offset_bytes items = Some w ->
     (Z.of_nat w <= 2 + match setting_of items "descriptor" with Some "d16" => 2 | Some "d32" => 4 | Some "d64" => 8 | Some "d128" => 16 | _ => 0 end)%Z).
  { intros w OB. destruct FF as (_ & _ & _ & (_ & RD & _) & _). assert (X := RD "descriptor" (asked items "descriptor" "d16") eq_refl). unfold offset_bytes in OB.
    unfold asked in *. destruct (setting_of items "descriptor") as [v|]; [|injection OB as <-; lia].
    destruct (reads_descriptor _ _ X) as [[-> _]|[[-> _]|[[-> _]|[-> _]]]]; cbv iota in OB |- *; try discriminate; injection OB as <-; lia. }
  destruct (offset_bytes items) as [w|]; [|destruct EN as [e EN]; rewrite EN in E; discriminate]. specialize (WD w eq_refl).
  rewrite R in EN. unfold fits_mtu.
  destruct (stamps items); [change (1 =? 0) with false in EN|change (0 =? 0) with true in EN]; cbv iota in EN.
  - destruct (ts_bytes (d_tstamp d)) as [ts|]; [|rewrite EN in E; discriminate]. destruct EN as [EN LT]. rewrite EN in E. injection E as <-. unfold data_wire.
    rewrite !app_length, !wire_length, LT. lia.
  - rewrite EN in E. injection E as <-. unfold data_wire. rewrite !app_length, !wire_length. cbn [List.length]. lia.
Qed.

(** C124: The width of offset that is chosen by the size of a file is enough for every position in it. *)
Lemma c124_descriptor : forall items size v, (0 <= size < 2 ^ 64)%Z -> setting_of items "descriptor" = Some v ->
  filedescriptor (Some (Z.to_N size)) = "descriptor=" ++ v -> exists w, offset_bytes items = Some w /\ (size < 2 ^ (8 * Z.of_nat w))%Z.
Proof.
  intros items size v B SO E. unfold filedescriptor in E. unfold offset_bytes, asked. rewrite SO.
  destruct (N.leb_spec (Z.to_N size) (2 ^ 16 - 1)) as [L|L].
  - injection E as E. subst v. exists 2%nat. split; [reflexivity|]. change (2 ^ (8 * Z.of_nat 2))%Z with 65536%Z. change (2 ^ 16 - 1) with 65535 in L. lia.
  - destruct (N.leb_spec (Z.to_N size) (2 ^ 32 - 1)) as [L2|L2].
    + injection E as E. subst v. exists 4%nat. split; [reflexivity|]. change (2 ^ (8 * Z.of_nat 4))%Z with (2 ^ 32)%Z. change (2 ^ 32 - 1) with 4294967295 in L2. lia.
    + injection E as E. subst v. exists 8%nat. split; [reflexivity|]. change (2 ^ (8 * Z.of_nat 8))%Z with (2 ^ 64)%Z. lia.
Qed.

Lemma sent_sendable : forall s session items plen w i d, (0 < plen)%nat -> good_now (c_now s i) -> offset_bytes items = Some w ->
  N.of_nat (List.length (c_file s)) < 2 ^ (8 * N.of_nat w) -> (i <= last_part (c_file s) plen)%nat ->
  frame_for s session items plen i d -> d_payload d <> [] -> sendable d.
Proof.
  intros s session items plen w i d P G OB LF LI FF NP. destruct (frame_stamp _ _ _ _ _ _ G FF) as (B & R & W & PS & TH).
  destruct (at_end (c_file s) plen i P LI) as [LE _]. destruct FF as (SS & OO & _ & _).
  split; [exact B|]. split; [rewrite SS; apply N.mod_lt; discriminate|]. split; [|auto].
  exists w. split; [congruence|]. rewrite OO. lia.
Qed.
Lemma part_index : forall plen i j p, (0 < plen)%nat -> (i * plen <= p < i * plen + plen)%nat -> (j * plen <= p < j * plen + plen)%nat -> i = j.
Proof. intros. nia. Qed.

(** C124: End to end.  A sender sends a file.  The network delivers any of its frames with bytes, in any order, any number of times.
    The receiver decodes them, writes the bytes to a new file and records the ranges.  The record is complete exactly if every
    frame with bytes was delivered, and then the new file is the file. *)
Lemma c124_end_to_end : forall s session items w, usable items -> (0 < room (c_mtu s) items)%Z ->
  let plen := Z.to_nat (room (c_mtu s) items) in let last := last_part (c_file s) plen in
  (forall i, (i <= last)%nat -> good_now (c_now s i) /\ c_readerr s i = false) ->
  offset_bytes items = Some w -> N.of_nat (List.length (c_file s)) < 2 ^ (8 * N.of_nat w) -> N.of_nat (List.length (c_file s)) <= 2 ^ 63 ->
  exists ds, (forall fuel, (last < fuel)%nat -> senddata fuel s session (flag_list items) = Ret ((handing s 0 ds ++ [CSay "success"])%list, true)) /\
    forall fs f arrived, of_write f = true -> content_of fs (of_path f) = Some [] ->
      (forall g, In g arrived -> exists d, In d ds /\ d_payload d <> [] /\ data_encode d = Ret (Frame g)) ->
      exists chunks fs', Forall2 chunk_of arrived chunks /\ write_all fs (Some f) chunks = Some fs' /\
        forall l, run (map range_of chunks) l ->
          (l = [{| h_start := 0; h_end := Z.of_nat (List.length (c_file s)) |}] <->
           c_file s <> [] /\ forall d, In d ds -> d_payload d <> [] -> exists g, In g arrived /\ data_encode d = Ret (Frame g)) /\
          (l = [{| h_start := 0; h_end := Z.of_nat (List.length (c_file s)) |}] -> content_of fs' (of_path f) = Some (c_file s)).
Proof.
  intros s session items w U R plen last GR OB LF L63. assert (P : (0 < plen)%nat) by (unfold plen; lia).
  destruct (c123_sends s session items U R GR) as (ds & FS & SD). fold plen last in FS, SD.
  exists ds. split; [exact SD|]. intros fs f arrived W CO AR.
  destruct (c123_whole s session items plen ds P FS) as [_ TC]. destruct FS as [LD FD]. fold last in TC.
  assert (IDX : forall d, In d ds -> exists i, nth_error ds i = Some d /\ (i <= last)%nat).
  { intros d I. apply In_nth_error in I. destruct I as [i E]. exists i. split; [exact E|]. assert (i < List.length ds)%nat by (apply nth_error_Some; congruence). lia. }
  assert (SN : forall d, In d ds -> d_payload d <> [] -> sendable d).
  { intros d I NP. destruct (IDX d I) as (i & E & LI). apply (sent_sendable s session items plen w i d P); try assumption; [apply GR; exact LI|apply FD, E]. }
  set (sent := filter (fun d => negb (Nat.eqb (List.length (d_payload d)) 0)) ds).
  assert (IS : forall d, In d sent <-> In d ds /\ d_payload d <> []).
  { intros d. unfold sent. rewrite filter_In. destruct (d_payload d); cbn [List.length Nat.eqb negb]; split; intros [A B]; split; auto; try discriminate; congruence. }
  destruct (c51_end_to_end (c_file s) sent arrived fs f W CO L63) as (chunks & fs' & F2 & WA & CT).
  { intros d I. apply IS in I. destruct I as [I NP]. split; [apply SN; assumption|]. destruct (IDX d I) as (i & E & _). apply (TC i d E). }
  { intros g I. destruct (AR g I) as (d & Id & NP & En). exists d. split; [apply IS; auto|exact En]. }
  exists chunks, fs'. split; [exact F2|]. split; [exact WA|]. intros l RN. split; [|intros EL; exact (CT l RN EL)].
  assert (DEC : forall d g k, In d ds -> d_payload d <> [] -> data_encode d = Ret (Frame g) -> chunk_of g k -> k = (d_offset d, d_payload d)).
  { intros d g k I NP En (d' & D' & ->). destruct (SN d I NP) as (S1 & S2 & (w' & S3 & S4) & S5 & S6 & _).
    destruct (c24_roundtrip d zero_data w' S1 S2 S3 S4 S5 S6) as (g' & En' & DE). rewrite En in En'. injection En' as <-.
    replace (Nat.eqb (List.length (d_payload d)) 0) with false in DE by (destruct (d_payload d); [congruence|reflexivity]). rewrite andb_false_r in DE.
    rewrite DE in D'. injection D' as <-. reflexivity. }
  assert (RC : forall p, received (map range_of chunks) p <-> exists d, In d ds /\ d_payload d <> [] /\ (exists g, In g arrived /\ data_encode d = Ret (Frame g)) /\
     (Z.of_N (d_offset d) <= p < Z.of_N (d_offset d) + Z.of_nat (List.length (d_payload d)))%Z).
  { intros p. unfold received. split.
    - intros (a & b & I & B). apply in_map_iff in I. destruct I as (k & EK & IK).
      assert (X : exists g, In g arrived /\ chunk_of g k). { clear -F2 IK. induction F2 as [|g k' gs ks C F2 IH]; [destruct IK|]. destruct IK as [<-|IK]; [exists g; cbn; auto|]. destruct (IH IK) as (g' & A & B). exists g'. cbn; auto. }
      destruct X as (g & Ig & CK). destruct (AR g Ig) as (d & Id & NP & En). exists d. split; [exact Id|]. split; [exact NP|]. split; [eauto|].
      rewrite (DEC d g k Id NP En CK) in EK. unfold range_of in EK. cbn [fst snd] in EK. injection EK as <- <-. exact B.
    - intros (d & Id & NP & (g & Ig & En) & B).
      assert (X : exists k, In k chunks /\ chunk_of g k). { clear -F2 Ig. induction F2 as [|g' k' gs ks C F2 IH]; [destruct Ig|]. destruct Ig as [->|Ig]; [exists k'; cbn; auto|]. destruct (IH Ig) as (k & A & B). exists k. cbn; auto. }
      destruct X as (k & Ik & CK). assert (EK := DEC d g k Id NP En CK). exists (Z.of_N (d_offset d)), (Z.of_N (d_offset d) + Z.of_nat (List.length (d_payload d)))%Z. split; [|exact B].
      apply in_map_iff. exists k. split; [rewrite EK; reflexivity|exact Ik]. }
  assert (OFF : forall i d, nth_error ds i = Some d -> d_offset d = N.of_nat (i * plen) /\ List.length (d_payload d) = Nat.min plen (List.length (c_file s) - i * plen) /\ (i * plen <= List.length (c_file s))%nat).
  { intros i d E. destruct (FD i d E) as (_ & O & PY & _). assert (LI : (i <= last)%nat) by (assert (i < List.length ds)%nat by (apply nth_error_Some; congruence); lia).
    destruct (at_end (c_file s) plen i P LI) as [LE _]. rewrite O, PY. split; [reflexivity|]. split; [apply part_length, LE|exact LE]. }
  assert (NIL : forall (b : list byte), (0 < List.length b)%nat -> b <> []) by (intros [|x b] L; [cbn in L; lia|discriminate]).
  assert (POS : forall (b : list byte), b <> [] -> (0 < List.length b)%nat) by (intros [|x b] L; [congruence|cbn; lia]).
  split.
  - intros EL. split.
    + intros EN. destruct (c17_canonical _ _ RN) as [C1 _]. specialize (C1 {| h_start := 0; h_end := Z.of_nat (List.length (c_file s)) |}). rewrite EL, EN in C1. specialize (C1 (or_introl eq_refl)). cbn in C1. lia.
    + intros d Id NP. destruct (IDX d Id) as (i & E & LI). destruct (OFF i d E) as (O & LP & LE).
      assert (LB := POS _ NP).
      assert (RX : received (map range_of chunks) (Z.of_nat (i * plen))).
      { apply (c16_covers_received _ _ RN). rewrite EL. exists {| h_start := 0; h_end := Z.of_nat (List.length (c_file s)) |}. split; [left; reflexivity|]. cbn [h_start h_end]. lia. }
      apply RC in RX. destruct RX as (d' & Id' & NP' & G' & B'). destruct (IDX d' Id') as (j & E' & LJ). destruct (OFF j d' E') as (O' & LP' & LE').
      rewrite O' in B'. assert (EJ : i = j) by (apply (part_index plen i j (i * plen) P); lia). subst j. replace d with d' by congruence. exact G'.
  - intros [NS AL]. destruct (c17_unique_minimal _ _ RN) as [UN _]. symmetry. apply UN.
    + split.
      * intros h [<-|[]]. cbn [h_start h_end]. assert (X := POS _ NS). lia.
      * intros i a b E1 E2. destruct i; cbn [nth_error] in E2; [discriminate|destruct i; discriminate].
    + intros p. rewrite RC. split.
      * intros (h & [<-|[]] & B). cbn [h_start h_end] in B. set (i := (Z.to_nat p / plen)%nat).
        pose proof (Nat.div_mod_eq (Z.to_nat p) plen) as DM. pose proof (Nat.mod_upper_bound (Z.to_nat p) plen) as MB. fold i in DM.
        assert (LI : (i <= last)%nat). { unfold i, last, last_part. apply Nat.div_le_mono; lia. }
        destruct (nth_error ds i) as [d|] eqn:E; [|apply nth_error_None in E; lia]. destruct (OFF i d E) as (O & LP & LE).
        assert (Id : In d ds) by (eapply nth_error_In; eauto). assert (NP : d_payload d <> []) by (apply NIL; nia).
        exists d. split; [exact Id|]. split; [exact NP|]. split; [apply AL; assumption|]. rewrite O, LP. nia.
      * intros (d & Id & NP & _ & B). destruct (IDX d Id) as (i & E & LI). destruct (OFF i d E) as (O & LP & LE).
        exists {| h_start := 0; h_end := Z.of_nat (List.length (c_file s)) |}. split; [left; reflexivity|]. cbn [h_start h_end]. lia.
Qed.

(** C125: The receiver learns from the last frame that the file ends there, unless the offsets have 16 bits, the frames have
    timestamps and the last frame is empty: then decoding it fails.  No other frame is marked as the end (defect). *)
Lemma c125_end : forall s session items plen w ds d d0, (0 < plen)%nat -> (forall i, (i <= last_part (c_file s) plen)%nat -> good_now (c_now s i)) ->
  offset_bytes items = Some w -> N.of_nat (List.length (c_file s)) < 2 ^ (8 * N.of_nat w) ->
  frames_for s session items plen (S (last_part (c_file s) plen)) ds -> nth_error ds (last_part (c_file s) plen) = Some d ->
  (exists g, data_encode d = Ret (Frame g) /\
    ((exists d', data_decode d0 g = Ret (d', None) /\ reads sar (d_header d') "eod" "yes") <->
     ~ (stamps items = true /\ w = 2%nat /\ (List.length (c_file s) mod plen = 0)%nat))) /\
  (forall i e, nth_error ds i = Some e -> i <> last_part (c_file s) plen -> reads sar (d_header e) "eod" "no").
Proof.
  intros s session items plen w ds d d0 P G OB LF (LD & FD) ED. split.
  - assert (FF := FD _ _ ED). assert (GL := G _ (le_n _)). destruct (frame_stamp _ _ _ _ _ _ GL FF) as (B & R & W & PS & TH).
    destruct (at_end (c_file s) plen _ P (le_n _)) as [LE _].
    pose proof FF as (SS & OO & PY & (_ & RD & _) & _).
    destruct (c24_roundtrip d d0 w B) as (g & En & DE); [rewrite SS; apply N.mod_lt; discriminate|congruence|rewrite OO; lia|exact PS|exact TH|].
    exists g. split; [exact En|].
    assert (LP : (List.length (d_payload d) = List.length (c_file s) mod plen)%nat).
    { apply (proj2 (proj2 (proj2 (c123_whole s session items plen ds P (conj LD FD)) _ _ ED))). reflexivity. }
    assert (EY : reads sar (d_header d) "eod" "yes"). { assert (X := RD "eod" (yes_if (Nat.eqb (last_part (c_file s) plen) (last_part (c_file s) plen))) eq_refl). rewrite Nat.eqb_refl in X. exact X. }
    rewrite R, LP in DE.
    destruct (stamps items); [change (1 =? 1) with true in DE|change (0 =? 1) with false in DE]; cbn [andb] in DE.
    + destruct (Nat.eqb_spec w 2) as [W2|W2]; cbn [andb] in DE.
      * destruct (Nat.eqb_spec (List.length (c_file s) mod plen) 0) as [M|M].
        -- destruct DE as (d' & e & DE). split; [intros (d2 & X & _); congruence|intros N; exfalso; apply N; auto].
        -- split; [intros _ (_ & _ & X); contradiction|]. intros _. eexists. split; [exact DE|exact EY].
      * split; [intros _ (_ & X & _); contradiction|]. intros _. eexists. split; [exact DE|exact EY].
    + split; [intros _ (X & _ & _); discriminate|]. intros _. eexists. split; [exact DE|exact EY].
  - intros i e E NE. destruct (FD i e E) as (_ & _ & _ & (_ & RD & _) & _). assert (X := RD "eod" (yes_if (Nat.eqb i (last_part (c_file s) plen))) eq_refl).
    rewrite (proj2 (Nat.eqb_neq _ _) NE) in X. exact X.
Qed.

(** ** Holes *)
Lemma i64_wraps : forall z, i64_of_Z z = ((z + 2 ^ 63) mod 2 ^ 64 - 2 ^ 63)%Z.
Proof.
  intros z. unfold i64_of_Z, i64_of_N, u64_of_Z. rewrite N.mod_small by (apply N2Z.inj_lt; rewrite Z2N.id by (apply Z.mod_pos_bound; lia); apply Z.mod_pos_bound; lia).
  pose proof (Z.mod_pos_bound z (2 ^ 64) ltac:(lia)) as B. rewrite Z.add_mod by lia. rewrite (Z.mod_small (2 ^ 63)) by lia. set (q := (z mod 2 ^ 64)%Z) in *.
  rewrite Z2N.id by lia. destruct (N.ltb_spec (Z.to_N q) (2 ^ 63)) as [L|L].
  - apply N2Z.inj_lt in L. rewrite Z2N.id in L by lia. rewrite Z.mod_small by (change (Z.of_N (2 ^ 63)) with (2 ^ 63)%Z in L; lia). lia.
  - apply N2Z.inj_le in L. rewrite Z2N.id in L by lia. change (Z.of_N (2 ^ 63)) with (2 ^ 63)%Z in L.
    replace (q + 2 ^ 63)%Z with (q - 2 ^ 63 + 1 * 2 ^ 64)%Z by lia. rewrite Z.mod_add by lia. rewrite Z.mod_small by lia. lia.
Qed.
Lemma hole_cases : forall s session items h n, usable items -> (0 <= h_start h <= h_end h)%Z -> (h_end h <= Z.of_nat (List.length (c_file s)))%Z ->
  (h_end h - h_start h <= 2 ^ 48)%Z -> (0 < room (c_mtu s) items)%Z ->
  let buf := firstn (Z.to_nat (h_end h - h_start h)) (skipn (Z.to_nat (h_start h)) (c_file s)) in
  Z.of_nat (List.length buf) = (h_end h - h_start h)%Z /\
  fill_hole s session (flag_list items) h n =
    hole_loop (Z.to_nat ((h_end h - h_start h) / room (c_mtu s) items)) s session (flag_list items) (room (c_mtu s) items) (h_end h) buf 0 n.
Proof.
  intros s session items h n U B E MX R buf.
  assert (LB : Z.of_nat (List.length buf) = (h_end h - h_start h)%Z) by (unfold buf; rewrite firstn_length, skipn_length; lia). split; [exact LB|].
  unfold fill_hole. rewrite i64_of_Z_small by lia. unfold max_make. destruct (Z.ltb_spec (h_end h - h_start h) 0); [lia|].
  destruct (Z.ltb_spec (2 ^ 48) (h_end h - h_start h)); [lia|]. cbn [orb]. destruct (Z.ltb_spec (h_start h) 0); [lia|]. unfold read_at. fold buf.
  destruct (Nat.ltb_spec (List.length buf) (Z.to_nat (h_end h - h_start h))); [lia|]. rewrite c123_room by exact U. cbn [obind].
  destruct (Z.eqb_spec (room (c_mtu s) items) 0); [lia|]. rewrite LB. rewrite Z.quot_div_nonneg by lia. reflexivity.
Qed.
(** C126: Bytes that are missing at the other end are not sent again: nothing is sent for a hole with room to spare in one
    frame (defect). *)
Lemma c126_short : forall s session items h n, usable items -> (0 <= h_start h <= h_end h)%Z -> (h_end h <= Z.of_nat (List.length (c_file s)))%Z ->
  (h_end h - h_start h <= 2 ^ 48)%Z -> (h_end h - h_start h < room (c_mtu s) items)%Z -> fill_hole s session (flag_list items) h n = Ret ([], None, n).
Proof.
  intros s session items h n U B E MX R. destruct (hole_cases s session items h n U B E MX ltac:(lia)) as [_ ->].
  rewrite Z.div_small by lia. reflexivity.
Qed.
(** C126: For any other hole that does not start at the start of the file, the program panics (defect). *)
Lemma c126_panics : forall s session items h n, usable items -> (0 < h_start h <= h_end h)%Z -> (h_end h <= Z.of_nat (List.length (c_file s)))%Z ->
  (0 < room (c_mtu s) items <= h_end h - h_start h)%Z -> (h_end h < 2 ^ 63)%Z -> fill_hole s session (flag_list items) h n = Panic.
Proof.
  intros s session items h n U B E R E63. destruct (Z.le_gt_cases (h_end h - h_start h) (2 ^ 48)) as [MX|MX].
  2:{ unfold fill_hole. rewrite i64_of_Z_small by lia. unfold max_make. destruct (Z.ltb_spec (2 ^ 48) (h_end h - h_start h)); [|lia]. rewrite orb_true_r. reflexivity. }
  destruct (hole_cases s session items h n U ltac:(lia) E MX ltac:(lia)) as [LB ->].
  assert (Q : (1 <= (h_end h - h_start h) / room (c_mtu s) items)%Z) by (apply Z.div_le_lower_bound; lia).
  destruct (Z.to_nat ((h_end h - h_start h) / room (c_mtu s) items)) as [|k] eqn:K; [lia|]. cbn [hole_loop]. rewrite LB. cbn [Z.of_nat Z.mul]. rewrite Z.sub_0_r.
  replace ((if (h_end h - h_start h + room (c_mtu s) items >? h_end h)%Z then h_end h else (h_end h - h_start h + room (c_mtu s) items)%Z) <=? h_end h - h_start h)%Z with false.
  - rewrite andb_false_r. reflexivity.
  - symmetry. apply Z.leb_gt. destruct (h_end h - h_start h + room (c_mtu s) items >? h_end h)%Z; lia.
Qed.
(** C126: When an MTU leaves no room at all for data, exactly 0 bytes end the program at the first hole (a division by zero, defect), and
    with less than that nothing is sent again. *)
Lemma c126_no_room : forall s session items h n, usable items -> (0 <= h_start h <= h_end h)%Z -> (h_end h <= Z.of_nat (List.length (c_file s)))%Z ->
  (h_end h - h_start h <= 2 ^ 48)%Z -> (room (c_mtu s) items <= 0)%Z ->
  fill_hole s session (flag_list items) h n = if (room (c_mtu s) items =? 0)%Z then Panic else Ret ([], None, n).
Proof.
  intros s session items h n U B E MX R. set (buf := firstn (Z.to_nat (h_end h - h_start h)) (skipn (Z.to_nat (h_start h)) (c_file s))).
  assert (LB : Z.of_nat (List.length buf) = (h_end h - h_start h)%Z) by (unfold buf; rewrite firstn_length, skipn_length; lia).
  unfold fill_hole. rewrite i64_of_Z_small by lia. unfold max_make. destruct (Z.ltb_spec (h_end h - h_start h) 0); [lia|].
  destruct (Z.ltb_spec (2 ^ 48) (h_end h - h_start h)); [lia|]. cbn [orb]. destruct (Z.ltb_spec (h_start h) 0); [lia|]. unfold read_at. fold buf.
  destruct (Nat.ltb_spec (List.length buf) (Z.to_nat (h_end h - h_start h))); [lia|]. rewrite c123_room by exact U. cbn [obind].
  destruct (Z.eqb_spec (room (c_mtu s) items) 0); [reflexivity|]. rewrite LB.
  assert (Q : (Z.quot (h_end h - h_start h) (room (c_mtu s) items) <= 0)%Z).
  { rewrite <- (Z.opp_involutive (room (c_mtu s) items)), Z.quot_opp_r by lia. pose proof (Z.quot_pos (h_end h - h_start h) (- room (c_mtu s) items) ltac:(lia) ltac:(lia)). lia. }
  replace (Z.to_nat _) with 0%nat by lia. reflexivity.
Qed.
(** C126: For a hole at the start of the file, frames are sent from its end backwards, the first of them empty: as many as
    there are whole parts in the hole, so that the first part is never sent (defect).  A write that fails ends the put. *)
Lemma c126_first : forall s session items h n, usable items -> h_start h = 0%Z -> (h_end h <= Z.of_nat (List.length (c_file s)))%Z ->
  (h_end h <= 2 ^ 48)%Z -> (0 < room (c_mtu s) items <= h_end h)%Z ->
  (forall i, good_now (c_now s i)) ->
  let k := Z.to_nat (h_end h / room (c_mtu s) items) in
  exists ds stop, fill_hole s session (flag_list items) h n = Ret (map CSend ds, stop, (n + List.length ds)%nat) /\ written (c_write s) n k (List.length ds) stop /\
    forall i d, nth_error ds i = Some d -> d_session d = session mod 2 ^ 32 /\ Z.of_N (d_offset d) = (h_end h - Z.of_nat i * room (c_mtu s) items)%Z /\
      (0 < Z.of_N (d_offset d))%Z /\
      d_payload d = match i with O => [] | _ => firstn (Z.to_nat (room (c_mtu s) items)) (skipn (N.to_nat (d_offset d)) (c_file s)) end.
Proof.
  intros s session items h n U H0 E E63 R G k. destruct (hole_cases s session items h n U ltac:(lia) E ltac:(lia) ltac:(lia)) as [LB ->].
  rewrite H0 in *. rewrite Z.sub_0_r in *. fold k. set (plen := room (c_mtu s) items) in *. set (buf := firstn _ _) in *.
  assert (KB : (Z.of_nat k * plen <= h_end h)%Z) by (unfold k; rewrite Z2Nat.id by (apply Z.div_pos; lia); rewrite Z.mul_comm; apply Z.mul_div_le; lia).
  pose proof U as U'. apply usable_iff in U'. destruct U' as (NE & ND & F).
  assert (X : forall todo fc n, (fc + todo = k)%nat -> exists ds stop, hole_loop todo s session (flag_list items) plen (h_end h) buf fc n = Ret (map CSend ds, stop, (n + List.length ds)%nat) /\ written (c_write s) n todo (List.length ds) stop /\
    forall i d, nth_error ds i = Some d -> d_session d = session mod 2 ^ 32 /\ Z.of_N (d_offset d) = (h_end h - Z.of_nat (fc + i) * plen)%Z /\ (0 < Z.of_N (d_offset d))%Z /\
      d_payload d = match (fc + i)%nat with O => [] | _ => firstn (Z.to_nat plen) (skipn (N.to_nat (d_offset d)) (c_file s)) end).
  { clear n. induction todo as [|todo IH]; intros fc n K.
    - exists [], None. split; [cbn [List.length]; rewrite Nat.add_0_r; reflexivity|]. split; [left; repeat split; intros i L; lia|]. intros [|i] d X; discriminate.
    - cbn [hole_loop]. rewrite LB. set (ps := (h_end h - Z.of_nat fc * plen)%Z).
      assert (PS : (plen <= ps <= h_end h)%Z) by (unfold ps; nia).
      set (pe := if (ps + plen >? h_end h)%Z then h_end h else (ps + plen)%Z).
      assert (PE : match fc with O => pe = h_end h /\ ps = h_end h | _ => pe = (ps + plen)%Z /\ (pe <= h_end h)%Z end).
      { destruct fc as [|fc]; unfold pe, ps; [rewrite Z.mul_0_l, Z.sub_0_r|].
        - rewrite (proj2 (Z.gtb_gt _ _)) by lia. auto.
        - assert (Y : (h_end h - Z.of_nat (S fc) * plen + plen <= h_end h)%Z) by nia.
          destruct (_ >? _)%Z eqn:GT; [apply Z.gtb_gt in GT; lia|]. split; [reflexivity|exact Y]. }
      assert (LE : (ps <= pe <= h_end h)%Z) by (destruct fc; lia).
      replace ((0 <=? ps)%Z && (ps <=? pe)%Z && (pe <=? h_end h)%Z) with true by (symmetry; rewrite !andb_true_iff, !Z.leb_le; lia).
      assert (SL : slice buf (Z.to_nat ps) (Z.to_nat pe) = Ret (match fc with O => [] | _ => firstn (Z.to_nat plen) (skipn (Z.to_nat ps) (c_file s)) end)).
      { unfold slice. replace ((Z.to_nat ps <=? Z.to_nat pe)%nat && (Z.to_nat pe <=? List.length buf)%nat) with true by (symmetry; rewrite andb_true_iff, !Nat.leb_le; lia).
        f_equal. destruct fc as [|fc].
        - destruct PE as [-> ->]. rewrite Nat.sub_diag. reflexivity.
        - destruct PE as [PE1 PE2]. rewrite PE1 in PE2 |- *. replace (Z.to_nat (ps + plen) - Z.to_nat ps)%nat with (Z.to_nat plen) by lia.
          unfold buf. rewrite skipn_O. rewrite firstn_skipn_comm. rewrite firstn_firstn. replace (Nat.min _ _) with (Z.to_nat ps + Z.to_nat plen)%nat by lia. rewrite <- firstn_skipn_comm. reflexivity. }
      rewrite SL. cbn [obind]. set (info := {| di_session := session; di_offset := _; di_payload := _ |}).
      pose proof (G n) as Gn. destruct (new_frame (c_now s n) items info Gn NE ND F) as (d & ED & D1 & D2 & D3 & D4 & D5).
      rewrite ED. cbn [obind].
      assert (DO : Z.of_N (d_offset d) = ps). { rewrite D2. cbn [info di_offset]. unfold u64_of_Z. rewrite Z.mod_small by lia. lia. }
      assert (D0 : d_session d = session mod 2 ^ 32 /\ Z.of_N (d_offset d) = (h_end h - Z.of_nat (fc + 0) * plen)%Z /\ (0 < Z.of_N (d_offset d))%Z /\
        d_payload d = match (fc + 0)%nat with O => [] | _ => firstn (Z.to_nat plen) (skipn (N.to_nat (d_offset d)) (c_file s)) end).
      { rewrite Nat.add_0_r. split; [exact D1|]. split; [exact DO|]. split; [lia|]. rewrite D3. cbn [info di_payload]. destruct fc; [reflexivity|].
        replace (N.to_nat (d_offset d)) with (Z.to_nat ps) by lia. reflexivity. }
      destruct (String.eqb_spec (c_write s n) "success") as [Wn|Wn].
      2:{ exists [d], (Some (c_write s n)). split; [cbn [map List.length]; rewrite Nat.add_1_r; reflexivity|].
          split; [right; exists O; rewrite Nat.add_0_r; repeat split; [lia|exact Wn|intros i L; lia]|].
          intros [|[|i]] e EE; try discriminate EE. cbn [nth_error] in EE. injection EE as <-. exact D0. }
      destruct (frame_reads _ _ _ _ D4) as (_ & HR & _). rewrite (frame_prints (c_now s n) (d_header d) (d_tstamp d) items Gn HR D5 d eq_refl eq_refl). cbn [obind].
      destruct (IH (S fc) (S n) ltac:(lia)) as (ds & stop & EH & LD & AD). rewrite EH. cbn [obind].
      exists (d :: ds), stop. split; [cbn [map List.length]; replace (n + S (List.length ds))%nat with (S n + List.length ds)%nat by lia; reflexivity|]. split.
      { cbn [List.length]. destruct LD as [(LD & LS & LW)|(j & LJ & LD & LS & LN & LW)].
        - left. split; [lia|]. split; [exact LS|]. intros [|i] L; [rewrite Nat.add_0_r; exact Wn|]. replace (n + S i)%nat with (S n + i)%nat by lia. apply LW. lia.
        - right. exists (S j). replace (n + S j)%nat with (S n + j)%nat by lia. split; [lia|]. split; [lia|]. split; [exact LS|]. split; [exact LN|].
          intros [|i] L; [rewrite Nat.add_0_r; exact Wn|]. replace (n + S i)%nat with (S n + i)%nat by lia. apply LW. lia. }
      intros [|i] e EE; cbn [nth_error] in EE; [injection EE as <-; exact D0|].
      specialize (AD i e EE). replace (fc + S i)%nat with (S fc + i)%nat by lia. exact AD. }
  destruct (X k 0%nat n eq_refl) as (ds & stop & EH & LD & AD). exists ds, stop. split; [exact EH|]. split; [exact LD|exact AD].
Qed.
(** C126: A hole of negative length, or longer than any memory, makes the program panic; one outside the file ends the put. *)
Lemma c126_outside : forall s session items h n, let len := hole_length h in
  ((len < 0 \/ 2 ^ 48 < len)%Z -> fill_hole s session (flag_list items) h n = Panic) /\
  ((0 <= len <= 2 ^ 48)%Z -> (h_start h < 0)%Z \/ (0 < len /\ Z.of_nat (List.length (c_file s)) < h_start h + len)%Z ->
   fill_hole s session (flag_list items) h n = Ret ([], Some "badoffset", n)).
Proof.
  intros s session items h n len. unfold fill_hole. rewrite i64_wraps. fold (hole_length h). fold len. unfold max_make. split.
  - intros L. destruct (Z.ltb_spec len 0); [reflexivity|]. destruct (Z.ltb_spec (2 ^ 48) len); [reflexivity|lia].
  - intros L O. destruct (Z.ltb_spec len 0); [lia|]. destruct (Z.ltb_spec (2 ^ 48) len); [lia|]. cbn [orb]. destruct (Z.ltb_spec (h_start h) 0) as [N|N]; [reflexivity|].
    destruct O as [O|(O1 & O2)]; [lia|]. unfold read_at. cbv zeta.
    match goal with |- context[Nat.ltb ?a ?b] => destruct (Nat.ltb_spec a b) as [X|X]; [reflexivity|] end. rewrite firstn_length, skipn_length in X. lia.
Qed.
(** C126: The holes of a status are dealt with in turn, until one of them ends the put. *)
Lemma c126_turn : forall s session dflags hs n o, fill_holes s session dflags hs n = o <-> in_turn (fill_hole s session dflags) hs n o.
Proof.
  intros s session dflags hs n o. split.
  - intros <-. revert n. induction hs as [|h r IH]; intros n; cbn [fill_holes]; [constructor|].
    destruct (fill_hole s session dflags h n) as [[[l [e|]] n']| |] eqn:F; cbn [obind]; [apply turn_stop; exact F| |apply turn_panic; exact F|apply turn_fatal; exact F].
    specialize (IH n'). destruct (fill_holes s session dflags r n') as [[[l' stop] n'']| |]; cbn [obind];
      [eapply turn_on; eassumption|eapply turn_panic_on; eassumption|eapply turn_fatal_on; eassumption].
  - intros T. remember (fill_hole s session dflags) as one eqn:O.
    induction T as [n|h r n l e n' E|h r n l n' l' stop n'' E T IH|h r n E|h r n E|h r n l n' E T IH|h r n l n' E T IH]; cbn [fill_holes]; try reflexivity; subst one; rewrite E; cbn [obind]; try reflexivity; rewrite IH by reflexivity; reflexivity.
Qed.

(** C126: So whatever is sent for a hole, nothing of its first part is among it: no hole is ever filled (defect). *)
Lemma c126_never : forall s session items h n l stop n', usable items -> (0 < room (c_mtu s) items)%Z -> (Z.of_nat (List.length (c_file s)) < 2 ^ 63)%Z -> in_int64 h ->
  fill_hole s session (flag_list items) h n = Ret (l, stop, n') ->
  forall d p, In (CSend d) l -> carries d p -> ~ (h_start h <= p < h_start h + room (c_mtu s) items)%Z.
Proof.
  intros s session items h n l stop n' U R L63 I64 FH d p I C.
  destruct (c126_outside s session items h n) as (O1 & O2). cbv zeta in O1, O2.
  destruct (Z.lt_ge_cases (hole_length h) 0) as [LN|LN]; [rewrite O1 in FH by auto; discriminate|].
  destruct (Z.lt_ge_cases (2 ^ 48) (hole_length h)) as [LX|LX]; [rewrite O1 in FH by auto; discriminate|].
  destruct (Z.le_gt_cases 0 (h_start h)) as [L0|L0]; [|rewrite O2 in FH by (auto || lia); injection FH as <- _ _; destruct I].
  destruct (Z.eq_dec (hole_length h) 0) as [Z0|NZ].
  { unfold fill_hole in FH. rewrite i64_wraps in FH. fold (hole_length h) in FH. rewrite Z0 in FH. unfold max_make in FH. cbn [orb Z.ltb Z.compare] in FH.
    change ((2 ^ 48 <? 0)%Z) with false in FH. cbn [orb] in FH. destruct (Z.ltb_spec (h_start h) 0); [lia|].
    unfold read_at in FH. cbn [Z.to_nat firstn List.length Nat.ltb Nat.leb] in FH. rewrite c123_room in FH by exact U. cbn [obind] in FH.
    destruct (Z.eqb_spec (room (c_mtu s) items) 0); [lia|]. cbn [Z.of_nat] in FH. rewrite Z.quot_0_l in FH by assumption. cbn in FH. injection FH as <- _ _. destruct I. }
  destruct (Z.le_gt_cases (h_start h + hole_length h) (Z.of_nat (List.length (c_file s)))) as [LS|LS]; [|rewrite O2 in FH by (lia || (right; lia)); injection FH as <- _ _; destruct I].
  assert (HE : (h_end h - h_start h = hole_length h)%Z).
  { clear - I64 L0 LN LX LS L63. unfold in_int64 in I64. unfold hole_length in *. destruct (Z.le_gt_cases (- 2 ^ 63) (h_end h - h_start h)) as [G|G]; [rewrite Z.mod_small; lia|].
    exfalso. replace (h_end h - h_start h + 2 ^ 63)%Z with (h_end h - h_start h + 2 ^ 63 + 2 ^ 64 + (-1) * 2 ^ 64)%Z in LS by lia. rewrite Z.mod_add in LS by lia.
    rewrite Z.mod_small in LS by lia. lia. }
  assert (LF : (h_end h <= Z.of_nat (List.length (c_file s)))%Z) by lia. assert (LE : (h_start h <= h_end h)%Z) by lia. rewrite <- HE in LX. clear O1 O2 LN NZ LS HE.
  destruct (Z.lt_ge_cases (h_end h - h_start h) (room (c_mtu s) items)) as [SH|LG]; [rewrite c126_short in FH by (assumption || lia); injection FH as <- _ _; destruct I|].
  destruct (Z.eq_dec (h_start h) 0) as [H0|N0]; [|rewrite c126_panics in FH by (assumption || lia); discriminate].
  destruct (hole_cases s session items h n U ltac:(lia) LF LX ltac:(lia)) as [LB EQ]. rewrite EQ in FH. clear EQ.
  rewrite H0 in *. rewrite Z.sub_0_r in *. set (plen := room (c_mtu s) items) in *. set (buf := firstn _ _) in *. set (k := Z.to_nat (h_end h / plen)) in *.
  assert (KB : (Z.of_nat k * plen <= h_end h)%Z) by (unfold k; rewrite Z2Nat.id by (apply Z.div_pos; lia); rewrite Z.mul_comm; apply Z.mul_div_le; lia).
  assert (X : forall todo fc n l stop n', (fc + todo = k)%nat -> hole_loop todo s session (flag_list items) plen (h_end h) buf fc n = Ret (l, stop, n') ->
     forall d, In (CSend d) l -> (plen <= Z.of_N (d_offset d))%Z).
  { clear l stop n n' FH d I C. induction todo as [|todo IH]; intros fc n l stop n' K HL d I; cbn [hole_loop] in HL; [injection HL as <- _ _; destruct I|].
    rewrite LB in HL. set (ps := (h_end h - Z.of_nat fc * plen)%Z) in HL. assert (PS : (plen <= ps <= h_end h)%Z) by (unfold ps; nia).
    match type of HL with obind ?m _ = _ => destruct m as [pay| |]; try discriminate HL end. cbn [obind] in HL.
    match type of HL with obind (data_new ?a ?b ?c ?i) _ = _ => destruct (data_new a b c i) as [[d1 [e|]]| |] eqn:DN; try discriminate HL end; cbn [obind] in HL.
    - injection HL as <- _ _. destruct I.
    - assert (DO : Z.of_N (d_offset d1) = ps).
      { unfold data_new in DN. destruct (sf_set sar (d_header zero_data) "version" "v1") as [h1| |]; try discriminate DN. cbn [obind] in DN.
        destruct (sf_set sar h1 "frametype" "data") as [h2| |]; try discriminate DN. cbn [obind] in DN. unfold ebind in DN.
        match type of DN with context[data_flags ?a ?b ?c] => destruct (data_flags a b c) as [[d2 [e|]]| |]; try discriminate DN end. cbn [obind] in DN. injection DN as <-.
        cbn [d_fill d_offset di_offset]. unfold u64_of_Z. rewrite Z.mod_small by lia. lia. }
      destruct (String.eqb (c_write s n) "success"); [|injection HL as <- _ _; destruct I as [I|[]]; injection I as <-; lia].
      destruct (data_shortprint_ok d1); try discriminate HL. cbn [obind] in HL.
      match type of HL with context[hole_loop ?a ?b ?c ?d ?e ?f ?g ?h ?i] => destruct (hole_loop a b c d e f g h i) as [[[l' stop'] n'']| |] eqn:HL'; try discriminate HL end. cbn [obind] in HL.
      injection HL as <- _ _. destruct I as [I|I]; [injection I as <-; lia|]. apply (IH (S fc) (S n) l' stop' n'' ltac:(lia) HL' d I). }
  assert (Y := X k 0%nat n l stop n' eq_refl FH d I). unfold carries in C. lia.
Qed.

(** ** Messages *)
Lemma passes_dec : forall scan m, passes scan m \/ exists e, ends_with scan m e.
Proof.
  intros scan [e|e|]; cbn [passes]; [| |auto].
  - destruct (String.string_dec e "success"); [auto|]. destruct (scan e) eqn:S; [left; right; congruence|]. right. exists e. split; auto.
  - destruct (String.string_dec e "success"); [auto|]. right. exists e. split; auto.
Qed.
Lemma loop_passes : forall scan m r, passes scan m -> cput_loop scan (m :: r) = cput_loop scan r.
Proof.
  intros scan [e|e|] r P; cbn [cput_loop passes] in *; [|subst; reflexivity|reflexivity].
  destruct P as [->|P]; [destruct (scan "success"); reflexivity|]. destruct (scan e); [reflexivity|congruence].
Qed.
Lemma loop_ends : forall scan m r e, ends_with scan m e -> cput_loop scan (m :: r) = Some e.
Proof.
  intros scan m r e (N & [->|[-> S]]); cbn [cput_loop]; [|rewrite S]; destruct (String.eqb_spec e "success"); congruence.
Qed.
(** C127: A put ends with the first message that is not a success: exactly then, and with that message. *)
Lemma c127_first : forall scan msgs e, cput_loop scan msgs = Some e <->
  exists before m after, msgs = (before ++ m :: after)%list /\ (forall x, In x before -> passes scan x) /\ ends_with scan m e.
Proof.
  intros scan msgs e. induction msgs as [|m r IH].
  - split; [discriminate|]. intros ([|x b] & m & a & E & _); discriminate.
  - destruct (passes_dec scan m) as [P|(e' & EW)].
    + rewrite loop_passes by exact P. rewrite IH. split.
      * intros (b & x & a & -> & A & EW). exists (m :: b), x, a. split; [reflexivity|]. split; [intros y [<-|I]; auto|exact EW].
      * intros (b & x & a & E & A & EW). destruct b as [|y b]; cbn [app] in E; injection E as <- ->.
        -- exfalso. destruct EW as (N & [->|[-> S]]); cbn [passes] in P; [congruence|destruct P; congruence].
        -- exists b, x, a. split; [reflexivity|]. split; [intros z I; apply A; right; exact I|exact EW].
    + rewrite (loop_ends scan m r e' EW). split.
      * intros X. injection X as ->. exists [], m, r. split; [reflexivity|]. split; [intros x []|exact EW].
      * intros (b & x & a & E & A & EW'). destruct b as [|y b]; cbn [app] in E; injection E as <- ->.
        -- destruct EW as (N & EW), EW' as (N' & EW'). destruct EW as [->|[-> S]], EW' as [X|[X S']]; congruence.
        -- exfalso. assert (P := A m (or_introl eq_refl)). destruct EW as (N & [->|[-> S]]); cbn [passes] in P; [congruence|destruct P; congruence].
Qed.
(** C127: So a put never reports success, whatever happens, and a put that should remove the local file afterwards never
    removes it (defect). *)
Lemma c127_never : forall scan msgs removed,
  cput_loop scan msgs <> Some "success" /\
  forall e gone, cputrm (cput_loop scan msgs) removed = Some (e, gone) -> gone = false /\ cput_loop scan msgs = Some e.
Proof.
  intros scan msgs removed. assert (N : cput_loop scan msgs <> Some "success").
  { intros E. apply c127_first in E. destruct E as (b & m & a & _ & _ & (X & _)). congruence. }
  split; [exact N|]. intros e gone E. unfold cputrm in E. destruct (cput_loop scan msgs) as [r|]; [|discriminate].
  destruct (String.eqb_spec r "success"); [congruence|]. injection E as <- <-. auto.
Qed.

(** ** Datagrams that the reader of status frames gets *)
Lemma header_first : forall f, (4 <= List.length f)%nat -> get_uint 4 f 0 4 = Ret (number_at f 0 4).
Proof. intros f L. apply get_uint_number; [reflexivity|exact L]. Qed.
(** C128: A datagram of less than four bytes ends the program with a panic.  A frame of version 0 ends the transfer.  A frame of
    any other version but 1, and any frame of version 1 but a status frame, terminates the program (defect). *)
Lemma c128_other : forall s session dflags f n,
  ((List.length f < 4)%nat -> on_datagram s session dflags f n = Panic) /\
  ((4 <= List.length f)%nat -> SpecListen.hd_version (number_at f 0 4) = 0 -> on_datagram s session dflags f n = Ret ([], Some "badpacket", n)) /\
  ((4 <= List.length f)%nat -> SpecListen.hd_version (number_at f 0 4) <> 0 -> ~ (SpecListen.hd_version (number_at f 0 4) = 1 /\ SpecListen.hd_frametype (number_at f 0 4) = 4) ->
   on_datagram s session dflags f n = Fatal).
Proof.
  intros s session dflags f n. split; [|split].
  - intros L. unfold on_datagram. rewrite get_uint_panic' by (reflexivity || exact L). reflexivity.
  - intros L V. unfold on_datagram. rewrite header_first by exact L. cbn [obind]. rewrite version_name. unfold SpecListen.hd_version in V. unfold SpecListen.hd_version. rewrite V. reflexivity.
  - intros L V NS. unfold on_datagram. rewrite header_first by exact L. cbn [obind]. set (h := number_at f 0 4) in *. rewrite version_name.
    destruct (SpecListen.hd_version h) as [|[p|p|]]; [congruence|reflexivity|reflexivity|]. cbn [obind negb String.eqb Ascii.eqb Bool.eqb].
    rewrite frametype_name. destruct (SpecListen.hd_frametype h) as [|[[p|p|]|[p|[p|p|]|]|]]; try reflexivity. exfalso. apply NS. auto.
Qed.
(** C128: A status frame that cannot be decoded ends the transfer, or the program as decoding it does. *)
Lemma c128_undecodable : forall s session dflags f n, (4 <= List.length f)%nat ->
  SpecListen.hd_version (number_at f 0 4) = 1 -> SpecListen.hd_frametype (number_at f 0 4) = 4 ->
  (status_verdict f = Reject -> on_datagram s session dflags f n = Ret ([], Some "badpacket", n)) /\
  (status_verdict f = Crash -> on_datagram s session dflags f n = Panic) /\
  (status_verdict f = Kill -> on_datagram s session dflags f n = Fatal).
Proof.
  intros s session dflags f n L V T. pose proof (c30_verdict zero_status f) as D.
  unfold on_datagram. rewrite header_first by exact L. cbn [obind]. rewrite version_name, frametype_name, V, T. cbn [obind negb String.eqb Ascii.eqb Bool.eqb].
  destruct (status_decode zero_status f) as [[st [e|]]| |]; cbn [verdict_of] in D; rewrite <- D; (split; [|split]); intros X; try discriminate X; reflexivity.
Qed.
Lemma status_decoded : forall f, is_status f -> exists st, status_decode zero_status f = Ret (st, None) /\ s_header st = number_at f 0 4 /\ s_tstamp st = ts_read zero_timestamp f /\ ts_verdict f = Accept /\ (4 <= List.length f)%nat.
Proof.
  intros f (V & _ & _). destruct (c31_value zero_status f V) as (w & _ & E). eexists. split; [exact E|]. split; [reflexivity|]. split; [reflexivity|].
  unfold status_verdict in V. destruct (Nat.ltb_spec (List.length f) 12) as [X|X]; [discriminate|]. split; [|lia]. destruct (ts_verdict f); [reflexivity|discriminate..].
Qed.
Lemma on_status : forall s session dflags f n, is_status f -> exists st, status_decode zero_status f = Ret (st, None) /\
  on_datagram s session dflags f n =
    (do _ <- (if hd_errcode (number_at f 0 4) <? 19 then Ret tt else Fatal);
     do errf <- sf_getstr sar (number_at f 0 4) "errcode";
     if negb (String.eqb errf "success") then Ret ([], Some errf, n)
     else
       do md <- sf_getstr sar (number_at f 0 4) "metadatarecvd";
       let resend := String.eqb md "no" in
       if resend && negb (String.eqb (c_write s n) "success") then Ret ([CMeta], Some (c_write s n), S n)
       else
         let told := ((if resend then [CMeta] else []) ++ CPos (s_progress st) (s_inrespto st)
                      :: (if s_progress st =? N.of_nat (length (c_file s)) then [CSay "success"] else []))%list in
         do ' (l, stop, n) <- fill_holes s session dflags (s_holes st) (if resend then S n else n);
         Ret ((told ++ l ++ match stop with None => [CSay "success"] | Some _ => [] end)%list, stop, n)).
Proof.
  intros s session dflags f n IS. destruct (status_decoded f IS) as (st & E & H & TS & TV & L). destruct IS as (V & HV & HF). exists st. split; [exact E|].
  unfold on_datagram. rewrite header_first by exact L. cbn [obind]. rewrite version_name, frametype_name, HV, HF. cbn [obind negb String.eqb Ascii.eqb Bool.eqb].
  rewrite E. cbn [obind]. rewrite (proj1 (status_prints st f H TS TV ltac:(rewrite H; exact HV) ltac:(rewrite H; exact HF))). rewrite H. reflexivity.
Qed.
(** C128: A status with an error ends the transfer with that error.  One with an error code that has no name terminates the
    program. *)
Lemma c128_error : forall s session dflags f n, is_status f ->
  (forall e, reads sar (number_at f 0 4) "errcode" e -> e <> "success" -> on_datagram s session dflags f n = Ret ([], Some e, n)) /\
  ((forall e, ~ reads sar (number_at f 0 4) "errcode" e) -> on_datagram s session dflags f n = Fatal).
Proof.
  intros s session dflags f n IS. destruct (on_status s session dflags f n IS) as (st & _ & ->).
  assert (LK : exists fl, lookup "errcode" (t_flags sar) = Some fl) by (eexists; vm_compute; reflexivity). destruct LK as [fl LK].
  pose proof (errcode_name (number_at f 0 4)) as EN. split.
  - intros e R N. apply (getstr_reads _ _ _ _ LK) in R. rewrite R in *. destruct (hd_errcode (number_at f 0 4) <? 19); [|discriminate]. cbn [obind].
    destruct (String.eqb_spec e "success"); [contradiction|reflexivity].
  - intros N. destruct (hd_errcode (number_at f 0 4) <? 19); [|reflexivity]. destruct EN as [e EN]. exfalso. apply (N e). apply (getstr_reads _ _ _ _ LK). exact EN.
Qed.
(** C128: A status without an error: the metadata is sent again iff it was not received, the position is told, success is told
    if the position is the end of the file, the holes are dealt with, and success is told, again if it was told before. *)
Lemma c128_success : forall s session dflags f n, is_status f -> reads sar (number_at f 0 4) "errcode" "success" ->
  exists st, status_decode zero_status f = Ret (st, None) /\
  let finished := if s_progress st =? N.of_nat (List.length (c_file s)) then [CSay "success"] else [] in
  (reads sar (number_at f 0 4) "metadatarecvd" "yes" ->
   on_datagram s session dflags f n =
     (do ' (l, stop, n') <- fill_holes s session dflags (s_holes st) n;
      Ret ((CPos (s_progress st) (s_inrespto st) :: finished ++ l ++ match stop with None => [CSay "success"] | Some _ => [] end)%list, stop, n'))) /\
  (reads sar (number_at f 0 4) "metadatarecvd" "no" -> c_write s n = "success" ->
   on_datagram s session dflags f n =
     (do ' (l, stop, n') <- fill_holes s session dflags (s_holes st) (S n);
      Ret ((CMeta :: CPos (s_progress st) (s_inrespto st) :: finished ++ l ++ match stop with None => [CSay "success"] | Some _ => [] end)%list, stop, n'))) /\
  (reads sar (number_at f 0 4) "metadatarecvd" "no" -> c_write s n <> "success" ->
   on_datagram s session dflags f n = Ret ([CMeta], Some (c_write s n), S n)).
Proof.
  intros s session dflags f n IS R. destruct (on_status s session dflags f n IS) as (st & E & ->). exists st. split; [exact E|]. cbv zeta.
  assert (LK : exists fl, lookup "errcode" (t_flags sar) = Some fl) by (eexists; vm_compute; reflexivity). destruct LK as [fl LK].
  assert (LM : exists fl, lookup "metadatarecvd" (t_flags sar) = Some fl) by (eexists; vm_compute; reflexivity). destruct LM as [fm LM].
  pose proof (errcode_name (number_at f 0 4)) as EN. apply (getstr_reads _ _ _ _ LK) in R. rewrite R in *.
  destruct (hd_errcode (number_at f 0 4) <? 19); [|discriminate]. clear EN. cbn [obind]. rewrite String.eqb_refl. cbn [negb].
  split; [|split].
  - intros M. apply (getstr_reads _ _ _ _ LM) in M. rewrite M. cbn [obind String.eqb Ascii.eqb Bool.eqb andb app].
    destruct (fill_holes _ _ _ _ _) as [[[l stop] n']| |]; reflexivity.
  - intros M W. apply (getstr_reads _ _ _ _ LM) in M. rewrite M, W. cbn [obind]. rewrite !String.eqb_refl. cbn [negb andb app].
    destruct (fill_holes _ _ _ _ _) as [[[l stop] n']| |]; reflexivity.
  - intros M W. apply (getstr_reads _ _ _ _ LM) in M. rewrite M. cbn [obind]. rewrite String.eqb_refl. destruct (String.eqb_spec (c_write s n) "success"); [contradiction|]. reflexivity.
Qed.

(** C127: A put of which everything is confirmed is reported as failed in the end: when no more status frames come, reading them
    fails, and that is what is reported, in whatever order the messages of the two tasks come (defect). *)
Lemma c127_confirmed : forall s session items fs n scan, usable items -> (0 < room (c_mtu s) items)%Z ->
  (forall i, good_now (c_now s i) /\ c_readerr s i = false /\ c_write s i = "success") -> (forall f, In f fs -> confirms f) -> scan "cantreceive" = None ->
  exists fuel told sent, senddata fuel s session (flag_list items) = Ret (sent, true) /\
    readstatus s session (flag_list items) (map RGot fs ++ [RFailed])%list n = Ret (told, true) /\
    forall msgs, merged (flat_map by_status told) (flat_map by_data sent) msgs -> cput_loop scan msgs = Some "cantreceive".
Proof.
  intros s session items fs n scan U R G CF SC. set (plen := Z.to_nat (room (c_mtu s) items)). set (last := last_part (c_file s) plen).
  destruct (c123_sends s session items U R) as (ds & _ & SD); [intros i _; destruct (G i) as (A & B & _); auto|]. fold plen last in SD.
  assert (RS : exists told, readstatus s session (flag_list items) (map RGot fs ++ [RFailed])%list n = Ret (told, true) /\
    exists before, flat_map by_status told = (before ++ [MStatus "cantreceive"])%list /\ forall x, In x before -> passes scan x).
  { clear SD. revert n. induction fs as [|f fs IH]; intros n.
    - exists [CSay "cantreceive"]. split; [reflexivity|]. exists []. split; [reflexivity|intros x []].
    - destruct (IH (fun g I => CF g (or_intror I)) n) as (told & E & before & FM & PA).
      destruct (CF f (or_introl eq_refl)) as (IS & RE & RM & HO). destruct (c128_success s session (flag_list items) f n IS RE) as (st & DE & OY & _ & _).
      specialize (OY RM). rewrite (HO st DE) in OY. cbn [fill_holes obind app] in OY.
      cbn [map app readstatus]. rewrite OY. cbn [obind]. rewrite E. cbn [obind]. eexists. split; [reflexivity|].
      rewrite flat_map_app, FM. rewrite app_assoc. eexists. split; [reflexivity|]. intros x I. apply in_app_iff in I. destruct I as [I|I]; [|apply PA, I].
      cbn [flat_map by_status app] in I. destruct I as [<-|I]; [exact Logic.I|]. rewrite flat_map_app in I. apply in_app_iff in I.
      destruct I as [I|[<-|[]]]; [|left; reflexivity]. destruct (s_progress st =? N.of_nat (List.length (c_file s))); [destruct I as [<-|[]]; left; reflexivity|destruct I]. }
  destruct RS as (told & ER & before & FM & PA).
  exists (S last), told, (handing s 0 ds ++ [CSay "success"])%list. split; [apply SD; lia|]. split; [exact ER|].
  assert (DP : forall x, In x (flat_map by_data (handing s 0 ds ++ [CSay "success"])%list) -> passes scan x).
  { rewrite flat_map_app. intros x I. apply in_app_iff in I. destruct I as [I|[<-|[]]]; [|reflexivity]. exfalso.
    assert (H : forall ds n, flat_map by_data (handing s n ds) = []). { clear -G. induction ds as [|d ds IH]; intros n; [reflexivity|]. cbn [handing flat_map by_data app]. destruct (G n) as (_ & _ & W). rewrite W, String.eqb_refl. apply IH. }
    rewrite H in I. destruct I. }
  intros msgs M. rewrite FM in M. set (b := flat_map by_data _) in *. clearbody b. clear FM SD ER. revert PA DP.
  remember (before ++ [MStatus "cantreceive"])%list as a eqn:EA. revert before EA.
  induction M as [|x a b c M IH|x a b c M IH]; intros before EA PA DP.
  - destruct before; discriminate.
  - destruct before as [|y before]; cbn [app] in EA; injection EA as EX EA.
    + subst. apply loop_ends. split; [discriminate|]. right. auto.
    + subst y. rewrite loop_passes by (apply PA; left; reflexivity). apply (IH before EA); [intros z I; apply PA; right; exact I|exact DP].
  - rewrite loop_passes by (apply DP; left; reflexivity). apply (IH before EA PA). intros z I. apply DP. right. exact I.
Qed.

(** ** Starting a transfer *)
Lemma doclient_handler : forall ttype a scan msgs removed,
  doclient ttype a scan msgs removed = match handler ttype a scan msgs removed with Some x => x | None => Ret ([], Some "undefined", false) end.
Proof.
  intros ttype a scan msgs removed. unfold doclient, transfer_types. cbn [doclient_loop].
  repeat match goal with |- context [String.eqb ?x ttype] => destruct (String.eqb_spec x ttype) as [<-|?] end;
    try (cbn [handler String.eqb Ascii.eqb Bool.eqb]; destruct (cput a scan msgs) as [[ks e]| |]; try destruct (cputblind a); cbn [obind]; try destruct (cputrm e removed) as [[? ?]|]; reflexivity); try reflexivity.
  unfold handler. destruct (String.eqb_spec ttype "put"); [congruence|]. destruct (String.eqb_spec ttype "putrm"); [congruence|]. destruct (String.eqb_spec ttype "putblind"); [congruence|]. reflexivity.
Qed.
(** C129: Of the eight types of transfer only three do anything: the others are answered with "undefined". *)
Lemma c129_undefined : forall ttype a scan msgs removed, ~ In ttype ["put"; "putrm"; "putblind"] ->
  doclient ttype a scan msgs removed = Ret ([], Some "undefined", false).
Proof.
  intros ttype a scan msgs removed N. rewrite doclient_handler. unfold handler.
  destruct (String.eqb_spec ttype "put") as [->|]; [exfalso; apply N; cbn; auto|]. destruct (String.eqb_spec ttype "putrm") as [->|]; [exfalso; apply N; cbn; auto|].
  destruct (String.eqb_spec ttype "putblind") as [->|]; [exfalso; apply N; cbn; auto|]. reflexivity.
Qed.
(** C129: A blind put reports success exactly if the metadata was handed to the socket.  It sends no request and never any of
    the file (defect). *)
Lemma c129_blind : forall a scan msgs removed,
  exists ks e, doclient "putblind" a scan msgs removed = Ret (ks, Some e, false) /\
  (ks = [KMetadata] \/ ks = []) /\ (ks = [KMetadata] <-> connects a /\ a_metadata a = true) /\
  (e = "success" <-> connects a /\ a_metadata a = true /\ a_write a 0%nat = "success") /\
  (ks = [KMetadata] -> e = a_write a 0%nat).
Proof.
  intros a scan msgs removed. rewrite doclient_handler. cbn [handler String.eqb Ascii.eqb Bool.eqb]. unfold cputblind, connects.
  destruct (a_open a), (a_seek a), (a_resolve a), (a_dial a), (a_metadata a); cbn [negb];
    try (eexists; eexists; split; [reflexivity|]; split; [auto|]; split; [split; [intros X; discriminate X|intros; intuition discriminate]|]; split; [split; [intros X; discriminate X|intros; intuition discriminate]|intros X; discriminate X]).
  destruct (String.eqb_spec (a_write a 0) "success") as [W|W]; cbn [negb]; eexists; eexists; (split; [reflexivity|]); (split; [auto|]); (split; [intuition|]); (split; [intuition|auto]).
Qed.
(** C129: A put hands over the request and then the metadata before anything else.  What fails is reported and nothing follows;
    but if the socket cannot be made the program panics (defect). *)
Lemma c129_put : forall a scan msgs removed,
  let r := doclient "put" a scan msgs removed in
  (put_starts a -> r = Ret ([KRequest; KMetadata], cput_loop scan msgs, false)) /\
  (dial_fails a -> r = Panic) /\
  (~ put_starts a -> ~ dial_fails a -> exists ks e, r = Ret (ks, Some e, false) /\ e <> "success" /\
    (In KRequest ks <-> connects a /\ a_request a = true) /\
    (In KMetadata ks <-> connects a /\ a_request a = true /\ a_write a 0%nat = "success" /\ a_metadata a = true)).
Proof.
  intros a scan msgs removed. cbv zeta. rewrite doclient_handler. cbn [handler String.eqb Ascii.eqb Bool.eqb]. unfold cput, cput_setup, put_starts, connects, dial_fails.
  destruct (a_open a), (a_seek a), (a_resolve a), (a_dial a), (a_request a); cbn [negb obind];
    try (split; [intuition discriminate|]; split; [intuition discriminate|]; intros _ _; eexists; eexists; split; [reflexivity|]; split; [discriminate|]; cbn [In]; intuition discriminate);
    try (split; [intuition discriminate|]; split; [reflexivity|]; intros _ X; exfalso; apply X; repeat split).
  destruct (String.eqb_spec (a_write a 0) "success") as [W|W]; cbn [negb];
    [|split; [intuition congruence|]; split; [intuition discriminate|]; intros _ _; eexists; eexists; split; [reflexivity|]; split; [exact W|]; cbn [In]; intuition congruence].
  destruct (a_metadata a); cbn [negb];
    [|split; [intuition congruence|]; split; [intuition discriminate|]; intros _ _; eexists; eexists; split; [reflexivity|]; split; [discriminate|]; cbn [In]; intuition congruence].
  destruct (String.eqb_spec (a_write a 1) "success") as [W1|W1]; cbn [negb].
  - split; [reflexivity|]. split; [intuition discriminate|]. intros X. exfalso. apply X. auto 9.
  - split; [intuition congruence|]. split; [intuition discriminate|]. intros _ _. eexists; eexists. split; [reflexivity|]. split; [exact W1|]. cbn [In]. intuition congruence.
Qed.
(** C129: A put that should remove the file afterwards does and reports what a put does, and removes nothing (defect). *)
Lemma c129_putrm : forall a scan msgs removed, doclient "putrm" a scan msgs removed = doclient "put" a scan msgs removed.
Proof.
  intros a scan msgs removed. rewrite !doclient_handler. cbn [handler String.eqb Ascii.eqb Bool.eqb].
  assert (H : forall ks, cput a scan msgs <> Ret (ks, Some "success")).
  { intros ks. unfold cput, cput_setup. destruct (negb (a_open a)); [discriminate|]. destruct (negb (a_seek a)); [discriminate|]. destruct (negb (a_resolve a)); [discriminate|]. destruct (negb (a_dial a)); [discriminate|]. destruct (negb (a_request a)); [discriminate|].
    destruct (String.eqb_spec (a_write a 0) "success"); cbn [negb obind]; [|congruence]. destruct (negb (a_metadata a)); [discriminate|].
    destruct (String.eqb_spec (a_write a 1) "success"); cbn [negb obind]; [|congruence]. intros X. apply (proj1 (c127_never scan msgs true)). congruence. }
  destruct (cput a scan msgs) as [[ks [e|]]| |]; cbn [obind]; try reflexivity. unfold cputrm. destruct (String.eqb_spec e "success") as [->|]; [exfalso; eapply H; reflexivity|reflexivity].
Qed.

(** ** Examples *)
Definition ex_items : list (string * string) := [("descriptor", "d16"); ("transfer", "file"); ("reqtstamp", "yes"); ("eod", "no")].
Definition ex_file : list byte := bytes_of "twenty-five bytes of text".
Definition ex_surroundings : surroundings :=
  {| c_mtu := 104; c_file := ex_file; c_now := fun _ => StatusMain.ex_now; c_write := fun _ => "success"; c_readerr := fun _ => false |}.
(** version 1, status, 16-bit descriptor, all well, metadata received *)
Definition ex_confirmation : list byte := (wire 4 0x24000000 ++ wire 4 7 ++ wire 2 25 ++ wire 2 25)%list.
(** ... the same with a hole *)
Definition ex_missing (a b : N) : list byte := (ex_confirmation ++ wire 2 a ++ wire 2 b)%list.
Lemma ex_usable : usable ex_items.
Proof.
  split; [discriminate|]. split; [repeat constructor; cbn; intuition discriminate|].
  intros f v [E|[E|[E|[E|[]]]]]; injection E as <- <-; (split; [cbn; auto 9|]); (split; [apply known_valid; vm_compute; reflexivity|discriminate]).
Qed.
Lemma ex_good : forall i, good_now (c_now ex_surroundings i).
Proof. intros i. unfold good_now, ex_surroundings, StatusMain.ex_now; cbn. lia. Qed.
Example c123_ex : usable ex_items /\ room (c_mtu ex_surroundings) ex_items = 10%Z /\ (forall i, good_now (c_now ex_surroundings i)) /\
  match senddata 3 ex_surroundings 7 (flag_list ex_items) with
  | Ret (acts, true) =>
      map (fun a => match a with CSend d => Some (d_offset d, d_payload d, hd_reqtstamp (d_header d)) | _ => None end) acts =
        [Some (0, bytes_of "twenty-fiv", 1); Some (10, bytes_of "e bytes of", 1); Some (20, bytes_of " text", 1); None] /\
      nth_error acts 3 = Some (CSay "success")
  | _ => False
  end.
Proof. split; [exact ex_usable|]. split; [reflexivity|]. split; [exact ex_good|]. vm_compute. auto. Qed.
Example c123_read_error_ex : forall acts fin,
  senddata 3 {| c_mtu := 104; c_file := ex_file; c_now := fun _ => StatusMain.ex_now; c_write := fun _ => "success"; c_readerr := Nat.eqb 1 |} 7 (flag_list ex_items) = Ret (acts, fin) ->
  fin = true /\ List.length acts = 2%nat /\ nth_error acts 1 = Some (CSay "accessdenied").
Proof. intros acts fin H. vm_compute in H. injection H as <- <-. auto. Qed.
Example c123_no_room_ex : room 94 ex_items = 0%Z /\ room 93 ex_items = (-1)%Z.
Proof. split; reflexivity. Qed.
Example c124_ex : filedescriptor (Some (Z.to_N 25)) = "descriptor=d16" /\ setting_of ex_items "descriptor" = Some "d16" /\ offset_bytes ex_items = Some 2%nat /\
  N.of_nat (List.length (c_file ex_surroundings)) < 2 ^ (8 * N.of_nat 2).
Proof. repeat split; vm_compute; reflexivity. Qed.
(** A file of twenty bytes, in frames for ten: the end of the data is told with an empty frame, which cannot be decoded *)
Definition ex_twenty : surroundings :=
  {| c_mtu := 104; c_file := firstn 20 ex_file; c_now := fun _ => StatusMain.ex_now; c_write := fun _ => "success"; c_readerr := fun _ => false |}.
Example c125_ex :
  match senddata 3 ex_twenty 7 (flag_list ex_items) with
  | Ret ([CSend _; CSend _; CSend d; CSay m], true) =>
      m = "success" /\ d_payload d = [] /\
      match data_encode d with Ret (Frame g) => match data_decode zero_data g with Ret (_, Some _) => True | _ => False end | _ => False end
  | _ => False
  end.
Proof. vm_compute. auto. Qed.
Example c126_ex :
  fill_hole ex_surroundings 7 (flag_list ex_items) {| h_start := 5; h_end := 14 |} 0 = Ret ([], None, 0%nat) /\
  fill_hole ex_surroundings 7 (flag_list ex_items) {| h_start := 5; h_end := 15 |} 0 = Panic /\
  match fill_hole ex_surroundings 7 (flag_list ex_items) {| h_start := 0; h_end := 20 |} 0 with
  | Ret ([CSend a; CSend b], None, 2%nat) => d_offset a = 20 /\ d_payload a = [] /\ d_offset b = 10 /\ d_payload b = bytes_of "e bytes of"
  | _ => False
  end.
Proof. split; [vm_compute; reflexivity|]. split; [vm_compute; reflexivity|]. vm_compute. auto. Qed.
Example c126_no_room_ex : usable ex_items /\ exists mtu, room mtu ex_items = 0%Z /\ room (mtu - 1) ex_items = (-1)%Z.
Proof. split; [exact ex_usable|]. exists (c_mtu ex_surroundings - 10)%Z. split; vm_compute; reflexivity. Qed.
Example c126_outside_ex : let h a b := {| h_start := a; h_end := b |} in
  map (fun h => (hole_length h, match fill_hole ex_surroundings 7 (flag_list ex_items) h 0 with Ret (_, e, _) => e | _ => Some "panic" end))
    [h 5 4; h 0 (2 ^ 48 + 1); h (-1) (2 ^ 63 - 1); h (-1) 4; h 20 26]%Z =
  [(-1, Some "panic"); (2 ^ 48 + 1, Some "panic"); (- 2 ^ 63, Some "panic"); (5, Some "badoffset"); (6, Some "badoffset")]%Z.
Proof. vm_compute. reflexivity. Qed.
Example c127_first_ex : cput_loop (fun _ => None) [MPos; MStatus "success"; MData "success"; MStatus "cantreceive"; MData "badpacket"] = Some "cantreceive".
Proof. reflexivity. Qed.
Lemma ex_is_status : is_status ex_confirmation.
Proof. split; [vm_compute; reflexivity|]. split; vm_compute; reflexivity. Qed.
Example c127_confirmed_ex : confirms ex_confirmation.
Proof.
  split; [exact ex_is_status|]. split; [|split].
  - eexists. eexists. split; [vm_compute; reflexivity|]. split; vm_compute; reflexivity.
  - eexists. eexists. split; [vm_compute; reflexivity|]. split; vm_compute; reflexivity.
  - intros s' H. vm_compute in H. injection H as <-. reflexivity.
Qed.
Example c127_confirmed_run_ex :
  readstatus ex_surroundings 7 (flag_list ex_items) [RGot ex_confirmation; RFailed] 0 =
    Ret ([CPos 25 25; CSay "success"; CSay "success"; CSay "cantreceive"], true).
Proof. vm_compute. reflexivity. Qed.
Example c128_other_ex :
  SpecListen.hd_version (number_at ListenMain.ex_beacon_dgram 0 4) = 1 /\ SpecListen.hd_frametype (number_at ListenMain.ex_beacon_dgram 0 4) <> 4 /\
  on_datagram ex_surroundings 7 (flag_list ex_items) ListenMain.ex_beacon_dgram 0 = Fatal /\
  on_datagram ex_surroundings 7 (flag_list ex_items) (wire 4 0) 0 = Ret ([], Some "badpacket", 0%nat).
Proof. split; [vm_compute; reflexivity|]. split; [vm_compute; discriminate|]. split; vm_compute; reflexivity. Qed.
Example c128_undecodable_ex : status_verdict (firstn 11 ex_confirmation) = Reject.
Proof. vm_compute. reflexivity. Qed.
(** error code 3, and 20, which has no name *)
Example c128_error_ex :
  let bad e := (wire 4 (0x24000000 + e) ++ skipn 4 ex_confirmation)%list in
  is_status (bad 3) /\ is_status (bad 20) /\
  on_datagram ex_surroundings 7 (flag_list ex_items) (bad 3) 0 = Ret ([], Some "cantreceive", 0%nat) /\
  on_datagram ex_surroundings 7 (flag_list ex_items) (bad 20) 0 = Fatal.
Proof. split; [|split]; [split; [|split]; vm_compute; reflexivity..|]. split; vm_compute; reflexivity. Qed.
Example c128_success_ex :
  is_status (ex_missing 3 5) /\ reads sar (number_at (ex_missing 3 5) 0 4) "errcode" "success" /\
  on_datagram ex_surroundings 7 (flag_list ex_items) (ex_missing 3 5) 0 = Ret ([CPos 25 25; CSay "success"; CSay "success"], None, 0%nat) /\
  on_datagram ex_surroundings 7 (flag_list ex_items) (ex_missing 5 15) 0 = Panic.
Proof.
  split; [split; [|split]; vm_compute; reflexivity|]. split; [eexists; eexists; split; [vm_compute; reflexivity|]; split; vm_compute; reflexivity|].
  split; vm_compute; reflexivity.
Qed.
Definition ex_answers : answers := {| a_open := true; a_seek := true; a_resolve := true; a_dial := true; a_request := true; a_metadata := true; a_write := fun _ => "success" |}.
Example c129_undefined_ex : In "get" transfer_types /\ ~ In "get" ["put"; "putrm"; "putblind"] /\ doclient "get" ex_answers (fun _ => None) [] true = Ret ([], Some "undefined", false).
Proof. split; [cbn; auto|]. split; [cbn; intuition discriminate|reflexivity]. Qed.
Example c129_blind_ex : connects ex_answers /\ doclient "putblind" ex_answers (fun _ => None) [] true = Ret ([KMetadata], Some "success", false).
Proof. split; [repeat split|reflexivity]. Qed.
Example c129_put_ex : put_starts ex_answers /\
  doclient "putrm" ex_answers (fun _ => None) [MStatus "success"; MData "success"; MStatus "cantreceive"] true = Ret ([KRequest; KMetadata], Some "cantreceive", false).
Proof. split; [repeat split|reflexivity]. Qed.
Definition ex_no_socket : answers := {| a_open := true; a_seek := true; a_resolve := true; a_dial := false; a_request := true; a_metadata := true; a_write := fun _ => "success" |}.
Example c129_dial_ex : dial_fails ex_no_socket /\ doclient "put" ex_no_socket (fun _ => None) [] true = Panic /\ doclient "putblind" ex_no_socket (fun _ => None) [] true = Ret ([], Some "cantsend", false).
Proof. repeat split. Qed.
