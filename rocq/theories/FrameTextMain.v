(** * Texts of frames: the theorems *)

From Verif Require Import GoBase GoFacts Flags Config Shipped Timestamp Holes Data Status Request Beacon Fileio Dirent Metadata Trans Listen Daemon Sarnet Words Clock Table Screen SpecTime TimeMain DataMain SpecStatus StatusMain SpecRequest SpecBeacon Peers SpecPeers SpecMetadata SpecListen ListenMain TransMain SpecScreen ScreenMain FrameText SarnetMain FlagsFacts FlagStrFacts FrameFacts BuildFacts SpecWire SpecFrames SpecDirent SpecWords SpecFrameText SpecFlags WordsFacts TextFacts ConfigFacts FlagsMain SarFacts DirentMain TransferMain ClockMain FrameTextFacts.
Local Open Scope string_scope.
Local Open Scope N_scope.

(** C112: the short text of a frame says exactly what [says] lists for its kind,
    and there is one exactly when every named value in it has a name. *)
Lemma c112_short : forall f text, frame_shortprint f = Ret text <-> writes (says f) text.
Proof. intros f text. rewrite short_is. apply text_of_spec. Qed.


Lemma getstr_no_panic : forall h f, sf_getstr sar h f <> Panic.
Proof. intros h f. unfold sf_getstr. apply opt_name_fatal. Qed.
Lemma flag_lines_fatal : forall i g f fs acc, (forall x, g x <> Panic) -> In f fs -> g f = Fatal -> flag_lines i g fs acc = Fatal.
Proof.
  intros i g f fs. induction fs as [|x fs IH]; intros acc NP I F; [destruct I|]. cbn [flag_lines]. destruct I as [->|I].
  - rewrite F. reflexivity.
  - specialize (NP x) as X. destruct (g x); cbn [obind]; [apply IH; auto|congruence|reflexivity].
Qed.
(** C112: a request has no long text: asking for it ends the program (defect). *)
Lemma c112_request : forall r, frame_print (FRequest r) = Fatal.
Proof.
  intros r. cbn [frame_print]. unfold request_print, hflags. rewrite flag_lines_fatal with (f := "fileordir"); auto.
  - apply getstr_no_panic.
  - vm_compute. tauto.
Qed.
(** C112: the other long texts say exactly what the lists named [..._tells] have. *)
Lemma c112_long : forall f text, frame_print f = Ret text <->
  match f with
  | FBeacon b => writes (beacon_tells b) text
  | FData d => writes (data_tells d) text
  | FStatus s => writes (status_tells s) text
  | FMetadata m => writes (meta_tells m) text
  | FRequest _ => False
  end.
Proof.
  intros [b|r|m|d|s] text.
  - cbn [frame_print]. rewrite beacon_print_is. apply text_of_spec.
  - rewrite c112_request. split; [discriminate|tauto].
  - cbn [frame_print]. rewrite meta_print_is. apply text_of_spec.
  - cbn [frame_print]. rewrite data_print_is. apply text_of_spec.
  - cbn [frame_print]. rewrite status_print_is. apply text_of_spec.
Qed.

Lemma stamp_ends : forall label h t s, (exists x, stamp_line label h t s = Ret x) <-> (do rt <- sf_getstr sar h "reqtstamp"; if String.eqb rt "yes" then ts_print_ok t else Ret tt) = Ret tt.
Proof.
  intros label h t s. unfold stamp_line. destruct (sf_getstr sar h "reqtstamp") as [rt| |]; cbn [obind]; [|split; [intros [x X]; discriminate|discriminate]..].
  destruct (String.eqb rt "yes"); [|split; [reflexivity|eauto]]. rewrite <- c102_ends. destruct (ts_print t) as [y| |]; cbn [obind]; [split; eauto|split; intros [x X]; discriminate..].
Qed.
Lemma dirent_ends : forall d s, (exists x, dirent_end d s = Ret x) <-> dirent_shortprint_ok d = Ret tt.
Proof.
  intros d s. unfold dirent_end, dirent_shortprint_ok.
  pose proof (c102_ends (de_mtime d)) as M. pose proof (c102_ends (de_ctime d)) as C.
  destruct (ts_print (de_mtime d)) as [y| |].
  - assert (EM : ts_print_ok (de_mtime d) = Ret tt) by (apply M; eauto). rewrite EM. cbn [obind]. rewrite <- C. destruct (ts_print (de_ctime d)); cbn [obind]; [split; eauto|split; intros [x X]; discriminate..].
  - cbn [obind]. split; [intros [x X]; discriminate|]. destruct (ts_print_ok (de_mtime d)) as [[]| |]; cbn [obind]; try discriminate. destruct M as [_ M]. destruct (M eq_refl) as [x X]. discriminate.
  - cbn [obind]. split; [intros [x X]; discriminate|]. destruct (ts_print_ok (de_mtime d)) as [[]| |]; cbn [obind]; try discriminate. destruct M as [_ M]. destruct (M eq_refl) as [x X]. discriminate.
Qed.
(** C112: main survives a frame to send exactly if the frame has a text. *)
Lemma c112_sent : forall p, main_tx p = Ret tt <-> exists text, frame_shortprint (pk_info p) = Ret text.
Proof.
  intros [a f]. unfold main_tx. cbn [pk_info]. destruct f as [b|r|m|d|s]; cbn [frame_shortprint].
  - unfold beacon_shortprint_ok, beacon_shortprint. destruct (sf_getstr sar (b_header b) "freespace"); cbn [obind]; split; eauto; try discriminate; intros [x X]; discriminate.
  - unfold request_shortprint. split; eauto.
  - unfold meta_shortprint_ok, meta_shortprint, meta_sums, dirent_shortprint. destruct (sf_getstr sar (m_header m) "csumtype"); cbn [obind]; [|split; [discriminate|intros [x X]; discriminate]..].
    rewrite <- (dirent_ends _ ("  Dir Entry: 0x" ++ hex (de_header (m_dir m)) ++ newline)). match goal with |- context[dirent_end ?d ?s] => destruct (dirent_end d s) end; cbn [obind]; [split; eauto|split; intros [x X]; discriminate X..].
  - unfold data_shortprint, data_shortprint_ok. rewrite <- (stamp_ends "tstamp" _ _ ("Data: 0x" ++ hex (d_header d) ++ newline)). match goal with |- context[stamp_line ?l ?h ?t ?s] => destruct (stamp_line l h t s) end; cbn [obind]; [split; eauto|split; intros [x X]; discriminate..].
  - unfold status_shortprint, status_shortprint_ok. set (B := "Status: 0x" ++ _). pose proof (stamp_ends "timestamp" (s_header s) (s_tstamp s) B) as E.
    destruct (sf_getstr sar (s_header s) "reqtstamp") as [rt| |]; cbn [obind] in *.
    + destruct (if String.eqb rt "yes" then ts_print_ok (s_tstamp s) else Ret tt) as [[]| |]; cbn [obind].
      * destruct (proj2 E eq_refl) as [x X]. rewrite X. cbn [obind]. destruct (sf_getstr sar (s_header s) "errcode"); cbn [obind]; split; eauto; try discriminate; intros [y Y]; discriminate.
      * split; [discriminate|]. destruct (stamp_line _ _ _ _); cbn [obind]; [|intros [x X]; discriminate..]. destruct E as [E _]. intros _. discriminate E. eauto.
      * split; [discriminate|]. destruct (stamp_line _ _ _ _); cbn [obind]; [|intros [x X]; discriminate..]. destruct E as [E _]. intros _. discriminate E. eauto.
    + split; [discriminate|]. destruct (stamp_line _ _ _ _); cbn [obind]; [|intros [x X]; discriminate..]. destruct E as [E _]. intros _. discriminate E. eauto.
    + split; [discriminate|]. destruct (stamp_line _ _ _ _); cbn [obind]; [|intros [x X]; discriminate..]. destruct E as [E _]. intros _. discriminate E. eauto.
Qed.
(** C112: a frame a listener hands on has a text unless it is metadata with a kind of checksum
    that has no name. *)
Lemma c112_received : forall now mtu dgram from p, listen_one now mtu dgram from = Ret (ToRx p) ->
  ((exists text, frame_shortprint (pk_info p) = Ret text) <-> (forall m, pk_info p = FMetadata m -> hd_csumtype (m_header m) <= 3)).
Proof.
  intros now mtu dgram from p H. rewrite <- c112_sent.
  assert (G : good_now ex_now) by (split; cbn; lia).
  pose proof (c75_survives now mtu dgram from p ex_now [] "" {| w_fs := []; w_transfers := []; w_peers := [] |} H G) as S.
  destruct p as [a f]. unfold main_tx, main_rx, main_rx_gen in *. cbn [pk_info] in *. destruct f as [b|r|m|d|s].
  - destruct S as (ps & rep & _ & S). destruct (beacon_shortprint_ok b) as [[]| |]; try discriminate. split; [discriminate|auto].
  - split; [discriminate|reflexivity].
  - change (SpecListen.hd_csumtype (m_header m)) with (hd_csumtype (m_header m)) in S. destruct (N.leb_spec (hd_csumtype (m_header m)) 3) as [L|L].
    + destruct (meta_shortprint_ok m) as [[]| |]; try discriminate. split; [intros _ m' E; injection E as <-; exact L|auto].
    + destruct (meta_shortprint_ok m) as [[]| |]; try discriminate. split; [discriminate|]. intros X. specialize (X m eq_refl). lia.
  - destruct (data_shortprint_ok d) as [[]| |]; try discriminate. split; [discriminate|auto].
  - destruct (status_shortprint_ok s) as [[]| |]; try discriminate. split; [discriminate|auto].
Qed.
Lemma nl_bytes : bytes_of newline = ["010"%char].
Proof. reflexivity. Qed.
Definition line_free (s : string) : Prop := ~ In "010"%char (bytes_of s).
Lemma line_free_app : forall a b, line_free a -> line_free b -> line_free (a ++ b).
Proof. unfold line_free. intros a b A B. rewrite bytes_app, in_app_iff. tauto. Qed.
Lemma scut : forall a a' b b', line_free a -> line_free a' -> a ++ newline ++ b = a' ++ newline ++ b' -> a = a' /\ b = b'.
Proof.
  intros a a' b b' A A' E. apply (f_equal bytes_of) in E. rewrite !bytes_app, nl_bytes in E. cbn [app] in E.
  destruct (cut_unique _ _ _ _ _ A A' E) as [E1 E2]. split; apply bytes_eq; auto.
Qed.
Lemma scut_any : forall c a a' b b', ~ In c (bytes_of a) -> ~ In c (bytes_of a') -> a ++ String c b = a' ++ String c b' -> a = a' /\ b = b'.
Proof.
  intros c a a' b b' A A' E. apply (f_equal bytes_of) in E. rewrite !bytes_app, !bytes_cons in E.
  destruct (cut_unique _ _ _ _ _ A A' E) as [E1 E2]. split; apply bytes_eq; auto.
Qed.
(** The same from the end *)
Lemma scut_end : forall a a' b b', line_free b -> line_free b' -> a ++ newline ++ b = a' ++ newline ++ b' -> a = a' /\ b = b'.
Proof.
  intros a a' b b' B B' E. apply (f_equal (fun s => rev (bytes_of s))) in E. rewrite !bytes_app, nl_bytes in E. rewrite !rev_app_distr in E. cbn [rev app] in E.
  rewrite <- !app_assoc in E. cbn [app] in E.
  destruct (cut_unique "010"%char (rev (bytes_of b)) (rev (bytes_of b')) _ _ ltac:(rewrite <- in_rev; exact B) ltac:(rewrite <- in_rev; exact B') E) as [E1 E2].
  split; apply bytes_eq; [rewrite <- (rev_involutive (bytes_of a)), E2, rev_involutive|rewrite <- (rev_involutive (bytes_of b)), E1, rev_involutive]; reflexivity.
Qed.
Lemma scancel : forall a b c : string, a ++ b = a ++ c -> b = c.
Proof. induction a as [|x a IH]; intros b c E; [exact E|]. cbn in E. injection E as E. auto. Qed.

Lemma decimal_chars : forall l n, decimal l n -> Forall (fun a => 48 <= N_of_ascii a < 58) l.
Proof.
  intros l n D. induction D as [d L|l n d D IH L].
  - constructor; [|constructor]. rewrite N_ascii_embedding; lia.
  - apply Forall_app. split; auto. constructor; [|constructor]. rewrite N_ascii_embedding; lia.
Qed.
Lemma itoa_chars : forall n c, In c (bytes_of (itoa n)) -> 48 <= N_of_ascii c < 58.
Proof. intros n c I. pose proof (decimal_chars _ _ (itoa_decimal n)) as F. rewrite Forall_forall in F. auto. Qed.
Lemma sixteen_chars : forall d, d < 16 -> 48 <= N_of_ascii (sixteen d) < 103.
Proof. intros d L. unfold sixteen. destruct (N.ltb_spec d 10); rewrite N_ascii_embedding; lia. Qed.
Lemma hex_chars : forall n c, In c (bytes_of (hex n)) -> 48 <= N_of_ascii c < 103.
Proof.
  intros n c. destruct (hex_is n) as [D _]. induction D as [d L|l m d D IH L].
  - intros [<-|[]]. apply sixteen_chars, L.
  - rewrite in_app_iff. intros [I|[<-|[]]]; [auto|apply sixteen_chars, L].
Qed.
Lemma zitoa_chars : forall z c, In c (bytes_of (zitoa z)) -> N_of_ascii c = 45 \/ 48 <= N_of_ascii c < 58.
Proof.
  intros z c. unfold zitoa. destruct (z <? 0)%Z.
  - rewrite bytes_app, in_app_iff. intros [[<-|[]]|I]; [left; reflexivity|right; exact (itoa_chars _ _ I)].
  - intros I. right. exact (itoa_chars _ _ I).
Qed.
Lemma itoa_free : forall n, line_free (itoa n).
Proof. intros n I. apply itoa_chars in I. cbn in I. lia. Qed.
Lemma hex_free : forall n, line_free (hex n).
Proof. intros n I. apply hex_chars in I. cbn in I. lia. Qed.
Lemma zitoa_inj : forall a b, zitoa a = zitoa b -> a = b.
Proof.
  intros a b E. unfold zitoa in E. destruct (Z.ltb_spec a 0) as [A|A]; destruct (Z.ltb_spec b 0) as [B|B].
  - apply scancel in E. apply itoa_inj in E. lia.
  - exfalso. assert (I : In "-"%char (bytes_of (itoa (Z.to_N b)))) by (rewrite <- E; left; reflexivity). apply itoa_chars in I. cbn in I. lia.
  - exfalso. assert (I : In "-"%char (bytes_of (itoa (Z.to_N a)))) by (rewrite E; left; reflexivity). apply itoa_chars in I. cbn in I. lia.
  - apply itoa_inj in E. lia.
Qed.
Lemma hex_bytes_free : forall l, line_free (hex_bytes l).
Proof.
  intros l. unfold line_free. assert (E : bytes_of (hex_bytes l) = two_digits l) by (apply hex_bytes_spec; reflexivity). rewrite E.
  induction l as [|a l IH]; [auto|]. pose proof (N_ascii_bounded a). cbn [two_digits].
  assert (N1 : N_of_ascii a / 16 < 16) by (apply N.div_lt_upper_bound; lia). assert (N2 : N_of_ascii a mod 16 < 16) by (apply N.mod_lt; lia).
  apply sixteen_chars in N1, N2. intros [I|[I|I]]; [rewrite I in N1; cbn in N1; lia|rewrite I in N2; cbn in N2; lia|auto]. apply IH; [apply hex_bytes_spec; reflexivity|exact I].
Qed.
Lemma hex_bytes_inj : forall l l', hex_bytes l = hex_bytes l' -> l = l'.
Proof.
  induction l as [|a l IH]; intros [|b l'] E; auto; try discriminate. cbn [hex_bytes] in E. injection E as E1 E2 E3.
  pose proof (N_ascii_bounded a). pose proof (N_ascii_bounded b).
  rewrite !hex_digit_spec in E1 by (apply N.div_lt_upper_bound; lia). rewrite !hex_digit_spec in E2 by (apply N.mod_lt; lia).
  apply sixteen_inj in E1; [|apply N.div_lt_upper_bound; lia..]. apply sixteen_inj in E2; [|apply N.mod_lt; lia..].
  assert (N_of_ascii a = N_of_ascii b) as X by (rewrite (N.div_mod (N_of_ascii a) 16), (N.div_mod (N_of_ascii b) 16) by lia; congruence).
  f_equal; [|auto]. rewrite <- (ascii_N_embedding a), <- (ascii_N_embedding b), X. reflexivity.
Qed.
Ltac litfree := let I := fresh in intros I; cbn in I; repeat (destruct I as [I|I]; [discriminate|]); exact I.
Lemma append_int_free : forall x w, line_free (append_int x w).
Proof.
  intros x w. unfold append_int. apply line_free_app; [destruct (x <? 0)%Z; litfree|].
  apply line_free_app; [|apply itoa_free]. unfold line_free. rewrite bytes_of_string_of. intros I. apply repeat_spec in I. discriminate.
Qed.
Lemma nth_free : forall l i, Forall line_free l -> line_free (nth i l "").
Proof. intros l i F. destruct (nth_in_or_default i l "") as [I| ->]; [rewrite Forall_forall in F; auto|intros []]. Qed.
Lemma time_format_free : forall milli t, line_free (time_format milli t).
Proof.
  intros milli t. unfold time_format. destruct (abs_date _) as [[y mo] d].
  repeat match goal with |- line_free (_ ++ _) => apply line_free_app end; try apply append_int_free; try litfree.
  - apply nth_free. repeat apply Forall_cons; try apply Forall_nil; litfree.
  - apply nth_free. repeat apply Forall_cons; try apply Forall_nil; litfree.
  - destruct (d <? 10)%Z; litfree.
  - destruct milli; [|litfree]. apply line_free_app; [litfree|apply append_int_free].
Qed.
Lemma numeric_cases : forall t, numeric t -> t_header t = 1 \/ t_header t = 2 \/ t_header t = 3 \/ t_header t = 4 \/ t_header t = 5.
Proof.
  intros t. unfold numeric, ts_type. destruct (t_header t) as [|p]; [congruence|].
  do 3 (try (destruct p as [p|p|]; cbv iota)); try congruence; auto 6.
Qed.
Lemma numeric_name : forall t, numeric t -> In (st_getstr sar (t_header t)) (map Ret ["posix32"; "posix64"; "posix32_32"; "posix64_32"; "epoch2000_32"]).
Proof. intros t N. apply numeric_cases in N. destruct N as [H|[H|[H|[H|H]]]]; rewrite H; vm_compute; tauto. Qed.
Lemma numeric_free : forall t x, numeric t -> ts_print t = Ret x -> line_free x.
Proof.
  intros t x N. apply numeric_name in N. unfold ts_print.
  assert (T : forall b u, Ret (time_format b u) = Ret x -> line_free x) by (intros b u E; apply (proj1 (ret_iff _ _)) in E; rewrite E; apply time_format_free).
  cbn [map In] in N. destruct N as [H|[H|[H|[H|[H|[]]]]]]; rewrite <- H; cbn [obind].
  - change (one_of "posix32" ["posix32"; "posix64"]) with true. cbv iota. apply T.
  - change (one_of "posix64" ["posix32"; "posix64"]) with true. cbv iota. apply T.
  - change (one_of "posix32_32" ["posix32"; "posix64"]) with false. change (one_of "posix32_32" ["posix32_32"; "posix64_32"]) with true. cbv iota. apply T.
  - change (one_of "posix64_32" ["posix32"; "posix64"]) with false. change (one_of "posix64_32" ["posix32_32"; "posix64_32"]) with true. cbv iota. apply T.
  - change (one_of "epoch2000_32" ["posix32"; "posix64"]) with false. change (one_of "epoch2000_32" ["posix32_32"; "posix64_32"]) with false.
    change (String.eqb "epoch2000_32" "epoch2000_32") with true. cbv iota zeta. apply T.
Qed.
Lemma text_cons : forall p ps t, text_of (p :: ps) = Ret t -> exists x y, part_of p = Ret x /\ text_of ps = Ret y /\ t = x ++ y.
Proof.
  intros p ps t. cbn [text_of]. destruct (part_of p) as [x| |]; cbn [obind]; try discriminate. destruct (text_of ps) as [y| |]; cbn [obind]; try discriminate.
  intros E. injection E as <-. eauto.
Qed.
Lemma text_cong : forall p q ps qs, part_of p = part_of q -> text_of ps = text_of qs -> text_of (p :: ps) = text_of (q :: qs).
Proof. intros p q ps qs E1 E2. cbn [text_of]. rewrite E1, E2. reflexivity. Qed.
Lemma text_lit : forall s ps t, text_of (Lit s :: ps) = Ret t -> exists y, text_of ps = Ret y /\ t = s ++ y.
Proof. intros s ps t T. apply text_cons in T as (x & y & X & Y & ->). injection X as <-. eauto. Qed.
(** Two texts that are the same and start with the same words *)
Lemma same_lit : forall s ps qs t, text_of (Lit s :: ps) = Ret t -> text_of (Lit s :: qs) = Ret t -> exists y, text_of ps = Ret y /\ text_of qs = Ret y.
Proof. intros s ps qs t P Q. apply text_lit in P as (y & P & ->). apply text_lit in Q as (z & Q & E). apply scancel in E as ->. eauto. Qed.
(** … with something in front of the same character that neither has *)
Definition lacks (c : ascii) (p : part) : Prop := forall x, part_of p = Ret x -> ~ In c (bytes_of x).
Lemma same_until : forall c s p q ps qs t, lacks c p -> lacks c q -> text_of (p :: Lit (String c s) :: ps) = Ret t -> text_of (q :: Lit (String c s) :: qs) = Ret t ->
  part_of p = part_of q /\ exists y, text_of ps = Ret y /\ text_of qs = Ret y.
Proof.
  intros c s p q ps qs t LP LQ P Q. apply text_cons in P as (x & y & P & Y & ->). apply text_cons in Q as (x' & y' & Q & Y' & E).
  apply text_lit in Y as (z & Y & ->). apply text_lit in Y' as (z' & Y' & ->).
  change (x ++ String c (s ++ z) = x' ++ String c (s ++ z')) in E. apply scut_any in E as [-> E]; [|auto|auto]. apply scancel in E as ->. split; [congruence|eauto].
Qed.
Lemma same_last : forall p q t, text_of [p] = Ret t -> text_of [q] = Ret t -> part_of p = part_of q.
Proof.
  intros p q t P Q. apply text_cons in P as (x & y & P & Y & ->). apply text_cons in Q as (x' & y' & Q & Y' & E). injection Y as <-. injection Y' as <-.
  rewrite !sapp_nil in E. congruence.
Qed.
Lemma lacks_dec : forall c n, ~ (48 <= N_of_ascii c < 58) -> lacks c (Dec n).
Proof. intros c n NC x X I. injection X as <-. apply itoa_chars in I. auto. Qed.
Lemma lacks_hex : forall n, lacks "010"%char (Hex n).
Proof. intros n x X. injection X as <-. apply hex_free. Qed.
Lemma lacks_sum : forall n, lacks "010"%char (Sum n).
Proof. intros n x X. injection X as <-. apply hex_bytes_free. Qed.
Lemma lacks_time : forall t, numeric t -> lacks "010"%char (Time t).
Proof. intros t N x X. eapply numeric_free; eauto. Qed.
Lemma lacks_int : forall c n, N_of_ascii c <> 45 -> ~ (48 <= N_of_ascii c < 58) -> lacks c (Int n).
Proof. intros c n N1 N2 x X I. injection X as <-. apply zitoa_chars in I. tauto. Qed.
Lemma hex_same : forall n m, part_of (Hex n) = part_of (Hex m) -> n = m.
Proof. intros n m E. apply hex_inj. cbn [part_of] in E. congruence. Qed.
Lemma dec_same : forall n m, part_of (Dec n) = part_of (Dec m) -> n = m.
Proof. intros n m E. apply itoa_inj. cbn [part_of] in E. congruence. Qed.
Lemma int_same : forall n m, part_of (Int n) = part_of (Int m) -> n = m.
Proof. intros n m E. apply zitoa_inj. cbn [part_of] in E. congruence. Qed.
Lemma sum_same : forall n m, part_of (Sum n) = part_of (Sum m) -> n = m.
Proof. intros n m E. apply hex_bytes_inj. cbn [part_of] in E. congruence. Qed.

Ltac lacking := first [apply lacks_hex | apply lacks_sum | apply lacks_dec; cbn; lia | apply lacks_int; cbn; lia | apply lacks_time; auto].
Ltac lit P Q := let y := fresh "y" in let P' := fresh in let Q' := fresh in destruct (same_lit _ _ _ _ P Q) as (y & P' & Q'); clear P Q; rename P' into P, Q' into Q.
Ltac until P Q E := let y := fresh "y" in let P' := fresh in let Q' := fresh in
  match type of P with text_of (?p :: Lit (String ?c ?s) :: ?ps) = Ret ?t => match type of Q with text_of (?q :: _ :: ?qs) = _ =>
    destruct (fun LP LQ => same_until c s p q ps qs t LP LQ P Q) as (E & y & P' & Q'); [lacking|lacking|] end end; clear P Q; rename P' into P, Q' into Q.
Lemma nl_is : nl = Lit (String "010" "").
Proof. reflexivity. Qed.

Lemma beacon_same : forall b c t, text_of (beacon_says b) = Ret t -> text_of (beacon_says c) = Ret t -> same_shown (FBeacon b) (FBeacon c).
Proof.
  intros b c t P Q. unfold beacon_says in P, Q. cbn [app] in P, Q. rewrite nl_is in P, Q. lit P Q. until P Q H. apply hex_same in H. rewrite <- H in Q. cbn [same_shown].
  split; [exact H|]. destruct (N.eqb_spec (hd_freespace (b_header b)) 1) as [F|F]; cbn [app] in P, Q.
  - lit P Q. until P Q HS. apply dec_same in HS. lit P Q. lit P Q. apply same_last with (1 := P) in Q. cbn [part_of] in Q. split; [auto|congruence].
  - lit P Q. apply same_last with (1 := P) in Q. cbn [part_of] in Q. split; [tauto|congruence].
Qed.
Ltac last P Q := apply same_last with (1 := P) in Q.
Lemma data_same : forall b c t, clear_times (FData b) -> clear_times (FData c) -> text_of (data_says b) = Ret t -> text_of (data_says c) = Ret t -> same_shown (FData b) (FData c).
Proof.
  intros b c t N1 N2 P Q. unfold data_says in P, Q. cbn [app] in P, Q. rewrite nl_is in P, Q. cbn [clear_times] in N1, N2. lit P Q. until P Q H. apply hex_same in H. rewrite <- H in Q, N2. cbn [same_shown].
  split; [exact H|].
  assert (X : (hd_reqtstamp (d_header b) = 1 -> same_time (d_tstamp b) (d_tstamp c)) /\ exists y,
    text_of ([Lit "  session:"; Dec (d_session b); Lit ",  offset:"; Dec (d_offset b); Lit ",  paylen:"; Dec (N.of_nat (length (d_payload b)))]) = Ret y /\
    text_of ([Lit "  session:"; Dec (d_session c); Lit ",  offset:"; Dec (d_offset c); Lit ",  paylen:"; Dec (N.of_nat (length (d_payload c)))]) = Ret y).
  { destruct (N.eqb_spec (hd_reqtstamp (d_header b)) 1) as [F|F]; cbn [app] in P, Q.
    - lit P Q. until P Q HS. cbn [part_of] in HS. split; [auto|eauto].
    - split; [tauto|eauto]. }
  destruct X as [T (yy & P' & Q')]. split; [exact T|]. clear P Q. rename P' into P, Q' into Q.
  lit P Q. until P Q HS. until P Q HO. last P Q. apply dec_same in HS, HO, Q. repeat split; auto. lia.
Qed.
Lemma request_same : forall b c t, text_of (request_says b) = Ret t -> text_of (request_says c) = Ret t -> same_shown (FRequest b) (FRequest c).
Proof.
  intros b c t P Q. unfold request_says in P, Q. rewrite nl_is in P, Q. lit P Q. until P Q H. lit P Q. until P Q HS. lit P Q. apply hex_same in H. apply dec_same in HS.
  repeat split; auto. unfold auth_line. cbn [text_of part_of obind] in P, Q. rewrite !sapp_nil in P, Q. apply (proj1 (ret_iff _ _)) in P, Q. rewrite P in Q. exact Q.
Qed.
Lemma status_same : forall b c t, clear_times (FStatus b) -> clear_times (FStatus c) -> text_of (status_says b) = Ret t -> text_of (status_says c) = Ret t -> same_shown (FStatus b) (FStatus c).
Proof.
  intros b c t N1 N2 P Q. unfold status_says in P, Q. cbn [app] in P, Q. rewrite nl_is in P, Q. cbn [clear_times] in N1, N2. lit P Q. until P Q H. lit P Q. until P Q HS.
  apply hex_same in H. apply dec_same in HS. rewrite <- H in Q, N2. cbn [same_shown].
  split; [exact H|]. split; [exact HS|].
  assert (X : (hd_reqtstamp (s_header b) = 1 -> same_time (s_tstamp b) (s_tstamp c)) /\ exists y,
    text_of ([Flag (s_header b) "errcode"; nl; Lit "  progress:"; Dec (s_progress b); nl; Lit "  inrespto:"; Dec (s_inrespto b); nl; Lit "  numb holes:"; Dec (N.of_nat (length (s_holes b)))]) = Ret y /\
    text_of ([Flag (s_header b) "errcode"; nl; Lit "  progress:"; Dec (s_progress c); nl; Lit "  inrespto:"; Dec (s_inrespto c); nl; Lit "  numb holes:"; Dec (N.of_nat (length (s_holes c)))]) = Ret y).
  { destruct (N.eqb_spec (hd_reqtstamp (s_header b)) 1) as [F|F]; cbn [app] in P, Q.
    - lit P Q. until P Q HT. lit P Q. cbn [part_of] in HT. split; [auto|eauto].
    - lit P Q. split; [tauto|eauto]. }
  destruct X as [T (yy & P' & Q')]. split; [exact T|]. clear P Q.
  apply text_cons in P' as (n & r & F & P & E). apply text_cons in Q' as (n' & r' & F' & Q & E'). rewrite F in F'. injection F' as ->. rewrite E in E'. apply scancel in E' as <-. clear E F.
  rewrite nl_is in P, Q. lit P Q. lit P Q. until P Q HP. lit P Q. until P Q HI. lit P Q. last P Q. apply dec_same in HP, HI, Q. repeat split; auto. lia.
Qed.
(** The end of the text of a directory entry, read backwards *)
Lemma entry_end : forall d e t, numeric (de_mtime d) -> numeric (de_mtime e) -> numeric (de_ctime d) -> numeric (de_ctime e) ->
  text_of [Lit (de_path d); nl; Lit "    Size:"; Dec (de_size d); nl; Lit "    Mtime:"; Time (de_mtime d); nl; Lit "    Ctime:"; Time (de_ctime d)] = Ret t ->
  text_of [Lit (de_path e); nl; Lit "    Size:"; Dec (de_size e); nl; Lit "    Mtime:"; Time (de_mtime e); nl; Lit "    Ctime:"; Time (de_ctime e)] = Ret t ->
  de_path d = de_path e /\ de_size d = de_size e /\ same_time (de_mtime d) (de_mtime e) /\ same_time (de_ctime d) (de_ctime e).
Proof.
  intros d e t Md Me Cd Ce P Q. cbn [text_of part_of nl] in P, Q. change (String (ascii_of_N 10) "") with newline in P, Q. cbn [obind] in P, Q.
  destruct (ts_print (de_mtime d)) as [md| |] eqn:MD; cbn [obind] in P; try discriminate.
  destruct (ts_print (de_ctime d)) as [cd| |] eqn:CD; cbn [obind] in P; try discriminate.
  destruct (ts_print (de_mtime e)) as [me| |] eqn:ME; cbn [obind] in Q; try discriminate.
  destruct (ts_print (de_ctime e)) as [ce| |] eqn:CE; cbn [obind] in Q; try discriminate.
  apply (proj1 (ret_iff _ _)) in P, Q. rewrite P in Q. clear P t. rewrite !sapp_nil in Q.
  pose proof (numeric_free _ _ Md MD) as FMd. pose proof (numeric_free _ _ Me ME) as FMe. pose proof (numeric_free _ _ Cd CD) as FCd. pose proof (numeric_free _ _ Ce CE) as FCe.
  assert (R : forall p s m c, p ++ newline ++ "    Size:" ++ s ++ newline ++ "    Mtime:" ++ m ++ newline ++ "    Ctime:" ++ c =
    (((p ++ newline ++ "    Size:" ++ s) ++ newline ++ "    Mtime:" ++ m) ++ newline ++ "    Ctime:" ++ c)) by (intros; rewrite !sapp_assoc; reflexivity).
  rewrite !R in Q.
  apply scut_end in Q as [Q C]; [|apply line_free_app; [litfree|auto]..].
  apply scut_end in Q as [Q M]; [|apply line_free_app; [litfree|auto]..].
  apply scut_end in Q as [Q S']; [|apply line_free_app; [litfree|apply itoa_free]..].
  apply scancel in C, M, S'. apply itoa_inj in S'. unfold same_time. rewrite MD, ME, CD, CE. repeat split; congruence.
Qed.
Lemma meta_same : forall b c t, clear_times (FMetadata b) -> clear_times (FMetadata c) -> text_of (meta_says b) = Ret t -> text_of (meta_says c) = Ret t -> same_shown (FMetadata b) (FMetadata c).
Proof.
  intros b c t [N1 N2] [M1 M2] P Q. unfold meta_says in P, Q. cbn [app] in P, Q. rewrite nl_is in P, Q. lit P Q. until P Q H. lit P Q. until P Q HS.
  apply hex_same in H. apply dec_same in HS. cbn [same_shown].
  split; [exact H|]. split; [exact HS|].
  assert (X : (hd_csumtype (m_header b) <> 0 -> m_checksum b = m_checksum c) /\ exists y,
    text_of (entry_says "  Dir Entry: 0x" [] (m_dir b)) = Ret y /\ text_of (entry_says "  Dir Entry: 0x" [] (m_dir c)) = Ret y).
  { unfold sum_says in P, Q. rewrite <- H in Q. destruct (N.eqb_spec (hd_csumtype (m_header b)) 0) as [F|F]; cbn [app] in P, Q.
    - split; [tauto|eauto].
    - lit P Q. lit P Q. lit P Q.
      apply text_cons in P as (n & r & G & P & E). apply text_cons in Q as (n' & r' & G' & Q & E'). rewrite G in G'. injection G' as ->. rewrite E in E'. apply scancel in E' as <-.
      rewrite nl_is in P, Q. lit P Q. until P Q HC. apply sum_same in HC. split; [auto|eauto]. }
  destruct X as [K (z & P' & Q')]. split; [exact K|]. clear P Q. rename P' into P, Q' into Q.
  unfold entry_says in P, Q. cbn [app flat_map] in P, Q. rewrite nl_is in P, Q. lit P Q. until P Q HD. apply hex_same in HD. split; [exact HD|]. lit P Q.
  rewrite <- nl_is in P, Q. exact (entry_end _ _ _ N1 M1 N2 M2 P Q).
Qed.

(** C113: two frames have the same text exactly if they are of the same kind and agree in
    everything the text shows. *)
Lemma c113_same : forall f g text, clear_times f -> clear_times g -> frame_shortprint f = Ret text -> (frame_shortprint g = Ret text <-> same_shown f g).
Proof.
  intros f g text Cf Cg. rewrite !short_is. intros P. split.
  - intros Q. destruct f as [b|b|b|b|b], g as [c|c|c|c|c]; cbn [says] in P, Q;
    try (exfalso; unfold beacon_says, data_says, request_says, status_says, meta_says in P, Q; cbn [app] in P, Q;
         apply text_lit in P as (u & _ & ->); apply text_lit in Q as (v & _ & E); discriminate E).
    + eapply beacon_same; eauto.
    + eapply request_same; eauto.
    + eapply meta_same; eauto.
    + eapply data_same; eauto.
    + eapply status_same; eauto.
  - intros S. rewrite <- P. clear P. destruct f as [b|b|b|b|b], g as [c|c|c|c|c]; cbn [same_shown] in S; try tauto; cbn [says].
    + destruct S as (H & F & E). unfold beacon_says. rewrite <- H, <- E. destruct (N.eqb_spec (hd_freespace (b_header b)) 1) as [G|G]; [rewrite (F G)|]; reflexivity.
    + destruct S as (H & S & A). unfold request_says. rewrite <- H, <- S. do 7 (apply text_cong; [reflexivity|]).
      cbn [text_of part_of nl obind]. rewrite !sapp_nil. unfold auth_line in A. rewrite A. reflexivity.
    + destruct S as (H & S & K & D & PP & Z & M & C). unfold meta_says. rewrite <- H, <- S. do 6 (apply text_cong; [reflexivity|]).
      assert (E : text_of (entry_says "  Dir Entry: 0x" [] (m_dir c)) = text_of (entry_says "  Dir Entry: 0x" [] (m_dir b))).
      { unfold entry_says. rewrite <- D, <- PP, <- Z. cbn [app flat_map]. do 10 (apply text_cong; [reflexivity|]). apply text_cong; [symmetry; exact M|].
        do 2 (apply text_cong; [reflexivity|]). apply text_cong; [symmetry; exact C|reflexivity]. }
      unfold sum_says. rewrite <- H. destruct (N.eqb_spec (hd_csumtype (m_header b)) 0) as [F|F]; cbn [app]; [exact E|]. rewrite (K F).
      do 7 (apply text_cong; [reflexivity|]). exact E.
    + destruct S as (H & T & S & O' & L). unfold data_says. rewrite <- H, <- S, <- O', <- L. do 3 (apply text_cong; [reflexivity|]).
      destruct (N.eqb_spec (hd_reqtstamp (d_header b)) 1) as [F|F]; [|reflexivity]. cbn [app]. apply text_cong; [reflexivity|]. apply text_cong; [symmetry; exact (T F)|reflexivity].
    + destruct S as (H & S & T & PP & I & L). unfold status_says. rewrite <- H, <- S, <- PP, <- I, <- L. do 6 (apply text_cong; [reflexivity|]).
      destruct (N.eqb_spec (hd_reqtstamp (s_header b)) 1) as [F|F]; [|reflexivity]. cbn [app]. apply text_cong; [reflexivity|]. apply text_cong; [symmetry; exact (T F)|reflexivity].
Qed.

Lemma same_prefix : forall A B C t, text_of (A ++ B) = Ret t -> text_of (A ++ C) = Ret t -> exists y, text_of B = Ret y /\ text_of C = Ret y.
Proof.
  induction A as [|p A IH]; intros B C t P Q; [eauto|]. cbn [app] in P, Q.
  apply text_cons in P as (x & y & X & P & ->). apply text_cons in Q as (x' & y' & X' & Q & E). rewrite X in X'. injection X' as <-. apply scancel in E as <-. eauto.
Qed.
Lemma holes_same : forall hs gs i t, text_of (flat_map hole_says (combine (seq i (length hs)) hs)) = Ret t -> text_of (flat_map hole_says (combine (seq i (length gs)) gs)) = Ret t -> hs = gs.
Proof.
  induction hs as [|h hs IH]; intros [|g gs] i t P Q; cbn [length seq combine flat_map hole_says app fst snd] in P, Q; auto.
  - apply (proj1 (ret_iff _ _)) in P. subst t. apply text_lit in Q as (y & _ & E). discriminate.
  - apply (proj1 (ret_iff _ _)) in Q. subst t. apply text_lit in P as (y & _ & E). discriminate.
  - rewrite nl_is in P, Q. lit P Q. until P Q HX. until P Q HA. until P Q HB. apply int_same in HA, HB. f_equal; [destruct h, g; cbn in *; congruence|].
    eapply (IH gs (S i)); eauto.
Qed.

(** C113: the long text of a status tells everything a status holds. *)
Lemma c113_status : forall s q text, clear_times (FStatus s) -> clear_times (FStatus q) -> status_print s = Ret text -> (status_print q = Ret text <-> same_status s q).
Proof.
  intros b c t N1 N2. rewrite !status_print_is. intros P. split.
  - intros Q. unfold status_tells in P, Q. cbn [app] in P, Q. rewrite nl_is in P, Q. cbn [clear_times] in N1, N2. lit P Q. until P Q H. apply hex_same in H. rewrite <- H in Q, N2.
    unfold same_status. split; [exact H|]. apply same_prefix with (1 := P) in Q as (z & P' & Q'). clear P. rename P' into P, Q' into Q. lit P Q. until P Q HS. apply dec_same in HS. split; [exact HS|].
    assert (X : (hd_reqtstamp (s_header b) = 1 -> same_time (s_tstamp b) (s_tstamp c)) /\ exists y,
    text_of ([Dec (s_progress b); Lit "  inresponseto:"; Dec (s_inrespto b); nl] ++ flat_map hole_says (combine (seq 0 (length (s_holes b))) (s_holes b))) = Ret y /\
    text_of ([Dec (s_progress c); Lit "  inresponseto:"; Dec (s_inrespto c); nl] ++ flat_map hole_says (combine (seq 0 (length (s_holes c))) (s_holes c))) = Ret y).
    { destruct (N.eqb_spec (hd_reqtstamp (s_header b)) 1) as [F|F]; cbn [app] in P, Q.
      - lit P Q. until P Q HT. lit P Q. cbn [part_of] in HT. split; [auto|eauto].
      - lit P Q. split; [tauto|eauto]. }
    destruct X as [T (yy & P' & Q')]. split; [exact T|]. clear P Q. rename P' into P, Q' into Q. cbn [app] in P, Q. rewrite nl_is in P, Q. until P Q HP. until P Q HI. apply dec_same in HP, HI.
    repeat split; auto. eapply holes_same; eauto.
  - intros (H & S & T & PP & I & L). rewrite <- P. unfold status_tells. rewrite <- H, <- S, <- PP, <- I, <- L. clear P. cbn [app]. do 3 (apply text_cong; [reflexivity|]).
    set (fl := flags_say _ _). clearbody fl. induction fl as [|p fl IH]; [|cbn [app]; apply text_cong; [reflexivity|exact IH]].
    cbn [app]. do 3 (apply text_cong; [reflexivity|]).
    destruct (N.eqb_spec (hd_reqtstamp (s_header b)) 1) as [F|F]; [|reflexivity]. cbn [app]. apply text_cong; [reflexivity|]. apply text_cong; [symmetry; exact (T F)|reflexivity].
Qed.

Lemma stamp_numeric : forall f t0, ts_verdict f = Accept -> hd_reqtstamp (number_at f 0 4) = 1 -> numeric (ts_read t0 f).
Proof.
  intros f t0 V R. unfold ts_read. rewrite R. change (1 =? 1) with true. cbv iota.
  unfold ts_verdict in V. rewrite R in V. change (1 =? 1) with true in V. cbv iota zeta in V.
  destruct (Nat.ltb_spec (length f) 24) as [|L]; [discriminate|].
  pose proof (ts_verdict_spec f L R) as S. unfold ts_verdict in S. rewrite R in S. change (1 =? 1) with true in S. cbv iota zeta in S.
  destruct (Nat.ltb_spec (length f) 24); [lia|]. rewrite V in S.
  destruct (ts_at f 8) as [t|] eqn:T; [|destruct (number_at f 8 1 =? 0); discriminate].
  unfold ts_at in T. destruct (ts_type (number_at f 8 1)) as [l|] eqn:TT; [|discriminate]. inversion T; subst t. unfold numeric. cbn [t_header]. rewrite TT. discriminate.
Qed.
(** C113: the frames the listeners hand on are of that kind. *)
Lemma c113_heard : forall now mtu dgram from p, listen_one now mtu dgram from = Ret (ToRx p) -> clear_times (pk_info p).
Proof.
  intros now mtu f from p H. destruct (c55_whole now mtu f from p H) as (L8 & LZ & A & FI).
  pose proof (c56_fate now mtu f from) as FT. rewrite H in FT. cbn [fate_of] in FT. symmetry in FT.
  unfold datagram_fate in FT. destruct (fits_mtu_b mtu f); [|discriminate]. cbv zeta in FT.
  destruct (SpecListen.hd_version (number_at f 0 4)) as [|[q|q|]] eqn:HV; try discriminate.
  unfold frame_in in FI. cbv zeta in FI. set (h := number_at f 0 4) in *.
  destruct (SpecListen.hd_frametype h) as [|[[r|r|]|[r|[r|r|]|]|]] eqn:HF; try discriminate.
  - destruct (space_width h); [|discriminate]. injection FI as FI. rewrite <- FI. exact I.
  - destruct (descriptor_width (hd_descriptor h)); [|discriminate]. injection FI as FI. rewrite <- FI. cbn [clear_times d_header d_tstamp]. intros R. apply stamp_numeric; [|exact R].
    destruct (data_verdict f) eqn:V; try discriminate. unfold data_verdict in V. destruct (Nat.ltb _ _); [discriminate|]. destruct (ts_verdict f); auto; discriminate.
  - destruct (descriptor_width (hd_descriptor h)); [|discriminate]. injection FI as FI. rewrite <- FI. cbn [clear_times s_header s_tstamp]. intros R. apply stamp_numeric; [|exact R].
    destruct (status_verdict f) eqn:V; try discriminate. unfold status_verdict in V. destruct (Nat.ltb _ _); [discriminate|]. destruct (ts_verdict f); auto; discriminate.
  - destruct (descriptor_width _); [|discriminate]. injection FI as FI. rewrite <- FI. cbn [clear_times]. unfold numeric. cbn. split; discriminate.
  - injection FI as FI. rewrite <- FI. exact I.
Qed.

(** C114: bytes after a beacon. *)
Lemma number_at_front : forall f e i k, (i + k <= length f)%nat -> number_at (f ++ e) i k = number_at f i k.
Proof.
  intros f e i k L. unfold number_at. rewrite skipn_app. rewrite firstn_app. rewrite skipn_length.
  replace (k - (length f - i))%nat with 0%nat by lia. cbn [firstn]. rewrite app_nil_r. reflexivity.
Qed.
Lemma bytes_to_string : forall a b : list byte, string_of (a ++ b) = string_of a ++ string_of b.
Proof. intros a b. apply bytes_eq. rewrite bytes_app, !bytes_of_string_of. reflexivity. Qed.
Lemma string_of_bytes : forall s, string_of (bytes_of s) = s.
Proof. intros s. apply bytes_eq. apply bytes_of_string_of. Qed.
Lemma longer_beacon : forall now mtu dgram from b extra, listen_one now mtu dgram from = Ret (ToRx {| pk_addr := from; pk_info := FBeacon b |}) ->
  forall now' mtu', (Z.of_nat (length dgram + String.length extra) <= mtu' - 60)%Z ->
  listen_one now' mtu' (dgram ++ bytes_of extra) from =
  Ret (ToRx {| pk_addr := from; pk_info := FBeacon {| b_header := b_header b; b_freespace := b_freespace b; b_eid := b_eid b ++ extra |} |}).
Proof.
  intros now mtu f from b x H now' mtu' F. destruct (c55_whole _ _ _ _ _ H) as (L8 & LZ & A & FI).
  pose proof (c56_fate now mtu f from) as FT. rewrite H in FT. cbn [fate_of] in FT. symmetry in FT.
  unfold datagram_fate in FT. destruct (fits_mtu_b mtu f); [|discriminate]. cbv zeta in FT.
  destruct (SpecListen.hd_version (number_at f 0 4)) as [|[q|q|]] eqn:HV; try discriminate.
  unfold frame_in in FI. cbv zeta in FI. cbn [pk_info] in FI.
  destruct (SpecListen.hd_frametype (number_at f 0 4)) as [|[[r|r|]|[r|[r|r|]|]|]] eqn:HF; try discriminate;
  try (destruct (descriptor_width _); discriminate).
  destruct (space_width (number_at f 0 4)) as [w|] eqn:W; [|discriminate]. apply (f_equal (fun o => match o with Some (FBeacon b) => b | _ => b end)) in FI. cbv beta iota in FI. rewrite <- FI. clear FI.
  assert (BV : beacon_verdict f = Accept) by (destruct (beacon_verdict f); auto; discriminate).
  unfold beacon_verdict in BV. destruct (Nat.ltb_spec (length f) 4); [discriminate|]. rewrite W in BV. destruct (Nat.ltb_spec (length f) (4 + w)) as [|L]; [discriminate|].
  pose proof (listen_spec now' mtu' (f ++ bytes_of x) from) as S.
  assert (LB : length (bytes_of x) = String.length x) by apply bytes_of_length.
  assert (D : datagram_fate mtu' (f ++ bytes_of x) = HandedOn).
  { unfold datagram_fate. assert (FM : fits_mtu_b mtu' (f ++ bytes_of x) = true) by (apply fits_mtu_iff; unfold fits_mtu; rewrite app_length, LB; lia).
    rewrite FM. cbv zeta. rewrite number_at_front by lia. rewrite HV, HF. unfold beacon_verdict. rewrite number_at_front by lia. rewrite W, app_length.
    destruct (Nat.ltb_spec (length f + length (bytes_of x)) 4); [lia|]. destruct (Nat.ltb_spec (length f + length (bytes_of x)) (4 + w)); [lia|]. reflexivity. }
  rewrite D in S. destruct S as (y & S & E). rewrite S. unfold frame_in in E. cbv zeta in E. rewrite number_at_front in E by lia. rewrite HF, W in E.
  rewrite number_at_front in E by lia. apply (f_equal (fun o => match o with Some z => z | None => y end)) in E. cbv beta iota in E. rewrite <- E. cbn [b_header b_freespace b_eid]. rewrite skipn_app. replace (4 + w - length f)%nat with 0%nat by lia. rewrite skipn_O, bytes_to_string, string_of_bytes. reflexivity.
Qed.
Lemma beacon_text_app : forall h n e x, frame_shortprint (FBeacon {| b_header := h; b_freespace := n; b_eid := e ++ x |}) =
  do t <- frame_shortprint (FBeacon {| b_header := h; b_freespace := n; b_eid := e |}); Ret (t ++ x).
Proof.
  intros h n e x. cbn [frame_shortprint]. unfold beacon_shortprint. cbn [b_header b_freespace b_eid]. destruct (sf_getstr sar h "freespace") as [v| |]; cbn [obind]; auto.
  rewrite !sapp_assoc. reflexivity.
Qed.
(** What shows a frame in the packet window *)
Definition rx_line (t : string) : string := painted true "white_black" ("Rx" ++ t).
Lemma rx_shown : forall fam f ls, rx_prints fam f = Ret ls -> exists t, frame_shortprint f = Ret t /\ shown_in VPacket ls = rx_line t.
Proof.
  intros fam f ls H. unfold rx_prints in H. destruct (frame_shortprint f) as [t| |] eqn:E; cbn [obind] in H; try discriminate.
  exists t. split; [reflexivity|]. apply (proj1 (ret_iff _ _)) in H. subst ls. destruct f; reflexivity.
Qed.
(** C114: a beacon can look like any number of packets: whatever packets follow in the window, the
    same is shown if some bytes are added to the beacon and nothing else is received (defect). *)
Lemma c114_forged : forall now mtu dgram from b fam frames shown,
  listen_one now mtu dgram from = Ret (ToRx {| pk_addr := from; pk_info := FBeacon b |}) ->
  Forall2 (fun f ls => rx_prints fam f = Ret ls) (FBeacon b :: frames) shown ->
  exists extra b' ls,
    (forall now' mtu', (Z.of_nat (List.length dgram + List.length extra) <= mtu' - 60)%Z ->
      listen_one now' mtu' (dgram ++ extra) from = Ret (ToRx {| pk_addr := from; pk_info := FBeacon b' |})) /\
    rx_prints fam (FBeacon b') = Ret ls /\
    shown_in VPacket ls = String.concat "" (map (shown_in VPacket) shown).
Proof.
  intros now mtu f from b fam frames shown H F. inversion F as [|f0 l0 fs shown' P F' E1 E2]; subst. clear F.
  destruct (rx_shown _ _ _ P) as (t0 & T0 & S0).
  assert (X : exists x, String.concat "" (map (shown_in VPacket) (l0 :: shown')) = rx_line (t0 ++ x)).
  { clear P T0 H. revert t0 l0 S0. induction F' as [|f1 l1 fs ls P1 F' IH]; intros t0 l0 S0.
    - exists "". cbn [map String.concat]. rewrite sapp_nil. exact S0.
    - destruct (rx_shown _ _ _ P1) as (t1 & T1 & S1). destruct (IH t1 l1 S1) as (x & X).
      exists (set_colour "off" ++ newline ++ set_colour "white_black" ++ "Rx" ++ t1 ++ x).
      change (String.concat "" (map (shown_in VPacket) (l0 :: l1 :: ls))) with (shown_in VPacket l0 ++ "" ++ String.concat "" (map (shown_in VPacket) (l1 :: ls))).
      rewrite X, S0. unfold rx_line, painted. change ("white_black" =? "")%string with false. cbv iota. rewrite !sapp_assoc. reflexivity. }
  destruct X as (x & X).
  exists (bytes_of x), {| b_header := b_header b; b_freespace := b_freespace b; b_eid := b_eid b ++ x |}, [CPrint VPacket true "white_black" ("Rx" ++ t0 ++ x)].
  split; [|split].
  - intros now' mtu' L. rewrite bytes_of_length in L. eapply longer_beacon; eauto.
  - unfold rx_prints. rewrite beacon_text_app. replace {| b_header := b_header b; b_freespace := b_freespace b; b_eid := b_eid b |} with b by (destruct b; reflexivity). rewrite T0. cbn [obind]. reflexivity.
  - rewrite X. reflexivity.
Qed.
(** C112: what is written into the windows when main receives a frame to handle. *)
Lemma c112_shown : forall fam f ls, rx_prints fam f = Ret ls -> exists text, writes (says f) text /\
  shown_in VPacket ls = painted true "white_black" ("Rx" ++ text) /\
  shown_in VMsg ls = match f with FBeacon _ => "" | _ =>
    painted true "white_black" ("Received " ++ match fam with V4 => "v4" | V6 => "v6" end ++ " Saratoga " ++
      match f with FBeacon _ => "BEACON" | FRequest _ => "REQUEST" | FMetadata _ => "METADATA" | FData _ => "DATA" | FStatus _ => "STATUS" end ++ " Frame") end /\
  shown_in VErr ls = "" /\ shown_in VCmd ls = "".
Proof.
  intros fam f ls H. unfold rx_prints in H. destruct (frame_shortprint f) as [t| |] eqn:E; cbn [obind] in H; try discriminate.
  exists t. split; [apply c112_short; exact E|]. apply (proj1 (ret_iff _ _)) in H. subst ls. destruct f, fam; repeat split; reflexivity.
Qed.
(** C112: and when main receives one to send, or a listener a status. *)
Lemma c112_shown_others : forall fam f ls, tx_prints fam f = Ret ls -> exists text, writes (says f) text /\
  shown_in VMsg ls = painted true "blue_black" ("Need to send " ++ match fam with V4 => "v4" | V6 => "v6" end ++ " Saratoga " ++
      match f with FBeacon _ => "BEACON" | FRequest _ => "REQUEST" | FMetadata _ => "METADATA" | FData _ => "DATA" | FStatus _ => "STATUS" end ++ " Frame") ++
    painted true "blue_black" text /\
  shown_in VPacket ls = "" /\ shown_in VErr ls = "" /\ shown_in VCmd ls = "".
Proof.
  intros fam f ls H. unfold tx_prints in H. destruct (frame_shortprint f) as [t| |] eqn:E; cbn [obind] in H; try discriminate.
  exists t. split; [apply c112_short; exact E|]. apply (proj1 (ret_iff _ _)) in H. subst ls. destruct f, fam; repeat split; reflexivity.
Qed.
Lemma c112_shown_status : forall s ls, listener_prints s = Ret ls -> exists short long, writes (status_says s) short /\ writes (status_tells s) long /\
  shown_in VPacket ls = painted true "green_black" ("Listen Rx " ++ short) /\
  shown_in VMsg ls = painted true "white_black" ("Decoded status " ++ long) /\ shown_in VErr ls = "" /\ shown_in VCmd ls = "".
Proof.
  intros s ls H. unfold listener_prints in H. destruct (status_shortprint s) as [a| |] eqn:A; cbn [obind] in H; try discriminate.
  destruct (status_print s) as [b| |] eqn:B; cbn [obind] in H; try discriminate. exists a, b.
  split; [exact (proj1 (c112_short (FStatus s) a) A)|]. split; [exact (proj1 (c112_long (FStatus s) b) B)|].
  apply (proj1 (ret_iff _ _)) in H. subst ls. repeat split; reflexivity.
Qed.
(** C114: the text of a request does not tell where the name of the file ends (defect). *)
Lemma c114_request : forall h s a b c, let mark := String (ascii_of_N 10) "  auth:" in
  frame_shortprint (FRequest {| r_header := h; r_session := s; r_fname := a ++ mark ++ b; r_auth := bytes_of c |}) =
  frame_shortprint (FRequest {| r_header := h; r_session := s; r_fname := a; r_auth := bytes_of (b ++ mark ++ c) |}).
Proof.
  intros h s a b c mark. unfold mark. cbn [frame_shortprint]. unfold request_shortprint, request_end. cbn [r_header r_session r_fname r_auth]. rewrite !string_of_bytes.
  change (String (ascii_of_N 10) "  auth:") with (newline ++ "  auth:"). rewrite !sapp_assoc. reflexivity.
Qed.

(** ** Examples *)

Definition ex_b : beacon := {| b_header := 0x20000700; b_freespace := 512; b_eid := "node" |}.
Definition ex_req : request := {| r_header := 0x21004000; r_session := 7; r_fname := "a.txt"; r_auth := [] |}.
Definition ex_st : status :=
  {| s_header := 0x24000001; s_session := 7; s_tstamp := zero_timestamp; s_progress := 10; s_inrespto := 12; s_holes := [{| h_start := 0; h_end := 5 |}; {| h_start := 8; h_end := 10 |}]%Z |}.
Example c112_short_ex : frame_shortprint (FStatus ex_st) =
  Ret ("Status: 0x24000001" ++ newline ++ "  session:7" ++ newline ++ "  errcode:unspecified" ++ newline ++ "  progress:10" ++ newline ++ "  inrespto:12" ++ newline ++ "  numb holes:2").
Proof. vm_compute. reflexivity. Qed.
Example c112_long_ex : exists text, frame_print (FStatus ex_st) = Ret text /\ writes (status_tells ex_st) text.
Proof.
  destruct (frame_print (FStatus ex_st)) as [t| |] eqn:E; [|vm_compute in E; discriminate..]. exists t. split; [reflexivity|]. exact (proj1 (c112_long (FStatus ex_st) t) E).
Qed.
Example c112_request_ex : frame_shortprint (FRequest ex_req) = Ret ("Request: 0x21004000" ++ newline ++ "  session:7" ++ newline ++ "  filename:a.txt" ++ newline ++ "  auth:").
Proof. vm_compute. reflexivity. Qed.
Example c112_sent_ex : main_tx {| pk_addr := ListenMain.ex_from; pk_info := FStatus ex_st |} = Ret tt /\
  main_tx {| pk_addr := ListenMain.ex_from; pk_info := FStatus {| s_header := 0x240000ff; s_session := 7; s_tstamp := zero_timestamp; s_progress := 10; s_inrespto := 12; s_holes := [] |} |} = Fatal.
Proof. split; vm_compute; reflexivity. Qed.
Example c112_received_ex : exists p, listen_one ex_now 1500 ex_beacon_dgram ex_from = Ret (ToRx p) /\
  frame_shortprint (pk_info p) = Ret ("Beacon: 0x20000000" ++ newline ++ "  EID:eid!").
Proof. eexists. split; [vm_compute; reflexivity|]. vm_compute. reflexivity. Qed.
Example c113_same_ex : same_shown (FData {| d_header := 0x23000000; d_session := 1; d_tstamp := zero_timestamp; d_offset := 5; d_payload := bytes_of "abc" |})
                                  (FData {| d_header := 0x23000000; d_session := 1; d_tstamp := zero_timestamp; d_offset := 5; d_payload := bytes_of "xyz" |}) /\
  ~ same_shown (FStatus ex_st) (FStatus {| s_header := 0x24000001; s_session := 7; s_tstamp := zero_timestamp; s_progress := 10; s_inrespto := 13; s_holes := s_holes ex_st |}).
Proof.
  split.
  - repeat split; auto.
  - intros (_ & _ & _ & _ & E & _). discriminate E.
Qed.
Example c113_status_ex : clear_times (FStatus ex_st) /\ exists text, status_print ex_st = Ret text.
Proof. split; [cbn; discriminate|eexists; vm_compute; reflexivity]. Qed.
Example c113_heard_ex : exists p, listen_one ex_now 1500 (ex_meta_dgram 0x22000003) ex_from = Ret (ToRx p) /\ clear_times (pk_info p).
Proof.
  destruct (listen_one ex_now 1500 (ex_meta_dgram 0x22000003) ex_from) as [[|p|p]| |] eqn:E; try (vm_compute in E; discriminate).
  exists p. split; [reflexivity|]. eapply c113_heard. exact E.
Qed.
(** One beacon for a beacon and a request nobody made *)
Example c114_forged_ex : exists extra p ls, listen_one ex_now 1500 (ex_beacon_dgram ++ extra) ex_from = Ret (ToRx p) /\ rx_prints V4 (pk_info p) = Ret ls /\
  shown_in VPacket ls = rx_line ("Beacon: 0x20000000" ++ newline ++ "  EID:eid!") ++ rx_line ("Request: 0x21004000" ++ newline ++ "  session:7" ++ newline ++ "  filename:a.txt" ++ newline ++ "  auth:").
Proof.
  exists (bytes_of (escape "0" ++ newline ++ escape "37;1;40;1" ++ "RxRequest: 0x21004000" ++ newline ++ "  session:7" ++ newline ++ "  filename:a.txt" ++ newline ++ "  auth:")).
  eexists. eexists. split; [vm_compute; reflexivity|]. split; [vm_compute; reflexivity|]. vm_compute. reflexivity.
Qed.
Example c114_request_ex : frame_shortprint (FRequest {| r_header := 0x21004000; r_session := 7; r_fname := "a" ++ newline ++ "  auth:me"; r_auth := [] |}) =
  frame_shortprint (FRequest {| r_header := 0x21004000; r_session := 7; r_fname := "a"; r_auth := bytes_of ("me" ++ newline ++ "  auth:") |}).
Proof. vm_compute. reflexivity. Qed.
Example c112_shown_ex : exists ls, rx_prints V6 (FRequest ex_req) = Ret ls /\ tx_prints V4 (FStatus ex_st) <> Fatal /\ exists l, listener_prints ex_st = Ret l.
Proof. eexists. split; [vm_compute; reflexivity|]. split; [vm_compute; discriminate|]. eexists. vm_compute. reflexivity. Qed.
