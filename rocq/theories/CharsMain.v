(** * C67: the words of a line, character by character *)

From Verif Require Import GoBase GoFacts Words SpecWords WordsFacts Table SpecTable TableFacts Chars.
Local Open Scope string_scope.
Local Open Scope N_scope.

(** ** Characters *)
Lemma is_space_white : forall c, is_space c = true <-> In c white_space.
Proof.
  intros c. unfold is_space, white_space. cbn [In].
  destruct (N.leb_spec c 0xFF); repeat rewrite orb_true_iff; repeat rewrite andb_true_iff; repeat rewrite N.leb_le; repeat rewrite N.eqb_eq; lia.
Qed.
Lemma white_character : forall c, In c white_space -> character c /\ utf8_bytes c = utf8 c.
Proof.
  intros c H. unfold white_space in H. repeat (destruct H as [<-|H]; [split; [vm_compute; intuition discriminate|reflexivity]|]). destruct H.
Qed.
Lemma rune_utf8 : forall c, character c -> rune_of (utf8_bytes c) = c.
Proof.
  intros c C. assert (D : forall x y, 0 < y -> x mod y < y) by (intros; apply N.mod_lt; lia).
  destruct (utf8_cases c C) as [(B & U)|[(B & U)|[(B & U)|(B & U)]]]; rewrite U; unfold rune_of.
  - rewrite N_ascii_embedding by lia. rewrite (proj2 (N.ltb_lt _ _) B). reflexivity.
  - assert (c / 64 < 32) by (apply N.div_lt_upper_bound; lia). pose proof (D c 64 eq_refl).
    rewrite !N_ascii_embedding by lia.
    replace ((0xC0 + c / 64) mod 32) with (c / 64) by (rewrite N.add_comm; change 0xC0 with (6 * 32); rewrite N.mod_add, N.mod_small; lia).
    replace ((0x80 + c mod 64) mod 64) with (c mod 64) by (rewrite N.add_comm; change 0x80 with (2 * 64); rewrite N.mod_add, N.mod_mod; lia).
    rewrite (N.mul_comm (c / 64)). symmetry. apply N.div_mod. lia.
  - assert (c / 4096 < 16) by (apply N.div_lt_upper_bound; lia). pose proof (D c 64 eq_refl). pose proof (D (c / 64) 64 eq_refl).
    rewrite !N_ascii_embedding by lia.
    replace ((0xE0 + c / 4096) mod 16) with (c / 4096) by (rewrite N.add_comm; change 0xE0 with (14 * 16); rewrite N.mod_add, N.mod_small; lia).
    replace ((0x80 + c mod 64) mod 64) with (c mod 64) by (rewrite N.add_comm; change 0x80 with (2 * 64); rewrite N.mod_add, N.mod_mod; lia).
    replace ((0x80 + c / 64 mod 64) mod 64) with (c / 64 mod 64) by (rewrite N.add_comm; change 0x80 with (2 * 64); rewrite N.mod_add, N.mod_mod; lia).
    pose proof (N.div_mod c 64 ltac:(lia)). pose proof (N.div_mod (c / 64) 64 ltac:(lia)). rewrite N.div_div in * by lia. change (64 * 64) with 4096 in *. lia.
  - assert (c / 262144 < 8) by (apply N.div_lt_upper_bound; lia). pose proof (D c 64 eq_refl). pose proof (D (c / 64) 64 eq_refl). pose proof (D (c / 4096) 64 eq_refl).
    assert (c / 262144 < 5) by (apply N.div_lt_upper_bound; lia).
    rewrite !N_ascii_embedding by lia.
    replace ((0xF0 + c / 262144) mod 8) with (c / 262144) by (rewrite N.add_comm; change 0xF0 with (30 * 8); rewrite N.mod_add, N.mod_small; lia).
    replace ((0x80 + c mod 64) mod 64) with (c mod 64) by (rewrite N.add_comm; change 0x80 with (2 * 64); rewrite N.mod_add, N.mod_mod; lia).
    replace ((0x80 + c / 64 mod 64) mod 64) with (c / 64 mod 64) by (rewrite N.add_comm; change 0x80 with (2 * 64); rewrite N.mod_add, N.mod_mod; lia).
    replace ((0x80 + c / 4096 mod 64) mod 64) with (c / 4096 mod 64) by (rewrite N.add_comm; change 0x80 with (2 * 64); rewrite N.mod_add, N.mod_mod; lia).
    pose proof (N.div_mod c 64 ltac:(lia)). pose proof (N.div_mod (c / 64) 64 ltac:(lia)). pose proof (N.div_mod (c / 4096) 64 ltac:(lia)).
    rewrite !N.div_div in * by lia. change (64 * 64) with 4096 in *. change (4096 * 64) with 262144 in *. lia.
Qed.
Lemma white_utf8 : forall c, character c -> (is_space c = true <-> white (utf8_bytes c)).
Proof.
  intros c C. rewrite is_space_white. split.
  - intros H. exists c. split; [exact H|]. apply white_character, H.
  - intros (k & K & E). destruct (white_character k K) as (K1 & K2). rewrite <- K2 in E.
    apply (f_equal rune_of) in E. rewrite !rune_utf8 in E by assumption. congruence.
Qed.
Lemma bytes_char : forall a r c l', character c -> (a :: r)%list = (utf8_bytes c ++ l')%list -> rune_bytes a r = utf8_bytes c /\ rune_rest a r = l'.
Proof.
  intros a r c l' C E. pose proof (rest_char _ _ _ _ C E) as R. split; [|exact R]. unfold rune_bytes. rewrite R.
  change (S (length r)) with (length (a :: r)). rewrite E, app_length. replace (length (utf8_bytes c) + length l' - length l')%nat with (length (utf8_bytes c)) by lia.
  rewrite firstn_app, firstn_all, Nat.sub_diag. cbn [firstn]. apply app_nil_r.
Qed.
Lemma stray_bytes : forall a r, stray a r -> rune_bytes a r = [a] /\ rune_rest a r = r /\ (0x80 <= N_of_ascii a).
Proof.
  intros a r (R & S0). split; [|split; [exact R|]].
  - unfold rune_bytes. rewrite R. replace (S (length r) - length r)%nat with 1%nat by lia. reflexivity.
  - destruct (N.lt_ge_cases (N_of_ascii a) 0x80) as [L|L]; [|exact L]. destruct (char1 a r L) as (c & l' & C & E & _). elim (S0 c l' C E).
Qed.
Lemma high_dark : forall a, 0x80 <= N_of_ascii a -> ~ white [a].
Proof.
  intros a H W. apply white_in in W. unfold whites in W. repeat (destruct W as [W|W]; [try discriminate W; inversion W; subst a; vm_compute in H; congruence|]). destruct W.
Qed.
(** The first character is white space just when it is white *)
Lemma head_white : forall a r, is_space (rune_of (rune_bytes a r)) = true <-> white (rune_bytes a r).
Proof.
  intros a r. destruct (first_char a r) as [(c & l' & C & E & R)|S0].
  - destruct (bytes_char _ _ _ _ C E) as (-> & _). rewrite (rune_utf8 c C). apply white_utf8, C.
  - destruct (stray_bytes _ _ S0) as (-> & _ & H). cbn [rune_of]. destruct (N.ltb_spec (N_of_ascii a) 0x80); [lia|]. split; [discriminate|].
    intros W. elim (high_dark a H W).
Qed.
Lemma head_split : forall a r, (a :: r)%list = (rune_bytes a r ++ rune_rest a r)%list.
Proof.
  intros a r. destruct (first_char a r) as [(c & l' & C & E & R)|S0].
  - destruct (bytes_char _ _ _ _ C E) as (-> & ->). exact E.
  - destruct (stray_bytes _ _ S0) as (-> & -> & _). reflexivity.
Qed.
Lemma white_head : forall w l a r, white w -> (a :: r)%list = (w ++ l)%list -> rune_bytes a r = w /\ rune_rest a r = l.
Proof.
  intros w l a r (c & I & ->) E. destruct (white_character c I) as (C & U). rewrite <- U in *. exact (bytes_char _ _ _ _ C E).
Qed.
(** The bytes of a character after the first begin no white space *)
Definition continues (b : byte) : Prop := 0x80 <= N_of_ascii b <= 0xBF.
Lemma continues_dark : forall b, continues b -> lead b = false.
Proof. intros [b0 b1 b2 b3 b4 b5 b6 b7] (H1 & H2). destruct b0, b1, b2, b3, b4, b5, b6, b7; try reflexivity; exfalso; vm_compute in H1, H2; congruence. Qed.
Lemma head_tail : forall a r, exists more, rune_bytes a r = (a :: more)%list /\ Forall continues more.
Proof.
  intros a r. destruct (first_char a r) as [(c & l' & C & E & R)|S0].
  - destruct (bytes_char _ _ _ _ C E) as (-> & _). assert (D : forall x, continues (ascii_of_N (0x80 + x mod 64))).
    { intros x. assert (H : x mod 64 < 64) by (apply N.mod_lt; discriminate). unfold continues. revert H. generalize (x mod 64). intros y H.
      rewrite N_ascii_embedding by lia. lia. }
    destruct (utf8_cases c C) as [(B & U)|[(B & U)|[(B & U)|(B & U)]]]; rewrite U in *; cbn [app] in E; apply cons_both in E; destruct E as [-> _];
      eexists; (split; [reflexivity|]); repeat constructor; apply D.
  - destruct (stray_bytes _ _ S0) as (-> & _ & _). exists []. auto.
Qed.
Lemma chunks_continue : forall more l cur, Forall continues more ->
  fields_chunks cur (chunks (more ++ l)) = fields_chunks (cur ++ more) (chunks l).
Proof.
  induction more as [|b more IH]; intros l cur F; [rewrite app_nil_r; reflexivity|]. inversion F; subst. cbn [app]. rewrite dark_chunk.
  - cbn [fields_chunks]. rewrite IH by assumption. rewrite <- app_assoc. reflexivity.
  - intros w r E W. destruct (white_lead w W) as (x & y & -> & L & _). cbn [app] in E. apply cons_both in E. destruct E as [-> _].
    rewrite continues_dark in L by assumption. discriminate.
Qed.
Lemma fields_chars : forall fuel l cur, (length l <= fuel)%nat ->
  fields_chunks cur (map (fun u => (is_space (rune_of u), u)) (chars fuel l)) = fields_chunks cur (chunks l).
Proof.
  induction fuel as [|fuel IH]; intros [|a r] cur L; cbn [length] in L; try lia; [reflexivity|reflexivity|]. cbn [chars map].
  pose proof (rest_le a r) as RL. destruct (is_space (rune_of (rune_bytes a r))) eqn:SP.
  - apply head_white in SP. cbn [fields_chunks]. rewrite IH by lia. rewrite (head_split a r). rewrite (white_chunk _ _ SP). reflexivity.
  - cbn [fields_chunks]. rewrite IH by lia. destruct (head_tail a r) as (more & M & F). pose proof (head_split a r) as HS. rewrite M in *.
    cbn [app] in HS. apply cons_both in HS. destruct HS as [_ HS]. rewrite dark_chunk.
    + cbn [fields_chunks]. rewrite HS at 2. rewrite chunks_continue by exact F. rewrite <- app_assoc. reflexivity.
    + intros w x E W. destruct (white_head _ _ _ _ W E) as (B & _). rewrite <- M, B in SP.
      assert (Y : is_space (rune_of w) = true) by (rewrite <- B; apply head_white; rewrite B; exact W). congruence.
Qed.
Lemma fields_go_fields : forall s, fields_go s = fields s.
Proof. intros s. unfold fields_go, fields. apply fields_chars. rewrite bytes_of_length. lia. Qed.

(** ** White space at both ends *)
Lemma trim_left_spec : forall fuel l, (length l <= fuel)%nat ->
  exists a, l = (a ++ trim_left_go fuel l)%list /\ spacing a /\ forall w r, trim_left_go fuel l = (w ++ r)%list -> ~ white w.
Proof.
  induction fuel as [|fuel IH]; intros [|a r] L; cbn [length] in L; try lia; cbn [trim_left_go].
  1,2: exists []; split; [reflexivity|split; [exact spacing_nil|]]; intros w r E W; symmetry in E; apply app_eq_nil in E; destruct E as [-> _];
    exact (white_nonempty _ W eq_refl).
  pose proof (rest_le a r) as RL. destruct (is_space (rune_of (rune_bytes a r))) eqn:SP.
  - apply head_white in SP. destruct (IH (rune_rest a r)) as (x & X1 & X2 & X3); [lia|]. exists (rune_bytes a r ++ x)%list.
    split; [|split; [|exact X3]].
    + rewrite <- app_assoc, <- X1. apply head_split.
    + apply spacing_app; [apply spacing_one, SP|exact X2].
  - exists []. split; [reflexivity|]. split; [exact spacing_nil|]. intros w x E W. destruct (white_head _ _ _ _ W E) as (B & _).
    assert (Y : is_space (rune_of (rune_bytes a r)) = true) by (apply head_white; rewrite B; exact W). congruence.
Qed.

Lemma last_white : forall p w, white w -> last_rune (p ++ w) = (length w, rune_of w) /\ is_space (rune_of w) = true.
Proof.
  intros p w W. apply white_in in W. unfold last_rune. rewrite rev_app_distr. unfold whites in W.
  repeat (destruct W as [<-|W]; [split; reflexivity|]). destruct W.
Qed.
Lemma rev_cons_split : forall (l : list byte) b t, rev l = (b :: t)%list -> l = (rev t ++ [b])%list.
Proof. intros l b t E. rewrite <- (rev_involutive l), E. reflexivity. Qed.
(** What the last character is taken to be *)
Lemma last_cases : forall l, l <> [] -> exists p v c, l = (p ++ v)%list /\ last_rune l = (length v, c) /\ v <> [] /\
  ((is_space c = true /\ white v) \/
   (is_space c = false /\ forall sp, (sp = [] \/ exists x sp', sp = (x :: sp')%list /\ lead x = true) -> exists a r, v = (a :: r)%list /\
      (if N_of_ascii a <? 0x80 then 1%nat else length (rune_bytes a (r ++ sp))) = length v)).
Proof.
  intros l NE. unfold last_rune. destruct (rev l) as [|b t] eqn:RV.
  { exfalso. apply NE. rewrite <- (rev_involutive l), RV. reflexivity. }
  apply rev_cons_split in RV.
  assert (ONE : forall sp, (sp = [] \/ exists x sp', sp = (x :: sp')%list /\ lead x = true) -> exists a r, [b] = (a :: r)%list /\
            (if N_of_ascii a <? 0x80 then 1%nat else length (rune_bytes a (r ++ sp))) = length [b]).
  { intros sp SP. exists b, []. split; [reflexivity|]. destruct (N_of_ascii b <? 0x80) eqn:BL; [reflexivity|]. cbn [app length].
    destruct (head_tail b sp) as (more & M & F). rewrite M. destruct more as [|y more]; [reflexivity|]. exfalso.
    pose proof (head_split b sp) as HS. rewrite M in HS. cbn [app] in HS. apply cons_both in HS. destruct HS as [_ HS].
    destruct SP as [->|(x & sp' & -> & LX)]; [discriminate|]. apply cons_both in HS. destruct HS as [-> _].
    inversion F; subst. rewrite continues_dark in LX by assumption. discriminate. }
  destruct (N.ltb_spec (N_of_ascii b) 0x80) as [BL|BL].
  - exists (rev t), [b], (N_of_ascii b). split; [exact RV|]. split; [reflexivity|]. split; [discriminate|].
    destruct (is_space (N_of_ascii b)) eqn:SP; [left|right; split; [reflexivity|exact ONE]]. split; [reflexivity|].
    pose proof (proj2 (N.ltb_lt _ _) BL) as BL'. destruct (char1 b [] BL) as (c & l' & C & E & R).
    destruct (bytes_char _ _ _ _ C E) as (RB & _). assert (rune_bytes b [] = [b]) as RB' by (unfold rune_bytes, rune_rest; rewrite BL'; reflexivity).
    rewrite <- RB'. apply head_white. rewrite RB'. cbn [rune_of]. rewrite BL'. exact SP.
  - set (n := S (back 3 t)). assert (NL : (n <= length (b :: t))%nat).
    { unfold n. destruct t as [|t1 [|t2 [|t3 [|t4 t]]]]; cbn [back length]; repeat match goal with |- context [rune_starts ?x] => destruct (rune_starts x) end; lia. }
    assert (U : l = (rev (skipn n (b :: t)) ++ rev (firstn n (b :: t)))%list).
    { rewrite <- rev_app_distr, firstn_skipn. exact RV. }
    assert (UL : length (rev (firstn n (b :: t))) = n) by (rewrite rev_length, firstn_length; lia).
    destruct (rev (firstn n (b :: t))) as [|a r] eqn:UE; [cbn in UL; unfold n in UL; lia|].
    assert (BAD : exists p v c, l = (p ++ v)%list /\ (1%nat, rune_error) = (length v, c) /\ v <> [] /\
      ((is_space c = true /\ white v) \/
       (is_space c = false /\ forall sp, (sp = [] \/ exists x sp', sp = (x :: sp')%list /\ lead x = true) -> exists a r, v = (a :: r)%list /\
          (if N_of_ascii a <? 0x80 then 1%nat else length (rune_bytes a (r ++ sp))) = length v))).
    { exists (rev t), [b], rune_error. split; [exact RV|]. split; [reflexivity|]. split; [discriminate|]. right. split; [reflexivity|exact ONE]. }
    destruct (rune_rest a r) as [|x y] eqn:RR; [|exact BAD].
    pose proof (head_split a r) as HS. rewrite RR, app_nil_r in HS.
    exists (rev (skipn n (b :: t))), (a :: r)%list, (rune_of (a :: r)). split; [exact U|]. split; [rewrite UL; reflexivity|]. split; [discriminate|].
    destruct (is_space (rune_of (a :: r))) eqn:SP.
    + left. split; [reflexivity|]. rewrite HS in SP |- *. apply head_white, SP.
    + right. split; [reflexivity|]. intros sp SPC. destruct (first_char a r) as [(c & l' & C & E & R)|S0].
      * exists a, r. split; [reflexivity|]. rewrite RR in R. subst l'. rewrite app_nil_r in E.
        assert (E2 : (a :: r ++ sp)%list = (utf8_bytes c ++ sp)%list) by (rewrite <- E; reflexivity).
        destruct (bytes_char _ _ _ _ C E2) as (RB & _).
        destruct (N.ltb_spec (N_of_ascii a) 0x80) as [AL|AL]; [|rewrite RB, E; reflexivity].
        destruct (utf8_multi c C) as [(z & Z & _)|F]; [rewrite E, Z; reflexivity|]. exfalso. rewrite <- E in F. inversion F; subst.
        match goal with X : ~ TableFacts.plain _ |- _ => apply X end. exact AL.
      * destruct (stray_bytes _ _ S0) as (RB & RR2 & _). rewrite RR in RR2. subst r. apply rev_cons_split in UE. cbn [rev app] in UE.
        assert (a = b) as ->.
        { unfold n in UE. cbn [firstn] in UE. apply cons_both in UE. symmetry. apply UE. }
        apply ONE, SPC.
Qed.
Lemma firstn_before : forall (p v : list byte), firstn (length (p ++ v) - length v) (p ++ v) = p.
Proof. intros p v. rewrite app_length. replace (length p + length v - length v)%nat with (length p) by lia. rewrite firstn_app, firstn_all, Nat.sub_diag. apply app_nil_r. Qed.
Lemma last_index_spec : forall fuel l, (length l <= fuel)%nat ->
  match last_index fuel l with
  | None => spacing l
  | Some i => exists p v sp, l = (p ++ v ++ sp)%list /\ i = length p /\ spacing sp /\ last_rune (p ++ v) = (length v, snd (last_rune (p ++ v))) /\
                is_space (snd (last_rune (p ++ v))) = false /\ v <> []
  end.
Proof.
  induction fuel as [|fuel IH]; intros l L.
  - destruct l; [exact spacing_nil|cbn in L; lia].
  - cbn [last_index]. destruct l as [|x l]; [exact spacing_nil|]. set (s := (x :: l)%list) in *.
    destruct (last_cases s) as (p & v & c & E & R & NE & K); [discriminate|]. rewrite R. clearbody s.
    assert (FB : firstn (length s - length v) s = p) by (rewrite E; apply firstn_before). destruct (is_space c) eqn:SP.
    + destruct K as [(_ & W)|(K & _)]; [|discriminate]. rewrite FB. specialize (IH p). assert (LP : (length p <= fuel)%nat).
      { apply (f_equal (@length _)) in E. rewrite app_length in E. destruct v; [congruence|]. cbn [length] in E. lia. }
      specialize (IH LP). destruct (last_index fuel p) as [i|].
      * destruct IH as (p' & v' & sp & -> & A & B & C). exists p', v', (sp ++ v)%list. rewrite E. rewrite <- !app_assoc. split; [reflexivity|].
        split; [exact A|]. split; [|exact C]. apply spacing_app; [exact B|apply spacing_one, W].
      * rewrite E. apply spacing_app; [exact IH|apply spacing_one, W].
    + exists p, v, []. rewrite app_nil_r, <- E, R. split; [reflexivity|]. split; [|split; [exact spacing_nil|auto]].
      rewrite E, app_length. lia.
Qed.
Lemma spacing_lead : forall sp, spacing sp -> sp = [] \/ exists x sp', sp = (x :: sp')%list /\ lead x = true.
Proof.
  intros sp ([|w ws] & F & ->); [left; reflexivity|]. inversion F; subst. destruct (white_lead w) as (x & y & -> & LX & _); [assumption|].
  right. cbn [concat app]. eauto.
Qed.
Lemma trim_right_spec : forall l, exists b, l = (trim_right_go l ++ b)%list /\ spacing b /\ forall p w, trim_right_go l = (p ++ w)%list -> ~ white w.
Proof.
  intros l. unfold trim_right_go. pose proof (last_index_spec (length l) l (le_n _)) as S0. destruct (last_index (length l) l) as [i|].
  - destruct S0 as (p & v & sp & E & -> & SP & LR & NS & NE).
    assert (K : firstn (length p + length v) l = (p ++ v)%list).
    { rewrite E, app_assoc, <- app_length, firstn_app, firstn_all, Nat.sub_diag. apply app_nil_r. }
    assert (T : match skipn (length p) l with
                | a :: r => firstn (length p + (if N_of_ascii a <? 0x80 then 1 else length (rune_bytes a r))) l
                | [] => firstn (length p + 1) l
                end = (p ++ v)%list).
    { assert (SK : skipn (length p) l = (v ++ sp)%list) by (rewrite E, skipn_app, skipn_all, Nat.sub_diag; reflexivity). rewrite SK.
      destruct (last_cases (p ++ v)) as (p' & v' & c & E' & R' & NE' & C').
      { destruct v; [congruence|]. destruct p; discriminate. }
      rewrite R' in LR, NS. cbn [snd] in LR, NS. inversion LR as [LE]. assert (v' = v) as ->.
      { pose proof (f_equal (@length _) E') as LL. rewrite !app_length in LL. apply (f_equal (skipn (length p))) in E'.
        rewrite skipn_app, skipn_all, Nat.sub_diag in E'. cbn [app skipn] in E'. replace (length p) with (length p') in E' by lia.
        rewrite skipn_app, skipn_all, Nat.sub_diag in E'. symmetry. exact E'. }
      destruct C' as [(X & _)|(_ & C')]; [congruence|]. destruct (C' sp (spacing_lead sp SP)) as (a & r & -> & W).
      cbn [app]. rewrite W. exact K. }
    rewrite T. exists sp. rewrite <- app_assoc. split; [exact E|]. split; [exact SP|]. intros q w QW W. rewrite QW in NS.
    destruct (last_white q w W) as (LW & SW). rewrite LW in NS. cbn [snd] in NS. congruence.
  - exists l. split; [reflexivity|]. split; [exact S0|]. intros p w E W. symmetry in E. apply app_eq_nil in E. destruct E as [_ ->].
    exact (white_nonempty _ W eq_refl).
Qed.

(** C67: TrimSpace, which looks at characters from the front and from the back, takes white space off both ends and nothing else,
    and leaves none there, whatever the bytes of the text are. *)
Lemma c67_trim : forall s, exists a b, bytes_of s = (a ++ bytes_of (trim_go s) ++ b)%list /\ spacing a /\ spacing b /\
  (forall w r, bytes_of (trim_go s) = (w ++ r)%list -> ~ white w) /\ (forall p w, bytes_of (trim_go s) = (p ++ w)%list -> ~ white w).
Proof.
  intros s. unfold trim_go. rewrite bytes_string. destruct (trim_left_spec (slen s) (bytes_of s)) as (a & A1 & A2 & A3); [rewrite bytes_of_length; lia|].
  set (l := trim_left_go (slen s) (bytes_of s)) in *. destruct (trim_right_spec l) as (b & B1 & B2 & B3).
  exists a, b. split; [rewrite <- B1; exact A1|]. split; [exact A2|]. split; [exact B2|]. split; [|exact B3].
  intros w r E. apply (A3 w (r ++ b)%list). rewrite app_assoc, <- E. exact B1.
Qed.
(** C67: Fields of it, character by character, gives the words of the text, whatever its bytes are. *)
Lemma c67_characters : forall s ws, fields_go (trim_go s) = ws <-> words_of s ws.
Proof.
  intros s ws. rewrite fields_go_fields, fields_words. destruct (c67_trim s) as (a & b & E & A & B & _).
  unfold words_of. rewrite E. split; intros H.
  - apply words_space; [exact A|]. apply words_tail; [exact H|exact B].
  - destruct (words_exist (bytes_of (trim_go s))) as (vs & V). assert (V' := words_space _ _ _ A (words_tail _ _ V b B)).
    apply words_fields in H. apply words_fields in V'. assert (X : map string_of (map bytes_of ws) = map string_of vs) by congruence.
    assert (Y : map bytes_of ws = vs).
    { apply (f_equal (map bytes_of)) in X. rewrite !map_string_bytes in X. exact X. }
    rewrite Y. exact V.
Qed.
(** C67: which are the words that the other model of them finds. *)
Lemma c67_same : forall s, fields_go (trim_go s) = fields (trim_space s).
Proof. intros s. apply c67_characters. apply fields_words. symmetry. apply fields_trim. Qed.

(** A no-break space, an ideographic space and stray bytes around two words *)
Example c67_characters_ex :
  let nb := string_of (utf8 0xA0) in let id := string_of (utf8 0x3000) in let stray := string_of [ascii_of_N 0xE3; ascii_of_N 0x80] in
  trim_go (nb ++ "get" ++ stray ++ " " ++ stray ++ id ++ nb) = "get" ++ stray ++ " " ++ stray /\
  fields_go (trim_go (nb ++ "get" ++ stray ++ id ++ stray ++ id ++ nb)) = ["get" ++ stray; stray].
Proof. split; vm_compute; reflexivity. Qed.
