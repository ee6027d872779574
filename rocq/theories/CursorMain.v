From Verif Require Import GoBase GoFacts Flags Sarnet Table Screen Words SpecWords WordsFacts TextFacts Cli SpecCli CliFacts CliFacts2 CliMain Cursor SpecCursor.
From Verif Require FrameTextMain.
From Coq Require Import ZArith.
Local Open Scope string_scope.
Local Open Scope Z_scope.

(** ** Small facts *)
Lemma set_cursor_in : forall v x y, 0 <= x < v_sx v -> 0 <= y < v_sy v -> set_cursor v x y = Some (v_at v x y).
Proof.
  intros v x y X Y. unfold set_cursor.
  destruct (Z.ltb_spec x 0), (Z.leb_spec (v_sx v) x), (Z.ltb_spec y 0), (Z.leb_spec (v_sy v) y); try lia. reflexivity.
Qed.
Lemma set_cursor_out : forall v x y, ~ (0 <= x < v_sx v /\ 0 <= y < v_sy v) -> set_cursor v x y = None.
Proof.
  intros v x y X. unfold set_cursor.
  destruct (Z.ltb_spec x 0), (Z.leb_spec (v_sx v) x), (Z.ltb_spec y 0), (Z.leb_spec (v_sy v) y); try reflexivity. exfalso; apply X; lia.
Qed.
Lemma set_origin_in : forall v x y, 0 <= x -> 0 <= y -> set_origin v x y = Some (v_from v x y).
Proof. intros v x y X Y. unfold set_origin. destruct (Z.ltb_spec x 0), (Z.ltb_spec y 0); try lia. reflexivity. Qed.
Lemma set_origin_out : forall v x y, y < 0 -> set_origin v x y = None.
Proof. intros v x y Y. unfold set_origin. destruct (Z.ltb_spec y 0); [|lia]. rewrite orb_true_r. reflexivity. Qed.
Lemma v_at_same : forall v, v_at v (v_cx v) (v_cy v) = v.
Proof. intros []; reflexivity. Qed.
Lemma v_from_same : forall v, v_from v (v_ox v) (v_oy v) = v.
Proof. intros []; reflexivity. Qed.
Lemma slen_app : forall a b, slen (a ++ b) = (slen a + slen b)%nat.
Proof. induction a as [|c a IH]; intros b; [reflexivity|]. unfold slen in *. cbn [append String.length]. rewrite IH. reflexivity. Qed.
Ltac vcbn := cbn [v_name v_ox v_oy v_cx v_cy v_sx v_sy v_lines v_at v_from v_put fst snd] in *.

Lemma down_cases : forall v, sane v ->
  snd (cursor_down v) = true /\
  fst (cursor_down v) = if row v =? blines v - 1 then v
                        else if v_cy v + 1 <? v_sy v then v_at v (v_cx v) (v_cy v + 1) else v_from v (v_ox v) (v_oy v + 1).
Proof.
  intros v (A & B & C & D). unfold cursor_down, row. destruct (_ =? _); [auto|].
  destruct (Z.ltb_spec (v_cy v + 1) (v_sy v)).
  - rewrite set_cursor_in by lia. auto.
  - rewrite set_cursor_out by lia. rewrite set_origin_in by lia. auto.
Qed.
Lemma up_cases : forall v, sane v ->
  snd (cursor_up v) = true /\
  fst (cursor_up v) = if 0 <? v_cy v then v_at v (v_cx v) (v_cy v - 1) else if 0 <? v_oy v then v_from v (v_ox v) (v_oy v - 1) else v.
Proof.
  intros v (A & B & C & D). unfold cursor_up.
  destruct (Z.ltb_spec 0 (v_cy v)).
  - rewrite set_cursor_in by lia. auto.
  - rewrite set_cursor_out by lia. destruct (Z.ltb_spec 0 (v_oy v)); [|auto]. rewrite set_origin_in by lia. auto.
Qed.

(** C119: the Down key: nothing on the last line, else the cursor goes one line down; never an error. *)
Lemma c119_down : forall c v, sane v ->
  let v' := vhandle c v KDown in
  sane v' /\ v_lines v' = v_lines v /\ v_cx v' = v_cx v /\ snd (cursor_down v) = true /\
  row v' = (if row v =? Z.of_nat (List.length (v_lines v)) - 1 then row v else row v + 1).
Proof.
  intros c v S. destruct (down_cases v S) as [E F]. cbn [vhandle]. rewrite E, F. unfold blines. destruct S as (A & B & C & D). unfold row in *.
  destruct (_ =? _) eqn:X; [repeat split; auto; lia|].
  destruct (Z.ltb_spec (v_cy v + 1) (v_sy v)); unfold sane; vcbn; repeat split; auto; lia.
Qed.
(** C119: the Up key: nothing on the first line, else the cursor goes one line up; never an error. *)
Lemma c119_up : forall c v, sane v ->
  let v' := vhandle c v KUp in
  sane v' /\ v_lines v' = v_lines v /\ v_cx v' = v_cx v /\ snd (cursor_up v) = true /\ row v' = Z.max 0 (row v - 1).
Proof.
  intros c v S. destruct (up_cases v S) as [E F]. cbn [vhandle]. rewrite E, F. destruct S as (A & B & C & D). unfold row in *.
  destruct (Z.ltb_spec 0 (v_cy v)); [|destruct (Z.ltb_spec 0 (v_oy v))]; unfold sane; vcbn; repeat split; auto; lia.
Qed.

Lemma draw_name : forall v, v_name (draw v) = v_name v.
Proof. intros v. unfold draw. destruct (_ && _); reflexivity. Qed.
Lemma draw_lines : forall v, v_lines (draw v) = v_lines v.
Proof. intros v. unfold draw. destruct (_ && _); reflexivity. Qed.
Lemma draw_size : forall v, v_sx (draw v) = v_sx v /\ v_sy (draw v) = v_sy v.
Proof. intros v. unfold draw. destruct (_ && _); split; reflexivity. Qed.
Lemma draw_cursor : forall v, v_cx (draw v) = v_cx v /\ v_cy (draw v) = v_cy v /\ v_ox (draw v) = v_ox v.
Proof. intros v. unfold draw. destruct (_ && _); repeat split; reflexivity. Qed.
Lemma draw_oy : forall v, v_oy (draw v) = if autoscroll (v_name v) && (v_sy v <? blines v) then blines v - v_sy v else v_oy v.
Proof. intros v. unfold draw. destruct (_ && _); reflexivity. Qed.
Lemma draw_drawn : forall v, drawn (draw v).
Proof.
  intros v. unfold drawn. unfold draw at 1. rewrite draw_name. destruct (draw_size v) as [_ ->]. unfold blines. rewrite draw_lines.
  fold (blines v). destruct (autoscroll (v_name v) && (v_sy v <? blines v)) eqn:E; [|reflexivity].
  replace (blines v - v_sy v) with (v_oy (draw v)) by (rewrite draw_oy, E; reflexivity). apply v_from_same.
Qed.
Lemma drawn_oy : forall v, drawn v -> autoscroll (v_name v) = true -> v_sy v < blines v -> v_oy v = blines v - v_sy v.
Proof.
  intros v D A L. pose proof (f_equal v_oy D) as X. rewrite draw_oy, A in X. destruct (Z.ltb_spec (v_sy v) (blines v)); [|lia]. symmetry. exact X.
Qed.
Lemma sane_draw : forall v, sane v -> sane (draw v).
Proof.
  intros v (A & B & C & D). unfold sane. destruct (draw_size v) as [-> ->]. destruct (draw_cursor v) as (-> & -> & ->). rewrite draw_oy.
  repeat split; auto; try lia. destruct (autoscroll (v_name v)); cbn [andb]; [|lia]. destruct (Z.ltb_spec (v_sy v) (blines v)); lia.
Qed.
Lemma walk_step_down : forall c v, sane v -> drawn v -> row v < blines v ->
  let v' := vstep c v KDown in
  sane v' /\ drawn v' /\ v_name v' = v_name v /\ v_sy v' = v_sy v /\ v_lines v' = v_lines v /\ v_cx v' = v_cx v /\ row v' = Z.min (row v + 1) (blines v - 1).
Proof.
  intros c v S D R. cbv zeta. unfold vstep. destruct (c119_down c v S) as (S' & L' & C' & _ & R'). destruct (down_cases v S) as [_ F].
  split; [apply sane_draw; exact S'|]. split; [apply draw_drawn|]. rewrite draw_name, draw_lines. destruct (draw_size (vhandle c v KDown)) as [_ ->].
  destruct (draw_cursor (vhandle c v KDown)) as (-> & DC & _).
  assert (NM : v_name (vhandle c v KDown) = v_name v /\ v_sy (vhandle c v KDown) = v_sy v).
  { cbn [vhandle]. rewrite F. destruct (_ =? _); [auto|]. destruct (_ <? _); auto. }
  destruct NM as [N1 N2]. rewrite N1, N2. repeat split; auto.
  unfold row. rewrite DC, draw_oy, N1, N2. unfold blines in *. rewrite L'.
  destruct (autoscroll (v_name v)) eqn:A; cbn [andb].
  2:{ fold (row (vhandle c v KDown)). rewrite R'. fold (row v). destruct (Z.eqb_spec (row v) (Z.of_nat (length (v_lines v)) - 1)); lia. }
  destruct (Z.ltb_spec (v_sy v) (Z.of_nat (length (v_lines v)))).
  2:{ fold (row (vhandle c v KDown)). rewrite R'. fold (row v). destruct (Z.eqb_spec (row v) (Z.of_nat (length (v_lines v)) - 1)); lia. }
  pose proof (drawn_oy v D A ltac:(unfold blines; lia)) as O. unfold blines in O.
  cbn [vhandle]. rewrite F. unfold row, blines in *. destruct S as (? & ? & ? & ?). destruct (Z.eqb_spec (v_oy v + v_cy v) (Z.of_nat (length (v_lines v)) - 1)); [lia|].
  destruct (Z.ltb_spec (v_cy v + 1) (v_sy v)); vcbn; lia.
Qed.
Lemma walk_step_up : forall c v, sane v -> drawn v -> first_shown v <= row v ->
  let v' := vstep c v KUp in
  sane v' /\ drawn v' /\ v_name v' = v_name v /\ v_sy v' = v_sy v /\ v_lines v' = v_lines v /\ v_cx v' = v_cx v /\ row v' = Z.max (row v - 1) (first_shown v).
Proof.
  intros c v S D R. cbv zeta. unfold vstep. destruct (c119_up c v S) as (S' & L' & C' & _ & R'). destruct (up_cases v S) as [_ F].
  split; [apply sane_draw; exact S'|]. split; [apply draw_drawn|]. rewrite draw_name, draw_lines. destruct (draw_size (vhandle c v KUp)) as [_ ->].
  destruct (draw_cursor (vhandle c v KUp)) as (-> & DC & _).
  assert (NM : v_name (vhandle c v KUp) = v_name v /\ v_sy (vhandle c v KUp) = v_sy v).
  { cbn [vhandle]. rewrite F. destruct (0 <? v_cy v); [auto|]. destruct (0 <? _); auto. }
  destruct NM as [N1 N2]. rewrite N1, N2. repeat split; auto.
  unfold row. rewrite DC, draw_oy, N1, N2. unfold blines, first_shown in *. rewrite L'.
  destruct (autoscroll (v_name v)) eqn:A; cbn [andb].
  2:{ fold (row (vhandle c v KUp)). rewrite R'. fold (row v). lia. }
  destruct (Z.ltb_spec (v_sy v) (Z.of_nat (length (v_lines v)))).
  2:{ fold (row (vhandle c v KUp)). rewrite R'. fold (row v). lia. }
  pose proof (drawn_oy v D A ltac:(unfold blines; lia)) as O. unfold blines in O.
  cbn [vhandle]. rewrite F. unfold row in *. destruct S as (? & ? & ? & ?).
  destruct (Z.ltb_spec 0 (v_cy v)); [|destruct (Z.ltb_spec 0 (v_oy v))]; vcbn; lia.
Qed.
Lemma vrun_S : forall c v e k, vrun c v (repeat e (S k)) = vrun c (vstep c v e) (repeat e k).
Proof. reflexivity. Qed.
Lemma first_shown_same : forall v v', v_name v' = v_name v -> v_sy v' = v_sy v -> v_lines v' = v_lines v -> first_shown v' = first_shown v.
Proof. intros v v' A B C. unfold first_shown. rewrite A, B, C. reflexivity. Qed.
(** C119: with the drawing that follows: pressed [k] times on a line of the text, Down leads [k] lines
    down but not past the last line, and Up leads [k] lines up but not above the
    first line, or in a window that follows its text, the first line shown; the text and the column stay. *)
Lemma c119_walk : forall c k v, sane v -> drawn v -> first_shown v <= row v < Z.of_nat (List.length (v_lines v)) ->
  let d := vrun c v (repeat KDown k) in let u := vrun c v (repeat KUp k) in
  sane d /\ v_lines d = v_lines v /\ v_cx d = v_cx v /\ row d = Z.min (row v + Z.of_nat k) (Z.of_nat (List.length (v_lines v)) - 1) /\
  sane u /\ v_lines u = v_lines v /\ v_cx u = v_cx v /\ row u = Z.max (row v - Z.of_nat k) (first_shown v).
Proof.
  intros c k v S D R. cbv zeta.
  assert (DN : sane (vrun c v (repeat KDown k)) /\ v_lines (vrun c v (repeat KDown k)) = v_lines v /\ v_cx (vrun c v (repeat KDown k)) = v_cx v /\
               row (vrun c v (repeat KDown k)) = Z.min (row v + Z.of_nat k) (blines v - 1)).
  { assert (R1 : row v < blines v) by (unfold blines; lia). clear R. revert v S D R1. induction k as [|k IH]; intros v S D R1.
    - cbn [repeat vrun fold_left]. split; [exact S|]. split; [reflexivity|]. split; [reflexivity|]. unfold vrun. cbn [fold_left]. lia.
    - rewrite vrun_S. destruct (walk_step_down c v S D R1) as (S1 & D1 & N1 & Y1 & L1 & C1 & W1).
      destruct (IH (vstep c v KDown) S1 D1) as (S2 & L2 & C2 & W2); [unfold blines in *; rewrite L1; lia|].
      split; [exact S2|]. split; [congruence|]. split; [congruence|]. rewrite W2, W1. unfold blines. rewrite L1. lia. }
  assert (UP : sane (vrun c v (repeat KUp k)) /\ v_lines (vrun c v (repeat KUp k)) = v_lines v /\ v_cx (vrun c v (repeat KUp k)) = v_cx v /\
               row (vrun c v (repeat KUp k)) = Z.max (row v - Z.of_nat k) (first_shown v)).
  { destruct R as [R1 _]. clear DN. revert v S D R1. induction k as [|k IH]; intros v S D R1.
    - cbn [repeat vrun fold_left]. split; [exact S|]. split; [reflexivity|]. split; [reflexivity|]. unfold vrun. cbn [fold_left]. lia.
    - rewrite vrun_S. destruct (walk_step_up c v S D R1) as (S1 & D1 & N1 & Y1 & L1 & C1 & W1).
      pose proof (first_shown_same _ _ N1 Y1 L1) as FS.
      destruct (IH (vstep c v KUp) S1 D1) as (S2 & L2 & C2 & W2); [rewrite FS; lia|].
      split; [exact S2|]. split; [congruence|]. split; [congruence|]. rewrite W2, W1, FS. lia. }
  destruct DN as (D1 & D2 & D3 & D4), UP as (U1 & U2 & U3 & U4). tauto.
Qed.

(** C119 (defect): outside of the text, as in an empty window, nothing stops the Down key. *)
Lemma c119_beyond : forall c k v, sane v -> drawn v -> Z.of_nat (List.length (v_lines v)) <= row v ->
  let d := vrun c v (repeat KDown k) in
  sane d /\ v_lines d = v_lines v /\ v_cx d = v_cx v /\ row d = row v + Z.of_nat k /\
  v_oy d = Z.max (v_oy v) (row v + Z.of_nat k - (v_sy v - 1)).
Proof.
  intros c k. cbv zeta. induction k as [|k IH]; intros v S D R.
  - unfold vrun. cbn [repeat fold_left]. split; [exact S|]. split; [reflexivity|]. split; [reflexivity|]. split; [lia|].
    destruct S as (A & B & C & E). unfold row. lia.
  - rewrite vrun_S.
    assert (NS : autoscroll (v_name v) && (v_sy v <? blines v) = false).
    { destruct (autoscroll (v_name v)) eqn:A; [|reflexivity]. cbn [andb]. apply Z.ltb_ge. destruct (Z.le_gt_cases (blines v) (v_sy v)) as [X|X]; [exact X|].
      pose proof (drawn_oy v D A X). destruct S as (S1 & S2 & S3 & S4). unfold row, blines in *. lia. }
    assert (ST : vstep c v KDown = if v_cy v + 1 <? v_sy v then v_at v (v_cx v) (v_cy v + 1) else v_from v (v_ox v) (v_oy v + 1)).
    { unfold vstep. destruct (down_cases v S) as [_ F]. cbn [vhandle]. rewrite F.
      destruct (Z.eqb_spec (row v) (blines v - 1)); [unfold blines in *; lia|].
      destruct (v_cy v + 1 <? v_sy v); unfold draw; unfold blines in *; vcbn; rewrite NS; reflexivity. }
    assert (S1 : sane (vstep c v KDown)).
    { apply sane_draw. apply (c119_down c v S). }
    assert (D1 : drawn (vstep c v KDown)) by apply draw_drawn.
    assert (W : row (vstep c v KDown) = row v + 1 /\ v_lines (vstep c v KDown) = v_lines v /\ v_cx (vstep c v KDown) = v_cx v /\ v_sy (vstep c v KDown) = v_sy v /\
      v_oy (vstep c v KDown) = Z.max (v_oy v) (row v + 1 - (v_sy v - 1))).
    { rewrite ST. destruct S as (A1 & A2 & A3 & A4). unfold row. destruct (Z.ltb_spec (v_cy v + 1) (v_sy v)); vcbn; repeat split; lia. }
    destruct W as (W1 & W2 & W3 & W4 & W5).
    destruct (IH _ S1 D1) as (I1 & I2 & I3 & I4 & I5); [rewrite W1, W2; lia|].
    split; [exact I1|]. split; [congruence|]. split; [congruence|]. split; [rewrite I4, W1; lia|]. rewrite I5, W1, W4, W5. lia.
Qed.

(** ** Left, Right, Backspace *)
Lemma draw_at : forall v x y, draw (v_at v x y) = v_at (draw v) x y.
Proof. intros v x y. unfold draw. unfold blines. vcbn. destruct (_ && _); reflexivity. Qed.
Lemma at_at : forall v x y x' y', v_at (v_at v x y) x' y' = v_at v x' y'.
Proof. reflexivity. Qed.
(** C119: Left pressed [k] times in the command window goes [k] columns to the left, but not into the
    prompt; nothing else changes. *)
Lemma c119_left : forall c k v, sane v -> drawn v -> v_name v = VCmd -> 0 <= prompt_len c ->
  vrun c v (repeat KLeft k) = v_at v (if v_cx v <=? prompt_len c then v_cx v else Z.max (prompt_len c) (v_cx v - Z.of_nat k)) (v_cy v).
Proof.
  intros c k. induction k as [|k IH]; intros v S D N P.
  - unfold vrun. cbn [repeat fold_left]. destruct (Z.leb_spec (v_cx v) (prompt_len c)); [now rewrite v_at_same|].
    rewrite Z.max_r by lia. rewrite Z.sub_0_r, v_at_same. reflexivity.
  - rewrite vrun_S. unfold vstep. cbn [vhandle]. unfold cursor_left. rewrite N. destruct (Z.leb_spec (v_cx v) (prompt_len c)) as [L|L].
    + rewrite D. rewrite IH by auto. destruct (Z.leb_spec (v_cx v) (prompt_len c)); [reflexivity|lia].
    + unfold try_cursor. destruct S as (S1 & S2 & S3 & S4). rewrite set_cursor_in by lia. rewrite draw_at, D.
      rewrite IH; [|unfold sane; vcbn; lia|unfold drawn; rewrite draw_at, D; reflexivity|exact N|exact P].
      vcbn. rewrite at_at. f_equal. destruct (Z.leb_spec (v_cx v - 1) (prompt_len c)); lia.
Qed.
(** C119: Right pressed [k] times goes [k] columns to the right, but not behind the end of the line;
    from behind the end it goes to the end. *)
Lemma c119_right : forall c k v, sane v -> drawn v -> v_name v = VCmd -> Z.of_nat (slen (line_at v)) < v_sx v ->
  vrun c v (repeat KRight k) =
  v_at v (match k with O => v_cx v | _ => Z.min (v_cx v + Z.of_nat k) (Z.of_nat (slen (line_at v))) end) (v_cy v).
Proof.
  intros c k. induction k as [|k IH]; intros v S D N P.
  - unfold vrun. cbn [repeat fold_left]. now rewrite v_at_same.
  - rewrite vrun_S. unfold vstep. cbn [vhandle]. unfold cursor_right. rewrite N. destruct S as (S1 & S2 & S3 & S4).
    set (n := Z.of_nat (slen (line_at v))) in *.
    assert (ST : (if n - 1 <=? v_cx v then try_cursor v n (v_cy v) else try_cursor v (v_cx v + 1) (v_cy v)) = v_at v (Z.min (v_cx v + 1) n) (v_cy v)).
    { unfold try_cursor. destruct (Z.leb_spec (n - 1) (v_cx v)); rewrite set_cursor_in by lia; f_equal; lia. }
    cbv zeta. rewrite ST, draw_at, D. clear ST.
    rewrite IH; [|unfold sane; vcbn; lia|unfold drawn; rewrite draw_at, D; reflexivity|exact N|exact P].
    unfold line_at. vcbn. fold (line_at v). fold n. rewrite at_at. f_equal. destruct k; [reflexivity|]. lia.
Qed.
(** C119: in the other windows Left and Right do nothing. *)
Lemma c119_others : forall c v, v_name v <> VCmd -> vhandle c v KLeft = v /\ vhandle c v KRight = v /\ back_space c v = v.
Proof. intros c v N. cbn [vhandle]. unfold cursor_left, cursor_right, back_space. destruct (v_name v); auto. contradiction. Qed.

(** C119: the prompt takes exactly the columns that Left and Backspace leave alone, if and only if
    the padding is configured as 3. *)
Lemma c119_prompt : forall c, prompt_len c = Z.of_nat (slen (prompt_text (ci_prompt c) (ci_curline c))) <-> ci_ppad c = 3.
Proof.
  intros c. unfold prompt_len, prompt_text. rewrite !slen_app. change (slen "[") with 1%nat. change (slen "]:") with 2%nat. lia.
Qed.
Lemma app_string_nil : forall a : string, a ++ "" = a.
Proof. induction a as [|x a IH]; [reflexivity|]. cbn [append]. now rewrite IH. Qed.
Lemma substring_front : forall a x, substring 0 (slen a) (a ++ x) = a.
Proof. induction a as [|c a IH]; intros x; [destruct x; reflexivity|]. unfold slen in *. cbn [append String.length substring]. now rewrite IH. Qed.
Lemma substring_all : forall b, substring 0 (slen b) b = b.
Proof. induction b as [|c b IH]; [reflexivity|]. unfold slen in *. cbn [String.length substring]. now rewrite IH. Qed.
Lemma substring_behind : forall a c b n, substring (S (slen a)) n (a ++ String c b) = substring 0 n b.
Proof. induction a as [|d a IH]; intros c b n; [reflexivity|]. unfold slen in *. cbn [append String.length substring]. apply IH. Qed.
(** C119: Backspace takes away the character before the cursor and moves the cursor there, unless
    that belongs to the prompt; then it does nothing. *)
Lemma c119_back : forall c v a ch b, sane v -> v_name v = VCmd -> 0 <= prompt_len c ->
  line_at v = a ++ String ch b -> Z.of_nat (slen a) = v_cx v - 1 ->
  back_space c v =
  if v_cx v <=? prompt_len c then v
  else v_at (v_put v (firstn (Z.to_nat (row v)) (v_lines v) ++ [(a ++ b)%string] ++ skipn (S (Z.to_nat (row v))) (v_lines v))%list) (v_cx v - 1) (v_cy v).
Proof.
  intros c v a ch b SN N P L X. unfold back_space. rewrite N. destruct (Z.leb_spec (v_cx v) (prompt_len c)); [reflexivity|].
  unfold delete_back. fold (row v). change (nth (Z.to_nat (row v)) (v_lines v) "") with (line_at v).
  replace (Z.to_nat (v_cx v - 1)) with (slen a) by lia. cbv zeta. rewrite L.
  rewrite substring_front, substring_behind.
  replace (slen (a ++ String ch b) - S (slen a))%nat with (slen b) by (rewrite slen_app; cbn [slen]; unfold slen; cbn [String.length]; lia).
  rewrite substring_all. unfold try_cursor. destruct SN as (S1 & S2 & S3 & S4). rewrite set_cursor_in by (vcbn; lia). reflexivity.
Qed.

(** C119: a character typed on another takes its place; typed behind the line it is added; the
    other characters and lines stay, and the cursor moves on, unless it is in the last column. *)
Lemma c119_type : forall v before a b after c, sane v -> row v = Z.of_nat (List.length before) -> v_cx v = Z.of_nat (slen a) ->
  v_lines v = (before ++ (a ++ b)%string :: after)%list ->
  type_char v c =
  let v' := v_put v (before ++ (a ++ String c (match b with String _ r => r | "" => "" end))%string :: after)%list in
  if v_cx v + 1 =? v_sx v then v' else v_at v' (v_cx v + 1) (v_cy v).
Proof.
  intros v before a b after c (S1 & S2 & S3 & S4) R X L. unfold type_char. fold (row v). rewrite R, X, L, !Nat2Z.id. cbv zeta.
  replace (S (List.length before) - List.length (before ++ (a ++ b)%string :: after))%nat with 0%nat by (rewrite app_length; cbn [List.length]; lia).
  cbn [repeat]. rewrite app_nil_r. rewrite app_nth2, Nat.sub_diag by lia. cbn [nth].
  rewrite firstn_app, Nat.sub_diag, firstn_all. cbn [firstn]. rewrite app_nil_r.
  replace (skipn (S (List.length before)) (before ++ (a ++ b)%string :: after)) with after
    by (rewrite skipn_app, skipn_all2 by lia; replace (S (List.length before) - List.length before)%nat with 1%nat by lia; reflexivity).
  replace (over (a ++ b) (slen a) c) with (a ++ String c (match b with String _ r => r | "" => "" end)).
  - cbn [app]. unfold try_cursor. destruct (Z.eqb_spec (Z.of_nat (slen a) + 1) (v_sx v)).
    + unfold set_cursor. vcbn. destruct (Z.leb_spec (v_sx v) (Z.of_nat (slen a) + 1)); [rewrite orb_true_r; reflexivity|lia].
    + rewrite set_cursor_in by (vcbn; lia). reflexivity.
  - unfold over. rewrite slen_app. replace (slen a - (slen a + slen b))%nat with 0%nat by lia. unfold fill. cbn [repeat]. change (string_of []) with "".
    rewrite app_string_nil. rewrite substring_front. destruct b as [|d b].
    + rewrite app_string_nil. change (slen "") with 0%nat. match goal with |- context [substring (S (slen a)) ?n a] => replace n with 0%nat by lia end.
      f_equal. cbn [append]. f_equal. clear. generalize (S (slen a)). induction a as [|x a IH]; intros [|n]; try reflexivity. cbn [substring]. apply IH.
    + rewrite substring_behind. match goal with |- context [substring 0 ?n b] => replace n with (slen b) by (rewrite ?slen_app; unfold slen; cbn [String.length]; lia) end.
      rewrite substring_all. reflexivity.
Qed.

(** ** Scrolling *)
Lemma try_cursor_sane : forall v x y, sane v -> sane (try_cursor v x y).
Proof.
  intros v x y S. unfold try_cursor, set_cursor.
  destruct (Z.ltb_spec x 0), (Z.leb_spec (v_sx v) x), (Z.ltb_spec y 0), (Z.leb_spec (v_sy v) y); cbn [orb]; auto.
  destruct S as (S1 & S2 & S3 & S4). unfold sane; vcbn; lia.
Qed.
Lemma try_origin_sane : forall v x y, sane v -> sane (try_origin v x y).
Proof.
  intros v x y S. unfold try_origin, set_origin. destruct (Z.ltb_spec x 0), (Z.ltb_spec y 0); cbn [orb]; auto.
  destruct S as (S1 & S2 & S3 & S4). unfold sane; vcbn; lia.
Qed.
Lemma put_sane : forall v ls, sane v -> sane (v_put v ls).
Proof. intros v ls S. exact S. Qed.
Lemma set_cursor_same : forall v x y v', set_cursor v x y = Some v' -> v' = try_cursor v x y.
Proof. intros v x y v' E. unfold try_cursor. rewrite E. reflexivity. Qed.
Lemma goto_sane : forall v, sane v -> sane (goto_last_row v).
Proof.
  intros v S. unfold goto_last_row. destruct (_ =? _); auto.
  destruct (set_cursor v (v_cx v) (blines v - 1)) eqn:E; [apply set_cursor_same in E; subst; apply try_cursor_sane; auto|].
  apply try_cursor_sane, try_origin_sane, S.
Qed.
Lemma vhandle_sane : forall c v e, sane v -> sane (vhandle c v e).
Proof.
  intros c v e S. destruct e; cbn [vhandle].
  - apply (c119_up c v S).
  - apply (c119_down c v S).
  - unfold cursor_left. destruct (v_name v); auto. destruct (_ <=? _); auto. apply try_cursor_sane; auto.
  - unfold cursor_right. destruct (v_name v); auto. destruct (_ <=? _); apply try_cursor_sane; auto.
  - apply goto_sane; auto.
  - unfold clear_win. destruct (v_name v); auto; apply try_cursor_sane, put_sane; auto.
  - apply put_sane; auto.
Qed.
(** name and size never change *)
Definition same_frame (v v' : view) : Prop := v_name v' = v_name v /\ v_sx v' = v_sx v /\ v_sy v' = v_sy v.
Lemma same_frame_refl : forall v, same_frame v v. Proof. repeat split. Qed.
Ltac sf := repeat split; reflexivity.
Lemma try_cursor_frame : forall v x y, same_frame v (try_cursor v x y).
Proof. intros. unfold try_cursor, set_cursor. destruct (_ || _); sf. Qed.
Lemma try_origin_frame : forall v x y, same_frame v (try_origin v x y).
Proof. intros. unfold try_origin, set_origin. destruct (_ || _); sf. Qed.
Lemma same_frame_trans : forall a b c, same_frame a b -> same_frame b c -> same_frame a c.
Proof. unfold same_frame. intros a b c (? & ? & ?) (? & ? & ?). repeat split; congruence. Qed.
Lemma vhandle_frame : forall c v e, same_frame v (vhandle c v e).
Proof.
  intros c v e. destruct e; cbn [vhandle].
  - unfold cursor_up, set_cursor, set_origin. destruct (_ || _); [|sf]. destruct (_ <? _); [|sf]. destruct (_ || _); sf.
  - unfold cursor_down, set_cursor, set_origin. destruct (_ =? _); [sf|]. destruct (_ || _); [|sf]. destruct (_ || _); sf.
  - unfold cursor_left. destruct (v_name v); try sf. destruct (_ <=? _); [sf|apply try_cursor_frame].
  - unfold cursor_right. destruct (v_name v); try sf. destruct (_ <=? _); apply try_cursor_frame.
  - unfold goto_last_row. destruct (_ =? _); [sf|]. destruct (set_cursor v (v_cx v) (blines v - 1)) eqn:E.
    + apply set_cursor_same in E. subst. apply try_cursor_frame.
    + eapply same_frame_trans; [apply try_origin_frame|apply try_cursor_frame].
  - unfold clear_win. destruct (v_name v) eqn:E; try sf; unfold try_cursor, set_cursor; destruct (_ || _); repeat split; auto.
  - repeat split.
Qed.
Lemma draw_frame : forall v, same_frame v (draw v).
Proof. intros v. unfold draw. destruct (_ && _); repeat split. Qed.
Lemma vstep_frame : forall c v e, same_frame v (vstep c v e).
Proof. intros. unfold vstep. eapply same_frame_trans; [apply vhandle_frame|apply draw_frame]. Qed.
Lemma vstep_sane : forall c v e, sane v -> sane (vstep c v e).
Proof. intros. apply sane_draw, vhandle_sane. auto. Qed.
Lemma vrun_inv : forall c es v, sane v -> drawn v -> sane (vrun c v es) /\ drawn (vrun c v es) /\ same_frame v (vrun c v es).
Proof.
  intros c es. induction es as [|e es IH]; intros v S D; [repeat split; auto; apply S|].
  unfold vrun. cbn [fold_left]. fold (vrun c (vstep c v e) es).
  destruct (IH (vstep c v e)) as (A & B & C); [apply vstep_sane; auto|apply draw_drawn|].
  split; [exact A|]. split; [exact B|]. eapply same_frame_trans; [apply vstep_frame|exact C].
Qed.
Lemma vstart_ok : forall n sx sy, 0 < sx -> 0 < sy -> sane (vstart n sx sy) /\ drawn (vstart n sx sy).
Proof.
  intros n sx sy X Y. split; [unfold sane, vstart; vcbn; lia|]. unfold drawn, draw, vstart, blines. vcbn. cbn [List.length Z.of_nat].
  destruct (Z.ltb_spec sy 0); [lia|]. rewrite andb_false_r. reflexivity.
Qed.
(** C119: whatever keys are pressed and whatever is printed or cleared, the cursor stays inside its window. *)
Lemma c119_inside : forall c n sx sy es, 0 < sx -> 0 < sy ->
  let v := vrun c (vstart n sx sy) es in 0 <= v_cx v < sx /\ 0 <= v_cy v < sy /\ 0 <= v_oy v.
Proof.
  intros c n sx sy es X Y v. destruct (vstart_ok n sx sy X Y) as [S D]. destruct (vrun_inv c es _ S D) as ((A1 & A2 & A3 & A4) & _ & (F1 & F2 & F3)).
  fold v in A1, A2, A3, A4, F1, F2, F3. rewrite F2 in A3. rewrite F3 in A4. auto.
Qed.

Lemma visible_tail : forall v, 0 < v_sy v -> v_sy v <= blines v -> v_oy v = blines v - v_sy v -> visible v = last_ones (Z.to_nat (v_sy v)) (v_lines v).
Proof.
  intros v P L O. unfold visible, last_ones. rewrite O. unfold blines in *.
  replace (Z.to_nat (Z.of_nat (length (v_lines v)) - v_sy v)) with (length (v_lines v) - Z.to_nat (v_sy v))%nat by lia.
  apply firstn_all2. rewrite skipn_length. lia.
Qed.
(** C120: in the command, message and error windows, when there are more lines than fit, the last ones
    are shown, whatever has happened before. *)
Lemma c120_follow : forall c n sx sy es, 0 < sx -> 0 < sy -> n <> VPacket ->
  let v := vrun c (vstart n sx sy) es in
  sy < Z.of_nat (List.length (v_lines v)) -> visible v = last_ones (Z.to_nat sy) (v_lines v).
Proof.
  intros c n sx sy es X Y NP v L. destruct (vstart_ok n sx sy X Y) as [S D]. destruct (vrun_inv c es _ S D) as (_ & D' & (F1 & F2 & F3)).
  fold v in D', F1, F2, F3. cbn [vstart v_name v_sy] in F1, F3. rewrite <- F3. apply visible_tail; unfold blines; rewrite ?F3; try lia.
  pose proof (drawn_oy v D') as O. rewrite F1, F3 in O. unfold blines in O. apply O; [destruct n; auto; contradiction|lia].
Qed.
Lemma add_char_last : forall pre l c, add_char (pre ++ [l]) c = (pre ++ [(l ++ String c "")%string])%list.
Proof. intros. unfold add_char. rewrite rev_app_distr. cbn [rev app]. rewrite rev_involutive. reflexivity. Qed.
Lemma add_char_length : forall ls c, (List.length ls <= List.length (add_char ls c))%nat.
Proof.
  intros ls c. destruct ls as [|x ls] using rev_ind; [cbn; lia|]. rewrite add_char_last, !app_length. cbn [List.length]. lia.
Qed.
Lemma write_length : forall t ls, (List.length ls <= List.length (write ls t))%nat.
Proof.
  induction t as [|c t IH]; intros ls; [cbn; lia|]. cbn [write]. etransitivity; [|apply IH].
  destruct (Ascii.eqb _ _); [rewrite app_length; cbn [List.length]; lia|apply add_char_length].
Qed.
Lemma app_string_assoc : forall a b c : string, (a ++ b) ++ c = a ++ b ++ c.
Proof. induction a as [|x a IH]; intros b c; [reflexivity|]. cbn [append]. now rewrite IH. Qed.
Lemma one_line_cons : forall c t, one_line (String c t) -> Ascii.eqb c (ascii_of_N 10) = false /\ one_line t.
Proof.
  intros c t O. split.
  - apply Ascii.eqb_neq. intros ->. apply O. left. reflexivity.
  - intros I. apply O. right. exact I.
Qed.
Lemma write_text : forall t pre l rest, one_line t -> write (pre ++ [l]) (t ++ rest) = write (pre ++ [(l ++ t)%string])%list rest.
Proof.
  induction t as [|c t IH]; intros pre l rest O.
  - cbn [append]. rewrite app_string_nil. reflexivity.
  - destruct (one_line_cons _ _ O) as [E O']. cbn [append write]. rewrite E, add_char_last, IH by exact O'.
    rewrite app_string_assoc. reflexivity.
Qed.
Lemma write_newline : forall ls, write ls newline = (ls ++ [""])%list.
Proof. reflexivity. Qed.
Lemma write_first : forall t, one_line t -> t <> "" -> write [] (t ++ newline) = [t; ""].
Proof.
  intros [|c t] O N; [contradiction|]. destruct (one_line_cons _ _ O) as [E O']. cbn [append write]. rewrite E.
  change (add_char [] c) with ([] ++ [String c ""])%list. rewrite write_text by exact O'. reflexivity.
Qed.
Lemma write_next : forall pre t, one_line t -> write (pre ++ [""]) (t ++ newline) = (pre ++ [t; ""])%list.
Proof. intros pre t O. rewrite write_text by exact O. rewrite write_newline, <- app_assoc. reflexivity. Qed.

Lemma print_oy : forall c v t, v_oy (vstep c v (KPrint t)) =
  if autoscroll (v_name v) && (v_sy v <? Z.of_nat (List.length (write (v_lines v) t)))
  then Z.of_nat (List.length (write (v_lines v) t)) - v_sy v else v_oy v.
Proof. intros. unfold vstep. rewrite draw_oy. cbn [vhandle]. unfold blines. vcbn. reflexivity. Qed.
Lemma print_lines : forall c v t, v_lines (vstep c v (KPrint t)) = write (v_lines v) t.
Proof. intros. unfold vstep. rewrite draw_lines. reflexivity. Qed.

(** printing lines one after the other, from any window whose last line is empty *)
Lemma prints_from : forall c ts v pre, (forall t, In t ts -> one_line t) -> v_lines v = (pre ++ [""])%list -> drawn v ->
  v_lines (vrun c v (map print_line ts)) = (pre ++ ts ++ [""])%list /\
  v_oy (vrun c v (map print_line ts)) =
    if autoscroll (v_name v) && (v_sy v <? Z.of_nat (List.length (pre ++ ts ++ [""]))) then Z.of_nat (List.length (pre ++ ts ++ [""])) - v_sy v else v_oy v.
Proof.
  intros c ts. induction ts as [|t ts IH]; intros v pre O L D.
  - cbn [map app]. unfold vrun. cbn [fold_left]. split; [exact L|]. pose proof (f_equal v_oy D) as X. rewrite draw_oy in X. unfold blines in X. rewrite L in X.
    symmetry. exact X.
  - unfold vrun. cbn [map fold_left]. fold (vrun c (vstep c v (print_line t)) (map print_line ts)).
    assert (LN : v_lines (vstep c v (print_line t)) = ((pre ++ [t]) ++ [""])%list).
    { unfold print_line. rewrite print_lines, L, write_next by (apply O; left; reflexivity). rewrite <- app_assoc. reflexivity. }
    assert (LL : (List.length (pre ++ (t :: ts) ++ [""]) = List.length ((pre ++ [t]) ++ ts ++ [""]))%nat) by (rewrite <- app_assoc; reflexivity).
    destruct (IH (vstep c v (print_line t)) (pre ++ [t])%list) as [A B]; [intros; apply O; right; auto|exact LN|apply draw_drawn|].
    split; [rewrite A, <- app_assoc; reflexivity|]. rewrite B. destruct (vstep_frame c v (print_line t)) as (F1 & F2 & F3). rewrite F1, F3, LL.
    destruct (autoscroll (v_name v)) eqn:AU; cbn [andb]; [|unfold print_line; rewrite print_oy, AU; reflexivity].
    destruct (Z.ltb_spec (v_sy v) (Z.of_nat (List.length ((pre ++ [t]) ++ ts ++ [""])))) as [X|X]; [reflexivity|].
    unfold print_line. rewrite print_oy, AU. cbn [andb]. fold (print_line t).
    assert (Y : List.length (write (v_lines v) (t ++ newline)) = List.length ((pre ++ [t]) ++ [""])) by (rewrite <- LN; unfold print_line; rewrite print_lines; reflexivity).
    rewrite Y. rewrite !app_length in *. cbn [List.length] in *.
    destruct (Z.ltb_spec (v_sy v) (Z.of_nat (List.length pre + 1 + 1))); [lia|reflexivity].
Qed.
Lemma prints_empty : forall c ts v, ts <> [] -> (forall t, In t ts -> one_line t /\ t <> "") -> v_lines v = [] -> drawn v ->
  v_lines (vrun c v (map print_line ts)) = (ts ++ [""])%list /\
  v_oy (vrun c v (map print_line ts)) =
    if autoscroll (v_name v) && (v_sy v <? Z.of_nat (List.length ts) + 1) then Z.of_nat (List.length ts) + 1 - v_sy v else v_oy v.
Proof.
  intros c [|t ts] v NE O L D; [contradiction|]. unfold vrun. cbn [map fold_left]. fold (vrun c (vstep c v (print_line t)) (map print_line ts)).
  destruct (O t) as [O1 O2]; [left; reflexivity|].
  assert (LN : v_lines (vstep c v (print_line t)) = ([t] ++ [""])%list) by (unfold print_line; rewrite print_lines, L, write_first by auto; reflexivity).
  destruct (prints_from c ts (vstep c v (print_line t)) [t]) as [A B]; [intros; apply O; right; auto|exact LN|apply draw_drawn|].
  split; [exact A|]. rewrite B. destruct (vstep_frame c v (print_line t)) as (F1 & F2 & F3). rewrite F1, F3.
  replace (Z.of_nat (List.length ([t] ++ ts ++ [""]))) with (Z.of_nat (List.length (t :: ts)) + 1) by (rewrite !app_length; cbn [List.length]; lia).
  destruct (autoscroll (v_name v)) eqn:AU; cbn [andb]; [|unfold print_line; rewrite print_oy, AU; reflexivity].
  destruct (Z.ltb_spec (v_sy v) (Z.of_nat (List.length (t :: ts)) + 1)) as [X|X]; [reflexivity|].
  unfold print_line. rewrite print_oy, AU, L, write_first by auto. cbn [andb List.length] in *.
  destruct (Z.ltb_spec (v_sy v) (Z.of_nat 2)); [lia|reflexivity].
Qed.
(** C120 (defect): clearing a window does not scroll it back.  After it, lines printed in a window that
    follows its text are not shown from the first on but from the one whose number is
    that of the first line shown before, until they are more than fit. *)
Lemma c120_clear : forall c n sx sy es ts, 0 < sx -> 0 < sy -> n = VMsg \/ n = VErr ->
  ts <> [] -> (forall t, In t ts -> one_line t /\ t <> "") ->
  let v := vrun c (vstart n sx sy) es in
  let w := vrun c (vrun c v [KClear]) (map print_line ts) in
  sy < Z.of_nat (List.length (v_lines v)) ->
  v_lines (vrun c v [KClear]) = [] /\ v_lines w = (ts ++ [""])%list /\
  visible w = if Z.of_nat (List.length ts) + 1 <=? sy
              then skipn (List.length (v_lines v) - Z.to_nat sy) (ts ++ [""])
              else last_ones (Z.to_nat sy) (ts ++ [""]).
Proof.
  intros c n sx sy es ts X Y NN NE O v w L. destruct (vstart_ok n sx sy X Y) as [S D]. destruct (vrun_inv c es _ S D) as (S' & D' & (F1 & F2 & F3)).
  fold v in S', D', F1, F2, F3. cbn [vstart v_name v_sx v_sy] in F1, F2, F3.
  assert (AU : autoscroll n = true) by (destruct NN as [E|E]; rewrite E; reflexivity).
  assert (OY : v_oy v = Z.of_nat (List.length (v_lines v)) - sy).
  { pose proof (drawn_oy v D') as Q. rewrite F1, F3 in Q. unfold blines in Q. apply Q; auto. }
  assert (CL : vrun c v [KClear] = v_at (v_put v []) 0 0).
  { unfold vrun. cbn [fold_left]. unfold vstep. cbn [vhandle]. unfold clear_win.
    assert (CW : try_cursor (v_put v []) 0 0 = v_at (v_put v []) 0 0) by (unfold try_cursor; rewrite set_cursor_in; [reflexivity|vcbn; lia|vcbn; lia]).
    assert (DR : draw (v_at (v_put v []) 0 0) = v_at (v_put v []) 0 0).
    { unfold draw, blines. vcbn. cbn [List.length Z.of_nat]. destruct (Z.ltb_spec (v_sy v) 0); [lia|]. rewrite andb_false_r. reflexivity. }
    rewrite F1. destruct NN as [E|E]; rewrite E, CW; exact DR. }
  split; [rewrite CL; reflexivity|].
  destruct (prints_empty c ts (vrun c v [KClear]) NE O) as [A B]; [rewrite CL; reflexivity|apply draw_drawn|]. fold w in A, B.
  split; [exact A|]. rewrite CL in B. vcbn. rewrite F1, AU, F3, OY in B. cbn [andb] in B.
  destruct (vrun_inv c (map print_line ts) (vrun c v [KClear])) as (_ & _ & (G1 & G2 & G3)); [rewrite CL; destruct S' as (?&?&?&?); unfold sane; vcbn; lia|apply draw_drawn|].
  fold w in G1, G2, G3. rewrite CL in G3. vcbn. rewrite F3 in G3.
  destruct (Z.ltb_spec sy (Z.of_nat (List.length ts) + 1)) as [Q|Q].
  - destruct (Z.leb_spec (Z.of_nat (List.length ts) + 1) sy); [lia|]. rewrite <- A, <- G3.
    assert (BL : blines w = Z.of_nat (List.length ts) + 1) by (unfold blines; rewrite A, app_length; cbn [List.length]; lia).
    apply visible_tail; rewrite ?BL, ?G3; lia.
  - destruct (Z.leb_spec (Z.of_nat (List.length ts) + 1) sy); [|lia]. unfold visible. rewrite A, B, G3.
    replace (Z.to_nat (Z.of_nat (List.length (v_lines v)) - sy)) with (List.length (v_lines v) - Z.to_nat sy)%nat by lia.
    apply firstn_all2. rewrite skipn_length, app_length. cbn [List.length]. lia.
Qed.
(** C120 (defect): in an empty window Down goes on, and the lines printed afterwards are not shown from
    the first on. *)
Lemma c120_down : forall c n sx sy k ts, 0 < sx -> 0 < sy -> n <> VPacket -> ts <> [] -> (forall t, In t ts -> one_line t /\ t <> "") ->
  Z.of_nat (List.length ts) + 1 <= sy ->
  visible (vrun c (vrun c (vstart n sx sy) (repeat KDown k)) (map print_line ts)) = skipn (k + 1 - Z.to_nat sy) (ts ++ [""]).
Proof.
  intros c n sx sy k ts X Y NP NE O L. destruct (vstart_ok n sx sy X Y) as [S D]. set (v := vrun c (vstart n sx sy) (repeat KDown k)).
  destruct (c119_beyond c k (vstart n sx sy) S D) as (B1 & B2 & B3 & B4 & B5); [unfold row, vstart; vcbn; cbn; lia|]. fold v in B1, B2, B3, B4, B5.
  destruct (vrun_inv c (repeat KDown k) _ S D) as (_ & D' & (F1 & F2 & F3)). fold v in D', F1, F2, F3.
  destruct (prints_empty c ts v NE O B2 D') as [P1 P2].
  destruct (vrun_inv c (map print_line ts) v B1 D') as (_ & _ & (G1 & G2 & G3)).
  set (w := vrun c v (map print_line ts)) in *. cbn [vstart v_name v_sx v_sy] in F1, F2, F3.
  rewrite F3 in P2, G3. rewrite F1 in P2.
  destruct (Z.ltb_spec sy (Z.of_nat (List.length ts) + 1)); [lia|]. rewrite andb_false_r in P2.
  unfold visible. rewrite P1, P2, G3, B5. unfold row, vstart. vcbn.
  replace (Z.to_nat (Z.max 0 (0 + 0 + Z.of_nat k - (sy - 1)))) with (k + 1 - Z.to_nat sy)%nat by lia.
  apply firstn_all2. rewrite skipn_length, app_length. cbn [List.length]. lia.
Qed.
(** C120: without that key and without clearing, a window that follows its text always shows its last
    lines, all of them while they fit. *)
Lemma c120_all : forall c n sx sy es, 0 < sx -> 0 < sy -> n <> VPacket -> ~ In KDown es -> ~ In KClear es ->
  let v := vrun c (vstart n sx sy) es in visible v = last_ones (Z.to_nat sy) (v_lines v).
Proof.
  intros c n sx sy es X Y NP ND NC.
  assert (G : forall es v, sane v -> drawn v -> v_name v = n -> v_sy v = sy -> v_oy v = Z.max 0 (blines v - sy) -> ~ In KDown es -> ~ In KClear es ->
    v_oy (vrun c v es) = Z.max 0 (blines (vrun c v es) - sy)).
  { clear es ND NC. induction es as [|e es IH]; intros v S D N Z I ND NC; [exact I|].
    unfold vrun. cbn [fold_left]. fold (vrun c (vstep c v e) es). destruct (vstep_frame c v e) as (F1 & F2 & F3).
    apply IH; [apply vstep_sane; auto|apply draw_drawn|congruence|congruence| |intros I'; apply ND; right; exact I'|intros I'; apply NC; right; exact I'].
    assert (AU : autoscroll (v_name v) = true) by (rewrite N; destruct n; auto; contradiction).
    destruct (vhandle_frame c v e) as (H1 & H2 & H3).
    unfold vstep. rewrite draw_oy. unfold blines at 3. rewrite draw_lines. fold (blines (vhandle c v e)).
    rewrite H1, AU, H3, Z. cbn [andb]. destruct (Z.ltb_spec sy (blines (vhandle c v e))) as [Q|Q]; [lia|].
    rewrite Z.max_l by lia. destruct S as (S1 & S2 & S3 & S4).
    destruct e; cbn [vhandle] in *.
    - destruct (up_cases v) as [_ U]; [unfold sane; auto|]. rewrite U in *. destruct (0 <? v_cy v); [unfold blines in *; vcbn; lia|].
      destruct (Z.ltb_spec 0 (v_oy v)); unfold blines in *; vcbn; lia.
    - exfalso. apply ND. left. reflexivity.
    - revert Q. unfold cursor_left. destruct (v_name v); try lia. destruct (_ <=? _); [lia|]. unfold try_cursor, set_cursor. destruct (_ || _); unfold blines in *; vcbn; lia.
    - revert Q. unfold cursor_right. destruct (v_name v); try lia. destruct (_ <=? _); unfold try_cursor, set_cursor; destruct (_ || _); unfold blines in *; vcbn; lia.
    - revert Q. unfold goto_last_row. destruct (_ =? _); [lia|]. destruct (Z.le_gt_cases 1 (blines v)) as [B|B].
      + intros Q. destruct (Z.le_gt_cases (blines v) sy).
        * rewrite set_cursor_in by lia. vcbn. lia.
        * exfalso. destruct (set_cursor v (v_cx v) (blines v - 1)) eqn:E.
          -- apply set_cursor_same in E. subst. unfold try_cursor, set_cursor in Q. destruct (_ || _) in Q; unfold blines in *; vcbn; lia.
          -- unfold try_cursor, set_cursor, try_origin, set_origin in Q. destruct (_ || _) in Q; destruct (_ || _) in Q; unfold blines in *; vcbn; lia.
      + assert (B0 : blines v = 0) by (unfold blines in *; lia). rewrite B0. intros _. rewrite set_cursor_out by lia.
        unfold try_origin. rewrite set_origin_out by lia. unfold try_cursor. rewrite set_cursor_in by (vcbn; lia). vcbn. lia.
    - exfalso. apply NC. left. reflexivity.
    - vcbn. pose proof (write_length t (v_lines v)). unfold blines in *. vcbn. lia. }
  intros v. destruct (vstart_ok n sx sy X Y) as [S D]. specialize (G es (vstart n sx sy) S D eq_refl eq_refl). fold v in G.
  assert (I0 : v_oy (vstart n sx sy) = Z.max 0 (blines (vstart n sx sy) - sy)) by (unfold vstart, blines; vcbn; cbn [List.length Z.of_nat]; lia).
  specialize (G I0 ND NC).
  destruct (vrun_inv c es _ S D) as (_ & _ & (F1 & F2 & F3)). fold v in F3. cbn [vstart v_sy] in F3.
  unfold visible, last_ones. rewrite G, F3. unfold blines.
  replace (Z.to_nat (Z.max 0 (Z.of_nat (List.length (v_lines v)) - sy))) with (List.length (v_lines v) - Z.to_nat sy)%nat by lia.
  apply firstn_all2. rewrite skipn_length. lia.
Qed.
(** C120 (defect): the packet window does not follow its text: once it is full, what is printed
    does not change what is shown. *)
Lemma c120_still : forall c v t, v_name v = VPacket -> 0 <= v_oy v -> 0 < v_sy v -> v_oy v + v_sy v < Z.of_nat (List.length (v_lines v)) ->
  visible (vstep c v (KPrint t)) = visible v.
Proof.
  intros c v t N O P L. unfold visible. rewrite print_oy, print_lines. destruct (vstep_frame c v (KPrint t)) as (_ & _ & ->). rewrite N. cbn [autoscroll andb].
  assert (G : forall t ls a b, ls = (a ++ b)%list -> b <> [] -> exists b', write ls t = (a ++ b')%list /\ b' <> []).
  { clear. induction t as [|c t IH]; intros ls a b E NE; [exists b; auto|]. cbn [write]. destruct (Ascii.eqb _ _).
    - apply (IH _ a (b ++ [""])%list); [rewrite E, app_assoc; reflexivity|destruct b; discriminate].
    - destruct b as [|x b _] using rev_ind; [contradiction|]. subst ls. rewrite app_assoc, add_char_last.
      apply (IH _ a (b ++ [(x ++ String c "")%string])%list); [rewrite <- app_assoc; reflexivity|destruct b; discriminate]. }
  set (m := (Z.to_nat (v_oy v) + Z.to_nat (v_sy v))%nat).
  destruct (G t (v_lines v) (firstn m (v_lines v)) (skipn m (v_lines v))) as (b' & E & _).
  { symmetry. apply firstn_skipn. } { intros Q. apply (f_equal (@List.length string)) in Q. rewrite skipn_length in Q. cbn [List.length] in Q. lia. }
  assert (W : forall (l b : list string) i k, (k + i = List.length l)%nat -> firstn k (skipn i (l ++ b)) = skipn i l).
  { clear. intros l b i k E. rewrite skipn_app, firstn_app, skipn_length. replace (k - (List.length l - i))%nat with 0%nat by lia.
    cbn [firstn]. rewrite app_nil_r. apply firstn_all2. rewrite skipn_length. lia. }
  assert (LA : List.length (firstn m (v_lines v)) = m) by (rewrite firstn_length; lia).
  rewrite E, W by lia. transitivity (firstn (Z.to_nat (v_sy v)) (skipn (Z.to_nat (v_oy v)) (firstn m (v_lines v) ++ skipn m (v_lines v)))).
  - rewrite W by lia. reflexivity.
  - rewrite firstn_skipn. reflexivity.
Qed.
(** C120: coming to a window with Ctrl-Space leaves the cursor on the last line, if it is there.  Otherwise it
    goes to the row that the last line has if the window is not scrolled; or, if the lines do not fit,
    to the last line, in the packet window to the last but one. *)
Lemma c120_jump : forall c v, sane v -> drawn v ->
  let v' := vstep c v KLastRow in let n := Z.of_nat (List.length (v_lines v)) in
  v_lines v' = v_lines v /\ v_cx v' = v_cx v /\
  if row v =? n - 1 then v' = v
  else if n =? 0 then v_oy v' = v_oy v /\ v_cy v' = v_sy v - 1
  else if n <=? v_sy v then v_oy v' = v_oy v /\ v_cy v' = n - 1
  else v_cy v' = v_sy v - 1 /\ row v' = if autoscroll (v_name v) then n - 1 else n - 2.
Proof.
  intros c v (S1 & S2 & S3 & S4) D v' n. unfold v', vstep. rewrite draw_lines.
  destruct (draw_cursor (vhandle c v KLastRow)) as (-> & -> & _). unfold row at 2. rewrite draw_oy.
  destruct (draw_cursor (vhandle c v KLastRow)) as (_ & -> & _). cbn [vhandle]. unfold goto_last_row. fold (row v). unfold blines. fold n.
  destruct (row v =? n - 1); [auto|]. destruct (Z.eqb_spec n 0) as [E|E].
  - rewrite E. rewrite set_cursor_out by lia. unfold try_origin. rewrite set_origin_out by lia. unfold try_cursor. rewrite set_cursor_in by (vcbn; lia). vcbn.
    fold n. rewrite E. destruct (Z.ltb_spec (v_sy v) 0); [lia|]. rewrite andb_false_r. auto.
  - assert (0 <= n) by (unfold n; lia). destruct (Z.leb_spec n (v_sy v)).
    + rewrite set_cursor_in by lia. vcbn. fold n. destruct (Z.ltb_spec (v_sy v) n); [lia|]. rewrite andb_false_r. auto.
    + rewrite set_cursor_out by lia. unfold try_origin. rewrite set_origin_in by lia. unfold try_cursor. rewrite set_cursor_in by (vcbn; lia). vcbn. fold n.
      destruct (Z.ltb_spec (v_sy v) n); [|lia]. rewrite andb_true_r. destruct (autoscroll (v_name v)); repeat split; lia.
Qed.

(** ** The command line *)
Lemma krun_app : forall a b k, krun k (a ++ b) = do k <- krun k a; krun k b.
Proof.
  induction a as [|e a IH]; intros b k; [reflexivity|]. cbn [app krun]. destruct (kstep k e); cbn [obind]; auto.
Qed.
Lemma bytes_app' : forall a b, bytes_of (a ++ b) = (bytes_of a ++ bytes_of b)%list.
Proof. induction a as [|c a IH]; intros b; [reflexivity|]. cbn [append bytes_of list_ascii_of_string app]. f_equal. apply IH. Qed.
Lemma slen_bytes : forall a, slen a = List.length (bytes_of a).
Proof. induction a as [|c a IH]; [reflexivity|]. cbn [slen bytes_of list_ascii_of_string List.length]. cbn. f_equal. exact IH. Qed.
Lemma over_end : forall l c, over l (slen l) c = l ++ String c "".
Proof.
  intros l c. unfold over. rewrite Nat.sub_diag. unfold fill. cbn [repeat]. change (string_of []) with "". rewrite app_string_nil, substring_all.
  f_equal. cbn [append]. f_equal. replace (slen l - S (slen l))%nat with 0%nat by lia. clear. induction l as [|a l IH]; [reflexivity|]. exact IH.
Qed.
Lemma type_char_end : forall v pre l c, v_lines v = (pre ++ [l])%list -> row v = Z.of_nat (List.length pre) -> v_cx v = Z.of_nat (slen l) ->
  0 <= v_cy v < v_sy v -> Z.of_nat (slen (l ++ String c "")) < v_sx v ->
  type_char v c = v_at (v_put v (pre ++ [(l ++ String c "")%string])) (Z.of_nat (slen (l ++ String c ""))) (v_cy v).
Proof.
  intros v pre l c L R X Y F. unfold type_char. fold (row v). rewrite R, X, L, !Nat2Z.id.
  rewrite app_length. cbn [List.length]. replace (S (List.length pre) - (List.length pre + 1))%nat with 0%nat by lia. cbn [repeat]. rewrite app_nil_r.
  rewrite app_nth2, Nat.sub_diag by lia. cbn [nth]. rewrite over_end, firstn_app, Nat.sub_diag, firstn_all. cbn [firstn]. rewrite app_nil_r.
  rewrite skipn_all2 by (rewrite app_length; cbn [List.length]; lia). cbn [app].
  assert (Q : Z.of_nat (slen (l ++ String c "")) = Z.of_nat (slen l) + 1) by (rewrite slen_app; change (slen (String c "")) with 1%nat; lia).
  unfold try_cursor. rewrite set_cursor_in by (vcbn; lia). rewrite Q. reflexivity.
Qed.
Lemma type_text_end : forall t v pre l, v_lines v = (pre ++ [l])%list -> row v = Z.of_nat (List.length pre) -> v_cx v = Z.of_nat (slen l) ->
  0 <= v_cy v < v_sy v -> Z.of_nat (slen (l ++ t)) < v_sx v ->
  type_text v t = v_at (v_put v (pre ++ [(l ++ t)%string])) (Z.of_nat (slen (l ++ t))) (v_cy v).
Proof.
  induction t as [|c t IH]; intros v pre l L R X Y F.
  - cbn [type_text]. rewrite app_string_nil, <- L, <- X. destruct v; reflexivity.
  - cbn [type_text]. assert (E : l ++ String c t = (l ++ String c "") ++ t) by (rewrite app_string_assoc; reflexivity).
    rewrite (type_char_end v pre l c) by (auto; rewrite E, slen_app in F; lia). rewrite E in *.
    rewrite (IH _ pre (l ++ String c "")); vcbn; auto.
Qed.
Lemma colon_not_digit : forall n, ~ In ":"%char (bytes_of (itoa n)) /\ ~ In (ascii_of_N 10) (bytes_of (itoa n)).
Proof.
  intros n. split; intros I; apply FrameTextMain.itoa_chars in I; [change (N_of_ascii ":") with 58%N in I|rewrite N_ascii_embedding in I by reflexivity]; lia.
Qed.
Lemma prompt_bytes : forall p n, exists q, prompt_text p n = (q ++ ":")%string /\ q = p ++ "[" ++ itoa n ++ "]".
Proof. intros p n. eexists. split; [|reflexivity]. unfold prompt_text. rewrite !app_string_assoc. reflexivity. Qed.
Lemma prompt_typed : forall p n c, ~ In ":"%char (bytes_of p) -> typed (prompt_text p n ++ c) c.
Proof.
  intros p n c N. destruct (prompt_bytes p n) as (q & E & Q). exists q. split.
  - rewrite Q, !bytes_app'. intros I. apply in_app_or in I. destruct I as [I|I]; [auto|].
    apply in_app_or in I. destruct I as [[I|[]]|I]; [discriminate|].
    apply in_app_or in I. destruct I as [I|[I|[]]]; [|discriminate]. now apply colon_not_digit in I.
  - rewrite E, !bytes_app', <- app_assoc. reflexivity.
Qed.
Lemma prompt_one_line : forall p n, one_line p -> one_line (prompt_text p n).
Proof.
  intros p n O I. unfold prompt_text in I. rewrite !bytes_app' in I. apply in_app_or in I. destruct I as [I|I]; [auto|].
  apply in_app_or in I. destruct I as [[I|[]]|I]; [discriminate|].
  apply in_app_or in I. destruct I as [I|[I|[I|[]]]]; try discriminate. now apply colon_not_digit in I.
Qed.
Lemma typed_split : forall line text, typed line text -> exists h, split_two ":" line = [h; text].
Proof.
  intros line text T. pose proof (split_two_spec line) as S. destruct (split_two ":" line) as [|h [|t [|]]]; try contradiction; [exfalso; exact (S _ T)|].
  exists h. f_equal. f_equal. eapply typed_unique; eauto.
Qed.
Definition start_of (c : string) : list (list string) := match run_line c with Ret (Some ws, _, _) => [ws] | _ => [] end.
Lemma enter_typed : forall k c, runs c -> typed (line_at (k_view k)) c ->
  enter k = Ret (show_prompt {| k_view := k_view k; k_info := remember (k_info k) c; k_waiting := k_waiting k; k_ran := (k_ran k ++ start_of c)%list |}).
Proof.
  intros k c (O & N1 & N2 & W) T. unfold enter. destruct (c67_enter (line_at (k_view k))) as [A _]. rewrite (A c T).
  assert (Q : one_of c ["exit"; "quit"] = false).
  { destruct (one_of c ["exit"; "quit"]) eqn:E; [|reflexivity]. apply one_of_In in E. destruct E as [E|[E|[]]]; congruence. }
  rewrite Q. destruct (typed_split _ _ T) as (h & SP). rewrite SP. unfold start_of.
  destruct (c67_panics c) as [P F].
  assert (NE : c <> "") by (intros ->; apply W; apply fields_words; reflexivity).
  destruct (run_line c) as [((g & l) & b)| |]; [|exfalso; apply W, (proj1 P eq_refl)|congruence].
  cbn [obind index nth_error]. destruct (String.eqb_spec c ""); [contradiction|]. destruct g; [reflexivity|rewrite app_nil_r; reflexivity].
Qed.
Lemma enter_empty : forall k, typed (line_at (k_view k)) "" -> enter k = Ret k.
Proof.
  intros k T. unfold enter. destruct (typed_split _ _ T) as (h & SP). unfold get_line. rewrite SP. reflexivity.
Qed.
Lemma enter_none : forall k, ~ In ":"%char (bytes_of (line_at (k_view k))) -> enter k = Panic.
Proof.
  intros k N. unfold enter. destruct (c67_enter (line_at (k_view k))) as [_ B]. rewrite B; [reflexivity|].
  intros t (q & _ & E). apply N. rewrite E. apply in_or_app. right. left. reflexivity.
Qed.

Lemma fits_front : forall p sx cs c, fits p sx (cs ++ [c]) -> fits p sx cs /\ Z.of_nat (slen (prompt_text p (N.of_nat (List.length cs)) ++ c)) < sx.
Proof.
  intros p sx cs c (O & C & A & B).
  assert (L : Z.of_nat (slen (prompt_text p (N.of_nat (List.length cs)) ++ c)) < sx) by (apply (A (List.length cs)); rewrite nth_error_app2, Nat.sub_diag by lia; reflexivity).
  split; [|exact L]. split; [exact O|]. split; [exact C|]. split.
  - intros i d E. apply A. rewrite nth_error_app1; [exact E|]. apply nth_error_Some. congruence.
  - rewrite slen_app in L. lia.
Qed.
Definition old_lines (p : string) (cs : list string) : list string :=
  map (fun x => (prompt_text p (N.of_nat (fst x)) ++ snd x)%string) (combine (seq 0 (List.length cs)) cs).
Lemma old_lines_length : forall p cs, List.length (old_lines p cs) = List.length cs.
Proof. intros. unfold old_lines. rewrite map_length, combine_length, seq_length. lia. Qed.
Lemma combine_app : forall A B (a a' : list A) (b b' : list B), List.length a = List.length b -> combine (a ++ a') (b ++ b') = (combine a b ++ combine a' b')%list.
Proof. induction a as [|x a IH]; intros a' [|y b] b' E; try discriminate; [reflexivity|]. cbn [app combine]. f_equal. apply IH. cbn in E. lia. Qed.
Lemma old_lines_snoc : forall p cs c, old_lines p (cs ++ [c]) = (old_lines p cs ++ [(prompt_text p (N.of_nat (List.length cs)) ++ c)%string])%list.
Proof.
  intros. unfold old_lines. rewrite app_length, seq_app. cbn [List.length seq Nat.add]. rewrite combine_app by apply seq_length.
  rewrite map_app. reflexivity.
Qed.
Lemma old_lines_nth : forall p cs i c, nth_error cs i = Some c -> nth i (old_lines p cs) "" = prompt_text p (N.of_nat i) ++ c.
Proof.
  intros p cs i c. revert i. induction cs as [|d cs IH] using rev_ind; intros i E; [destruct i; discriminate|].
  rewrite old_lines_snoc. destruct (Nat.lt_ge_cases i (List.length cs)) as [L|L].
  - rewrite nth_error_app1 in E by lia. rewrite app_nth1 by (rewrite old_lines_length; lia). auto.
  - rewrite nth_error_app2 in E by lia. rewrite app_nth2 by (rewrite old_lines_length; lia). rewrite old_lines_length.
    destruct (i - List.length cs)%nat as [|j] eqn:J; [|destruct j; discriminate]. inversion E; subst. cbn [nth].
    replace i with (List.length cs) by lia. reflexivity.
Qed.
(** the command line after a command has been typed, and after Enter *)
Lemma step_text : forall p sx sy cs c k, 0 < sy -> fits p sx (cs ++ [c]) -> ready p sx sy cs k ->
  let n := Z.of_nat (List.length cs) in
  kstep k (KText c) = Ret (with_view k
    {| v_name := VCmd; v_ox := 0; v_oy := Z.max 0 (n + 1 - sy); v_cx := Z.of_nat (slen (prompt_text p (N.of_nat (List.length cs)) ++ c));
       v_cy := Z.min n (sy - 1); v_sx := sx; v_sy := sy;
       v_lines := (old_lines p cs ++ [(prompt_text p (N.of_nat (List.length cs)) ++ c)%string])%list |}).
Proof.
  intros p sx sy cs c k Y F (V & I & W) n. destruct (fits_front _ _ _ _ F) as [_ L].
  unfold kstep. cbn [khandle obind]. f_equal. unfold with_view. cbn [k_view k_info k_waiting k_ran]. f_equal.
  rewrite (type_text_end c (k_view k) (old_lines p cs) (prompt_text p (N.of_nat (List.length cs)))).
  - rewrite V. vcbn. unfold draw, blines. vcbn. rewrite app_length, old_lines_length. cbn [List.length autoscroll andb].
    destruct (Z.ltb_spec sy (Z.of_nat (List.length cs + 1))); unfold v_from, v_at, v_put; vcbn; f_equal; lia.
  - rewrite V. reflexivity.
  - rewrite V, old_lines_length. unfold row. vcbn. lia.
  - rewrite V. reflexivity.
  - rewrite V. vcbn. lia.
  - rewrite V. exact L.
Qed.
Definition entered (p : string) (sx sy : Z) (cs : list string) (c : string) (ran : list (list string)) : cmdline :=
  let n := Z.of_nat (List.length cs) in
  {| k_view := {| v_name := VCmd; v_ox := 0; v_oy := Z.max 0 (n + 1 - sy); v_cx := Z.of_nat (slen (prompt_text p (N.of_nat (S (List.length cs)))));
                  v_cy := if n + 1 <? sy then n + 1 else sy - 1; v_sx := sx; v_sy := sy;
                  v_lines := (old_lines p cs ++ [(prompt_text p (N.of_nat (List.length cs)) ++ c)%string])%list |};
     k_info := {| ci_prompt := p; ci_curline := N.of_nat (S (List.length cs)); ci_ppad := 3; ci_commands := (cs ++ [c])%list |};
     k_waiting := [(newline ++ prompt_text p (N.of_nat (S (List.length cs))))%string];
     k_ran := (ran ++ start_of c)%list |}.
Lemma step_enter : forall p sx sy cs c k, 0 < sy -> fits p sx (cs ++ [c]) -> runs c -> ready p sx sy cs k ->
  krun k [KText c; KEnter] = Ret (entered p sx sy cs c (k_ran k)).
Proof.
  intros p sx sy cs c k Y F R RD. cbn [krun]. rewrite (step_text p sx sy cs c k Y F RD). cbn [obind]. destruct RD as (V & I & W).
  set (n := Z.of_nat (List.length cs)). unfold kstep at 1. cbn [khandle].
  assert (FL : Z.of_nat (slen (prompt_text p (N.of_nat (S (List.length cs))))) < sx).
  { destruct F as (_ & _ & _ & F). rewrite app_length in F. cbn [List.length] in F. rewrite Nat.add_1_r in F. exact F. }
  assert (F0 := F). destruct F as (_ & NC & _). destruct (fits_front _ _ _ _ F0) as [_ L].
  rewrite (enter_typed _ c R).
  - cbn [obind]. unfold with_view. cbn [k_view k_info k_waiting k_ran]. rewrite I, W. unfold remember, show_prompt. cbn [k_view k_info k_waiting k_ran ci_prompt ci_curline ci_ppad ci_commands]. vcbn.
    assert (RW : Z.max 0 (n + 1 - sy) + Z.min n (sy - 1) = n) by lia. rewrite RW.
    assert (NN : Z.of_N (N.of_nat (List.length cs)) = n) by (unfold n; lia). rewrite NN, Z.eqb_refl.
    unfold next_line. cbn [ci_prompt ci_curline ci_ppad ci_commands].
    assert (CN : (N.of_nat (List.length cs) + 1)%N = N.of_nat (S (List.length cs))) by lia. rewrite CN.
    set (c1 := {| ci_prompt := p; ci_curline := N.of_nat (S (List.length cs)); ci_ppad := 3; ci_commands := (cs ++ [c])%list |}).
    assert (PL : prompt_len c1 = Z.of_nat (slen (prompt_text p (N.of_nat (S (List.length cs)))))) by (apply (proj2 (c119_prompt c1)); reflexivity). rewrite PL.
    match goal with |- context[try_cursor ?V (Z.of_nat (slen (prompt_text p (N.of_nat (S (List.length cs)))))) (Z.min n (sy - 1))] =>
      assert (T1 : try_cursor V (Z.of_nat (slen (prompt_text p (N.of_nat (S (List.length cs)))))) (Z.min n (sy - 1)) =
                   v_at V (Z.of_nat (slen (prompt_text p (N.of_nat (S (List.length cs)))))) (Z.min n (sy - 1)))
        by (unfold try_cursor; rewrite set_cursor_in by (vcbn; unfold n in *; lia); reflexivity);
      rewrite T1; clear T1;
      assert (D1 : cursor_down (v_at V (Z.of_nat (slen (prompt_text p (N.of_nat (S (List.length cs)))))) (Z.min n (sy - 1))) =
                   (v_at V (Z.of_nat (slen (prompt_text p (N.of_nat (S (List.length cs)))))) (Z.min n (sy - 1)), true))
    end.
    { unfold cursor_down, blines. vcbn. rewrite RW, app_length, old_lines_length. cbn [List.length].
      destruct (Z.eqb_spec n (Z.of_nat (List.length cs + 1) - 1)); [reflexivity|unfold n in *; lia]. }
    rewrite D1; clear D1. vcbn.
    unfold entered. fold n. cbn [krun obind app k_view k_info k_waiting k_ran]. f_equal. f_equal.
    unfold try_cursor. destruct (Z.ltb_spec (n + 1) sy) as [Q|Q].
    + rewrite set_cursor_in by (vcbn; lia). unfold draw, blines. vcbn. rewrite app_length, old_lines_length. cbn [List.length autoscroll andb].
      destruct (Z.ltb_spec sy (Z.of_nat (List.length cs + 1))); [unfold n in *; lia|]. unfold v_at, v_from; vcbn; f_equal; lia.
    + rewrite set_cursor_out by (vcbn; lia). unfold draw, blines. vcbn. rewrite app_length, old_lines_length. cbn [List.length autoscroll andb].
      destruct (Z.ltb_spec sy (Z.of_nat (List.length cs + 1))); unfold v_at, v_from; vcbn; f_equal; unfold n in *; lia.
  - unfold line_at, with_view. cbn [k_view]. vcbn. fold n. replace (Z.max 0 (n + 1 - sy) + Z.min n (sy - 1)) with n by lia.
    unfold n. rewrite Nat2Z.id, app_nth2; rewrite old_lines_length; [|lia]. rewrite Nat.sub_diag. cbn [nth]. apply prompt_typed. exact NC.
Qed.
Lemma write_prompt : forall ls t, one_line t -> write ls (newline ++ t) = (ls ++ [t])%list.
Proof.
  intros ls t O. change (newline ++ t) with (String (ascii_of_N 10) t). cbn [write]. rewrite Ascii.eqb_refl.
  rewrite <- (app_string_nil t) at 1. rewrite write_text by exact O. reflexivity.
Qed.
Lemma step_arrive : forall p sx sy cs c ran, 0 < sy -> one_line p ->
  exists k, kstep (entered p sx sy cs c ran) KArrive = Ret k /\ ready p sx sy (cs ++ [c]) k /\ k_ran k = (ran ++ start_of c)%list.
Proof.
  intros p sx sy cs c ran Y O. unfold kstep. cbn [khandle]. unfold entered. cbn [k_waiting obind k_view k_info k_ran]. eexists. split; [reflexivity|].
  split; [|reflexivity]. unfold with_view. cbn [k_view k_info k_waiting k_ran]. vcbn. rewrite write_prompt by (apply prompt_one_line; exact O).
  unfold ready. cbn [k_view k_info k_waiting]. unfold transcript. fold (old_lines p (cs ++ [c])). rewrite old_lines_snoc.
  assert (E : List.length (cs ++ [c]) = S (List.length cs)) by (rewrite app_length; cbn [List.length]; lia). rewrite E.
  split; [|split; reflexivity]. unfold draw, blines. vcbn. rewrite !app_length, old_lines_length. cbn [List.length autoscroll andb].
  destruct (Z.ltb_spec sy (Z.of_nat (List.length cs + 1 + 1))); destruct (Z.ltb_spec (Z.of_nat (List.length cs) + 1) sy); unfold v_at, v_from, v_put; vcbn; f_equal; try lia.
Qed.
(** C121: if each prompt is waited for, every command typed is run, once and in order, the window holds
    the commands behind numbered prompts, and its last lines are shown with the cursor
    behind the last prompt. *)
Lemma c121_session : forall p sx sy cs, 0 < sx -> 0 < sy -> fits p sx cs -> (forall c, In c cs -> runs c) ->
  exists k, krun (kstart p 3 sx sy) (KArrive :: flat_map do_one cs) = Ret k /\ ready p sx sy cs k /\ k_ran k = started cs.
Proof.
  intros p sx sy cs X Y. induction cs as [|c cs IH] using rev_ind; intros F R.
  - destruct F as (O & NC & _ & F). cbn [List.length] in F. cbn [flat_map krun]. unfold kstart at 1.
    set (c0 := {| ci_prompt := p; ci_curline := 0; ci_ppad := 3; ci_commands := [] |}).
    assert (PL : prompt_len c0 = Z.of_nat (slen (prompt_text p (N.of_nat 0)))) by (apply (proj2 (c119_prompt c0)); reflexivity). rewrite PL.
    unfold try_cursor. rewrite set_cursor_in by (unfold vstart; vcbn; lia). unfold kstep. cbn [khandle k_waiting obind]. eexists. split; [reflexivity|].
    split; [|reflexivity]. unfold with_view, vstart, ready. cbn [k_view k_info k_waiting k_ran]. split; [|split; reflexivity]. vcbn.
    assert (WP : write [] (prompt_text p 0) = [prompt_text p 0]).
    { assert (O' := prompt_one_line p 0 O). destruct (prompt_text p 0) as [|a t] eqn:E; [destruct p; discriminate|].
      destruct (one_line_cons _ _ O') as [E1 O1]. cbn [write]. rewrite E1. change (add_char [] a) with ([] ++ [String a ""])%list.
      rewrite <- (app_string_nil t), write_text by exact O1. rewrite app_string_nil. reflexivity. }
    rewrite WP. unfold draw, blines. vcbn. cbn [List.length autoscroll andb]. destruct (Z.ltb_spec sy (Z.of_nat 1)); [lia|]. cbn [Z.of_nat].
    unfold transcript. cbn [List.length seq combine map app]. unfold v_at, v_from, v_put; vcbn; f_equal; try lia; try reflexivity.
  - destruct (fits_front _ _ _ _ F) as [F0 _]. destruct (IH F0) as (k & K & RD & RN); [intros; apply R, in_or_app; auto|].
    assert (Rc : runs c) by (apply R, in_or_app; right; left; reflexivity).
    rewrite flat_map_app, app_comm_cons, krun_app, K. cbn [flat_map app obind]. rewrite app_nil_r. unfold do_one.
    change [KText c; KEnter; KArrive] with ([KText c; KEnter] ++ [KArrive])%list. rewrite krun_app, (step_enter p sx sy cs c k Y F Rc RD). cbn [obind krun].
    destruct F as (O & _). destruct (step_arrive p sx sy cs c (k_ran k) Y O) as (k' & K' & RD' & RN'). rewrite K'. cbn [obind]. exists k'.
    split; [reflexivity|]. split; [exact RD'|]. rewrite RN', RN. unfold started. rewrite flat_map_app. cbn [flat_map]. rewrite app_nil_r. reflexivity.
Qed.
Lemma started_one : forall c, started [c] = start_of c.
Proof. intros c. unfold started. cbn [flat_map]. apply app_nil_r. Qed.
Lemma started_two : forall c, started [c; c] = (start_of c ++ start_of c)%list.
Proof. intros c. unfold started. cbn [flat_map]. rewrite app_nil_r. reflexivity. Qed.
(** C122 (defect): Enter pressed twice before the next prompt has arrived ends the program in a panic, or, once
    the window is full, runs the command twice for one prompt. *)
Lemma c122_twice : forall p sx sy cs c k, 0 < sy -> fits p sx (cs ++ [c]) -> runs c -> ready p sx sy cs k ->
  let n := Z.of_nat (List.length cs) in
  if n + 1 <? sy then krun k [KText c; KEnter; KEnter] = Panic
  else exists k', krun k [KText c; KEnter; KEnter] = Ret k' /\ k_ran k' = (k_ran k ++ started [c; c])%list /\
       ci_commands (k_info k') = (cs ++ [c; c])%list /\ ci_curline (k_info k') = N.of_nat (S (List.length cs)) /\
       k_waiting k' = [(newline ++ prompt_text p (N.of_nat (S (List.length cs))))%string].
Proof.
  intros p sx sy cs c k Y F R RD n. change [KText c; KEnter; KEnter] with ([KText c; KEnter] ++ [KEnter])%list.
  rewrite krun_app, (step_enter p sx sy cs c k Y F R RD). cbn [obind krun]. unfold kstep. cbn [khandle].
  destruct (Z.ltb_spec (n + 1) sy) as [Q|Q].
  - rewrite enter_none; [reflexivity|]. unfold line_at, entered. cbn [k_view]. vcbn. fold n.
    destruct (Z.ltb_spec (n + 1) sy); [|lia]. rewrite nth_overflow; [intros []|]. rewrite app_length, old_lines_length. cbn [List.length]. unfold n. lia.
  - rewrite (enter_typed _ c R).
    + unfold entered at 1 2 3 4. cbn [k_view k_info k_waiting k_ran]. fold n. destruct (Z.ltb_spec (n + 1) sy); [lia|].
      unfold show_prompt, remember. cbn [k_view k_info k_waiting k_ran ci_prompt ci_curline ci_ppad ci_commands]. vcbn.
      destruct (Z.eqb_spec (Z.max 0 (n + 1 - sy) + (sy - 1)) (Z.of_N (N.of_nat (S (List.length cs))))); [unfold n in *; lia|].
      cbn [obind]. eexists. split; [reflexivity|]. unfold with_view. cbn [k_view k_info k_waiting k_ran ci_prompt ci_curline ci_ppad ci_commands].
      rewrite started_two, <- !app_assoc. auto.
    + unfold line_at, entered. cbn [k_view]. vcbn. fold n. destruct (Z.ltb_spec (n + 1) sy); [lia|].
      replace (Z.to_nat (Z.max 0 (n + 1 - sy) + (sy - 1))) with (List.length cs) by (unfold n in *; lia).
      rewrite app_nth2; rewrite old_lines_length; [|lia]. rewrite Nat.sub_diag. cbn [nth]. apply prompt_typed. destruct F as (_ & NC & _). exact NC.
Qed.
(** what typing leaves as it is *)
Lemma type_char_same : forall v c, 0 <= row v ->
  v_name (type_char v c) = v_name v /\ v_oy (type_char v c) = v_oy v /\ v_cy (type_char v c) = v_cy v /\ v_sy (type_char v c) = v_sy v /\
  (List.length (v_lines (type_char v c)) = Nat.max (List.length (v_lines v)) (S (Z.to_nat (row v))))%nat /\
  nth (Z.to_nat (row v)) (v_lines (type_char v c)) "" = over (nth (Z.to_nat (row v)) (v_lines v) "") (Z.to_nat (v_cx v)) c.
Proof.
  intros v c R. unfold type_char. fold (row v). set (r := Z.to_nat (row v)). set (ls := (v_lines v ++ repeat "" (S r - List.length (v_lines v)))%list).
  assert (LL : (List.length ls = Nat.max (List.length (v_lines v)) (S r))%nat) by (unfold ls; rewrite app_length, repeat_length; lia).
  assert (NL : nth r ls "" = nth r (v_lines v) "").
  { unfold ls. destruct (Nat.lt_ge_cases r (List.length (v_lines v))); [rewrite app_nth1 by lia; reflexivity|].
    rewrite app_nth2 by lia. rewrite (nth_overflow (v_lines v)) by lia. generalize (r - List.length (v_lines v))%nat. generalize (S r - List.length (v_lines v))%nat. clear.
    induction n as [|n IH]; intros [|m]; cbn [repeat nth]; auto. }
  match goal with |- context[try_cursor (v_put v ?L) ?x ?y] => assert (T : v_lines (try_cursor (v_put v L) x y) = L /\ v_name (try_cursor (v_put v L) x y) = v_name v /\
     v_oy (try_cursor (v_put v L) x y) = v_oy v /\ v_cy (try_cursor (v_put v L) x y) = v_cy v /\ v_sy (try_cursor (v_put v L) x y) = v_sy v)
     by (unfold try_cursor, set_cursor; destruct (_ || _); vcbn; auto) end.
  destruct T as (-> & -> & -> & -> & ->). repeat split.
  - rewrite !app_length, firstn_length, skipn_length, LL. cbn [List.length]. lia.
  - assert (FL : List.length (firstn r ls) = r) by (rewrite firstn_length; lia).
    rewrite app_nth2; rewrite FL; [|lia]. rewrite Nat.sub_diag. cbn [nth app]. now rewrite NL.
Qed.
Lemma over_chars : forall l x c a, In a (bytes_of (over l x c)) -> In a (bytes_of l) \/ a = zero_char \/ a = c.
Proof.
  intros l x c a I. unfold over in I. rewrite !bytes_app' in I.
  assert (SUB : forall s i n, In a (bytes_of (substring i n s)) -> In a (bytes_of s)).
  { clear. induction s as [|b s IH]; intros [|i] [|n] I; try contradiction; cbn [substring] in I.
    - destruct I as [I|I]; [left; exact I|right; eapply IH; exact I].
    - right. eapply IH. exact I.
    - right. eapply IH. exact I. }
  assert (FIL : forall n, In a (bytes_of (fill n)) -> a = zero_char).
  { clear. unfold fill. intros n I. unfold string_of, bytes_of in I. rewrite list_ascii_of_string_of_list_ascii in I. now apply repeat_spec in I. }
  assert (W : In a (bytes_of (l ++ fill (x - slen l))) -> In a (bytes_of l) \/ a = zero_char \/ a = c).
  { rewrite bytes_app'. intros J. apply in_app_or in J. destruct J as [J|J]; [auto|]. right. left. eapply FIL; eauto. }
  apply in_app_or in I. destruct I as [I|I]; [apply SUB in I; auto|].
  apply in_app_or in I. destruct I as [I|I]; [destruct I as [I|[]]; auto|]. apply SUB in I. auto.
Qed.
Lemma type_text_same : forall t v, 0 <= row v -> t <> "" ->
  v_name (type_text v t) = v_name v /\ v_oy (type_text v t) = v_oy v /\ v_cy (type_text v t) = v_cy v /\ v_sy (type_text v t) = v_sy v /\
  (List.length (v_lines (type_text v t)) = Nat.max (List.length (v_lines v)) (S (Z.to_nat (row v))))%nat /\
  (forall a, In a (bytes_of (nth (Z.to_nat (row v)) (v_lines (type_text v t)) "")) ->
     In a (bytes_of (nth (Z.to_nat (row v)) (v_lines v) "")) \/ a = zero_char \/ In a (bytes_of t)).
Proof.
  induction t as [|c t IH]; intros v R NE; [contradiction|]. cbn [type_text].
  destruct (type_char_same v c R) as (A1 & A2 & A3 & A4 & A5 & A6).
  assert (RR : row (type_char v c) = row v) by (unfold row; rewrite A2, A3; reflexivity).
  destruct t as [|d t].
  - cbn [type_text]. repeat (split; [assumption|]). rewrite A6. intros a I. apply over_chars in I. destruct I as [I|[I|I]]; auto. right. right. left. auto.
  - destruct (IH (type_char v c)) as (B1 & B2 & B3 & B4 & B5 & B6); [lia|discriminate|]. rewrite RR in *.
    split; [congruence|]. split; [congruence|]. split; [congruence|]. split; [congruence|]. split; [rewrite B5, A5; lia|].
    intros a I. apply B6 in I. destruct I as [I|[I|I]]; [|auto|right; right; right; exact I]. rewrite A6 in I. apply over_chars in I.
    destruct I as [I|[I|I]]; auto. right. right. left. auto.
Qed.
(** C122 (defect): what is typed before the prompt has arrived is not a command: Enter then ends the program in a
    panic, or, once the window is full, does nothing. *)
Lemma c122_ahead : forall p sx sy cs c d k, 0 < sy -> fits p sx (cs ++ [c]) -> runs c -> d <> "" -> ~ In ":"%char (bytes_of d) -> ready p sx sy cs k ->
  if Z.of_nat (List.length cs) + 2 <? sy then krun k [KText c; KEnter; KText d; KArrive; KEnter] = Panic
  else exists k', krun k [KText c; KEnter; KText d; KArrive; KEnter] = Ret k' /\ k_ran k' = (k_ran k ++ started [c])%list /\
       line_at (k_view k') = prompt_text p (N.of_nat (S (List.length cs))).
Proof.
  intros p sx sy cs c d k Y F R ND NC RD. set (n := Z.of_nat (List.length cs)).
  change [KText c; KEnter; KText d; KArrive; KEnter] with ([KText c; KEnter] ++ [KText d; KArrive; KEnter])%list.
  rewrite krun_app, (step_enter p sx sy cs c k Y F R RD). cbn [obind].
  set (k1 := entered p sx sy cs c (k_ran k)). set (pt := prompt_text p (N.of_nat (S (List.length cs)))).
  assert (OP : one_line pt) by (apply prompt_one_line; destruct F as (O & _); exact O).
  assert (PT : typed pt "") by (rewrite <- (app_string_nil pt); apply prompt_typed; destruct F as (_ & NP & _); exact NP).
  assert (RW : row (k_view k1) = if n + 1 <? sy then n + 1 else n).
  { unfold row, k1, entered. cbn [k_view]. vcbn. fold n. destruct (Z.ltb_spec (n + 1) sy); lia. }
  assert (L1 : List.length (v_lines (k_view k1)) = S (List.length cs)).
  { unfold k1, entered. cbn [k_view]. vcbn. rewrite app_length, old_lines_length. cbn [List.length]. lia. }
  assert (Y1 : v_oy (k_view k1) = Z.max 0 (n + 1 - sy)) by reflexivity.
  assert (Y2 : v_cy (k_view k1) = if n + 1 <? sy then n + 1 else sy - 1) by reflexivity.
  assert (R0 : 0 <= row (k_view k1)) by (rewrite RW; destruct (n + 1 <? sy); unfold n; lia).
  assert (NM : v_name (k_view k1) = VCmd) by reflexivity.
  assert (SY : v_sy (k_view k1) = sy) by reflexivity.
  assert (WT : k_waiting k1 = [(newline ++ pt)%string]) by reflexivity.
  assert (RN : k_ran k1 = (k_ran k ++ start_of c)%list) by reflexivity.
  assert (LN : n + 1 < sy -> ~ In ":"%char (bytes_of (nth (Z.to_nat (row (k_view k1))) (v_lines (k_view k1)) ""))).
  { intros Q. rewrite RW. destruct (Z.ltb_spec (n + 1) sy); [|lia]. rewrite nth_overflow by (rewrite L1; unfold n; lia). intros []. }
  clearbody k1. destruct (type_text_same d (k_view k1) R0 ND) as (T1 & T2 & T3 & T4 & T5 & T6).
  set (v := type_text (k_view k1) d) in *.
  set (v2 := draw (v_put (draw v) (v_lines v ++ [pt]))).
  set (k2 := {| k_view := v2; k_info := k_info k1; k_waiting := []; k_ran := k_ran k1 |}).
  assert (ST : krun k1 [KText d; KArrive; KEnter] = kstep k2 KEnter).
  { cbn [krun]. unfold kstep at 1. cbn [khandle obind]. fold v. unfold kstep at 1. unfold with_view at 1 2. cbn [khandle k_waiting k_view k_info k_ran].
    rewrite WT. unfold with_view. cbn [obind k_waiting k_view k_info k_ran]. rewrite draw_lines, write_prompt by exact OP. fold v2. fold k2.
    destruct (kstep k2 KEnter); reflexivity. }
  rewrite ST. clear ST.
  assert (L2 : v_lines v2 = (v_lines v ++ [pt])%list) by (unfold v2; rewrite draw_lines; reflexivity).
  assert (C2 : v_cy v2 = v_cy (k_view k1)).
  { unfold v2. destruct (draw_cursor (v_put (draw v) (v_lines v ++ [pt]))) as (_ & E & _). rewrite E. vcbn. destruct (draw_cursor v) as (_ & E' & _). rewrite E'. exact T3. }
  assert (LV : Z.of_nat (List.length (v_lines v)) = if n + 1 <? sy then n + 2 else n + 1).
  { rewrite T5, L1, RW. unfold n. destruct (_ <? sy); lia. }
  assert (O1 : v_oy (draw v) = if n + 1 <? sy then Z.max 0 (n + 2 - sy) else n + 1 - sy).
  { rewrite draw_oy, T1, NM, T4, SY, T2, Y1. unfold blines. rewrite LV. cbn [autoscroll andb].
    destruct (Z.ltb_spec (n + 1) sy); [destruct (Z.ltb_spec sy (n + 2))|destruct (Z.ltb_spec sy (n + 1))]; lia. }
  assert (O2 : v_oy v2 = if n + 1 <? sy then Z.max 0 (n + 3 - sy) else n + 2 - sy).
  { unfold v2. rewrite draw_oy. unfold blines. vcbn. rewrite draw_name, T1, NM, O1. destruct (draw_size v) as [_ DS]. rewrite DS, T4, SY, app_length, Nat2Z.inj_add, LV.
    cbn [autoscroll andb List.length].
    destruct (Z.ltb_spec (n + 1) sy); [destruct (Z.ltb_spec sy (n + 2 + Z.of_nat 1))|destruct (Z.ltb_spec sy (n + 1 + Z.of_nat 1))]; lia. }
  assert (LA : line_at v2 = if n + 2 <? sy then nth (Z.to_nat (row (k_view k1))) (v_lines v) "" else pt).
  { unfold line_at. rewrite C2, O2, Y2, L2, RW. destruct (Z.ltb_spec (n + 2) sy).
    - destruct (Z.ltb_spec (n + 1) sy); [|lia]. rewrite app_nth1 by (unfold n in *; lia). f_equal. lia.
    - rewrite app_nth2 by (destruct (Z.ltb_spec (n + 1) sy); unfold n in *; lia).
      match goal with |- nth ?i _ _ = _ => replace i with 0%nat by (destruct (Z.ltb_spec (n + 1) sy); unfold n in *; lia) end. reflexivity. }
  unfold kstep. cbn [khandle]. destruct (Z.ltb_spec (n + 2) sy) as [Q|Q].
  - rewrite enter_none; [reflexivity|]. change (k_view k2) with v2. rewrite LA. intros I. apply T6 in I. destruct I as [I|[I|I]]; [apply LN in I; [auto|lia]|discriminate|auto].
  - rewrite enter_empty by (change (k_view k2) with v2; rewrite LA; exact PT). cbn [obind]. eexists. split; [reflexivity|].
    rewrite started_one. split; [exact RN|]. unfold with_view. cbn [k_view k2]. change (k_view k2) with v2.
    assert (D2 : draw v2 = v2) by (apply draw_drawn). rewrite D2. exact LA.
Qed.

Lemma krun_keys : forall es k, drawn (k_view k) ->
  krun k (map KKey es) = Ret (with_view k (vrun (k_info k) (k_view k) es)) .
Proof.
  induction es as [|e es IH]; intros k D.
  - cbn [map krun vrun fold_left]. destruct k; reflexivity.
  - cbn [map krun]. unfold kstep. cbn [khandle obind]. unfold with_view at 2. cbn [k_view k_info k_waiting k_ran]. rewrite IH by apply draw_drawn. reflexivity.
Qed.
(** C122 (defect): with the cursor moved up to an earlier line, every Enter runs that command again, and no new prompt
    follows. *)
Lemma c122_again : forall p sx sy cs c k j m, 0 < sy -> fits p sx cs -> ready p sx sy cs k ->
  (1 <= j <= List.length cs)%nat -> Z.of_nat j < sy -> nth_error cs (List.length cs - j) = Some c -> runs c ->
  exists k', krun k (repeat (KKey KUp) j ++ repeat KEnter m) = Ret k' /\ k_ran k' = (k_ran k ++ started (repeat c m))%list /\
    v_lines (k_view k') = v_lines (k_view k) /\ k_waiting k' = [] /\
    ci_curline (k_info k') = ci_curline (k_info k) /\ ci_commands (k_info k') = (cs ++ repeat c m)%list.
Proof.
  intros p sx sy cs c k j m Y F (V & I & W) J JS E R. assert (F0 := F). destruct F as (O & NC & _ & FL).
  set (n := Z.of_nat (List.length cs)) in *.
  assert (LT : List.length (transcript p cs) = S (List.length cs)) by (unfold transcript; fold (old_lines p cs); rewrite app_length, old_lines_length; cbn [List.length]; lia).
  assert (S0 : sane (k_view k)) by (rewrite V; unfold sane; vcbn; fold n; unfold n; lia).
  assert (D0 : drawn (k_view k)).
  { rewrite V. unfold drawn, draw, blines. vcbn. rewrite LT. cbn [autoscroll andb]. destruct (Z.ltb_spec sy (Z.of_nat (S (List.length cs)))); [unfold v_from; vcbn; f_equal; lia|reflexivity]. }
  assert (R0 : row (k_view k) = n) by (rewrite V; unfold row; vcbn; fold n; lia).
  assert (FS : first_shown (k_view k) = Z.max 0 (n + 1 - sy)) by (rewrite V; unfold first_shown; vcbn; cbn [autoscroll]; rewrite LT; unfold n; lia).
  assert (LK : v_lines (k_view k) = transcript p cs) by (rewrite V; reflexivity).
  destruct (c119_walk (k_info k) j (k_view k) S0 D0) as (_ & _ & _ & _ & SU & LU & CU & RU); [rewrite FS, R0, LK, LT; unfold n; lia|].
  assert (MK : repeat (KKey KUp) j = map KKey (repeat KUp j)) by (clear; induction j as [|j IH]; cbn [repeat map]; congruence).
  rewrite krun_app, MK, (krun_keys _ k D0). cbn [obind]. set (u := vrun (k_info k) (k_view k) (repeat KUp j)) in *.
  assert (DU : drawn u) by (unfold u; destruct (vrun_inv (k_info k) (repeat KUp j) _ S0 D0) as (_ & X & _); exact X).
  assert (RU' : row u = n - Z.of_nat j) by (rewrite RU, R0, FS; unfold n; lia).
  assert (TY : typed (line_at u) c).
  { unfold line_at. fold (row u). rewrite RU', LU, LK. unfold transcript. fold (old_lines p cs).
    replace (Z.to_nat (n - Z.of_nat j)) with (List.length cs - j)%nat by (unfold n; lia).
    rewrite app_nth1 by (rewrite old_lines_length; lia). rewrite (old_lines_nth p cs _ c E). apply prompt_typed. exact NC. }
  assert (G : forall m k1, k_view k1 = u -> ci_curline (k_info k1) = N.of_nat (List.length cs) ->
    exists k', krun k1 (repeat KEnter m) = Ret k' /\ k_ran k' = (k_ran k1 ++ started (repeat c m))%list /\ k_view k' = u /\ k_waiting k' = k_waiting k1 /\
      ci_curline (k_info k') = N.of_nat (List.length cs) /\ ci_commands (k_info k') = (ci_commands (k_info k1) ++ repeat c m)%list).
  { clear m. induction m as [|m IH]; intros k1 K1 CL.
    - exists k1. unfold started. cbn [repeat krun flat_map]. rewrite !app_nil_r. repeat (split; [auto; fail|]). reflexivity.
    - cbn [repeat krun]. unfold kstep. cbn [khandle]. rewrite (enter_typed k1 c R) by (rewrite K1; exact TY). cbn [obind].
      unfold show_prompt. cbn [k_view k_info k_waiting k_ran remember ci_curline]. rewrite K1, CL. fold (row u). rewrite RU'.
      destruct (Z.eqb_spec (n - Z.of_nat j) (Z.of_N (N.of_nat (List.length cs)))); [unfold n in *; lia|]. unfold with_view. cbn [k_view k_info k_waiting k_ran].
      destruct (IH {| k_view := draw u; k_info := remember (k_info k1) c; k_waiting := k_waiting k1; k_ran := (k_ran k1 ++ start_of c)%list |}) as (k' & A1 & A2 & A3 & A4 & A5 & A6).
      { exact DU. } { exact CL. }
      exists k'. split; [exact A1|]. split; [rewrite A2; cbn [k_ran]; unfold started; cbn [flat_map]; rewrite <- app_assoc; reflexivity|].
      split; [exact A3|]. split; [exact A4|]. split; [exact A5|]. rewrite A6. cbn [k_info remember ci_commands]. rewrite <- app_assoc. reflexivity. }
  destruct (G m (with_view k u)) as (k' & A1 & A2 & A3 & A4 & A5 & A6); [reflexivity|unfold with_view; cbn [k_info]; rewrite I; reflexivity|].
  exists k'. split; [exact A1|]. split; [exact A2|]. split; [rewrite A3; exact LU|]. split; [rewrite A4; exact W|]. split; [rewrite A5, I; reflexivity|].
  rewrite A6. unfold with_view. cbn [k_info]. rewrite I. reflexivity.
Qed.

(** ** Examples *)
Definition ex_ci : cinfo := {| ci_prompt := "saratoga"; ci_curline := 2; ci_ppad := 3; ci_commands := [] |}.
Definition ex_lines : list vevent := map print_line ["a"; "b"; "c"; "d"; "e"].
Definition ex_view : view := vrun ex_ci (vstart VMsg 20 3) (ex_lines ++ [KDown]).
Definition ex_cmdview : view :=
  {| v_name := VCmd; v_ox := 0; v_oy := 0; v_cx := 14; v_cy := 2; v_sx := 40; v_sy := 5; v_lines := ["saratoga[0]:ls"; "saratoga[1]:ls"; "saratoga[2]:peers"] |}.
Ltac sane_ex := unfold sane; vm_compute; intuition congruence.
Example c119_down_ex : sane ex_view /\ row ex_view = 4 /\ row (vhandle ex_ci ex_view KDown) = 5 /\ row (vhandle ex_ci (vhandle ex_ci ex_view KDown) KDown) = 5.
Proof. split; [sane_ex|vm_compute; auto]. Qed.
Example c119_up_ex : sane ex_view /\ row (vhandle ex_ci ex_view KUp) = 3.
Proof. split; [sane_ex|vm_compute; auto]. Qed.
Example c119_walk_ex : sane ex_view /\ drawn ex_view /\ first_shown ex_view = 3 /\ row ex_view = 4 /\ row (vrun ex_ci ex_view (repeat KUp 4)) = 3.
Proof. split; [sane_ex|vm_compute; auto]. Qed.
Example c119_beyond_ex : sane (vstart VErr 20 3) /\ drawn (vstart VErr 20 3) /\ row (vrun ex_ci (vstart VErr 20 3) (repeat KDown 7)) = 7 /\
  v_oy (vrun ex_ci (vstart VErr 20 3) (repeat KDown 7)) = 5.
Proof. split; [sane_ex|vm_compute; auto]. Qed.
Example c119_left_ex : sane ex_cmdview /\ drawn ex_cmdview /\ prompt_len ex_ci = 12 /\ v_cx (vrun ex_ci ex_cmdview (repeat KLeft 9)) = 12.
Proof. split; [sane_ex|vm_compute; auto]. Qed.
Example c119_right_ex : sane ex_cmdview /\ drawn ex_cmdview /\ slen (line_at ex_cmdview) = 17%nat /\ v_cx (vrun ex_ci ex_cmdview (repeat KRight 9)) = 17.
Proof. split; [sane_ex|vm_compute; auto]. Qed.
Example c119_others_ex : v_name ex_view <> VCmd /\ vhandle ex_ci ex_view KLeft = ex_view.
Proof. split; [vm_compute; discriminate|reflexivity]. Qed.
Example c119_prompt_ex : prompt_len ex_ci = 12 /\ prompt_text "saratoga" 2 = "saratoga[2]:".
Proof. split; reflexivity. Qed.
Example c119_type_ex : sane ex_cmdview /\ row ex_cmdview = Z.of_nat (List.length ["saratoga[0]:ls"; "saratoga[1]:ls"]) /\
  v_cx ex_cmdview = Z.of_nat (slen "saratoga[2]:pe") /\ v_lines ex_cmdview = (["saratoga[0]:ls"; "saratoga[1]:ls"] ++ ("saratoga[2]:pe" ++ "ers")%string :: [])%list /\
  nth 2 (v_lines (type_char ex_cmdview "n")) "" = "saratoga[2]:penrs".
Proof. split; [sane_ex|]. repeat split. Qed.
Example c119_back_ex : line_at ex_cmdview = "saratoga[2]:p" ++ String "e" "ers" /\
  v_lines (back_space ex_ci ex_cmdview) = ["saratoga[0]:ls"; "saratoga[1]:ls"; "saratoga[2]:pers"] /\ v_cx (back_space ex_ci ex_cmdview) = 13.
Proof. split; [reflexivity|]. split; reflexivity. Qed.
Example c119_inside_ex : v_cy (vrun ex_ci (vstart VErr 20 3) (repeat KDown 7)) = 2 /\ v_oy (vrun ex_ci (vstart VErr 20 3) (repeat KDown 7)) = 5.
Proof. split; reflexivity. Qed.
Example c120_follow_ex : List.length (v_lines ex_view) = 6%nat /\ visible ex_view = ["d"; "e"; ""].
Proof. split; reflexivity. Qed.
Example c120_clear_ex : let v := vrun ex_ci (vstart VErr 20 3) ex_lines in
  3 < Z.of_nat (List.length (v_lines v)) /\ one_line "new" /\
  visible (vrun ex_ci (vrun ex_ci v [KClear]) (map print_line ["new"; "text"])) = [] /\
  visible (vrun ex_ci (vrun ex_ci v [KClear]) (map print_line ["new"; "text"; "more"])) = ["text"; "more"; ""].
Proof. split; [reflexivity|]. split; [|split; reflexivity]. intros [I|[I|[I|[]]]]; discriminate. Qed.
Example c120_down_ex : visible (vrun ex_ci (vrun ex_ci (vstart VMsg 20 3) (repeat KDown 3)) (map print_line ["new"; "text"])) = ["text"; ""].
Proof. reflexivity. Qed.
Example c120_all_ex : visible (vrun ex_ci (vstart VMsg 20 3) [print_line "a"; KUp; KLastRow; print_line "b"]) = ["a"; "b"; ""].
Proof. reflexivity. Qed.
Example c120_still_ex : let v := vrun ex_ci (vstart VPacket 20 3) ex_lines in
  v_oy v + v_sy v < Z.of_nat (List.length (v_lines v)) /\ visible v = ["a"; "b"; "c"] /\ visible (vstep ex_ci v (print_line "f")) = ["a"; "b"; "c"].
Proof. split; [reflexivity|]. split; reflexivity. Qed.
Example c120_jump_ex : let v := vrun ex_ci (vstart VMsg 20 3) ex_lines in let w := vrun ex_ci (vstart VPacket 20 3) ex_lines in
  sane v /\ drawn v /\ row v = 3 /\ row (vstep ex_ci v KLastRow) = 5 /\
  row (vstep ex_ci (vrun ex_ci (vstart VMsg 20 3) [print_line "a"]) KLastRow) = 1 /\
  sane w /\ drawn w /\ row w = 0 /\ row (vstep ex_ci w KLastRow) = 4.
Proof. split; [sane_ex|]. do 4 (split; [reflexivity|]). split; [sane_ex|]. do 2 (split; [reflexivity|]). reflexivity. Qed.
Definition ex_typed : list string := ["ls"; "peers"; "beacon 10"].
Lemma not_in_bytes : forall c s, existsb (Ascii.eqb c) (bytes_of s) = false -> ~ In c (bytes_of s).
Proof. intros c s E I. assert (X : existsb (Ascii.eqb c) (bytes_of s) = true) by (apply existsb_exists; exists c; split; [exact I|apply Ascii.eqb_refl]). congruence. Qed.
Lemma ex_runs : forall c, In c ex_typed -> runs c.
Proof.
  intros c [<-|[<-|[<-|[]]]]; (split; [apply not_in_bytes; reflexivity|]); (split; [discriminate|]); (split; [discriminate|]); intros W; apply fields_words in W; discriminate.
Qed.
Lemma ex_fits : fits "saratoga" 40 ex_typed /\ fits "saratoga" 40 (ex_typed ++ ["ls"]).
Proof.
  split; (split; [apply not_in_bytes; reflexivity|]; split; [apply not_in_bytes; reflexivity|]; split; [|reflexivity]);
  intros [|[|[|[|i]]]] c E; inversion E; subst; try reflexivity; destruct i; discriminate.
Qed.
Example c121_session_ex : fits "saratoga" 40 ex_typed /\ (forall c, In c ex_typed -> runs c) /\
  started ex_typed = [["ls"]; ["peers"]; ["beacon"; "10"]] /\
  transcript "saratoga" ex_typed = ["saratoga[0]:ls"; "saratoga[1]:peers"; "saratoga[2]:beacon 10"; "saratoga[3]:"].
Proof. split; [apply ex_fits|]. split; [exact ex_runs|]. split; reflexivity. Qed.
Definition ex_ready (sy : Z) : cmdline :=
  match krun (kstart "saratoga" 3 40 sy) (KArrive :: flat_map do_one ex_typed) with Ret k => k | _ => kstart "" 3 40 sy end.
Example c122_twice_ex : ready "saratoga" 40 10 ex_typed (ex_ready 10) /\ fits "saratoga" 40 (ex_typed ++ ["ls"]) /\
  krun (ex_ready 10) [KText "ls"; KEnter; KEnter] = Panic /\
  match krun (ex_ready 3) [KText "ls"; KEnter; KEnter] with Ret k => k_ran k | _ => [] end = [["ls"]; ["peers"]; ["beacon"; "10"]; ["ls"]; ["ls"]].
Proof. split; [split; [|split]; reflexivity|]. split; [apply ex_fits|]. split; reflexivity. Qed.
Example c122_ahead_ex : krun (ex_ready 10) [KText "ls"; KEnter; KText "peers"; KArrive; KEnter] = Panic /\
  match krun (ex_ready 4) [KText "ls"; KEnter; KText "peers"; KArrive; KEnter] with Ret k => k_ran k | _ => [] end = [["ls"]; ["peers"]; ["beacon"; "10"]; ["ls"]].
Proof. split; reflexivity. Qed.
Example c122_again_ex : ready "saratoga" 40 10 ex_typed (ex_ready 10) /\ nth_error ex_typed (3 - 2) = Some "peers" /\
  match krun (ex_ready 10) (repeat (KKey KUp) 2 ++ repeat KEnter 3) with Ret k => k_ran k | _ => [] end =
    [["ls"]; ["peers"]; ["beacon"; "10"]; ["peers"]; ["peers"]; ["peers"]].
Proof. split; [split; [|split]; reflexivity|]. split; reflexivity. Qed.
