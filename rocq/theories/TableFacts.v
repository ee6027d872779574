(** * Columns of texts *)

From Verif Require Import GoBase GoFacts FileioFacts Beacon Sarnet SarnetMain SpecWords Words TextFacts Clock SpecClock Table SpecTable.
From Coq Require Import Sorted.
Local Open Scope string_scope.
Local Open Scope N_scope.

(** ** The first character of a text *)
Lemma ascii_code : forall a n, n < 256 -> ascii_of_N n = a <-> n = N_of_ascii a.
Proof.
  intros a n H. split.
  - intros <-. rewrite N_ascii_embedding; auto.
  - intros ->. apply ascii_N_embedding.
Qed.
Lemma byte_lt : forall a, N_of_ascii a < 256.
Proof. intros a. apply N_ascii_bounded. Qed.

Definition taken (a : byte) (r : list byte) : Prop :=
  exists c l', character c /\ (a :: r)%list = (utf8_bytes c ++ l')%list /\ rune_rest a r = l'.
Definition stray (a : byte) (r : list byte) : Prop :=
  rune_rest a r = r /\ forall c l', character c -> (a :: r)%list <> (utf8_bytes c ++ l')%list.

(** The first bytes of a character *)
Lemma utf8_cases : forall c, character c ->
  (c < 0x80 /\ utf8_bytes c = [ascii_of_N c]) \/
  (0x80 <= c < 0x800 /\ utf8_bytes c = [ascii_of_N (0xC0 + c / 64); ascii_of_N (0x80 + c mod 64)]) \/
  (0x800 <= c < 0x10000 /\ utf8_bytes c = [ascii_of_N (0xE0 + c / 4096); ascii_of_N (0x80 + c / 64 mod 64); ascii_of_N (0x80 + c mod 64)]) \/
  (0x10000 <= c < 0x110000 /\ utf8_bytes c = [ascii_of_N (0xF0 + c / 262144); ascii_of_N (0x80 + c / 4096 mod 64); ascii_of_N (0x80 + c / 64 mod 64); ascii_of_N (0x80 + c mod 64)]).
Proof.
  intros c H. unfold character in H. unfold utf8_bytes.
  destruct (N.ltb_spec c 0x80); [left; auto|]. destruct (N.ltb_spec c 0x800); [right; left; auto|].
  destruct (N.ltb_spec c 0x10000); [right; right; left; auto|]. right; right; right. split; [lia|reflexivity].
Qed.
Lemma div_mod4 : forall c, c = 262144 * (c / 262144) + 4096 * (c / 4096 mod 64) + 64 * (c / 64 mod 64) + c mod 64 /\ c mod 64 < 64 /\ c / 64 mod 64 < 64 /\ c / 4096 mod 64 < 64.
Proof.
  intros c. pose proof (N.div_mod c 64). pose proof (N.div_mod (c / 64) 64) as B. pose proof (N.div_mod (c / 64 / 64) 64) as C.
  rewrite !N.div_div in B, C by lia. change (64 * 64) with 4096 in *. change (4096 * 64) with 262144 in *.
  pose proof (N.mod_lt c 64). pose proof (N.mod_lt (c / 64) 64). pose proof (N.mod_lt (c / 4096) 64). lia.
Qed.
Lemma div_mod3 : forall c, c = 4096 * (c / 4096) + 64 * (c / 64 mod 64) + c mod 64 /\ c mod 64 < 64 /\ c / 64 mod 64 < 64.
Proof.
  intros c. pose proof (N.div_mod c 64). pose proof (N.div_mod (c / 64) 64) as B.
  rewrite !N.div_div in B by lia. change (64 * 64) with 4096 in *.
  pose proof (N.mod_lt c 64). pose proof (N.mod_lt (c / 64) 64). lia.
Qed.
Lemma make4 : forall q x y z, x < 64 -> y < 64 -> z < 64 -> let c := 262144 * q + 4096 * x + 64 * y + z in
  c / 262144 = q /\ c / 4096 mod 64 = x /\ c / 64 mod 64 = y /\ c mod 64 = z.
Proof.
  intros q x y z X Y Z c. assert (D1 : c / 64 = 4096 * q + 64 * x + y) by (symmetry; apply N.div_unique with z; unfold c; lia).
  assert (D2 : c / 4096 = 64 * q + x) by (symmetry; apply N.div_unique with (64 * y + z); unfold c; lia).
  repeat split.
  - symmetry; apply N.div_unique with (4096 * x + 64 * y + z); unfold c; lia.
  - rewrite D2. symmetry. apply N.mod_unique with q; lia.
  - rewrite D1. symmetry. apply N.mod_unique with (64 * q + x); lia.
  - symmetry. apply N.mod_unique with (4096 * q + 64 * x + y); unfold c; lia.
Qed.
Lemma make3 : forall q y z, y < 64 -> z < 64 -> let c := 4096 * q + 64 * y + z in
  c / 4096 = q /\ c / 64 mod 64 = y /\ c mod 64 = z.
Proof.
  intros q y z Y Z c. assert (D1 : c / 64 = 64 * q + y) by (symmetry; apply N.div_unique with z; unfold c; lia).
  repeat split.
  - symmetry; apply N.div_unique with (64 * y + z); unfold c; lia.
  - rewrite D1. symmetry. apply N.mod_unique with q; lia.
  - symmetry. apply N.mod_unique with (64 * q + y); unfold c; lia.
Qed.
Lemma make2 : forall q z, z < 64 -> let c := 64 * q + z in c / 64 = q /\ c mod 64 = z.
Proof.
  intros q z Z c. split; [symmetry; apply N.div_unique with z; unfold c; lia|symmetry; apply N.mod_unique with q; unfold c; lia].
Qed.

(** The bytes a character is written with *)
Lemma char1 : forall a r, N_of_ascii a < 0x80 -> taken a r.
Proof.
  intros a r H. exists (N_of_ascii a), r. split; [left; lia|]. split.
  - unfold utf8_bytes. rewrite (proj2 (N.ltb_lt _ _) H). cbn [map app]. rewrite ascii_N_embedding. reflexivity.
  - unfold rune_rest. rewrite (proj2 (N.ltb_lt _ _) H). reflexivity.
Qed.

Lemma in_bytes_iff : forall lo hi a, in_bytes lo hi a = true <-> lo <= N_of_ascii a <= hi.
Proof. intros lo hi a. unfold in_bytes. rewrite andb_true_iff, !N.leb_le. tauto. Qed.
Lemma tail_code : forall x, x < 64 -> N_of_ascii (ascii_of_N (0x80 + x)) = 0x80 + x.
Proof. intros x H. apply N_ascii_embedding. lia. Qed.
Ltac steps := repeat match goal with
  | |- context[?a <? ?b] => destruct (N.ltb_spec a b); [try (exfalso; lia)|try (exfalso; lia)]
  | |- context[?a <=? ?b] => destruct (N.leb_spec a b); [try (exfalso; lia)|try (exfalso; lia)]
  | |- context[?a =? ?b] => destruct (N.eqb_spec a b); [try (exfalso; lia)|try (exfalso; lia)]
  end.

Lemma cons_both : forall {A} (a b : A) r s, (a :: r)%list = (b :: s)%list -> a = b /\ r = s.
Proof. intros A a b r s E. split; [exact (f_equal (hd a) E)|exact (f_equal (@tl A) E)]. Qed.
Lemma rest_char : forall a r c l', character c -> (a :: r)%list = (utf8_bytes c ++ l')%list -> rune_rest a r = l'.
Proof.
  intros a r c l' H E. destruct (utf8_cases c H) as [(B & U)|[(B & U)|[(B & U)|(B & U)]]]; rewrite U in E; cbn [app] in E.
  - apply cons_both in E; destruct E as [-> ->]. unfold rune_rest. rewrite N_ascii_embedding by lia. steps. reflexivity.
  - assert (D : c = 64 * (c / 64) + c mod 64 /\ c mod 64 < 64) by (pose proof (N.div_mod c 64); pose proof (N.mod_lt c 64); lia).
    destruct D as [D M]. set (q := c / 64) in *. set (z := c mod 64) in *. clearbody q z.
    apply cons_both in E; destruct E as [-> ->]. unfold rune_rest, rune_start. rewrite N_ascii_embedding by lia. steps.
    rewrite (proj2 (in_bytes_iff _ _ _)); [reflexivity|]. rewrite tail_code by lia. lia.
  - pose proof (div_mod3 c) as (D & M & Y). set (q := c / 4096) in *. set (y := c / 64 mod 64) in *. set (z := c mod 64) in *. clearbody q y z.
    apply cons_both in E; destruct E as [-> ->]. unfold rune_rest, rune_start. unfold character in H. rewrite N_ascii_embedding by lia. steps;
      (rewrite !(proj2 (in_bytes_iff _ _ _)) by (rewrite tail_code by lia; lia); reflexivity).
  - pose proof (div_mod4 c) as (D & M & Y & X). set (q := c / 262144) in *. set (x := c / 4096 mod 64) in *. set (y := c / 64 mod 64) in *. set (z := c mod 64) in *. clearbody q x y z.
    apply cons_both in E; destruct E as [-> ->]. unfold rune_rest, rune_start. rewrite N_ascii_embedding by lia. steps;
      (rewrite !(proj2 (in_bytes_iff _ _ _)) by (rewrite tail_code by lia; lia); reflexivity).
Qed.

Lemma taken2 : forall a b r, 0xC2 <= N_of_ascii a <= 0xDF -> 0x80 <= N_of_ascii b <= 0xBF -> rune_rest a (b :: r) = r -> taken a (b :: r).
Proof.
  intros a b r A B R. pose proof (make2 (N_of_ascii a - 0xC0) (N_of_ascii b - 0x80) ltac:(lia)) as [D M]. cbv zeta in D, M.
  eexists. exists r. split; [|split; [|exact R]]; [left|]; cycle 1.
  - unfold utf8_bytes. instantiate (1 := 64 * (N_of_ascii a - 0xC0) + (N_of_ascii b - 0x80)). steps. rewrite D, M. cbn [map app].
    replace (0xC0 + (N_of_ascii a - 0xC0)) with (N_of_ascii a) by lia. replace (0x80 + (N_of_ascii b - 0x80)) with (N_of_ascii b) by lia.
    rewrite !ascii_N_embedding. reflexivity.
  - lia.
Qed.
Lemma taken3 : forall a b c r, 0xE0 <= N_of_ascii a <= 0xEF -> 0x80 <= N_of_ascii b <= 0xBF -> 0x80 <= N_of_ascii c <= 0xBF ->
  (N_of_ascii a = 0xE0 -> 0xA0 <= N_of_ascii b) -> (N_of_ascii a = 0xED -> N_of_ascii b <= 0x9F) ->
  rune_rest a (b :: c :: r) = r -> taken a (b :: c :: r).
Proof.
  intros a b c r A B C X Y R.
  pose proof (make3 (N_of_ascii a - 0xE0) (N_of_ascii b - 0x80) (N_of_ascii c - 0x80) ltac:(lia) ltac:(lia)) as (D & M & M'). cbv zeta in D, M, M'.
  exists (4096 * (N_of_ascii a - 0xE0) + 64 * (N_of_ascii b - 0x80) + (N_of_ascii c - 0x80)), r. split; [|split; [|exact R]].
  - unfold character. destruct (N.lt_trichotomy (N_of_ascii a) 0xED) as [L|[L|L]]; [left; lia|left; specialize (Y L); lia|right; lia].
  - assert (Z : N_of_ascii a = 0xE0 \/ 0xE0 < N_of_ascii a) by lia.
    assert (W : 0x800 <= 4096 * (N_of_ascii a - 0xE0) + 64 * (N_of_ascii b - 0x80) + (N_of_ascii c - 0x80)) by (destruct Z as [Z|Z]; [specialize (X Z); lia|lia]).
    unfold utf8_bytes. steps. rewrite D, M, M'. cbn [map app].
    replace (0xE0 + (N_of_ascii a - 0xE0)) with (N_of_ascii a) by lia. replace (0x80 + (N_of_ascii b - 0x80)) with (N_of_ascii b) by lia.
    replace (0x80 + (N_of_ascii c - 0x80)) with (N_of_ascii c) by lia. rewrite !ascii_N_embedding. reflexivity.
Qed.
Lemma taken4 : forall a b c d r, 0xF0 <= N_of_ascii a <= 0xF4 -> 0x80 <= N_of_ascii b <= 0xBF -> 0x80 <= N_of_ascii c <= 0xBF -> 0x80 <= N_of_ascii d <= 0xBF ->
  (N_of_ascii a = 0xF0 -> 0x90 <= N_of_ascii b) -> (N_of_ascii a = 0xF4 -> N_of_ascii b <= 0x8F) ->
  rune_rest a (b :: c :: d :: r) = r -> taken a (b :: c :: d :: r).
Proof.
  intros a b c d r A B C D X Y R.
  pose proof (make4 (N_of_ascii a - 0xF0) (N_of_ascii b - 0x80) (N_of_ascii c - 0x80) (N_of_ascii d - 0x80) ltac:(lia) ltac:(lia) ltac:(lia)) as (Q & M & M' & M2). cbv zeta in Q, M, M', M2.
  exists (262144 * (N_of_ascii a - 0xF0) + 4096 * (N_of_ascii b - 0x80) + 64 * (N_of_ascii c - 0x80) + (N_of_ascii d - 0x80)), r. split; [|split; [|exact R]].
  - right. assert (Z : N_of_ascii a = 0xF0 \/ 0xF0 < N_of_ascii a) by lia. assert (Z' : N_of_ascii a = 0xF4 \/ N_of_ascii a < 0xF4) by lia.
    destruct Z as [Z|Z]; [specialize (X Z)|]; (destruct Z' as [Z'|Z']; [specialize (Y Z')|]); lia.
  - assert (Z : N_of_ascii a = 0xF0 \/ 0xF0 < N_of_ascii a) by lia.
    assert (W : 0x10000 <= 262144 * (N_of_ascii a - 0xF0) + 4096 * (N_of_ascii b - 0x80) + 64 * (N_of_ascii c - 0x80) + (N_of_ascii d - 0x80)) by (destruct Z as [Z|Z]; [specialize (X Z); lia|lia]).
    unfold utf8_bytes. steps. rewrite Q, M, M', M2. cbn [map app].
    replace (0xF0 + (N_of_ascii a - 0xF0)) with (N_of_ascii a) by lia. replace (0x80 + (N_of_ascii b - 0x80)) with (N_of_ascii b) by lia.
    replace (0x80 + (N_of_ascii c - 0x80)) with (N_of_ascii c) by lia. replace (0x80 + (N_of_ascii d - 0x80)) with (N_of_ascii d) by lia.
    rewrite !ascii_N_embedding. reflexivity.
Qed.
Lemma rest_taken : forall a r, rune_rest a r = r \/ taken a r.
Proof.
  intros a r. destruct (N.lt_ge_cases (N_of_ascii a) 0x80) as [L|L]; [right; apply char1, L|].
  assert (G : forall x, rune_rest a r = x -> x = r \/ taken a r); [|exact (G _ eq_refl)].
  intros x R. pose proof R as R0. unfold rune_rest, rune_start in R. revert R. steps; intros R;
    repeat match type of R with
    | match ?l with [] => _ | _ => _ end = _ => destruct l; [left; congruence|]
    | (if ?b then _ else _) = _ => destruct b eqn:K; [|left; congruence]
    end; try (left; congruence); right;
    repeat match goal with X : (_ && _)%bool = true |- _ => apply andb_prop in X; destruct X end;
    repeat match goal with X : in_bytes _ _ _ = true |- _ => apply in_bytes_iff in X end; subst x.
  all: first [apply taken2; auto; lia | apply taken3; auto; lia | apply taken4; auto; lia].
Qed.

Lemma first_char : forall a r, taken a r \/ stray a r.
Proof.
  intros a r. destruct (N.lt_ge_cases (N_of_ascii a) 0x80) as [L|L]; [left; apply char1, L|].
  destruct (rest_taken a r) as [E|T]; [right|left; exact T]. split; [exact E|]. intros c l' C X. pose proof (rest_char _ _ _ _ C X) as R.
  rewrite E in R. subst l'. pose proof (f_equal (@length _) X) as Y. rewrite app_length in Y. cbn [length] in Y.
  destruct (utf8_cases c C) as [(B & U)|[(B & U)|[(B & U)|(B & U)]]]; rewrite U in X, Y; cbn [length] in Y; try lia.
  apply cons_both in X. destruct X as [-> _]. rewrite N_ascii_embedding in L by lia. lia.
Qed.

(** ** Columns *)
Lemma utf8_head : forall c, character c -> exists a r, utf8_bytes c = (a :: r)%list.
Proof. intros c C. destruct (utf8_cases c C) as [(B & U)|[(B & U)|[(B & U)|(B & U)]]]; rewrite U; eauto. Qed.
Lemma rest_le : forall a r, (length (rune_rest a r) <= length r)%nat.
Proof.
  intros a r. destruct (first_char a r) as [(c & l' & C & E & R)|[R _]]; rewrite R; [|lia].
  destruct (utf8_head c C) as (b & u & U). rewrite U in E. cbn [app] in E. apply cons_both in E. destruct E as [_ ->]. rewrite app_length. lia.
Qed.
Lemma loop_columns : forall fuel l, (length l <= fuel)%nat -> columns l (rune_count_loop fuel l).
Proof.
  induction fuel as [|f IH]; intros [|a r] H; cbn [length] in H; try lia; cbn [rune_count_loop]; try apply col_none.
  pose proof (rest_le a r) as L. destruct (first_char a r) as [(c & l' & C & E & R)|[R S0]].
  - rewrite E. apply col_char; [exact C|]. rewrite <- R. apply IH. lia.
  - apply col_stray; [exact S0|]. rewrite R. apply IH. lia.
Qed.
Lemma columns_loop : forall l n, columns l n -> forall fuel, (length l <= fuel)%nat -> n = rune_count_loop fuel l.
Proof.
  intros l n H. induction H as [|c l n C H IH|b l n S H IH]; intros fuel F.
  - destruct fuel; reflexivity.
  - destruct (utf8_head c C) as (a & u & U). pose proof (f_equal (fun x => x ++ l)%list U) as E. cbn [app] in E. rewrite E in F |- *. cbn [length] in F.
    destruct fuel as [|fuel]; [lia|]. cbn [rune_count_loop]. f_equal. symmetry in E. rewrite (rest_char _ _ _ _ C E). apply IH.
    rewrite app_length in F. lia.
  - destruct fuel as [|fuel]; cbn [length] in F; [lia|]. cbn [rune_count_loop]. f_equal. destruct (first_char b l) as [(c & l' & C & E & R)|[R _]].
    + elim (S c l' C E).
    + rewrite R. apply IH. lia.
Qed.
Lemma columns_fun : forall l n m, columns l n -> columns l m -> n = m.
Proof. intros l n m A B. rewrite (columns_loop _ _ A _ (le_n _)). symmetry. apply (columns_loop _ _ B _ (le_n _)). Qed.
Lemma rune_columns : forall s, columns (bytes_of s) (rune_count s).
Proof. intros s. unfold rune_count. apply loop_columns. rewrite bytes_of_length. lia. Qed.
Lemma columns_rune : forall s n, columns (bytes_of s) n -> n = rune_count s.
Proof. intros s n H. exact (columns_fun _ _ _ H (rune_columns s)). Qed.
Lemma columns_le : forall l n, columns l n -> (n <= length l)%nat.
Proof.
  intros l n H. induction H as [|c l n C H IH|b l n S H IH]; cbn [length]; try lia.
  destruct (utf8_head c C) as (a & u & U). rewrite U, app_length. cbn [length]. lia.
Qed.

(** A character of one byte *)
Definition plain (a : byte) : Prop := N_of_ascii a < 0x80.
Lemma columns_plain : forall a l n, plain a -> columns l n -> columns (a :: l) (S n).
Proof.
  intros a l n P H. replace (a :: l)%list with (utf8_bytes (N_of_ascii a) ++ l)%list.
  - constructor; [left; unfold plain in P; lia|exact H].
  - unfold utf8_bytes. rewrite (proj2 (N.ltb_lt _ _) P). cbn [map app]. rewrite ascii_N_embedding. reflexivity.
Qed.
Lemma utf8_multi : forall c, character c -> (exists a, utf8_bytes c = [a] /\ plain a) \/ Forall (fun a => ~ plain a) (utf8_bytes c).
Proof.
  intros c C. unfold plain. destruct (utf8_cases c C) as [(B & U)|[(B & U)|[(B & U)|(B & U)]]]; rewrite U.
  - left. eexists. split; [reflexivity|]. rewrite N_ascii_embedding; lia.
  - right. assert (D : c = 64 * (c / 64) + c mod 64 /\ c mod 64 < 64) by (pose proof (N.div_mod c 64); pose proof (N.mod_lt c 64); lia).
    set (q := c / 64) in *. set (z := c mod 64) in *. clearbody q z. repeat constructor; rewrite N_ascii_embedding by lia; lia.
  - right. pose proof (div_mod3 c) as (D & M & Y). set (q := c / 4096) in *. set (y := c / 64 mod 64) in *. set (z := c mod 64) in *. clearbody q y z.
    repeat constructor; rewrite N_ascii_embedding by lia; lia.
  - right. pose proof (div_mod4 c) as (D & M & Y & X). set (q := c / 262144) in *. set (x := c / 4096 mod 64) in *. set (y := c / 64 mod 64) in *. set (z := c mod 64) in *. clearbody q x y z.
    repeat constructor; rewrite N_ascii_embedding by lia; lia.
Qed.
Lemma prefix_before : forall u l' x c r, (x ++ c :: r)%list = (u ++ l')%list -> plain c -> Forall (fun a => ~ plain a) u -> exists l2, x = (u ++ l2)%list.
Proof.
  induction u as [|a u IH]; intros l' x c r E P F; [exists x; reflexivity|]. inversion F as [|? ? Fa Fu]; subst.
  destruct x as [|b x]; cbn [app] in E; apply cons_both in E; destruct E as [-> E]; [contradiction|].
  destruct (IH _ _ _ _ E P Fu) as (l2 & ->). exists l2. reflexivity.
Qed.
Lemma columns_app : forall x n, columns x n -> forall c r m, plain c -> columns (c :: r) m -> columns (x ++ c :: r)%list (n + m)%nat.
Proof.
  intros x n H. induction H as [|k l n C H IH|b l n S H IH]; intros c r m P M; cbn [app Nat.add].
  - exact M.
  - rewrite <- app_assoc. constructor; auto.
  - apply col_stray; [|auto]. intros k l' K E. destruct (utf8_multi k K) as [(a & U & Pa)|F].
    + rewrite U in E. cbn [app] in E. apply cons_both in E. destruct E as [-> _]. apply (S k l K). rewrite U. reflexivity.
    + destruct (prefix_before _ l' (b :: l)%list c r E P F) as (l2 & E2). exact (S k l2 K E2).
Qed.
Lemma columns_all_plain : forall l, Forall plain l -> columns l (length l).
Proof. intros l H. induction H; cbn [length]; [constructor|apply columns_plain; auto]. Qed.
Lemma columns_front : forall p l n, Forall plain p -> columns l n -> columns (p ++ l)%list (length p + n)%nat.
Proof. intros p l n H C. induction H; cbn [app length Nat.add]; [exact C|apply columns_plain; auto]. Qed.
Lemma plain_repeat : forall a n, plain a -> Forall plain (repeat a n).
Proof. intros a n H. apply Forall_forall. intros x X. apply repeat_spec in X. subst. exact H. Qed.
Lemma rune_le : forall s, (rune_count s <= slen s)%nat.
Proof. intros s. rewrite <- bytes_of_length. apply columns_le, rune_columns. Qed.
Lemma rune_plain : forall s, Forall plain (bytes_of s) -> rune_count s = slen s.
Proof. intros s H. rewrite <- bytes_of_length. symmetry. apply columns_rune, columns_all_plain, H. Qed.

(** ** Cells, rows *)
Lemma fmt_cell : forall w s, in_cell w s (fmt_s w s).
Proof.
  intros w s. exists (rune_count s). split; [apply rune_columns|]. unfold fmt_s, spaces. rewrite bytes_of_app, bytes_of_string_of. reflexivity.
Qed.
Lemma cell_columns : forall w s cell n, in_cell w s cell -> columns (bytes_of s) n -> columns (bytes_of cell) (Nat.max w n).
Proof.
  intros w s cell n (m & M & ->) N. assert (m = n) by (eapply columns_fun; eauto). subst m.
  replace (Nat.max w n) with (length (repeat " "%char (w - n)) + n)%nat by (rewrite repeat_length; lia).
  apply columns_front; [apply plain_repeat; reflexivity|exact N].
Qed.

(** ** Lines *)
Lemma concat_cons : forall x l, String.concat "" (x :: l) = x ++ String.concat "" l.
Proof. intros x [|y l]; cbn [String.concat append]; [rewrite append_nil|]; reflexivity. Qed.
Definition cells_of (ws : list nat) (fields : list string) : list string := map (fun wf => fmt_s (fst wf) (snd wf)) (combine ws fields).
Lemma row_cells_line : forall sep ws fields, length fields = length ws ->
  row_cells sep ws fields = String.concat "" (map (fun c => c ++ sep) (cells_of ws fields)) ++ newline.
Proof.
  intros sep. induction ws as [|w ws IH]; intros [|f fields] L; cbn [length] in L; try discriminate; [reflexivity|].
  unfold cells_of. cbn [combine map fst snd row_cells]. rewrite concat_cons, !append_assoc. rewrite IH by lia. reflexivity.
Qed.
Lemma table_row_line : forall sep ws fields, length fields = length ws -> table_row sep ws fields = line_of sep (cells_of ws fields).
Proof. intros. unfold table_row, line_of. rewrite row_cells_line by auto. reflexivity. Qed.
Lemma nth_cells : forall ws fields i w f, nth_error ws i = Some w -> nth_error fields i = Some f -> nth_error (cells_of ws fields) i = Some (fmt_s w f).
Proof.
  induction ws as [|w0 ws IH]; intros [|f0 fields] [|i] w f A B; try discriminate.
  - injection A as ->. injection B as ->. reflexivity.
  - cbn [nth_error] in A, B. unfold cells_of. cbn [combine map nth_error fst snd]. apply IH; auto.
Qed.
Lemma cells_length : forall ws fields, length fields = length ws -> length (cells_of ws fields) = length ws.
Proof. intros ws fields L. unfold cells_of. rewrite map_length, combine_length, L. lia. Qed.
Lemma table_row_row : forall sep ws fields, length fields = length ws -> row_of sep ws fields (table_row sep ws fields).
Proof.
  intros sep ws fields L. exists (cells_of ws fields). split; [exact L|]. split; [apply cells_length, L|]. split; [|apply table_row_line, L].
  intros i w f c A B C. rewrite (nth_cells _ _ _ _ _ A B) in C. injection C as <-. apply fmt_cell.
Qed.
Lemma in_cell_fun : forall w s c c', in_cell w s c -> in_cell w s c' -> c = c'.
Proof.
  intros w s c c' (n & A & B) (n' & A' & B'). rewrite (columns_fun _ _ _ A' A) in B'. apply bytes_inj. congruence.
Qed.
Lemma row_of_eq : forall sep ws fields line, row_of sep ws fields line -> line = table_row sep ws fields.
Proof.
  intros sep ws fields line (cells & L & LC & C & ->). rewrite table_row_line by exact L. f_equal.
  apply nth_error_ext. intros i. destruct (Nat.lt_ge_cases i (length ws)) as [X|X].
  2:{ rewrite (proj2 (nth_error_None cells i)) by lia. symmetry. apply nth_error_None. rewrite cells_length by exact L. lia. }
  destruct (nth_error ws i) as [w|] eqn:EW; [|apply nth_error_None in EW; lia].
  destruct (nth_error fields i) as [f|] eqn:EF; [|apply nth_error_None in EF; lia].
  destruct (nth_error cells i) as [c|] eqn:EC; [|apply nth_error_None in EC; lia].
  rewrite (nth_cells _ _ _ _ _ EW EF). f_equal. eapply in_cell_fun; [eauto|apply fmt_cell].
Qed.

(** The columns of a line *)
Definition row_width (ws : list nat) (fields : list string) : nat :=
  (2 + list_sum (map (fun wf => S (Nat.max (fst wf) (rune_count (snd wf)))) (combine ws fields)))%nat.
Lemma row_columns : forall c ws fields, plain c -> length fields = length ws ->
  columns (bytes_of (table_row (String c "") ws fields)) (row_width ws fields).
Proof.
  intros c ws fields P. unfold table_row, row_width. intros L. cbn [Nat.add].
  change (bytes_of (String c "" ++ row_cells (String c "") ws fields)) with (c :: bytes_of (row_cells (String c "") ws fields))%list.
  apply columns_plain; [exact P|]. revert fields L.
  induction ws as [|w ws IH]; intros [|f fields] L; cbn [length] in L; try discriminate.
  - apply columns_plain; [reflexivity|constructor].
  - cbn [row_cells combine map fst snd list_sum fold_right]. rewrite bytes_of_app.
    change (bytes_of (String c "" ++ row_cells (String c "") ws fields)) with (c :: bytes_of (row_cells (String c "") ws fields))%list.
    match goal with |- columns _ (S (S ?m + ?s)) => replace (S (S m + s)) with (m + S (S s))%nat by lia end.
    apply columns_app; [|exact P|apply columns_plain; [exact P|apply IH; lia]].
    eapply cell_columns; [apply fmt_cell|apply rune_columns].
Qed.
Lemma rune_dashes : forall n, rune_count (dashes n) = n.
Proof.
  intros n. unfold dashes. rewrite rune_plain; rewrite ?bytes_of_string_of; [|apply plain_repeat; reflexivity].
  rewrite <- bytes_of_length, bytes_of_string_of. apply repeat_length.
Qed.
Lemma border_row : forall sep ws, table_row sep ws (map dashes ws) = border_of sep ws.
Proof.
  intros sep ws. rewrite table_row_line by apply map_length. unfold border_of. f_equal. unfold cells_of.
  induction ws as [|w ws IH]; [reflexivity|]. cbn [map combine fst snd]. f_equal; [|exact IH].
  unfold fmt_s. rewrite rune_dashes, Nat.sub_diag. reflexivity.
Qed.
Lemma border_width : forall ws, row_width ws (map dashes ws) = (2 + list_sum (map S ws))%nat.
Proof.
  intros ws. unfold row_width. f_equal. induction ws as [|w ws IH]; [reflexivity|]. cbn [map combine fst snd list_sum fold_right].
  rewrite rune_dashes. unfold list_sum in IH. rewrite IH. lia.
Qed.
Lemma row_fits : forall ws fields, length fields = length ws ->
  ((2 + list_sum (map S ws))%nat <= row_width ws fields)%nat /\
  (row_width ws fields = (2 + list_sum (map S ws))%nat <-> Forall (fun wf => (rune_count (snd wf) <= fst wf)%nat) (combine ws fields)).
Proof.
  unfold row_width. induction ws as [|w ws IH]; intros [|f fields] L; cbn [length] in L; try discriminate.
  - split; [cbn; lia|]. split; [constructor|reflexivity].
  - destruct (IH fields ltac:(lia)) as [LE EQ]. cbn [map combine fst snd list_sum fold_right] in *. unfold list_sum in *. split; [lia|]. split.
    + intros E. constructor; [cbn [fst snd]; lia|]. apply EQ. lia.
    + intros F. inversion F as [|? ? F1 F2]; subst. apply EQ in F2. cbn [fst snd] in F1. lia.
Qed.

(** ** Numbers *)
Lemma decimal_plain : forall l n, decimal l n -> Forall plain l.
Proof.
  assert (D : forall d, d < 10 -> plain (ascii_of_N (48 + d))) by (intros d H; unfold plain; rewrite N_ascii_embedding by lia; lia).
  intros l n H. induction H; [repeat constructor; auto|]. apply Forall_app. split; [auto|repeat constructor; auto].
Qed.
Lemma decimal_upper : forall l n, decimal l n -> n < 10 ^ N.of_nat (length l).
Proof.
  intros l n H. induction H as [d D|l n d H IH D]; [exact D|]. rewrite app_length. cbn [length].
  rewrite Nat.add_1_r, Nat2N.inj_succ, N.pow_succ_r'. lia.
Qed.
Lemma decimal_nonempty : forall l n, decimal l n -> l <> [].
Proof. intros l n H. destruct H; [discriminate|]. destruct l; discriminate. Qed.
Lemma decimal_lower : forall l n, decimal l n -> nth_error l 0 <> Some "0"%char -> 10 ^ (N.of_nat (length l) - 1) <= n.
Proof.
  intros l n H. induction H as [d D|l n d H IH D]; intros Z.
  - cbn [length]. change (10 ^ (N.of_nat 1 - 1)) with 1. destruct (N.eq_dec d 0) as [->|]; [|lia]. elim Z. reflexivity.
  - pose proof (decimal_nonempty _ _ H) as NE. destruct l as [|a l]; [congruence|]. specialize (IH Z).
    rewrite app_length. cbn [length] in *. replace (N.of_nat (S (length l) + 1) - 1) with (N.succ (N.of_nat (S (length l)) - 1)) by lia.
    rewrite N.pow_succ_r'. lia.
Qed.
Lemma itoa_plain : forall n, Forall plain (bytes_of (itoa n)).
Proof. intros n. eapply decimal_plain, itoa_decimal. Qed.
Lemma itoa_fits : forall n k, (0 < k)%nat -> (rune_count (itoa n) <= k)%nat <-> n < 10 ^ N.of_nat k.
Proof.
  intros n k K. rewrite rune_plain by apply itoa_plain. rewrite <- bytes_of_length. pose proof (itoa_decimal n) as D.
  pose proof (decimal_upper _ _ D) as U. split; intros H.
  - eapply N.lt_le_trans; [exact U|]. apply N.pow_le_mono_r; lia.
  - destruct (Nat.le_gt_cases (length (bytes_of (itoa n))) k) as [L|L]; [exact L|exfalso].
    assert (Z : nth_error (bytes_of (itoa n)) 0 <> Some "0"%char).
    { destruct (bytes_of (itoa n)) as [|a l] eqn:E; [discriminate|]. intros X. injection X as ->. apply itoa_front in E. destruct E as [_ ->]. cbn [length] in L. lia. }
    pose proof (decimal_lower _ _ D Z) as LO.
    assert (10 ^ N.of_nat k <= 10 ^ (N.of_nat (length (bytes_of (itoa n))) - 1)) by (apply N.pow_le_mono_r; lia). lia.
Qed.
Lemma year_four : forall y s, (0 <= y < 10000)%Z -> year_text y s -> slen s = 4%nat.
Proof.
  intros y s Y (l & D & L & Z & ->). destruct (Z.ltb_spec y 0); [lia|]. cbn [append]. rewrite slen_string_of.
  destruct (Nat.le_gt_cases (length l) 4) as [L4|L4]; [lia|exfalso]. pose proof (decimal_lower _ _ D (Z L4)) as LO.
  assert (10 ^ 4 <= 10 ^ (N.of_nat (length l) - 1)) by (apply N.pow_le_mono_r; lia). lia.
Qed.
