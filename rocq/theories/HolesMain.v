(** * The record of received ranges: the properties (proofs) *)

From Verif Require Import GoBase Holes SpecHoles HolesFacts HolesAlias HolesAliasFacts.
From Coq Require Import Sorting.Sorted.
Local Open Scope Z_scope.

(** C16: after any sequence of Adds a position is recorded iff a range contained it. *)
Lemma c16_covers_received : forall ops l, run ops l -> forall p, covers l p <-> received ops p.
Proof. intros ops l R. apply (run_spec _ _ R). Qed.
(** C16: every sequence of Adds has a result: no call fails or loops. *)
Lemma c16_run_exists : forall ops, exists l, run ops l.
Proof. exact run_exists. Qed.
(** C16: one Add, from any record that Adds can produce. *)
Lemma c16_add : forall ops l s e l', run ops l -> hl_add l s e l' ->
  forall p, covers l' p <-> covers l p \/ s <= p < e.
Proof. intros ops l s e l' R A. apply (add_spec l s e l'); auto. apply (run_spec _ _ R). Qed.
Example c16_ex : exists l, run [(5, 7); (0, 2); (9, 9); (1, 5)] l /\ l = [{| h_start := 0; h_end := 7 |}].
Proof.
  exists (hl_add_f (hl_add_f (hl_add_f (hl_add_f [] 5 7) 0 2) 9 9) 1 5). split; [|vm_compute; reflexivity].
  eapply (run_add [(5, 7); (0, 2); (9, 9)] _ 1 5); [|apply add_f_add].
  eapply (run_add [(5, 7); (0, 2)] _ 9 9); [|apply add_f_add].
  eapply (run_add [(5, 7)] _ 0 2); [|apply add_f_add].
  eapply (run_add [] _ 5 7); [|apply add_f_add]. constructor.
Qed.

(** C17: the record is canonical. *)
Lemma c17_canonical : forall ops l, run ops l -> canonical l.
Proof. intros ops l R. apply (run_spec _ _ R). Qed.
(** C17: and is the only canonical list for the bytes received, and the shortest list
    of ranges that covers them. *)
Lemma c17_unique_minimal : forall ops l, run ops l ->
  (forall l', canonical l' -> (forall p, covers l' p <-> received ops p) -> l' = l) /\
  (forall l', (forall p, covers l' p <-> received ops p) -> (length l <= length l')%nat).
Proof.
  intros ops l R. destruct (run_spec _ _ R) as [C S]. split.
  - intros l' C' S'. apply canonical_unique; auto. intro p. rewrite S, S'. tauto.
  - intros l' S'.
    (* drop the empty ranges, sort, merge: the result is l and not longer than l' *)
    set (l1 := sort_holes (filter (fun h => h_start h <? h_end h) l')).
    destruct (sort_holes_result (filter (fun h => h_start h <? h_end h) l')) as [P SS]. fold l1 in P, SS.
    assert (NE : nonempty l1).
    { intros h I. apply Permutation_sym in P. apply (Permutation_in _ P) in I. apply filter_In in I.
      destruct I as [_ I]. apply Z.ltb_lt in I. auto. }
    destruct (opt_ok (Datatypes.S (length l1)) l1) as (r & _ & [Cr Sr] & Lr); auto using sorted_starts.
    assert (r = l).
    { apply canonical_unique; auto. intro p. rewrite <- (Sr p), S, <- S'.
      split; intros (h & I & B).
      - apply Permutation_sym in P. apply (Permutation_in _ P) in I. apply filter_In in I. exists h; tauto.
      - exists h; split; auto. apply (Permutation_in _ P). apply filter_In. split; auto. apply Z.ltb_lt; lia. }
    subst r. apply Permutation_length in P.
    assert (length (filter (fun h => (h_start h <? h_end h)%Z) l') <= length l')%nat.
    { clear. induction l' as [|x l' IH]; simpl; auto. destruct (h_start x <? h_end x)%Z; simpl; lia. }
    lia.
Qed.
Example c17_ex : canonical [{| h_start := 0; h_end := 2 |}; {| h_start := 3; h_end := 9 |}]
  /\ ~ canonical [{| h_start := 0; h_end := 2 |}; {| h_start := 2; h_end := 9 |}].
Proof.
  split.
  - apply canonical_cons. simpl. split; [lia|]. split; [apply canonical_cons; simpl; split; [lia|]; split; [apply canonical_nil | intros ? []] | intros h [E|[]]; subst; simpl; lia].
  - intros [_ G]. specialize (G 0%nat _ _ eq_refl eq_refl). simpl in G. lia.
Qed.

(** C18: two histories that received the same bytes have the same record, whatever
    the order, the duplicates, the splitting into ranges and the sort's choices. *)
Lemma c18_same_bytes_same_record : forall ops ops' l l', run ops l -> run ops' l' ->
  (forall p, received ops p <-> received ops' p) -> l = l'.
Proof.
  intros ops ops' l l' R R' E. destruct (run_spec _ _ R) as [C S]. destruct (run_spec _ _ R') as [C' S'].
  apply canonical_unique; auto. intro p. rewrite S, S'. apply E.
Qed.
(** C18: in particular for a permutation with duplicates. *)
Lemma c18_order_and_duplicates : forall ops ops' l l', run ops l -> run ops' l' ->
  (forall x, In x ops <-> In x ops') -> l = l'.
Proof.
  intros ops ops' l l' R R' E. apply (c18_same_bytes_same_record ops ops'); auto.
  intro p. split; intros (s & e & I & B); exists s, e; split; auto; apply E; auto.
Qed.
Example c18_ex : forall p, received [(0, 4); (2, 6)] p <-> received [(5, 6); (0, 3); (3, 5); (0, 3)] p.
Proof.
  intro p. split; intros (s & e & I & B); simpl in I.
  - destruct I as [I|[I|[]]]; inversion I; subst.
    + destruct (Z_lt_ge_dec p 3); [exists 0, 3 | exists 3, 5]; simpl; split; auto 6; lia.
    + destruct (Z_lt_ge_dec p 3); [exists 0, 3 | destruct (Z_lt_ge_dec p 5); [exists 3, 5 | exists 5, 6]]; simpl; split; auto 6; lia.
  - destruct I as [I|[I|[I|[I|[]]]]]; inversion I; subst.
    + exists 2, 6; simpl; split; auto; lia.
    + exists 0, 4; simpl; split; auto; lia.
    + destruct (Z_lt_ge_dec p 4); [exists 0, 4 | exists 2, 6]; simpl; split; auto; lia.
    + exists 0, 4; simpl; split; auto; lia.
Qed.

Lemma end_of_cons : forall a b l, end_of (a :: b :: l) = end_of (b :: l).
Proof.
  intros. unfold end_of. cbn [rev]. destruct (rev l) as [|x r]; reflexivity.
Qed.
Lemma end_of_single : forall a, end_of [a] = h_end a.
Proof. reflexivity. Qed.
Lemma end_of_ge : forall l a, canonical (a :: l) -> h_end a <= end_of (a :: l).
Proof.
  induction l as [|b l IH]; intros a C; [rewrite end_of_single; lia|].
  apply canonical_cons in C. destruct C as (Ha & C & G). rewrite end_of_cons.
  specialize (IH b C). specialize (G b (or_introl eq_refl)). apply canonical_cons in C. lia.
Qed.

Lemma loop_false_spec : forall l a, canonical (a :: l) ->
  canonical (getholes_loop false (a :: l)) /\
  (forall h, In h (getholes_loop false (a :: l)) -> h_end a <= h_start h) /\
  forall p, covers (getholes_loop false (a :: l)) p <-> h_end a <= p < end_of (a :: l) /\ ~ covers (a :: l) p.
Proof.
  induction l as [|b l IH]; intros a C.
  - cbn [getholes_loop app]. split; [apply canonical_nil|]. split; [intros ? []|].
    rewrite end_of_single. intros p. split; [intros (h & [] & _) | lia].
  - apply canonical_cons in C as C'. destruct C' as (Ha & Cb & G).
    destruct (IH b Cb) as (K1 & K2 & K3). apply canonical_cons in Cb as Cb'. destruct Cb' as (Hb & Cl & Gb).
    pose proof (G b (or_introl eq_refl)) as Gab. pose proof (end_of_ge l b Cb) as Eb.
    change (getholes_loop false (a :: b :: l)) with ({| h_start := h_end a; h_end := h_start b |} :: getholes_loop false (b :: l)).
    split; [|split].
    + apply canonical_cons. simpl h_start. simpl h_end. split; auto. split; auto.
      intros h I. specialize (K2 h I). lia.
    + intros h [E|I]; [subst; simpl; lia | specialize (K2 h I); lia].
    + intros p. rewrite covers_cons, K3, end_of_cons. simpl h_start; simpl h_end.
      rewrite (covers_cons a). rewrite (covers_cons b).
      assert (NB : covers l p -> h_end b < p).
      { intros (h & I & B). specialize (Gb h I). lia. }
      split.
      * intros [B|[B N]].
        -- split; [lia|]. intros [X|[X|X]]; [lia | lia | apply NB in X; lia].
        -- split; [lia|]. intros [X|X]; [lia | tauto].
      * intros [B N]. destruct (Z_lt_ge_dec p (h_start b)); [left; lia|]. right.
        assert (~ h_start b <= p < h_end b) by tauto. split; [lia | tauto].
Qed.

(** C19: the holes reported are exactly the missing positions before the end, in
    canonical form. *)
Lemma c19_holes_exact : forall ops l, run ops l -> (forall p, received ops p -> 0 <= p) ->
  (forall p, covers (hl_getholes l) p <-> 0 <= p < end_of l /\ ~ received ops p) /\
  canonical (hl_getholes l) /\
  (l = [] \/ received ops (end_of l - 1)) /\
  (forall p, received ops p -> p < end_of l) /\
  hl_lenholes l = length (hl_getholes l).
Proof.
  intros ops l R NN. destruct (run_spec _ _ R) as [C S].
  assert (Top : (l = [] \/ covers l (end_of l - 1)) /\ (forall p, covers l p -> p < end_of l)).
  { clear - C. induction l as [|a l IH]; [split; [auto | intros p (h & [] & _)]|].
    apply canonical_cons in C as C'. destruct C' as (Ha & Cl & G). destruct (IH Cl) as [I1 I2].
    destruct l as [|b l].
    - rewrite end_of_single. split; [right; apply covers_cons; left; lia|].
      intros p X. apply covers_cons in X. destruct X as [|(h & [] & _)]. lia.
    - rewrite end_of_cons. split.
      + right. destruct I1 as [|I1]; [discriminate|]. apply covers_cons; auto.
      + intros p X. apply covers_cons in X. destruct X as [X|X]; [|auto].
        pose proof (end_of_ge l b Cl). pose proof (G b (or_introl eq_refl)). apply canonical_cons in Cl. lia. }
  destruct Top as [T1 T2].
  assert (Main : (forall p, covers (hl_getholes l) p <-> 0 <= p < end_of l /\ ~ received ops p) /\ canonical (hl_getholes l)).
  { destruct l as [|a l].
    - unfold hl_getholes. simpl. split; [|apply canonical_nil].
      intros p. unfold end_of; simpl. split; [intros (h & [] & _) | lia].
    - destruct (loop_false_spec l a C) as (K1 & K2 & K3).
      apply canonical_cons in C as C'. destruct C' as (Ha & Cl & G).
      assert (0 <= h_start a) by (apply NN, S, covers_cons; left; lia).
      assert (E : hl_getholes (a :: l) =
         (if negb (h_start a =? 0) then [{| h_start := 0; h_end := h_start a |}] else []) ++ getholes_loop false (a :: l)).
      { unfold hl_getholes. destruct l; reflexivity. }
      rewrite E. pose proof (end_of_ge l a C) as Ea.
      assert (LB : forall p, covers (a :: l) p -> h_start a <= p).
      { intros p X. apply covers_cons in X. destruct X as [|(h & I & B)]; [lia | specialize (G h I); lia]. }
      destruct (Z.eqb_spec (h_start a) 0) as [Z0|Z0]; cbn [negb app].
      + split; auto. intros p. rewrite K3, <- S. split; [intros [B N]; split; [lia | auto]|].
        intros [B N]. split; auto. assert (~ h_start a <= p < h_end a) by (intro; apply N, covers_cons; auto). lia.
      + split.
        * intros p. rewrite covers_cons, K3, <- S. simpl h_start; simpl h_end. split.
          -- intros [B|[B N]]; split; auto; try lia. intro X. apply LB in X. lia.
          -- intros [B N]. destruct (Z_lt_ge_dec p (h_start a)); [left; lia|]. right. split; auto.
             assert (~ h_start a <= p < h_end a) by (intro; apply N, covers_cons; auto). lia.
        * apply canonical_cons. simpl h_start; simpl h_end. split; [lia|]. split; auto.
          intros h I. specialize (K2 h I). lia. }
  destruct Main as [M1 M2].
  split; [exact M1|]. split; [exact M2|]. split; [rewrite <- S; exact T1|]. split; [|reflexivity].
  intros p Rp. apply T2, S; auto.
Qed.
Example c19_ex : hl_getholes [{| h_start := 2; h_end := 4 |}; {| h_start := 7; h_end := 9 |}] =
  [{| h_start := 0; h_end := 2 |}; {| h_start := 4; h_end := 7 |}].
Proof. reflexivity. Qed.

(** C19: a range that starts below zero makes the first reported hole end before it
    starts (defect; offsets of 2^63 and above become such ranges). *)
Lemma c19_negative_start : forall ops l p, run ops l -> received ops p -> p < 0 ->
  exists h r, hl_getholes l = h :: r /\ h_start h = 0 /\ h_end h < 0.
Proof.
  intros ops l p R Rp N. destruct (run_spec _ _ R) as [C S]. apply S in Rp.
  destruct l as [|a l]; [destruct Rp as (h & [] & _)|].
  assert (h_start a < 0).
  { apply canonical_cons in C. destruct C as (Ha & Cl & G). apply covers_cons in Rp.
    destruct Rp as [|(h & I & B)]; [lia | specialize (G h I); lia]. }
  exists {| h_start := 0; h_end := h_start a |}.
  unfold hl_getholes. cbn [getholes_loop]. replace (h_start a =? 0) with false by (symmetry; apply Z.eqb_neq; lia).
  cbn [andb negb app]. eexists. split; [reflexivity|]. simpl. auto.
Qed.
Example c19_negative_ex : hl_getholes (hl_add_f [] (-5) (-2)) = [{| h_start := 0; h_end := -5 |}].
Proof. reflexivity. Qed.

(** C20: complete exactly when the record is the one range, and then no holes. *)
Lemma c20_complete : forall ops l n, run ops l -> 0 < n ->
  ((forall p, received ops p <-> 0 <= p < n) <-> l = [{| h_start := 0; h_end := n |}]) /\
  (l = [{| h_start := 0; h_end := n |}] -> hl_getholes l = [] /\ hl_lenholes l = 0%nat).
Proof.
  intros ops l n R N. destruct (run_spec _ _ R) as [C S]. split; [split|].
  - intros H. apply canonical_unique; auto.
    + apply canonical_cons. simpl. split; auto. split; [apply canonical_nil | intros ? []].
    + intro p. rewrite S, H, covers_cons. simpl. split; [auto | intros [|(h & [] & _)]; auto].
  - intros -> p. rewrite <- S, covers_cons. simpl. split; [intros [|(h & [] & _)]; auto | auto].
  - intros ->. split; reflexivity.
Qed.
(** C20: no holes means that everything up to the end has been received. *)
Lemma c20_no_holes : forall ops l, run ops l -> (forall p, received ops p -> 0 <= p) ->
  (hl_getholes l = [] <-> forall p, 0 <= p < end_of l -> received ops p).
Proof.
  intros ops l R NN. destruct (c19_holes_exact ops l R NN) as (H & C & _). destruct (run_spec _ _ R) as [Cl S]. split.
  - intros E p B. destruct (covers_dec l p) as [X|X].
    + apply S; auto.
    + exfalso. rewrite E in H. destruct (proj2 (H p)) as (h & [] & _). split; auto. rewrite <- S; auto.
  - intros A. destruct (hl_getholes l) as [|a r]; auto. exfalso.
    apply canonical_cons in C. destruct C as (Ha & _). destruct (proj1 (H (h_start a))) as [B X].
    + apply covers_cons; left; lia.
    + apply X, A, B.
Qed.
Example c20_ex : exists l, run [(3, 8); (0, 3)] l /\ l = [{| h_start := 0; h_end := 8 |}].
Proof.
  exists (hl_add_f (hl_add_f [] 3 8) 0 3). split; [|vm_compute; reflexivity].
  eapply (run_add [(3, 8)] _ 0 3); [|apply add_f_add]. eapply (run_add [] _ 3 8); [|apply add_f_add]. constructor.
Qed.

(** C21: consolidation terminates on every list: a recursion depth above the length
    always suffices, more makes no difference, and the list never grows. *)
Lemma c21_terminates : forall l, exists r, hl_optimise l = Some r /\ (length r <= length l)%nat /\
  forall fuel, (length l < fuel)%nat -> hl_opt fuel l = Some r.
Proof.
  intros l. destruct (opt_total (S (length l)) l) as (r & E & L); [lia|].
  exists r. split; [exact E|]. split; [exact L|].
  intros fuel H. apply opt_mono with (S (length l)); auto.
Qed.
Example c21_ex : hl_optimise [{| h_start := 4; h_end := 2 |}; {| h_start := -3; h_end := 9 |}; {| h_start := 0; h_end := 1 |}]
  = Some [{| h_start := 4; h_end := 9 |}].
Proof. vm_compute. reflexivity. Qed.

(** C22: with backing arrays Add does to the record what the list model says, and
    leaves arrays of other records alone. *)
Lemma c22_refines : forall srt grow H s a b, (forall l, sort_result l (srt l)) -> valid_slice H s ->
  exists H' s', ia_add srt grow H s a b = Some (H', s') /\ valid_slice H' s' /\
    hl_add (view H s) a b (view H' s') /\
    (forall t, (sl_arr t < length H)%nat -> sl_arr t <> sl_arr s -> view H' t = view H t).
Proof.
  intros srt grow H s a b So V. destruct (ia_add_spec srt grow So H s a b V) as (H' & s' & A & B & _ & C & D & _).
  exists H', s'. auto.
Qed.
(** C22: without spare capacity every earlier copy is unchanged. *)
Lemma c22_full_array : forall srt grow H s a b H' s', (forall l, sort_result l (srt l)) -> valid_slice H s ->
  ia_add srt grow H s a b = Some (H', s') -> capacity H s = sl_len s ->
  forall t, (sl_arr t < length H)%nat -> view H' t = view H t.
Proof.
  intros srt grow H s a b H' s' So V E C. destruct (ia_add_spec srt grow So H s a b V) as (H1 & s1 & A & _ & _ & _ & _ & F & _).
  rewrite E in A. injection A as <- <-. apply F; auto.
Qed.
(** C22: with spare capacity, a range added before the others and apart from them
    shifts what the earlier copy of the record shows: its first entry becomes the new
    range and its last entry is lost. *)
Lemma c22_earlier_copy_changes : forall srt grow H s a b H' s' f r,
  (forall l, sort_result l (srt l)) -> valid_slice H s -> (sl_len s < capacity H s)%nat ->
  canonical (view H s) -> view H s = f :: r -> a < b -> b < h_start f ->
  ia_add srt grow H s a b = Some (H', s') ->
  view H' s' = {| h_start := a; h_end := b |} :: f :: r /\
  view H' s = {| h_start := a; h_end := b |} :: removelast (f :: r) /\
  view H' s <> view H s.
Proof.
  intros srt grow H s a b H' s' f r So V Cap C E L1 L2 A.
  destruct (ia_add_spec srt grow So H s a b V) as (H1 & s1 & A1 & V1 & _ & Ad & _ & _ & F).
  rewrite A in A1. injection A1 as <- <-.
  assert (R : view H' s' = {| h_start := a; h_end := b |} :: f :: r).
  { destruct (add_spec _ _ _ _ C Ad) as [C' S]. apply canonical_unique; auto.
    - rewrite E in C. apply canonical_cons. simpl h_start; simpl h_end. split; auto. split; auto.
      apply canonical_cons in C. destruct C as (Hf & _ & G).
      intros h [X|X]; [subst; auto | specialize (G h X); lia].
    - intro p. rewrite S, E, (covers_cons {| h_start := a; h_end := b |}). simpl h_start; simpl h_end. tauto. }
  assert (Ls : sl_len s = length (f :: r)) by (rewrite <- E; symmetry; apply view_length; auto).
  assert (Ls' : sl_len s' = S (sl_len s)).
  { rewrite Ls. rewrite <- (view_length H' s') by auto. rewrite R. reflexivity. }
  specialize (F Cap Ls'). rewrite R in F.
  assert (G : forall (x : hole) l n, n = length l -> l <> [] -> firstn n (x :: l) = x :: removelast l).
  { clear. intros x l n -> N. destruct l as [|y l]; [congruence|].
    cbn [length firstn]. f_equal. clear N. revert y. induction l as [|z l IH]; intros y; [reflexivity|].
    cbn [length firstn removelast]. f_equal. apply IH. }
  rewrite G in F; auto; [|discriminate].
  split; [exact R|]. split; [exact F|].
  rewrite F, E. intro X. injection X as X _. subst f. simpl in L2. lia.
Qed.
(** C22: more generally, when nothing merges the earlier copy shows the first entries
    of the new record. *)
Lemma c22_earlier_copy : forall srt grow H s a b H' s', (forall l, sort_result l (srt l)) -> valid_slice H s ->
  ia_add srt grow H s a b = Some (H', s') -> (sl_len s < capacity H s)%nat -> sl_len s' = S (sl_len s) ->
  view H' s = firstn (sl_len s) (view H' s').
Proof.
  intros srt grow H s a b H' s' So V E. destruct (ia_add_spec srt grow So H s a b V) as (H1 & s1 & A & _ & _ & _ & _ & _ & F).
  rewrite E in A. injection A as <- <-. exact F.
Qed.
Example c22_ex :
  let H := [[{| h_start := 5; h_end := 7 |}; {| h_start := 9; h_end := 12 |}; zero_hole; zero_hole]] in
  let s := {| sl_arr := 0; sl_len := 2 |} in
  valid_slice H s /\ (sl_len s < capacity H s)%nat /\
  exists H' s', ia_add sort_holes (fun n => n + n)%nat H s 0 2 = Some (H', s') /\
    view H' s = [{| h_start := 0; h_end := 2 |}; {| h_start := 5; h_end := 7 |}].
Proof.
  cbv zeta. split; [split; vm_compute; repeat constructor|]. split; [vm_compute; repeat constructor|].
  eexists; eexists; split; vm_compute; reflexivity.
Qed.
