(** * Facts about the record of ranges with backing arrays *)

From Verif Require Import GoBase Holes SpecHoles HolesFacts HolesAlias.
Local Open Scope nat_scope.

Lemma nth_error_firstn : forall {A} (l : list A) n i, i < n -> nth_error (firstn n l) i = nth_error l i.
Proof.
  induction l as [|a l IH]; intros [|n] [|i] H; simpl; auto; try lia. apply IH; lia.
Qed.
Lemma firstn_len : forall {A} (l : list A) n, n <= length l -> length (firstn n l) = n.
Proof. intros; rewrite firstn_length; lia. Qed.

Lemma skipn_skipn' : forall {A} (l : list A) n m, skipn n (skipn m l) = skipn (n + m) l.
Proof.
  induction l as [|a l IH]; intros n [|m]; rewrite ?skipn_nil, ?Nat.add_0_r; auto.
  rewrite Nat.add_succ_r. cbn [skipn]. apply IH.
Qed.

Lemma remove_view : forall x len i, i < len -> len <= length x ->
  firstn (len - 1) (ia_remove x len i) = hl_remove (firstn len x) i /\
  length (ia_remove x len i) = length x /\ skipn len (ia_remove x len i) = skipn len x.
Proof.
  intros x len i Hi Hl. unfold ia_remove, hl_remove.
  assert (L1 : length (firstn i x ++ firstn (len - S i) (skipn (S i) x)) = len - 1).
  { rewrite app_length, !firstn_length, skipn_length. lia. }
  rewrite app_assoc. split; [|split].
  - rewrite firstn_app, firstn_all2 by lia. rewrite L1, Nat.sub_diag, firstn_O, app_nil_r.
    rewrite firstn_firstn. rewrite Nat.min_l by lia. f_equal. rewrite firstn_skipn_comm. f_equal. f_equal. lia.
  - rewrite app_length, L1, skipn_length. lia.
  - rewrite skipn_app, L1. rewrite skipn_all2 by lia. simpl.
    replace (skipn (len - (len - 1)) (skipn (len - 1) x)) with (skipn len x); auto.
    rewrite skipn_skipn'. f_equal. lia.
Qed.

Lemma set_end_length : forall x i e, length (set_end x i e) = length x.
Proof. induction x as [|h x IH]; intros [|i] e; simpl; auto. Qed.
Lemma set_end_view : forall x len i e, i < len -> firstn len (set_end x i e) = set_end (firstn len x) i e /\
  skipn len (set_end x i e) = skipn len x.
Proof.
  induction x as [|h x IH]; intros [|len] [|i] e H; simpl; auto; try lia.
  destruct (IH len i e) as [A B]; [lia|]. rewrite A, B. auto.
Qed.

Definition sim (x : array) (len : nat) (res : option (array * nat)) (pres : option holes) : Prop :=
  match res with
  | Some (x', len') => pres = Some (firstn len' x') /\ len' <= len /\ length x' = length x /\
                       skipn len x' = skipn len x /\ (len' = len -> x' = x)
  | None => pres = None
  end.

Lemma skipn_eq_more : forall {A} (a b : list A) n m, n <= m -> skipn n a = skipn n b -> skipn m a = skipn m b.
Proof.
  intros A a b n m L E. replace m with ((m - n) + n) by lia. rewrite <- !skipn_skipn'. rewrite E. reflexivity.
Qed.

Lemma ia_loop_sim : forall rec prec,
  (forall x len, len <= length x -> sim x len (rec x len) (prec (firstn len x))) ->
  forall steps x len i, len <= length x ->
  sim x len (ia_loop rec steps x len i) (hl_loop prec steps (firstn len x) i).
Proof.
  intros rec prec R. induction steps as [|steps IH]; intros x len i Hl; [reflexivity|].
  cbn [ia_loop hl_loop]. rewrite firstn_len by auto.
  destruct (Nat.ltb_spec i len) as [I|I]; [|unfold sim; auto 6].
  destruct (Nat.eqb_spec i (len - 1)) as [E|E]; [unfold sim; auto 6|].
  rewrite !nth_error_firstn by lia.
  destruct (nth_error x i) as [cur|]; [|reflexivity].
  destruct (nth_error x (S i)) as [next|]; [|reflexivity].
  destruct (h_start next <=? h_end cur)%Z; [|apply IH; auto].
  assert (K : forall x1, length x1 = length x -> skipn len x1 = skipn len x ->
     sim x len (match rec x1 (len - 1) with Some (x2, len2) => ia_loop rec steps x2 len2 (S i) | None => None end)
         (match prec (firstn (len - 1) x1) with Some f => hl_loop prec steps f (S i) | None => None end)).
  { intros x1 L1 S1. specialize (R x1 (len - 1)). destruct (rec x1 (len - 1)) as [[x2 len2]|].
    - destruct R as (P & A & B & C & D); [lia|]. rewrite P.
      specialize (IH x2 len2 (S i)). destruct (ia_loop rec steps x2 len2 (S i)) as [[x3 len3]|].
      + destruct IH as (P' & A' & B' & C' & D'); [lia|].
        unfold sim. rewrite P'. split; [reflexivity|]. split; [lia|]. split; [lia|]. split; [|lia].
        transitivity (skipn len x2); [apply (skipn_eq_more x3 x2 len2); [lia | exact C']|].
        transitivity (skipn len x1); [apply (skipn_eq_more x2 x1 (len - 1)); [lia | exact C] | exact S1].
      + apply IH. lia.
    - simpl. rewrite (R ltac:(lia)). reflexivity. }
  destruct (remove_view x len (S i)) as (V & LV & SV); [lia | lia |].
  destruct (h_end next <=? h_end cur)%Z.
  - rewrite <- V. apply K; auto.
  - destruct (h_end cur <=? h_end next)%Z.
    + destruct (set_end_view x len i (h_end next)) as (V1 & V2); [lia|].
      destruct (remove_view (set_end x i (h_end next)) len (S i)) as (V' & LV' & SV');
        [lia | rewrite set_end_length; lia |].
      rewrite <- V1, <- V'. apply K; [rewrite LV', set_end_length; auto | rewrite SV'; auto].
    + specialize (R x len Hl). destruct (rec x len) as [[x2 len2]|].
      * destruct R as (P & A & B & C & D). rewrite P.
        specialize (IH x2 len2 (S i)). destruct (ia_loop rec steps x2 len2 (S i)) as [[x3 len3]|].
        -- destruct IH as (P' & A' & B' & C' & D'); [lia|].
           unfold sim. rewrite P'. split; [reflexivity|]. split; [lia|]. split; [lia|].
           split; [transitivity (skipn len x2); [apply (skipn_eq_more x3 x2 len2); auto | exact C]|].
           intros. assert (len2 = len) by lia. rewrite D' by lia. auto.
        -- apply IH. lia.
      * simpl in *. rewrite R. reflexivity.
Qed.

Lemma ia_opt_sim : forall fuel x len, len <= length x -> sim x len (ia_opt fuel x len) (hl_opt fuel (firstn len x)).
Proof.
  induction fuel as [|fuel IH]; intros x len H; [reflexivity|].
  cbn [ia_opt hl_opt]. rewrite firstn_len by auto. destruct (Nat.leb len 1); [unfold sim; auto 6|].
  apply ia_loop_sim; auto.
Qed.

Lemma set_array_length : forall H a x, length (set_array H a x) = length H.
Proof. induction H as [|y H IH]; intros [|a] x; simpl; auto. Qed.
Lemma nth_set_array_same : forall H a x, a < length H -> nth a (set_array H a x) [] = x.
Proof. induction H as [|y H IH]; intros [|a] x L; simpl in *; try lia; auto. apply IH; lia. Qed.
Lemma nth_set_array_other : forall H a b x, a <> b -> nth b (set_array H a x) [] = nth b H [].
Proof. induction H as [|y H IH]; intros [|a] [|b] x L; simpl in *; try lia; auto. Qed.
Lemma set_elem_spec : forall x i h, i < length x ->
  set_elem x i h = firstn i x ++ h :: skipn (S i) x.
Proof. induction x as [|y x IH]; intros [|i] h L; simpl in *; try lia; auto. rewrite IH by lia. reflexivity. Qed.

(** The slice lies in the heap *)
Definition valid_slice (H : heap) (s : sliceref) : Prop := sl_arr s < length H /\ sl_len s <= capacity H s.

Section Add.
  Variables (srt : holes -> holes) (grow : nat -> nat).
  Hypothesis srt_ok : forall l, sort_result l (srt l).

  Lemma srt_length : forall l, length (srt l) = length l.
  Proof. intros l. symmetry. apply Permutation_length, srt_ok. Qed.

  (** append: where the new slice is and what it shows *)
  Definition appended (H : heap) (s : sliceref) (fill : hole) : heap * sliceref :=
    if Nat.ltb (sl_len s) (capacity H s)
    then (set_array H (sl_arr s) (set_elem (nth (sl_arr s) H []) (sl_len s) fill), {| sl_arr := sl_arr s; sl_len := S (sl_len s) |})
    else ((H ++ [view H s ++ fill :: repeat zero_hole (grow (sl_len s) - S (sl_len s))])%list,
          {| sl_arr := length H; sl_len := S (sl_len s) |}).

  Lemma view_length : forall H s, valid_slice H s -> length (view H s) = sl_len s.
  Proof. intros H s [_ V]. unfold view. apply firstn_len. exact V. Qed.

  Lemma appended_spec : forall H s fill H1 s1, valid_slice H s -> appended H s fill = (H1, s1) ->
    valid_slice H1 s1 /\ view H1 s1 = view H s ++ [fill] /\ sl_len s1 = S (sl_len s) /\ length H <= length H1 /\
    (sl_len s < capacity H s -> sl_arr s1 = sl_arr s) /\
    (capacity H s <= sl_len s -> sl_arr s1 = length H /\ forall a, a < length H -> nth a H1 [] = nth a H []) /\
    (forall a, a < length H -> a <> sl_arr s -> nth a H1 [] = nth a H []).
  Proof.
    intros H s fill H1 s1 [V1 V2] A. unfold appended in A. unfold valid_slice, view, capacity in *.
    destruct (Nat.ltb_spec (sl_len s) (length (nth (sl_arr s) H []))) as [C|C]; injection A as <- <-;
      cbn [sl_arr sl_len].
    - rewrite nth_set_array_same by auto. rewrite set_elem_spec by auto. rewrite set_array_length.
      assert (Lf : length (firstn (sl_len s) (nth (sl_arr s) H [])) = sl_len s) by (apply firstn_len; lia).
      split; [|split; [|split; [|split; [|split; [|split]]]]]; auto; try lia.
      + split; auto. rewrite app_length, Lf. simpl. lia.
      + rewrite firstn_app, Lf. rewrite firstn_all2 by lia. replace (S (sl_len s) - sl_len s) with 1 by lia. reflexivity.
      + intros a La Na. apply nth_set_array_other. auto.
    - rewrite app_nth2, Nat.sub_diag by lia. cbn [nth].
      assert (Lf : length (firstn (sl_len s) (nth (sl_arr s) H [])) = sl_len s) by (apply firstn_len; lia).
      rewrite !app_length, Lf. cbn [length].
      split; [|split; [|split; [|split; [|split; [|split]]]]]; auto; try lia.
      + rewrite firstn_app, Lf. rewrite firstn_all2 by lia. replace (S (sl_len s) - sl_len s) with 1 by lia. reflexivity.
      + intros _. split; auto. intros a La. apply app_nth1; auto.
      + intros a La Na. apply app_nth1; auto.
  Qed.

  Lemma ia_add_spec : forall H s a b, valid_slice H s ->
    exists H' s', ia_add srt grow H s a b = Some (H', s') /\ valid_slice H' s' /\ length H <= length H' /\
      hl_add (view H s) a b (view H' s') /\
      (forall t, sl_arr t < length H -> sl_arr t <> sl_arr s -> view H' t = view H t) /\
      (capacity H s = sl_len s -> forall t, sl_arr t < length H -> view H' t = view H t) /\
      (sl_len s < capacity H s -> sl_len s' = S (sl_len s) -> view H' s = firstn (sl_len s) (view H' s')).
  Proof.
    intros H s a b V. unfold ia_add. destruct (Z.leb_spec b a) as [E|E].
    { exists H, s. split; auto. split; auto. split; auto. split; [apply add_empty; auto|]. split; auto. split; auto. lia. }
    cbv zeta. fold (appended H s {| h_start := a; h_end := b |}).
    destruct (appended H s {| h_start := a; h_end := b |}) as [H1 s1] eqn:A.
    destruct (appended_spec _ _ _ _ _ V A) as (V1 & W & L1 & LH & Same & New & Oth).
    destruct (Nat.ltb_spec 1 (sl_len s1)) as [M|M].
    - set (x := nth (sl_arr s1) H1 []) in *.
      assert (Lx : sl_len s1 <= length x) by apply V1.
      set (x1 := srt (firstn (sl_len s1) x) ++ skipn (sl_len s1) x).
      assert (Ls : length (srt (firstn (sl_len s1) x)) = sl_len s1) by (rewrite srt_length; apply firstn_len; auto).
      assert (Lx1 : length x1 = length x) by (unfold x1; rewrite app_length, Ls, skipn_length; lia).
      assert (F1 : firstn (sl_len s1) x1 = srt (view H1 s1)).
      { unfold x1. rewrite firstn_app, Ls, Nat.sub_diag. rewrite firstn_all2 by lia. simpl. rewrite app_nil_r. reflexivity. }
      pose proof (ia_opt_sim (S (sl_len s1)) x1 (sl_len s1)) as Sim. specialize (Sim ltac:(lia)). rewrite F1 in Sim.
      destruct (opt_total (S (sl_len s1)) (srt (view H1 s1))) as (r & Er & Lr).
      { rewrite srt_length, view_length by auto. lia. }
      destruct (ia_opt (S (sl_len s1)) x1 (sl_len s1)) as [[x' len']|]; [|unfold sim in Sim; rewrite Er in Sim; discriminate Sim].
      destruct Sim as (P & A1 & A2 & A3 & A4). rewrite Er in P. injection P as P.
      exists (set_array H1 (sl_arr s1) x'), {| sl_arr := sl_arr s1; sl_len := len' |}.
      assert (VW : view (set_array H1 (sl_arr s1) x') {| sl_arr := sl_arr s1; sl_len := len' |} = r).
      { unfold view; cbn [sl_arr sl_len]. rewrite nth_set_array_same by apply V1. auto. }
      split; [reflexivity|]. split.
      { unfold valid_slice, capacity; cbn [sl_arr sl_len]. rewrite set_array_length, nth_set_array_same by apply V1.
        split; [apply V1 | lia]. }
      split; [rewrite set_array_length; auto|]. split; [|split; [|split]].
      + rewrite VW. apply add_more with (srt (view H1 s1)); auto.
        * intro N. apply (f_equal (@length hole)) in N. rewrite view_length in N by auto. simpl in N. lia.
        * rewrite W. apply srt_ok.
        * unfold hl_optimise. rewrite srt_length, view_length by auto. exact Er.
      + intros t Lt Nt. unfold view.
        destruct (Nat.eq_dec (sl_arr s1) (sl_arr t)) as [Eq|Ne].
        * exfalso. destruct (Nat.lt_ge_cases (sl_len s) (capacity H s)) as [C|C].
          -- rewrite (Same C) in Eq. congruence.
          -- destruct (New C). lia.
        * rewrite nth_set_array_other by auto. rewrite Oth; auto.
      + intros C t Lt. destruct (New ltac:(lia)) as [N1 N2]. unfold view.
        rewrite nth_set_array_other by lia. rewrite N2; auto.
      + intros C Len. cbn [sl_len] in Len. rewrite VW. unfold view at 1.
        rewrite (Same C) in *. rewrite nth_set_array_same by (rewrite <- (Same C); apply V1).
        rewrite P. rewrite firstn_firstn. rewrite Nat.min_l by lia. reflexivity.
    - exists H1, s1. split; auto. split; auto. split; auto.
      assert (Z0 : sl_len s = 0) by lia.
      assert (V0 : view H s = []) by (unfold view; rewrite Z0; reflexivity).
      split; [rewrite W, V0; apply add_first; auto|]. split; [|split].
      + intros t Lt Nt. unfold view. rewrite Oth; auto.
      + intros C t Lt. unfold view. destruct (New ltac:(lia)) as [N1 N2]. rewrite N2; auto.
      + intros C _. unfold view. rewrite Z0. reflexivity.
  Qed.
End Add.
