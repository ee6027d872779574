(** * Facts about the record of received ranges *)

From Verif Require Import GoBase Holes SpecHoles.
From Coq Require Import Sorting.Sorted.
Local Open Scope Z_scope.

Definition starts (l : holes) : list Z := map h_start l.
Definition nonempty (l : holes) : Prop := forall h, In h l -> h_start h < h_end h.

Lemma ss_app : forall l1 l2 : list Z, StronglySorted Z.le (l1 ++ l2) <->
  StronglySorted Z.le l1 /\ StronglySorted Z.le l2 /\ forall x y, In x l1 -> In y l2 -> x <= y.
Proof.
  induction l1 as [|a l1 IH]; intros l2; simpl.
  - split; [intros H; split; [constructor | split; auto; intros ? ? []] | intros (_ & H & _); auto].
  - split.
    + intros H. inversion H; subst. apply IH in H2. destruct H2 as (A & B & C).
      rewrite Forall_forall in H3. split; [|split; auto].
      * constructor; auto. apply Forall_forall. intros x I. apply H3. apply in_or_app; auto.
      * intros x y [E|I] J; [subst; apply H3, in_or_app; auto | auto].
    + intros (A & B & C). inversion A; subst. constructor.
      * apply IH. auto.
      * apply Forall_forall. intros x I. apply in_app_or in I. destruct I.
        -- rewrite Forall_forall in H2. auto.
        -- apply C; auto.
Qed.
Lemma ss_remove : forall (l1 : list Z) x l2, StronglySorted Z.le (l1 ++ x :: l2) -> StronglySorted Z.le (l1 ++ l2).
Proof.
  intros l1 x l2 H. apply ss_app in H. apply ss_app. destruct H as (A & B & C). inversion B; subst.
  split; [|split]; auto. intros; apply C; auto. right; auto.
Qed.

Lemma nth_at : forall {A} (pre : list A) x suf, nth_error (pre ++ x :: suf) (length pre) = Some x.
Proof. intros. rewrite nth_error_app2 by lia. rewrite Nat.sub_diag. reflexivity. Qed.
Lemma nth_at_S : forall {A} (pre : list A) x y suf, nth_error (pre ++ x :: y :: suf) (S (length pre)) = Some y.
Proof. intros. rewrite nth_error_app2 by lia. replace (S (length pre) - length pre)%nat with 1%nat by lia. reflexivity. Qed.

Lemma remove_at : forall (pre : holes) x y suf,
  hl_remove (pre ++ x :: y :: suf) (S (length pre)) = pre ++ x :: suf.
Proof.
  intros. unfold hl_remove. replace (pre ++ x :: y :: suf) with ((pre ++ [x]) ++ y :: suf) by (rewrite <- app_assoc; reflexivity).
  rewrite firstn_app, skipn_app. rewrite app_length. simpl length.
  rewrite firstn_all2 by (rewrite app_length; simpl; lia). rewrite skipn_all2 by (rewrite app_length; simpl; lia).
  replace (S (length pre) - (length pre + 1))%nat with 0%nat by lia.
  replace (S (S (length pre)) - (length pre + 1))%nat with 1%nat by lia.
  simpl. rewrite <- !app_assoc. reflexivity.
Qed.
Lemma set_end_at : forall (pre : holes) x suf e,
  set_end (pre ++ x :: suf) (length pre) e = pre ++ {| h_start := h_start x; h_end := e |} :: suf.
Proof. induction pre as [|a pre IH]; intros; simpl; [reflexivity | rewrite IH; reflexivity]. Qed.

Lemma split_two : forall (l : holes) i, (i < length l)%nat -> i <> (length l - 1)%nat ->
  exists pre x y suf, l = pre ++ x :: y :: suf /\ length pre = i.
Proof.
  intros l i H N. destruct (nth_error l i) as [x|] eqn:E; [|apply nth_error_None in E; lia].
  apply nth_error_split in E. destruct E as (pre & suf & -> & L).
  rewrite app_length in *. simpl in *. destruct suf as [|y suf]; [simpl in *; lia|]. eauto 8.
Qed.

(** ** Termination (no assumption on the list) *)
Lemma loop_total : forall rec bound,
  (forall l, (length l < bound)%nat -> exists r, rec l = Some r /\ (length r <= length l)%nat) ->
  forall steps fills i, (length fills <= bound)%nat -> (length fills - i < steps)%nat ->
  exists r, hl_loop rec steps fills i = Some r /\ (length r <= length fills)%nat.
Proof.
  intros rec bound R. induction steps as [|steps IH]; intros fills i B S; [lia|].
  cbn [hl_loop]. destruct (Nat.ltb_spec i (length fills)) as [I|I]; [|eauto].
  destruct (Nat.eqb_spec i (length fills - 1)) as [E|E]; [eauto|].
  destruct (split_two fills i I E) as (pre & x & y & suf & -> & L). subst i.
  rewrite nth_at, nth_at_S. rewrite app_length in *. cbn [length] in *.
  destruct (Z.leb_spec (h_start y) (h_end x)).
  - rewrite set_end_at. rewrite !remove_at.
    destruct (Z.leb_spec (h_end y) (h_end x)).
    + destruct (R (pre ++ x :: suf)) as (r & Er & Lr); [rewrite app_length; simpl; lia|].
      rewrite Er. rewrite app_length in Lr; cbn [length] in Lr.
      destruct (IH r (Datatypes.S (length pre))) as (r' & E' & L'); [lia | lia |]. exists r'. split; [exact E' | lia].
    + destruct (Z.leb_spec (h_end x) (h_end y)); [|lia].
      destruct (R (pre ++ {| h_start := h_start x; h_end := h_end y |} :: suf)) as (r & Er & Lr); [rewrite app_length; simpl; lia|].
      rewrite Er. rewrite app_length in Lr; cbn [length] in Lr.
      destruct (IH r (Datatypes.S (length pre))) as (r' & E' & L'); [lia | lia |]. exists r'. split; [exact E' | lia].
  - destruct (IH (pre ++ x :: y :: suf) (Datatypes.S (length pre))) as (r' & E' & L');
      rewrite ?app_length in *; cbn [length] in *; [lia | lia |]. exists r'. auto.
Qed.

Lemma opt_total : forall fuel l, (length l < fuel)%nat ->
  exists r, hl_opt fuel l = Some r /\ (length r <= length l)%nat.
Proof.
  induction fuel as [|fuel IH]; intros l H; [lia|].
  cbn [hl_opt]. destruct (Nat.leb_spec (length l) 1); [eauto|].
  apply loop_total with (bound := length l); try lia.
  intros l' H'. apply IH. lia.
Qed.

(** More fuel does not change the result *)
Lemma loop_mono : forall rec rec' (M : forall l r, rec l = Some r -> rec' l = Some r) steps fills i r,
  hl_loop rec steps fills i = Some r -> hl_loop rec' steps fills i = Some r.
Proof.
  intros rec rec' M. induction steps as [|steps IH]; intros fills i r H; [discriminate|].
  cbn [hl_loop] in *. destruct (Nat.ltb i (length fills)); auto.
  destruct (Nat.eqb i (length fills - 1)); auto.
  destruct (nth_error fills i); [|discriminate]. destruct (nth_error fills (S i)); [|discriminate].
  destruct (h_start h0 <=? h_end h); auto.
  match type of H with context[rec ?x] => destruct (rec x) as [f|] eqn:E; [|discriminate]; rewrite (M _ _ E) end. auto.
Qed.
Lemma opt_mono : forall fuel fuel' l r, (fuel <= fuel')%nat -> hl_opt fuel l = Some r -> hl_opt fuel' l = Some r.
Proof.
  induction fuel as [|fuel IH]; intros fuel' l r L H; [discriminate|].
  destruct fuel' as [|fuel']; [lia|]. cbn [hl_opt] in *.
  destruct (Nat.leb (length l) 1); auto.
  eapply loop_mono; [|exact H]. intros; eapply IH; eauto. lia.
Qed.

(** ** Correctness on a list sorted by start *)
Definition same_cover (l l' : holes) : Prop := forall p, covers l p <-> covers l' p.

Lemma covers_app : forall a b p, covers (a ++ b) p <-> covers a p \/ covers b p.
Proof.
  intros; unfold covers. split.
  - intros (h & I & B). apply in_app_or in I. destruct I; [left|right]; eauto.
  - intros [(h & I & B)|(h & I & B)]; exists h; split; auto; apply in_or_app; auto.
Qed.
Lemma covers_cons : forall a b p, covers (a :: b) p <-> h_start a <= p < h_end a \/ covers b p.
Proof.
  intros; unfold covers. split.
  - intros (h & [E|I] & B); [subst; left; auto | right; eauto].
  - intros [B|(h & I & B)]; [exists a; simpl; auto | exists h; simpl; auto].
Qed.

Lemma loop_canonical : forall rec steps l i, canonical l -> (length l - i < steps)%nat -> hl_loop rec steps l i = Some l.
Proof.
  intros rec. induction steps as [|steps IH]; intros l i C S; [lia|].
  cbn [hl_loop]. destruct (Nat.ltb_spec i (length l)) as [I|I]; auto.
  destruct (Nat.eqb_spec i (length l - 1)) as [E|E]; auto.
  destruct (nth_error l i) as [x|] eqn:Ex; [|apply nth_error_None in Ex; lia].
  destruct (nth_error l (Datatypes.S i)) as [y|] eqn:Ey; [|apply nth_error_None in Ey; lia].
  pose proof (proj2 C _ _ _ Ex Ey) as G.
  destruct (Z.leb_spec (h_start y) (h_end x)); [lia|]. apply IH; auto. lia.
Qed.

Definition gaps_below (l : holes) (i : nat) : Prop :=
  forall j a b, (j < i)%nat -> nth_error l j = Some a -> nth_error l (S j) = Some b -> h_end a < h_start b.

Definition good_result (l r : holes) : Prop := canonical r /\ same_cover l r.

Lemma loop_ok : forall rec bound,
  (forall l, (length l < bound)%nat -> StronglySorted Z.le (starts l) -> nonempty l ->
     exists r, rec l = Some r /\ good_result l r /\ (length r <= length l)%nat) ->
  forall steps fills i, (length fills <= bound)%nat -> (length fills - i < steps)%nat ->
  StronglySorted Z.le (starts fills) -> nonempty fills -> gaps_below fills i ->
  exists r, hl_loop rec steps fills i = Some r /\ good_result fills r /\ (length r <= length fills)%nat.
Proof.
  intros rec bound R. induction steps as [|steps IH]; intros fills i B S SS NE GB; [lia|].
  cbn [hl_loop]. destruct (Nat.ltb_spec i (length fills)) as [I|I].
  2:{ exists fills. split; auto. split; auto. split; [split; auto|intro; reflexivity].
      intros j a b Ea Eb. apply (GB j); auto.
      assert (Datatypes.S j < length fills)%nat by (apply nth_error_Some; congruence). lia. }
  destruct (Nat.eqb_spec i (length fills - 1)) as [E|E].
  { exists fills. split; auto. split; auto. split; [split; auto|intro; reflexivity].
    intros j a b Ea Eb. apply (GB j); auto.
    assert (Datatypes.S j < length fills)%nat by (apply nth_error_Some; congruence). lia. }
  destruct (split_two fills i I E) as (pre & x & y & suf & -> & L). subst i.
  rewrite nth_at, nth_at_S. rewrite app_length in *. cbn [length] in *.
  assert (Hx : h_start x < h_end x) by (apply NE, in_or_app; right; left; auto).
  assert (Hy : h_start y < h_end y) by (apply NE, in_or_app; right; right; left; auto).
  assert (Hxy : h_start x <= h_start y).
  { unfold starts in SS. rewrite map_app in SS. apply ss_app in SS. destruct SS as (_ & SS & _).
    simpl in SS. inversion SS; subst. inversion H2; subst. auto. }
  destruct (Z.leb_spec (h_start y) (h_end x)).
  - rewrite set_end_at. rewrite !remove_at.
    assert (K : forall x', h_start x' = h_start x -> h_end x' = Z.max (h_end x) (h_end y) ->
      exists r, match rec (pre ++ x' :: suf) with
                | Some fills2 => hl_loop rec steps fills2 (Datatypes.S (length pre))
                | None => None end = Some r /\ good_result (pre ++ x :: y :: suf) r /\
                (length r <= length pre + Datatypes.S (Datatypes.S (length suf)))%nat).
    { intros x' Es Ee.
      destruct (R (pre ++ x' :: suf)) as (r & Er & [Cr Sr] & Lr).
      - rewrite app_length; simpl; lia.
      - unfold starts in *. rewrite map_app in *. simpl in *. rewrite Es.
        replace (map h_start pre ++ h_start x :: map h_start suf)
          with ((map h_start pre ++ [h_start x]) ++ map h_start suf) by (rewrite <- app_assoc; reflexivity).
        apply ss_remove with (h_start y). rewrite <- app_assoc. exact SS.
      - intros h Ih. apply in_app_or in Ih. destruct Ih as [Ih|[Ih|Ih]].
        + apply NE, in_or_app; auto.
        + subst. lia.
        + apply NE, in_or_app; right; right; right; auto.
      - rewrite Er. rewrite app_length in Lr; cbn [length] in Lr.
        rewrite loop_canonical by (auto; lia).
        exists r. split; auto. split; [split; auto | lia].
        intro p. rewrite <- (Sr p). rewrite !covers_app, !covers_cons. rewrite Es, Ee.
        assert ((h_start x <= p < h_end x \/ h_start y <= p < h_end y) <-> h_start x <= p < Z.max (h_end x) (h_end y)) by lia.
        tauto. }
    destruct (Z.leb_spec (h_end y) (h_end x)).
    + apply K; auto. lia.
    + destruct (Z.leb_spec (h_end x) (h_end y)); [|lia]. apply K; simpl; auto. lia.
  - destruct (IH (pre ++ x :: y :: suf) (Datatypes.S (length pre))) as (r' & E' & G' & L'); auto.
    + rewrite app_length; cbn [length]; lia.
    + rewrite app_length; cbn [length]; lia.
    + intros j a b Hj Ea Eb. destruct (Nat.eq_dec j (length pre)) as [->|Nj].
      * rewrite nth_at in Ea. rewrite nth_at_S in Eb. congruence.
      * apply (GB j); auto. lia.
    + exists r'. rewrite app_length in L'; cbn [length] in L'. auto.
Qed.

Lemma opt_ok : forall fuel l, (length l < fuel)%nat -> StronglySorted Z.le (starts l) -> nonempty l ->
  exists r, hl_opt fuel l = Some r /\ good_result l r /\ (length r <= length l)%nat.
Proof.
  induction fuel as [|fuel IH]; intros l H SS NE; [lia|].
  cbn [hl_opt]. destruct (Nat.leb_spec (length l) 1).
  - exists l. split; auto. split; auto. split; [split; auto|intro; reflexivity].
    intros j a b Ea Eb. assert (S j < length l)%nat by (apply nth_error_Some; congruence). lia.
  - apply loop_ok with (bound := length l); try lia; auto.
    + intros l' H' S' N'. apply IH; auto. lia.
    + intros j a b Hj. lia.
Qed.

(** ** Sorting *)
Lemma sorted_starts : forall l, Sorted by_start l -> StronglySorted Z.le (starts l).
Proof.
  intros l H. apply Sorted_StronglySorted in H; [|unfold Relations_1.Transitive, by_start; intros; lia].
  induction H; simpl; constructor; auto.
  rewrite Forall_forall in *. intros z I. apply in_map_iff in I. destruct I as (b & E & Ib). subst. apply H0; auto.
Qed.
Lemma covers_perm : forall l l' p, Permutation l l' -> covers l p -> covers l' p.
Proof. intros l l' p P (h & I & B). exists h. split; auto. eapply Permutation_in; eauto. Qed.
Lemma insert_perm : forall h l, Permutation (h :: l) (insert_hole h l).
Proof.
  induction l as [|x l IH]; simpl; auto. destruct (h_start h <=? h_start x); auto.
  eapply perm_trans; [apply perm_swap | constructor; auto].
Qed.
Lemma sort_holes_perm : forall l, Permutation l (sort_holes l).
Proof. induction l; simpl; auto. eapply perm_trans; [constructor; eauto | apply insert_perm]. Qed.
Lemma insert_sorted : forall h l, Sorted by_start l -> Sorted by_start (insert_hole h l).
Proof.
  induction l as [|x l IH]; simpl; intros S; [repeat constructor|].
  destruct (Z.leb_spec (h_start h) (h_start x)); [constructor; auto; constructor; unfold by_start; auto|].
  inversion S; subst. constructor; auto.
  destruct l as [|y l]; simpl; [constructor; unfold by_start; lia|].
  destruct (Z.leb_spec (h_start h) (h_start y)); constructor; unfold by_start; [lia|]. inversion H3; auto.
Qed.
Lemma sort_holes_result : forall l, sort_result l (sort_holes l).
Proof.
  intros l; split; [apply sort_holes_perm|]. induction l; simpl; [constructor | apply insert_sorted; auto].
Qed.

(** ** Uniqueness of the canonical list *)
Lemma canonical_cons : forall a l, canonical (a :: l) <->
  h_start a < h_end a /\ canonical l /\ forall h, In h l -> h_end a < h_start h.
Proof.
  intros a l. revert a. induction l as [|b l IH]; intros a.
  - split.
    + intros [N _]. split; [apply N; left; auto|]. split; [split; [intros ? [] | intros [|] ? ? E; discriminate E] | intros ? []].
    + intros (H & _ & _). split; [intros h [E|[]]; subst; auto | intros [|[|]] ? ? E1 E2; simpl in *; try discriminate].
  - split.
    + intros [N G]. assert (Cl : canonical (b :: l)).
      { split; [intros h I; apply N; right; auto | intros i x y Ex Ey; apply (G (S i)); auto]. }
      split; [apply N; left; auto|]. split; auto.
      apply IH in Cl as Cl'. destruct Cl' as (Hb & _ & Hl).
      assert (h_end a < h_start b) by (apply (G 0%nat); auto).
      intros h [E|I]; [subst; auto | specialize (Hl h I); lia].
    + intros (Ha & [N G] & Hl). split.
      * intros h [E|I]; [subst; auto | auto].
      * intros [|i] x y Ex Ey; simpl in Ex, Ey.
        -- inversion Ex; inversion Ey; subst. apply Hl; left; auto.
        -- apply (G i); auto.
Qed.
Lemma canonical_nil : canonical [].
Proof. split; [intros ? [] | intros [|] ? ? E; discriminate E]. Qed.

Lemma hole_eq : forall a b, h_start a = h_start b -> h_end a = h_end b -> a = b.
Proof. intros [] []; simpl; intros; subst; reflexivity. Qed.

Lemma canonical_unique : forall l m, canonical l -> canonical m -> same_cover l m -> l = m.
Proof.
  induction l as [|a l IH]; intros m Cl Cm SC.
  - destruct m as [|b m]; auto. apply canonical_cons in Cm. destruct Cm as (Hb & _ & _).
    destruct (proj2 (SC (h_start b))) as (h & [] & _). apply covers_cons. left; lia.
  - destruct m as [|b m].
    { apply canonical_cons in Cl. destruct Cl as (Ha & _ & _).
      destruct (proj1 (SC (h_start a))) as (h & [] & _). apply covers_cons. left; lia. }
    apply canonical_cons in Cl. destruct Cl as (Ha & Cl & Hl).
    apply canonical_cons in Cm. destruct Cm as (Hb & Cm & Hm).
    assert (LB : forall (x : hole) k p, (forall h, In h k -> h_end x < h_start h) -> h_start x < h_end x ->
              covers (x :: k) p -> h_start x <= p).
    { intros x k p Hk Hx C. apply covers_cons in C. destruct C as [C|(h & I & B)]; [lia | specialize (Hk h I); lia]. }
    assert (E1 : h_start a = h_start b).
    { assert (h_start a <= h_start b) by (apply (LB a l); auto; apply SC, covers_cons; left; lia).
      assert (h_start b <= h_start a) by (apply (LB b m); auto; apply SC, covers_cons; left; lia). lia. }
    assert (NC : forall (x : hole) k, (forall h, In h k -> h_end x < h_start h) -> ~ covers (x :: k) (h_end x)).
    { intros x k Hk C. apply covers_cons in C. destruct C as [C|(h & I & B)]; [lia | specialize (Hk h I); lia]. }
    assert (E2 : h_end a = h_end b).
    { destruct (Z.lt_trichotomy (h_end a) (h_end b)) as [H|[H|H]]; auto; exfalso.
      - apply (NC a l Hl). apply SC, covers_cons. left; lia.
      - apply (NC b m Hm). apply SC, covers_cons. left; lia. }
    assert (a = b) by (apply hole_eq; auto). subst b. f_equal. apply IH; auto.
    intro p. specialize (SC p). rewrite !covers_cons in SC.
    split; intros (h & I & B).
    + assert (C : covers (a :: m) p) by (apply covers_cons, SC; right; exists h; auto).
      apply covers_cons in C. destruct C; auto. specialize (Hl h I). lia.
    + assert (C : covers (a :: l) p) by (apply covers_cons, SC; right; exists h; auto).
      apply covers_cons in C. destruct C; auto. specialize (Hm h I). lia.
Qed.

(** ** Add *)
Lemma add_spec : forall l s e r, canonical l -> hl_add l s e r ->
  canonical r /\ forall p, covers r p <-> covers l p \/ s <= p < e.
Proof.
  intros l s e r C H. inversion H; subst.
  - split; auto. intros p. split; auto. intros [|]; auto. lia.
  - split.
    + apply canonical_cons. simpl. split; auto. split; [apply canonical_nil | intros ? []].
    + intros p. rewrite covers_cons. simpl. split; [tauto|]. intros [(h & [] & _)|]; auto.
  - destruct H2 as [P S].
    assert (NE : nonempty sorted).
    { intros h I. apply Permutation_sym in P. apply (Permutation_in _ P) in I. apply in_app_or in I.
      destruct I as [I|[I|[]]]; [apply C; auto | subst; auto]. }
    destruct (opt_ok (Datatypes.S (length sorted)) sorted) as (r' & E & [C' SC] & _); auto using sorted_starts.
    unfold hl_optimise in H3. rewrite E in H3. inversion H3; subst r'.
    split; auto. intros p. rewrite <- (SC p).
    assert (covers sorted p <-> covers (l ++ [{| h_start := s; h_end := e |}]) p).
    { split; intros Hc; [eapply covers_perm; [apply Permutation_sym; exact P | exact Hc] | eapply covers_perm; eauto]. }
    rewrite H2, covers_app, covers_cons. simpl. split.
    + intros [|[|(h & [] & _)]]; auto.
    + tauto.
Qed.
Lemma add_f_add : forall l s e, hl_add l s e (hl_add_f l s e).
Proof.
  intros. unfold hl_add_f. destruct (Z.leb_spec e s); [apply add_empty; auto|].
  destruct l as [|a l]; [apply add_first; auto|].
  rewrite app_length. cbn [length]. replace (Nat.ltb 1 (S (length l) + 1)) with true by (symmetry; apply Nat.ltb_lt; lia).
  destruct (opt_total (S (length (sort_holes ((a :: l) ++ [{| h_start := s; h_end := e |}])))) (sort_holes ((a :: l) ++ [{| h_start := s; h_end := e |}]))) as (r & E & _); [lia|].
  unfold hl_optimise. rewrite E.
  apply add_more with (sort_holes ((a :: l) ++ [{| h_start := s; h_end := e |}])); auto; [discriminate | apply sort_holes_result].
Qed.

Lemma run_spec : forall ops l, run ops l -> canonical l /\ forall p, covers l p <-> received ops p.
Proof.
  induction 1 as [|ops l s e l' R [C IH] A].
  - split; [apply canonical_nil|]. intros p. split; [intros (h & [] & _) | intros (s & e & [] & _)].
  - destruct (add_spec _ _ _ _ C A) as [C' H]. split; auto.
    intros p. rewrite H, IH. unfold received. split.
    + intros [(s' & e' & I & B)|B]; [exists s', e'; split; auto; apply in_or_app; auto | exists s, e; split; auto; apply in_or_app; right; left; auto].
    + intros (s' & e' & I & B). apply in_app_or in I. destruct I as [I|[I|[]]]; [left; eauto | inversion I; subst; auto].
Qed.
Lemma run_exists : forall ops, exists l, run ops l.
Proof.
  induction ops as [|[s e] ops IH] using rev_ind; [exists []; constructor|].
  destruct IH as (l & R). exists (hl_add_f l s e). eapply run_add; eauto using add_f_add.
Qed.

Lemma covers_dec : forall l p, {covers l p} + {~ covers l p}.
Proof.
  induction l as [|a l IH]; intros p; [right; intros (h & [] & _)|].
  destruct (IH p); [left; apply covers_cons; auto|].
  destruct (Z_le_gt_dec (h_start a) p); [destruct (Z_lt_ge_dec p (h_end a))|].
  - left; apply covers_cons; left; lia.
  - right; intro C; apply covers_cons in C; destruct C; [lia | auto].
  - right; intro C; apply covers_cons in C; destruct C; [lia | auto].
Qed.
