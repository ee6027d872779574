(** * What the user sees on the screen: the theorems *)

From Coq Require Import ZArith List String Ascii Bool NArith Lia Permutation.
From Verif Require Import GoBase Sarnet FlagStrFacts Table Screen SpecScreen ScreenFacts.
Import ListNotations.
Local Open Scope string_scope.
Local Open Scope Z_scope.

(** ** How it ends *)

(** C105: The user interface goes on until Ctrl-C is pressed or the terminal has less than 12
    columns or less than 12 rows when the screen is drawn; then the program ends. *)
Lemma c105_ends : forall prompt ls,
  c_end (crun prompt cstart ls) = fate false ls /\
  (c_end (crun prompt cstart ls) = None <-> (forall cols rows, In (cols, rows) (sizes ls) -> 12 <= cols /\ 12 <= rows) /\ ~ In ECtrlC (events ls)).
Proof.
  intros prompt ls. rewrite (fate_fresh prompt ls cstart cstart_fresh). split; [reflexivity|].
  assert (T : forall ls, fate true ls = None <-> (forall cols rows, In (cols, rows) (sizes ls) -> 12 <= cols /\ 12 <= rows) /\
            ~ In ECtrlC (flat_map (fun l => match l with CLoop e _ _ => [e] | _ => [] end) ls)).
  { clear. induction ls as [|l ls IH]; [cbn; intuition|]. destruct l as [v line colour text|e c r]; [exact IH|]. rewrite fate_sized.
    cbn [andb sizes flat_map app In]. fold (sizes ls). destruct (sized c r) eqn:S.
    - apply sized_iff in S. destruct (match e with ECtrlC => true | _ => false end) eqn:EC.
      + destruct e; try discriminate. split; [discriminate|]. intros (_ & X). exfalso. apply X. left. reflexivity.
      + assert (e <> ECtrlC) by (intros ->; discriminate). rewrite IH. split; intros (A & B); split.
        * intros cc rr [X|X]; [injection X as <- <-; exact S|apply A, X].
        * intros [X|X]; [congruence|exact (B X)].
        * intros; apply A; right; assumption.
        * intro; apply B; right; assumption.
    - assert (N : ~ (12 <= c /\ 12 <= r)) by (rewrite <- sized_iff; congruence).
      split; [destruct e; discriminate|]. intros (A & _). exfalso. apply N, A. left. reflexivity. }
  induction ls as [|l ls IH]; [cbn; intuition|]. destruct l as [v line colour text|e c r]; [exact IH|]. rewrite fate_sized.
  unfold events. cbn [andb sizes flat_map app In tl]. fold (sizes ls). destruct (sized c r) eqn:S.
  - rewrite T. apply sized_iff in S. split; intros (A & B); (split; [|exact B]); [intros cc rr [X|X]; [injection X as <- <-; exact S|apply A, X]|intros; apply A; right; assumption].
  - assert (N : ~ (12 <= c /\ 12 <= r)) by (rewrite <- sized_iff; congruence). split; [discriminate|]. intros (A & _). exfalso. apply N, A. left. reflexivity.
Qed.
Example c105_ends_ex :
  c_end (crun "saratoga" cstart [CLoop EResize 80 24; CLoop ECtrlP 12 12; CPrint VMsg true "" "x"; CLoop (EText 0) 12 11; CLoop ECtrlC 80 24]) = Some InvalidDimensions /\
  c_end (crun "saratoga" cstart [CLoop EResize 80 24; CLoop ECtrlC 80 24]) = Some Quit.
Proof. split; reflexivity. Qed.

(** ** What is seen *)

Lemma share_covers : forall cols rows v x y, sized cols rows = true -> on_terminal cols rows x y -> (covers (rect_of cols rows v) x y <-> share cols rows v x y).
Proof.
  intros c r v x y S ((X0 & X1) & Y0 & Y1). apply sized_iff in S as (C & R). unfold covers, share, top_rows, rect_of, ratio.
  destruct v; cbn [x0 x1 y0 y1]; rewrite ?quot_div by lia; lia.
Qed.
Lemma rect_on : forall cols rows v x y, sized cols rows = true -> covers (rect_of cols rows v) x y -> on_terminal cols rows x y.
Proof.
  intros c r v x y S. apply sized_iff in S as (C & R). unfold covers, on_terminal, rect_of, ratio.
  assert (H4 := Z.div_mod r 4 ltac:(lia)). assert (M4 := Z.mod_pos_bound r 4 ltac:(lia)).
  assert (H4' := Z.div_mod c 4 ltac:(lia)). assert (M4' := Z.mod_pos_bound c 4 ltac:(lia)).
  assert (H2 := Z.div_mod c 2 ltac:(lia)). assert (M2 := Z.mod_pos_bound c 2 ltac:(lia)).
  destruct v; cbn [x0 x1 y0 y1]; rewrite ?quot_div by lia; lia.
Qed.
(** Seeing a window, by recursion on the windows *)
Lemma seen_cons : forall w q ws x y v, seen ((w, q) :: ws) x y v <->
  seen ws x y v \/ (v = w /\ covers q x y /\ forall w' q', In (w', q') ws -> ~ covers q' x y).
Proof.
  intros w q ws x y v. split.
  - intros ([|(w', q') before] & r & after & E & C & N); cbn [app] in E.
    + injection E as -> -> ->. right. auto.
    + injection E as -> -> ->. left. exists before, r, after. auto.
  - intros [(before & r & after & -> & C & N)|(-> & C & N)]; [exists ((w, q) :: before), r, after; auto|exists [], q, ws; auto].
Qed.
Lemma seen_nil : forall x y v, ~ seen [] x y v.
Proof. intros x y v ([|? ?] & r & after & E & _); discriminate. Qed.

(** C106: On a terminal of any size the program runs on, the messages, the command line and the errors
    share the whole screen without overlap; the packet window covers its part of the messages
    exactly after an odd number of presses of Ctrl-P, whatever else was done. *)
Lemma c106_seen : forall prompt ls cols rows,
  let s := crun prompt cstart ls in
  c_end s = None -> size ls = Some (cols, rows) ->
  (forall x y, on_terminal cols rows x y ->
     (exists v, seen (c_windows s) x y v) /\
     (forall v, seen (c_windows s) x y v <->
        share cols rows v x y /\ (v = VPacket -> packets_on ls = true) /\
        (v = VMsg -> ~ (packets_on ls = true /\ share cols rows VPacket x y)))) /\
  (forall x y v, seen (c_windows s) x y v -> on_terminal cols rows x y).
Proof.
  intros prompt ls cols rows s E SZ. pose proof (run_state prompt ls E) as H. fold s in H. rewrite SZ in H. destruct H as (G & S & PK).
  inversion G as [? o w W O CU FI EN]; subst. rewrite W. rewrite PK in O. split.
  - intros x y T.
    assert (D : forall v, covers (rect_of cols rows v) x y <-> share cols rows v x y) by (intro; apply share_covers; assumption).
    assert (K : forall v, seen (arranged cols rows o) x y v <->
        share cols rows v x y /\ (v = VPacket -> packets_on ls = true) /\
        (v = VMsg -> ~ (packets_on ls = true /\ share cols rows VPacket x y))).
    { intro v. destruct T as ((X0 & X1) & Y0 & Y1). apply sized_iff in S as (C & R).
      assert (P1 : share cols rows VPacket x y -> share cols rows VMsg x y) by (cbn [share]; lia).
      assert (P2 : share cols rows VMsg x y -> share cols rows VCmd x y -> False) by (cbn [share]; lia).
      assert (P3 : share cols rows VMsg x y -> share cols rows VErr x y -> False) by (cbn [share]; lia).
      assert (P4 : share cols rows VCmd x y -> share cols rows VErr x y -> False) by (cbn [share]; lia).
      assert (CS : forall w, w = VCmd \/ w = VErr \/ w = VPacket \/ w = VMsg) by (intros []; auto).
      assert (N : forall (l : list vname), (forall w' q', In (w', q') (arranged cols rows l) -> ~ covers q' x y) <-> Forall (fun w => ~ share cols rows w x y) l).
      { intro l. rewrite Forall_forall. unfold arranged. split.
        - intros A u I. rewrite <- D. eapply A. apply in_map_iff. exists u. eauto.
        - intros A w' q' I. apply in_map_iff in I as (u & [= <- <-] & I). rewrite D. apply A, I. }
      assert (NIL : seen [] x y v <-> False) by (split; [apply seen_nil|contradiction]).
      destruct (packets_on ls); each_order O; cbn [arranged map]; rewrite !seen_cons, NIL;
        repeat (match goal with |- context [forall w' q', In (w', q') ?l -> _] =>
          let t := constr:(map (@fst vname rect) l) in let t := eval cbn [map fst] in t in
          change (forall w' q', In (w', q') l -> ~ covers q' x y) with (forall w' q', In (w', q') (arranged cols rows t) -> ~ covers q' x y); rewrite (N t) end);
        rewrite !D, ?Forall_cons_iff, ?Forall_nil_iff; destruct v; intuition (try congruence). }
    split; [|exact K].
    destruct (Z.lt_ge_cases y (top_rows rows)) as [A|A].
    + destruct (packets_on ls) eqn:PO.
      * destruct (Z.le_gt_cases (cols - cols / 4) x); [destruct (Z.lt_ge_cases x (cols - 1)); [destruct (Z.le_gt_cases 1 y); [destruct (Z.lt_ge_cases y (top_rows rows - 1))|]|]|];
          [exists VPacket; apply K; cbn [share]; repeat split; try lia; discriminate|..];
          exists VMsg; apply K; cbn [share]; (split; [exact A|]); split; [discriminate|intros _ (_ & X); lia|discriminate|intros _ (_ & X); lia|discriminate|intros _ (_ & X); lia|discriminate|intros _ (_ & X); lia].
      * exists VMsg; apply K; cbn [share]. split; [exact A|]. split; [discriminate|]. intros _ (X & _). discriminate.
    + destruct (Z.lt_ge_cases x (cols / 2)); [exists VCmd|exists VErr]; apply K; cbn [share]; (split; [lia|]); split; discriminate.
  - intros x y v (before & r & after & E' & C & _). apply (rect_on cols rows v x y S).
    assert (I : In (v, r) (arranged cols rows o)) by (rewrite E'; apply in_elt). unfold arranged in I. apply in_map_iff in I as (u & [= -> <-] & _). exact C.
Qed.
Example c106_seen_ex :
  let s := crun "saratoga" cstart [CLoop EResize 80 24; CLoop ECtrlP 80 24; CLoop (ECtrlSpace 0 0 0 0) 100 40] in
  c_end s = None /\ seen (c_windows s) 80 5 VPacket /\ seen (c_windows s) 10 5 VMsg /\ seen (c_windows s) 99 39 VErr.
Proof.
  split; [reflexivity|]. repeat split.
  - exists [(VCmd, rect_of 100 40 VCmd); (VErr, rect_of 100 40 VErr); (VMsg, rect_of 100 40 VMsg)], (rect_of 100 40 VPacket), [].
    split; [reflexivity|]. split; [unfold covers, rect_of; cbn; lia|]. intros w q [].
  - exists [(VCmd, rect_of 100 40 VCmd); (VErr, rect_of 100 40 VErr)], (rect_of 100 40 VMsg), [(VPacket, rect_of 100 40 VPacket)].
    split; [reflexivity|]. split; [unfold covers, rect_of; cbn; lia|]. intros w q [[= <- <-]|[]]. unfold covers, rect_of; cbn; lia.
  - exists [(VCmd, rect_of 100 40 VCmd)], (rect_of 100 40 VErr), [(VMsg, rect_of 100 40 VMsg); (VPacket, rect_of 100 40 VPacket)].
    split; [reflexivity|]. split; [unfold covers, rect_of; cbn; lia|]. intros w q [[= <- <-]|[[= <- <-]|[]]]; unfold covers, rect_of; cbn; lia.
Qed.

(** ** The cursor *)

(** What one step does to the window with the cursor *)
Lemma step_current : forall p cols rows s l v, going cols rows s -> c_current s = Some v -> c_end (cstep p s l) = None ->
  (exists cols' rows', going cols' rows' (cstep p s l)) /\
  c_current (cstep p s l) = Some (match l with CLoop (ECtrlSpace _ _ _ _) _ _ => next_view (c_packets s) v | _ => v end) /\
  c_packets (cstep p s l) = match l with CLoop ECtrlP _ _ => negb (c_packets s) | _ => c_packets s end.
Proof.
  intros p cols rows s l v G CU E. pose proof (step_going p cols rows s l G) as H. destruct l as [w line colour text|e c r].
  - rewrite H. split; [exists cols, rows; apply print_going, G|]. split; [exact CU|reflexivity].
  - assert (NC : e <> ECtrlC) by (intro; subst; congruence).
    destruct (sized c r) eqn:SZ; [|exfalso; destruct e; congruence].
    destruct (step_going_going p cols rows s e c r G NC SZ) as (G' & X & Y & _). split; [exists c, r; exact G'|]. rewrite X, Y.
    destruct e; try congruence.
    + split; [exact CU|reflexivity].
    + destruct (nth_error (c_waiting s) i) as [(w, t)|] eqn:N; [rewrite (text_going _ _ _ _ _ _ G N)|cbn [handle]; rewrite N]; (split; [exact CU|reflexivity]).
    + rewrite (space_going _ _ _ _ _ _ _ _ G CU). split; reflexivity.
    + rewrite (p_going _ _ _ G). split; [exact CU|reflexivity].
Qed.
Lemma round_next : forall b k v, nth_error (round b) (k mod List.length (round b)) = Some v ->
  nth_error (round b) (S k mod List.length (round b)) = Some (next_view b v).
Proof.
  intros b k v. assert (L : List.length (round b) <> 0%nat) by (destruct b; discriminate).
  rewrite <- Nat.add_1_r, <- Nat.add_mod_idemp_l by exact L. pose proof (Nat.mod_upper_bound k _ L) as B. revert B.
  generalize (k mod List.length (round b))%nat. intros j B. destruct b; cbn [round length] in *;
    (destruct j as [|[|[|[|j]]]]; [..|lia]; cbn; try lia; intros [= <-]; reflexivity) || (destruct j as [|[|[|j]]]; [..|lia]; cbn; try lia; intros [= <-]; reflexivity).
Qed.
Lemma drawn_going : forall p ls, c_end (crun p cstart ls) = None -> size ls <> None ->
  exists cols rows v, going cols rows (crun p cstart ls) /\ c_current (crun p cstart ls) = Some v /\ c_packets (crun p cstart ls) = packets_on ls.
Proof.
  intros p ls E S. pose proof (run_state p ls E) as H. destruct (size ls) as [(c, r)|]; [|congruence]. destruct H as (G & _ & PK).
  inversion G as [? o v W O CU FI EN]; subst. exists c, r, v. auto.
Qed.
(** the packet window stays as it is while Ctrl-P is not pressed *)
Lemma round_run : forall p b l k, nth_error (round (c_packets b)) (k mod List.length (round (c_packets b))) = c_current b ->
  (exists cols rows, going cols rows b) -> c_end (crun p b l) = None -> strokes is_ctrl_p l = 0%nat ->
  c_current (crun p b l) = nth_error (round (c_packets b)) ((strokes is_ctrl_space l + k) mod List.length (round (c_packets b))).
Proof.
  intros p b l; revert b; induction l as [|x l IH]; intros b k N (cols & rows & G) E P; [symmetry; exact N|].
  cbn [crun] in *. assert (E1 : c_end (cstep p b x) = None) by (destruct (c_end (cstep p b x)) eqn:Y; [rewrite (crun_ended _ _ _ _ Y) in E; congruence|reflexivity]).
  inversion G as [? o v W O CU FI EN]; subst. destruct (step_current p cols rows b x v G CU E1) as (G1 & C1 & P1).
  assert (PS : strokes is_ctrl_p l = 0%nat /\ c_packets (cstep p b x) = c_packets b).
  { destruct x as [|e c r]; [split; [exact P|exact P1]|]. unfold strokes in P |- *. cbn [flat_map app filter] in P. destruct e; cbn [is_ctrl_p] in P; try (split; [exact P|exact P1]). discriminate. }
  destruct PS as (PS & PE). destruct (match x with CLoop (ECtrlSpace _ _ _ _) _ _ => true | _ => false end) eqn:SP.
  - destruct x as [|[] c r]; try discriminate. rewrite CU in N. apply round_next in N.
    rewrite (IH _ (S k)); [rewrite PE|rewrite PE, C1; exact N|exact G1|exact E|exact PS].
    unfold strokes. cbn [flat_map app filter is_ctrl_space length]. rewrite Nat.add_succ_r. reflexivity.
  - rewrite (IH _ k); [rewrite PE|rewrite PE, C1, N, CU|exact G1|exact E|exact PS].
    + destruct x as [|[] c r]; try discriminate; reflexivity.
    + destruct x as [|[] c r]; try discriminate; reflexivity.
Qed.
(** C107: From the command line, Ctrl-Space takes the cursor round the windows: messages, errors, command line,
    and with the packet window on, between the messages and the errors, also the packets. *)
Lemma c107_round : forall prompt ls ls',
  c_end (crun prompt cstart (ls ++ ls')) = None -> size ls <> None ->
  c_current (crun prompt cstart ls) = Some VCmd -> strokes is_ctrl_p ls' = 0%nat ->
  c_current (crun prompt cstart (ls ++ ls')) =
  nth_error (round (packets_on ls)) (strokes is_ctrl_space ls' mod List.length (round (packets_on ls))).
Proof.
  intros p ls ls' E S C P. pose proof (end_app _ _ _ _ E) as E0. destruct (drawn_going p ls E0 S) as (c & r & v & G & CU & PK). rewrite crun_app in *. rewrite <- PK.
  rewrite (round_run p _ ls' 0); [rewrite Nat.add_0_r; reflexivity| |eauto|exact E|exact P]. rewrite C. destruct (c_packets _); reflexivity.
Qed.
Example c107_round_ex :
  let go := fun k => c_current (crun "saratoga" cstart ([CLoop EResize 80 24; CLoop ECtrlP 80 24] ++ repeat (CLoop (ECtrlSpace 0 0 0 0) 80 24) k)) in
  go 0%nat = Some VCmd /\ go 1%nat = Some VMsg /\ go 2%nat = Some VPacket /\ go 3%nat = Some VErr /\ go 4%nat = Some VCmd.
Proof. repeat split. Qed.
(** C107: The cursor is on the command line when the screen has first been drawn, and whatever else happens, four presses
    of Ctrl-Space bring it there at some point. *)
Lemma c107_back : forall prompt ls,
  c_end (crun prompt cstart ls) = None ->
  (forall cols rows, sizes ls = [(cols, rows)] -> c_current (crun prompt cstart ls) = Some VCmd) /\
  (forall ls', size ls <> None -> c_end (crun prompt cstart (ls ++ ls')) = None -> (4 <= strokes is_ctrl_space ls')%nat ->
     exists part rest, ls' = (part ++ rest)%list /\ c_current (crun prompt cstart (ls ++ part)) = Some VCmd).
Proof.
  intros p ls E. split.
  - intros cols rows. revert E. induction ls as [|l ls IH] using rev_ind; intros E SZ; [discriminate|]. pose proof (end_app _ _ _ _ E) as E0. rewrite crun_snoc in *.
    rewrite sizes_app in SZ. destruct l as [v line colour text|e c r].
    + cbn [sizes flat_map app] in SZ. rewrite app_nil_r in SZ. unfold cstep. rewrite E0. cbn [print c_current c_set_waiting]. apply IH; assumption.
    + cbn [sizes flat_map app] in SZ. destruct (sizes ls) as [|z zs] eqn:Z; [|destruct zs; discriminate].
      pose proof (run_state p ls E0) as H. unfold size in H. rewrite Z in H. cbn [map last] in H. destruct H as (F & _).
      pose proof (step_fresh p _ (CLoop e c r) F) as K. cbv beta iota in K. destruct (sized c r); [rewrite K; reflexivity|congruence].
  - intros ls' S E' K. destruct (drawn_going p ls E S) as (c & r & v & G & CU & _). rewrite crun_app in E'.
    assert (X : exists part rest, ls' = (part ++ rest)%list /\ c_current (crun p (crun p cstart ls) part) = Some VCmd).
    2:{ destruct X as (part & rest & A & B). exists part, rest. rewrite crun_app. auto. }
    set (far := fun v => match v with VCmd => 0%nat | VErr => 1%nat | VPacket => 2%nat | VMsg => 3%nat end).
    assert (K' : (far v <= strokes is_ctrl_space ls')%nat) by (destruct v; cbn [far]; lia). clear K E S.
    revert K' E'. revert c r v G CU. generalize (crun p cstart ls). clear ls. induction ls' as [|l ls' IH]; intros s c r v G CU K E.
    + exists [], []. split; [reflexivity|]. cbn [crun]. unfold strokes in K. cbn in K. destruct v; cbn in K; try lia. exact CU.
    + destruct (match v with VCmd => true | _ => false end) eqn:V; [destruct v; try discriminate; exists [], (l :: ls'); auto|].
      cbn [crun] in E. assert (E1 : c_end (cstep p s l) = None) by (destruct (c_end (cstep p s l)) eqn:Y; [rewrite (crun_ended _ _ _ _ Y) in E; congruence|reflexivity]).
      destruct (step_current p c r s l v G CU E1) as ((c' & r' & G1) & C1 & _).
      edestruct (IH (cstep p s l) c' r' _ G1 C1) as (part & rest & A & B); [|exact E|exists (l :: part), rest; cbn [app crun]; subst; auto].
      unfold strokes in *. destruct l as [|[] c0 r0]; cbn [flat_map app filter is_ctrl_space length] in K; try exact K. destruct v, (c_packets s); cbn [far next_view] in *; try discriminate; lia.
Qed.
(** C107: Turning the packet window off while the cursor is in it leaves the cursor there, in a window that is nowhere seen. *)
Lemma c107_lost : forall prompt ls cols rows,
  c_current (crun prompt cstart ls) = Some VPacket -> packets_on ls = true ->
  let ls' := (ls ++ [CLoop ECtrlP cols rows])%list in
  c_end (crun prompt cstart ls') = None ->
  c_current (crun prompt cstart ls') = Some VPacket /\ forall x y, ~ seen (c_windows (crun prompt cstart ls')) x y VPacket.
Proof.
  intros p ls cols rows C PO ls' E. pose proof (end_app _ _ _ _ E) as E0.
  assert (S : size ls <> None). { intro X. pose proof (run_state p ls E0) as H. rewrite X in H. destruct H as (F & _). inversion F; congruence. }
  destruct (drawn_going p ls E0 S) as (c & r & v & G & CU & PK). split.
  - subst ls'. rewrite crun_snoc in *. destruct (step_current p c r _ (CLoop ECtrlP cols rows) v G CU E) as (_ & X & _). rewrite X. congruence.
  - intros x y SN. assert (SZ : size ls' = Some (cols, rows)) by apply size_loop. destruct (c106_seen p ls' cols rows E SZ) as (A & B). pose proof (B _ _ _ SN) as T.
    destruct (A x y T) as (_ & D). apply D in SN as (_ & X & _). specialize (X eq_refl). subst ls'. unfold packets_on, presses in *. rewrite events_loop in X. destruct (size ls); [|congruence].
    rewrite filter_app, app_length in X. cbn [filter is_ctrl_p length] in X. rewrite Nat.add_1_r, Nat.odd_succ, <- Nat.negb_odd, PO in X. discriminate.
Qed.
Example c107_lost_ex :
  let ls := [CLoop EResize 80 24; CLoop ECtrlP 80 24; CLoop (ECtrlSpace 0 0 0 0) 80 24; CLoop (ECtrlSpace 0 0 0 0) 80 24] in
  c_current (crun "saratoga" cstart ls) = Some VPacket /\ packets_on ls = true /\ c_end (crun "saratoga" cstart (ls ++ [CLoop ECtrlP 80 24])) = None.
Proof. repeat split. Qed.

(** ** Text *)

Lemma for_window_app : forall v a b, for_window v (a ++ b) = (for_window v a ++ for_window v b)%list.
Proof. intros. unfold for_window. rewrite filter_app, map_app. reflexivity. Qed.
Lemma for_window_perm : forall v a b, Permutation a b -> Permutation (for_window v a) (for_window v b).
Proof.
  intros v a b P. unfold for_window. apply Permutation_map. induction P; cbn [filter]; auto.
  - destruct (vname_eqb v (fst x)); auto.
  - destruct (vname_eqb v (fst x)), (vname_eqb v (fst y)); auto using perm_swap.
  - etransitivity; eassumption.
Qed.
Lemma drop_nth_perm : forall A i (l : list A) a, nth_error l i = Some a -> Permutation l (a :: drop_nth i l).
Proof.
  induction i as [|i IH]; intros [|b l] a N; cbn in N |- *; try discriminate; [injection N as ->; reflexivity|].
  rewrite perm_swap. apply perm_skip, IH, N.
Qed.
Lemma cstep_end : forall p s l ls, c_end (crun p s (l :: ls)) = None -> c_end (cstep p s l) = None.
Proof. intros p s l ls E. cbn [crun] in E. destruct (c_end (cstep p s l)) eqn:Y; [rewrite (crun_ended _ _ _ _ Y) in E; congruence|reflexivity]. Qed.
(** what a window has and what waits for it *)
Definition known (s : screen) (v : vname) : list string := (c_text s v ++ for_window v (c_waiting s))%list.
Lemma known_print : forall s w line colour text v, known (print s w line colour text) v = (known s v ++ for_window v [(w, painted line colour text)])%list.
Proof. intros. unfold known, print. cbn [c_text c_waiting c_set_waiting]. rewrite for_window_app, app_assoc. reflexivity. Qed.
Lemma known_text : forall s i w t v, nth_error (c_waiting s) i = Some (w, t) ->
  Permutation (known s v) (known (c_set_text (c_set_waiting s (drop_nth i (c_waiting s))) (fun u => if vname_eqb w u then (c_text s u ++ [t])%list else c_text s u)) v).
Proof.
  intros s i w t v N. unfold known. cbn [c_text c_waiting c_set_waiting c_set_text].
  rewrite (for_window_perm v _ _ (drop_nth_perm _ _ _ _ N)). unfold for_window at 1. cbn [filter fst].
  destruct w, v; cbn [vname_eqb map snd]; try reflexivity; rewrite <- app_assoc; reflexivity.
Qed.
Lemma text_going_run : forall p ls cols rows s v, going cols rows s -> c_end (crun p s ls) = None ->
  Permutation (known s v ++ for_window v (said p true ls)) (known (crun p s ls) v).
Proof.
  intros p ls; induction ls as [|l ls IH]; intros cols rows s v G E; [cbn; rewrite app_nil_r; reflexivity|].
  pose proof (cstep_end _ _ _ _ E) as E1. cbn [crun] in E |- *. inversion G as [? o u W O CU FI EN]; subst.
  destruct (step_current p cols rows s l u G CU E1) as ((c' & r' & G1) & _). rewrite <- (IH _ _ _ v G1 E). pose proof (step_going p cols rows s l G) as H.
  destruct l as [w line colour text|e c r].
  - rewrite H, known_print. cbn [said]. rewrite <- app_assoc, <- for_window_app. reflexivity.
  - assert (NC : e <> ECtrlC) by (intro; subst; congruence). destruct (sized c r) eqn:SZ; [|exfalso; destruct e; congruence].
    destruct (step_going_going p cols rows s e c r G NC SZ) as (_ & _ & _ & X & Y).
    assert (KN : known (cstep p s (CLoop e c r)) v = known (handle s e) v) by (unfold known; rewrite X, Y; reflexivity). rewrite KN. cbn [said]. destruct e; try congruence.
    + reflexivity.
    + destruct (nth_error (c_waiting s) i) as [(w, t)|] eqn:N; [rewrite (text_going _ _ _ _ _ _ G N)|cbn [handle]; rewrite N; reflexivity].
      cbn [app]. apply Permutation_app_tail, known_text, N.
    + rewrite (space_going _ _ _ _ _ _ _ _ G CU), known_print. rewrite <- app_assoc, <- for_window_app. reflexivity.
    + rewrite (p_going _ _ _ G). reflexivity.
Qed.
Lemma text_fresh_run : forall p ls s v, fresh s -> c_end (crun p s ls) = None ->
  Permutation (known s v ++ for_window v (said p false ls)) (known (crun p s ls) v).
Proof.
  intros p ls; induction ls as [|l ls IH]; intros s v F E; [cbn; rewrite app_nil_r; reflexivity|].
  pose proof (cstep_end _ _ _ _ E) as E1. cbn [crun] in E |- *. pose proof (step_fresh p s l F) as H. destruct l as [w line colour text|e c r].
  - rewrite H in *. rewrite <- (IH _ v (print_fresh _ _ _ _ _ F) E), known_print. cbn [said]. rewrite <- app_assoc, <- for_window_app. reflexivity.
  - destruct (sized c r); [|congruence]. rewrite H in *. rewrite <- (text_going_run _ _ _ _ _ v (opened_going p s c r F) E). cbn [said].
    unfold known, opened. cbn [c_text c_waiting]. rewrite !for_window_app, <- !app_assoc. reflexivity.
Qed.
(** C108: Each text that the program prints for a window is written into it whole and once, or is still on its
    way there; nothing else is written into a window. *)
Lemma c108_once : forall prompt ls v,
  let s := crun prompt cstart ls in
  c_end s = None -> Permutation (for_window v (said prompt false ls)) (c_text s v ++ for_window v (c_waiting s)).
Proof. intros p ls v s E. pose proof (text_fresh_run p ls cstart v cstart_fresh E) as H. exact H. Qed.
Example c108_once_ex :
  let s := crun "saratoga" cstart [CPrint VMsg true "" "one"; CLoop EResize 80 24; CPrint VErr true "" "two"; CLoop (EText 0) 80 24] in
  c_text s VMsg = [painted true "" "one"] /\ for_window VErr (c_waiting s) = [painted true "" "two"] /\ c_text s VErr = [].
Proof. repeat split. Qed.

(** C108: The order in which texts appear in a window is not that in which they were printed: any texts printed
    one after the other can appear in any order. *)
Lemma c108_any_order : forall prompt cols rows v texts texts', 12 <= cols -> 12 <= rows -> Permutation texts texts' ->
  exists ls,
    flat_map (fun l => match l with CPrint w line colour text => [(w, line, colour, text)] | _ => [] end) ls = map (fun '(line, colour, text) => (v, line, colour, text)) texts /\
    c_end (crun prompt cstart ls) = None /\
    c_text (crun prompt cstart ls) v = map (fun '(line, colour, text) => painted line colour text) texts'.
Proof.
  intros p cols rows v texts texts' C R P. assert (SZ : sized cols rows = true) by (apply sized_iff; auto).
  set (pr := fun '(line, colour, text) => CPrint v line colour text).
  set (en := fun '(line, colour, text) => (v, painted line colour text)).
  assert (PR : forall l s, fresh s -> fresh (crun p s (map pr l)) /\ c_waiting (crun p s (map pr l)) = (c_waiting s ++ map en l)%list).
  { induction l as [|((line, colour), text) l IH]; intros s F; [cbn; rewrite app_nil_r; auto|]. cbn [map crun]. pose proof (step_fresh p s (CPrint v line colour text) F) as H. cbv beta iota in H.
    change (pr (line, colour, text)) with (CPrint v line colour text). rewrite H. destruct (IH _ (print_fresh s v line colour text F)) as (A & B). split; [exact A|]. rewrite B. unfold print. cbn [c_waiting c_set_waiting]. rewrite <- app_assoc. reflexivity. }
  destruct (PR texts cstart cstart_fresh) as (F & WT). cbn [c_waiting cstart app] in WT.
  set (s0 := crun p cstart (map pr texts)) in *. set (s1 := opened p s0 cols rows).
  assert (G1 : going cols rows s1) by (apply opened_going, F).
  assert (S1 : cstep p s0 (CLoop EResize cols rows) = s1). { pose proof (step_fresh p s0 (CLoop EResize cols rows) F) as H. cbv beta iota in H. rewrite SZ in H. exact H. }
  assert (X : forall todo extra s, going cols rows s -> Permutation (c_waiting s) (map en todo ++ extra) ->
    exists ls, flat_map (fun l => match l with CPrint w line colour text => [(w, line, colour, text)] | _ => [] end) ls = [] /\
      c_end (crun p s ls) = None /\ c_text (crun p s ls) v = (c_text s v ++ map (fun '(line, colour, text) => painted line colour text) todo)%list).
  { induction todo as [|((line, colour), text) todo IH]; intros extra s G PM.
    - exists []. split; [reflexivity|]. inversion G; subst. split; [assumption|]. cbn. rewrite app_nil_r. reflexivity.
    - assert (I : In (en (line, colour, text)) (c_waiting s)) by (eapply Permutation_in; [apply Permutation_sym, PM|left; reflexivity]).
      apply In_nth_error in I as (i & N). cbn [en] in N.
      destruct (step_going_going p cols rows s (EText i) cols rows G ltac:(discriminate) SZ) as (G' & _ & _ & A & B).
      rewrite (text_going _ _ _ _ _ _ G N) in A, B. cbn [c_waiting c_text c_set_text c_set_waiting] in A, B.
      destruct (IH extra _ G') as (ls & L1 & L2 & L3).
      + rewrite A. eapply Permutation_cons_inv. etransitivity; [apply Permutation_sym, (drop_nth_perm _ _ _ _ N)|exact PM].
      + exists (CLoop (EText i) cols rows :: ls). split; [exact L1|]. split; [exact L2|]. cbn [crun]. rewrite L3, B. destruct v; cbn [vname_eqb]; rewrite <- app_assoc; reflexivity. }
  destruct (X texts' [(VCmd, painted false "yellow_black" (p ++ "[0]:"))] s1 G1) as (ls & L1 & L2 & L3).
  { unfold s1, opened. cbn [c_waiting]. rewrite WT. apply Permutation_app_tail, Permutation_map, P. }
  exists (map pr texts ++ CLoop EResize cols rows :: ls)%list. split; [|split].
  - rewrite flat_map_app. cbn [flat_map app]. rewrite L1, app_nil_r. clear. induction texts as [|((line, colour), text) texts IH]; [reflexivity|]. cbn [map flat_map app pr]. f_equal. exact IH.
  - rewrite crun_app. fold s0. cbn [crun]. rewrite S1. exact L2.
  - rewrite crun_app. fold s0. cbn [crun]. rewrite S1, L3. unfold s1, opened. cbn [c_text]. inversion F as [? W CU PK FI TX EN]; subst. rewrite TX. reflexivity.
Qed.
Example c108_any_order_ex :
  exists ls, c_text (crun "saratoga" cstart ([CPrint VMsg true "" "one"; CPrint VMsg true "" "two"] ++ ls)) VMsg = [painted true "" "two"; painted true "" "one"].
Proof. exists [CLoop EResize 80 24; CLoop (EText 1) 80 24; CLoop (EText 0) 80 24]. reflexivity. Qed.

(** ** Colours *)

Lemma hue_cases : forall i h, nth_error hues i = Some h ->
  (i = 0%nat /\ h = "black") \/ (i = 1%nat /\ h = "red") \/ (i = 2%nat /\ h = "green") \/ (i = 3%nat /\ h = "yellow") \/
  (i = 4%nat /\ h = "blue") \/ (i = 5%nat /\ h = "magenta") \/ (i = 6%nat /\ h = "cyan") \/ (i = 7%nat /\ h = "white").
Proof. intros i h N. do 8 (destruct i as [|i]; [injection N as <-; tauto|]). destruct i; discriminate. Qed.
Ltac each_hue N := apply hue_cases in N; repeat (destruct N as [N|N]); destruct N as (-> & ->).
Lemma text_code_fg : forall f c, text_code f c <-> lookup f fg = Some c.
Proof.
  intros f c. split.
  - intro T. destruct T as [i h N|i h N|i h N]; each_hue N; reflexivity.
  - intro L. unfold fg in L. cbn [lookup] in L.
    repeat (match type of L with (if String.eqb f ?k then _ else _) = _ => destruct (String.eqb_spec f k) as [->|_]; [injection L as <-|] end); [..|discriminate];
    first [ exact (text_bold 0 _ eq_refl) | exact (text_bold 1 _ eq_refl) | exact (text_bold 2 _ eq_refl) | exact (text_bold 3 _ eq_refl) | exact (text_bold 4 _ eq_refl) | exact (text_bold 5 _ eq_refl) | exact (text_bold 6 _ eq_refl) | exact (text_bold 7 _ eq_refl)
          | exact (text_underlined 0 _ eq_refl) | exact (text_underlined 1 _ eq_refl) | exact (text_underlined 2 _ eq_refl) | exact (text_underlined 3 _ eq_refl) | exact (text_underlined 4 _ eq_refl) | exact (text_underlined 5 _ eq_refl) | exact (text_underlined 6 _ eq_refl) | exact (text_underlined 7 _ eq_refl)
          | exact (text_inverse 0 _ eq_refl) | exact (text_inverse 1 _ eq_refl) | exact (text_inverse 2 _ eq_refl) | exact (text_inverse 3 _ eq_refl) | exact (text_inverse 4 _ eq_refl) | exact (text_inverse 5 _ eq_refl) | exact (text_inverse 6 _ eq_refl) | exact (text_inverse 7 _ eq_refl) ].
Qed.
Lemma back_code_bg : forall f c, back_code f c <-> lookup f bg = Some c.
Proof.
  intros f c. split.
  - intro T. destruct T as [i h N|i h N]; each_hue N; reflexivity.
  - intro L. unfold bg in L. cbn [lookup] in L.
    repeat (match type of L with (if String.eqb f ?k then _ else _) = _ => destruct (String.eqb_spec f k) as [->|_]; [injection L as <-|] end); [..|discriminate];
    first [ exact (back_plain 0 _ eq_refl) | exact (back_plain 1 _ eq_refl) | exact (back_plain 2 _ eq_refl) | exact (back_plain 3 _ eq_refl) | exact (back_plain 4 _ eq_refl) | exact (back_plain 5 _ eq_refl) | exact (back_plain 6 _ eq_refl) | exact (back_plain 7 _ eq_refl)
          | exact (back_bright 0 _ eq_refl) | exact (back_bright 1 _ eq_refl) | exact (back_bright 2 _ eq_refl) | exact (back_bright 3 _ eq_refl) | exact (back_bright 4 _ eq_refl) | exact (back_bright 5 _ eq_refl) | exact (back_bright 6 _ eq_refl) | exact (back_bright 7 _ eq_refl) ].
Qed.
Lemma text_code_single : forall f c, text_code f c -> split_on "_" f = [f] /\ f <> "" /\ f <> "none" /\ f <> "off".
Proof. intros f c T. destruct T as [i h N|i h N|i h N]; each_hue N; repeat split; discriminate. Qed.
Lemma back_code_single : forall f c, back_code f c -> split_on "_" f = [f].
Proof. intros f c T. destruct T as [i h N|i h N]; each_hue N; reflexivity. Qed.
Lemma split_joined : forall s, match split_on "_" s with [] => False | [a] => s = a | [a; b] => s = a ++ "_" ++ b | _ => True end.
Proof.
  induction s as [|a s IH]; [reflexivity|]. cbn [split_on]. destruct (Ascii.eqb_spec a "_") as [->|NE].
  - destruct (split_on "_" s) as [|h [|k t]]; [contradiction|subst; reflexivity|exact I].
  - destruct (split_on "_" s) as [|h [|k [|m t]]]; [contradiction|subst; reflexivity|subst; reflexivity|exact I].
Qed.
Lemma no_under : forall f, split_on "_" f = [f] -> ~ In "_"%char (bytes_of f).
Proof.
  induction f as [|a f IH]; intros E; [intros []|]. cbn [split_on] in E. destruct (Ascii.eqb_spec a "_") as [->|NE]; [injection E; intros; discriminate|].
  intros [X|X]; [congruence|]. destruct (split_on "_" f) as [|h t] eqn:F; [exact (split_on_nil _ _ F)|]. injection E as -> ->. exact (IH eq_refl X).
Qed.
(** C109: A colour the program knows is set by its escape sequence, any other colour is white on red; the text
    follows unchanged, and the colour is turned off after it, unless none was asked for. *)
Lemma c109_colours : forall line colour text,
  exists before, painted line colour text = before ++ text ++ (if (colour =? "")%string then "" else escape "0") ++ (if line then newline else "") /\
    (forall codes, paints colour codes -> before = codes) /\
    ((forall codes, ~ paints colour codes) -> before = escape "37;1;41;4").
Proof.
  intros line colour text. exists (set_colour colour). split; [reflexivity|].
  split.
  - intros codes P. destruct P as [| | |f b cf cb F B|f cf F]; try reflexivity.
    + destruct (text_code_single _ _ F) as (SF & N1 & _). pose proof (back_code_single _ _ B) as SB. unfold set_colour.
      assert (SP : split_on "_" (f ++ "_" ++ b) = [f; b]) by (change (f ++ "_" ++ b) with (f ++ String "_" b); rewrite split_on_app by (apply no_under, SF); rewrite SB; reflexivity).
      destruct (String.eqb_spec (f ++ "_" ++ b) "none") as [X|_]; [rewrite X in SP; discriminate|].
      destruct (String.eqb_spec (f ++ "_" ++ b) "") as [X|_]; [rewrite X in SP; discriminate|].
      destruct (String.eqb_spec (f ++ "_" ++ b) "off") as [X|_]; [rewrite X in SP; discriminate|].
      cbn [orb]. cbv zeta. rewrite SP. apply text_code_fg in F. apply back_code_bg in B. unfold fg_exists, bg_exists, at_key. rewrite F, B. cbn [andb].
      unfold ansi_prefix, ansi_separator, ansi_postfix, escape. cbn [append]. f_equal. f_equal.
      clear. induction cf as [|a cf IH]; [cbn; f_equal|]. cbn [append]. f_equal. exact IH.
    + destruct (text_code_single _ _ F) as (SF & N1 & N2 & N3). unfold set_colour.
      destruct (String.eqb_spec f "none") as [X|_]; [congruence|]. destruct (String.eqb_spec f "") as [X|_]; [congruence|]. destruct (String.eqb_spec f "off") as [X|_]; [congruence|].
      cbn [orb]. cbv zeta. rewrite SF. apply text_code_fg in F. unfold fg_exists, at_key. rewrite F.
      unfold ansi_prefix, ansi_separator, ansi_postfix, escape. cbn [append]. f_equal. f_equal.
      clear. induction cf as [|a cf IH]; [reflexivity|]. cbn [append]. f_equal. exact IH.
  - intros NP. unfold set_colour.
    destruct (String.eqb_spec colour "none") as [->|N1]; [exfalso; eapply NP; constructor|]. destruct (String.eqb_spec colour "") as [->|N2]; [exfalso; eapply NP; constructor|].
    destruct (String.eqb_spec colour "off") as [->|N3]; [exfalso; eapply NP; apply paints_off|]. cbn [orb]. cbv zeta.
    pose proof (split_joined colour) as J. destruct (split_on "_" colour) as [|f [|b [|x t]]]; [contradiction| | |reflexivity].
    + unfold fg_exists. destruct (lookup f fg) as [cf|] eqn:F; [|reflexivity]. apply text_code_fg in F. exfalso. eapply NP. rewrite J. eapply paints_text, F.
    + unfold fg_exists, bg_exists. destruct (lookup f fg) as [cf|] eqn:F; [|reflexivity]. destruct (lookup b bg) as [cb|] eqn:B; [|reflexivity].
      apply text_code_fg in F. apply back_code_bg in B. exfalso. eapply NP. rewrite J. eapply paints_both; eassumption.
Qed.
Example c109_colours_ex :
  painted false "cyan_black" "x" = escape "36;1;40;1" ++ "x" ++ escape "0" /\
  painted false "ured" "x" = escape "31;4;40;1" ++ "x" ++ escape "0" /\
  painted false "Doing" "x" = escape "37;1;41;4" ++ "x" ++ escape "0".
Proof. repeat split. Qed.
