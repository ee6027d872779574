(** * Facts about the screen *)

From Coq Require Import ZArith List String Ascii Bool NArith Lia Permutation.
From Verif Require Import GoBase Sarnet FlagStrFacts Table Screen SpecScreen.
Import ListNotations.
Local Open Scope string_scope.
Local Open Scope Z_scope.

(** ** The order of the windows *)

(** The orders in which the windows can be drawn while the packet window is on, and while it is off *)
Definition orders (packets : bool) : list (list vname) :=
  if packets then
    [[VCmd; VErr; VMsg; VPacket]; [VCmd; VMsg; VErr; VPacket]; [VErr; VCmd; VMsg; VPacket];
     [VErr; VMsg; VCmd; VPacket]; [VMsg; VCmd; VErr; VPacket]; [VMsg; VErr; VCmd; VPacket]]
  else
    [[VCmd; VErr; VPacket; VMsg]; [VErr; VCmd; VPacket; VMsg];
     [VCmd; VPacket; VErr; VMsg]; [VErr; VPacket; VCmd; VMsg];
     [VCmd; VPacket; VMsg; VErr]; [VErr; VPacket; VMsg; VCmd];
     [VPacket; VCmd; VErr; VMsg]; [VPacket; VErr; VCmd; VMsg];
     [VPacket; VCmd; VMsg; VErr]; [VPacket; VErr; VMsg; VCmd];
     [VPacket; VMsg; VCmd; VErr]; [VPacket; VMsg; VErr; VCmd]].
Definition rect_of (cols rows : Z) (v : vname) : rect :=
  match v with
  | VCmd => {| x0 := 0; y0 := rows - rows ÷ ratio + 1; x1 := cols ÷ 2 - 1; y1 := rows - 1 |}
  | VErr => {| x0 := cols ÷ 2; y0 := rows - rows ÷ ratio + 1; x1 := cols - 1; y1 := rows - 1 |}
  | VPacket => {| x0 := cols - cols ÷ 4; y0 := 1; x1 := cols - 2; y1 := rows - rows ÷ ratio - 1 |}
  | VMsg => {| x0 := 0; y0 := 0; x1 := cols - 1; y1 := rows - rows ÷ ratio |}
  end.
Definition arranged (cols rows : Z) (o : list vname) : windows := map (fun v => (v, rect_of cols rows v)) o.

Ltac each_order H := cbn [orders In] in H; repeat (destruct H as [H|H]); [..|contradiction]; subst.

Lemma arranged_has : forall b o cols rows v, In o (orders b) -> has_view v (arranged cols rows o) = true.
Proof. intros b o cols rows v H. destruct b; each_order H; destruct v; reflexivity. Qed.
Lemma arranged_top : forall o cols rows v, to_top v (arranged cols rows o) = arranged cols rows (filter (fun w => negb (vname_eqb v w)) o ++ filter (vname_eqb v) o).
Proof.
  intros o cols rows v. unfold to_top, arranged. rewrite map_app. f_equal.
  - induction o as [|w o IH]; [reflexivity|]. cbn [map filter fst]. destruct (vname_eqb v w); cbn [negb map]; [exact IH|]. f_equal. exact IH.
  - induction o as [|w o IH]; [reflexivity|]. cbn [map filter fst]. destruct (vname_eqb v w); cbn [negb map]; [|exact IH]. f_equal. exact IH.
Qed.
Lemma orders_top : forall b o v, In o (orders b) -> (v = VPacket -> b = true) ->
  In (filter (fun w => negb (vname_eqb (if b then VPacket else v) w)) o ++ filter (vname_eqb (if b then VPacket else v)) o)%list (orders b).
Proof.
  intros b o v H P. destruct b.
  - each_order H; cbn; auto 10.
  - destruct v; try (discriminate (P eq_refl)); each_order H; cbn; auto 20.
Qed.
Lemma orders_toggle : forall b o, In o (orders b) ->
  In (filter (fun w => negb (vname_eqb (if negb b then VPacket else VMsg) w)) o ++ filter (vname_eqb (if negb b then VPacket else VMsg)) o)%list (orders (negb b)).
Proof. intros b o H. destruct b; each_order H; cbn; auto 20. Qed.

(** ** Drawing *)

Lemma quot_div : forall a b, 0 <= a -> 0 < b -> a ÷ b = a / b.
Proof. intros. apply Z.quot_div_nonneg; lia. Qed.
Lemma set_views_ok : forall cols rows, 12 <= cols -> 12 <= rows ->
  Forall (fun e => (x0 (snd e) >=? x1 (snd e)) || (y0 (snd e) >=? y1 (snd e)) = false) (layout_views cols rows).
Proof.
  intros c r C R. unfold layout_views, ratio.
  rewrite !(quot_div _ _) by lia.
  assert (H4 := Z.div_mod r 4 ltac:(lia)). assert (M4 := Z.mod_pos_bound r 4 ltac:(lia)).
  assert (H4' := Z.div_mod c 4 ltac:(lia)). assert (M4' := Z.mod_pos_bound c 4 ltac:(lia)).
  assert (H2 := Z.div_mod c 2 ltac:(lia)). assert (M2 := Z.mod_pos_bound c 2 ltac:(lia)).
  repeat (apply Forall_cons; [cbn [snd x0 x1 y0 y1]; apply orb_false_iff; rewrite !Z.geb_leb, !Z.leb_gt; lia|]). apply Forall_nil.
Qed.
Lemma set_views_put : forall want ws, Forall (fun e => (x0 (snd e) >=? x1 (snd e)) || (y0 (snd e) >=? y1 (snd e)) = false) want ->
  set_views want ws = (fold_left (fun ws e => put_view (fst e) (snd e) ws) want ws, true).
Proof.
  induction want as [|(v, r) want IH]; intros ws F; [reflexivity|]. inversion F as [|? ? A B]; subst.
  cbn [set_views fold_left fst snd] in *. unfold set_view. rewrite A. apply IH, B.
Qed.
(** A window that cannot be set stops the layout *)
Lemma set_views_bad : forall want ws, Exists (fun e => (x0 (snd e) >=? x1 (snd e)) || (y0 (snd e) >=? y1 (snd e)) = true) want -> snd (set_views want ws) = false.
Proof.
  induction want as [|(v, r) want IH]; intros ws E; inversion E as [? ? A|? ? A]; subst; cbn [set_views snd] in *; unfold set_view.
  - rewrite A. reflexivity.
  - destruct ((x0 r >=? x1 r) || (y0 r >=? y1 r)); [reflexivity|]. apply IH, A.
Qed.
Lemma small_bad : forall cols rows, cols < 12 \/ rows < 12 -> Exists (fun e => (x0 (snd e) >=? x1 (snd e)) || (y0 (snd e) >=? y1 (snd e)) = true) (layout_views cols rows).
Proof.
  intros c r S. unfold layout_views, ratio. destruct S as [S|S].
  - apply Exists_cons_tl, Exists_cons_tl, Exists_cons_hd. cbn [snd x0 x1 y0 y1]. apply orb_true_iff. left. rewrite Z.geb_leb, Z.leb_le.
    assert (c ÷ 4 <= 2); [|lia]. destruct (Z.le_gt_cases 0 c).
    + rewrite quot_div by lia. apply Z.lt_succ_r. apply Z.div_lt_upper_bound; lia.
    + assert (c ÷ 4 <= 0); [|lia]. rewrite <- (Z.opp_involutive c), Z.quot_opp_l by lia. rewrite quot_div by lia. assert (0 <= - c / 4) by (apply Z.div_pos; lia). lia.
  - apply Exists_cons_hd. cbn [snd x0 x1 y0 y1]. apply orb_true_iff. right. rewrite Z.geb_leb, Z.leb_le.
    assert (r ÷ 4 <= 2); [|lia]. destruct (Z.le_gt_cases 0 r).
    + rewrite quot_div by lia. apply Z.lt_succ_r. apply Z.div_lt_upper_bound; lia.
    + assert (r ÷ 4 <= 0); [|lia]. rewrite <- (Z.opp_involutive r), Z.quot_opp_l by lia. rewrite quot_div by lia. assert (0 <= - r / 4) by (apply Z.div_pos; lia). lia.
Qed.
Lemma put_arranged : forall cols rows c r b o, In o (orders b) ->
  fold_left (fun ws e => put_view (fst e) (snd e) ws) (layout_views cols rows) (arranged c r o) = arranged cols rows o.
Proof. intros cols rows c r b o H. destruct b; each_order H; reflexivity. Qed.
Lemma put_first : forall cols rows,
  fold_left (fun ws e => put_view (fst e) (snd e) ws) (layout_views cols rows) [] = arranged cols rows [VCmd; VErr; VPacket; VMsg].
Proof. reflexivity. Qed.

(** ** Runs *)

Lemma crun_app : forall p s a b, crun p s (a ++ b) = crun p (crun p s a) b.
Proof. intros p s a; revert s; induction a as [|l a IH]; intros s b; [reflexivity|]. cbn [crun app]. apply IH. Qed.
Lemma crun_ended : forall p ls s e, c_end s = Some e -> crun p s ls = s.
Proof. induction ls as [|l ls IH]; intros s e E; [reflexivity|]. cbn [crun]. assert (S : cstep p s l = s) by (unfold cstep; rewrite E; reflexivity). rewrite S. eapply IH, E. Qed.
Lemma crun_snoc : forall p s a l, crun p s (a ++ [l]) = cstep p (crun p s a) l.
Proof. intros. rewrite crun_app. reflexivity. Qed.

(** A program that runs has not drawn the screen, or has its four windows *)
Inductive fresh : screen -> Prop :=
| fresh_s : forall s, c_windows s = [] -> c_current s = None -> c_packets s = false -> c_first s = true -> c_text s = (fun _ => []) -> c_end s = None -> fresh s.
Inductive going (cols rows : Z) : screen -> Prop :=
| going_s : forall s o v, c_windows s = arranged cols rows o -> In o (orders (c_packets s)) -> c_current s = Some v ->
    c_first s = false -> c_end s = None -> going cols rows s.

Lemma print_fresh : forall s v line colour text, fresh s -> fresh (print s v line colour text).
Proof. intros s v line colour text F. inversion F; subst. constructor; assumption. Qed.
Lemma print_going : forall cols rows s v line colour text, going cols rows s -> going cols rows (print s v line colour text).
Proof. intros cols rows s v line colour text F. inversion F as [? o w A B C D E]; subst. econstructor; eauto. Qed.

(** The screen after its first drawing *)
Definition opened (p : string) (s : screen) (cols rows : Z) : screen :=
  {| c_windows := arranged cols rows [VCmd; VErr; VPacket; VMsg]; c_current := Some VCmd; c_packets := c_packets s; c_first := false;
     c_waiting := (c_waiting s ++ [(VCmd, painted false "yellow_black" (p ++ "[0]:"))])%list; c_text := c_text s; c_end := None |}.
Definition sized (cols rows : Z) : bool := negb ((cols <? 12) || (rows <? 12)).
Lemma sized_iff : forall cols rows, sized cols rows = true <-> 12 <= cols /\ 12 <= rows.
Proof. intros. unfold sized. rewrite negb_true_iff, orb_false_iff, !Z.ltb_ge. reflexivity. Qed.
Lemma layout_fresh : forall p s cols rows, fresh s -> sized cols rows = true -> layout p s cols rows = opened p s cols rows.
Proof.
  intros p s cols rows F S. apply sized_iff in S as (C & R). inversion F as [? W CU PK FI TX EN]; subst. unfold layout.
  rewrite W, set_views_put by (apply set_views_ok; assumption). rewrite put_first. cbv beta iota zeta. cbn [negb c_first c_set_windows]. rewrite FI.
  rewrite (arranged_has false) by (left; reflexivity). unfold opened, print, c_set_first, c_set_current, c_set_waiting, c_set_windows. cbn. rewrite EN. reflexivity.
Qed.
Lemma layout_small : forall p s cols rows, sized cols rows = false -> c_end (layout p s cols rows) = Some InvalidDimensions.
Proof.
  intros p s cols rows S. unfold sized in S. rewrite negb_false_iff, orb_true_iff, !Z.ltb_lt in S. unfold layout.
  pose proof (set_views_bad _ (c_windows s) (small_bad _ _ S)) as B. destruct (set_views _ _) as (ws, ok). cbn [snd] in B. rewrite B. reflexivity.
Qed.
Lemma layout_going : forall p s cols rows c r o, c_windows s = arranged c r o -> In o (orders (c_packets s)) -> c_first s = false ->
  sized cols rows = true -> layout p s cols rows = c_set_windows s (arranged cols rows o).
Proof.
  intros p s cols rows c r o W O FI S. apply sized_iff in S as (C & R). unfold layout.
  rewrite W, set_views_put by (apply set_views_ok; assumption). rewrite (put_arranged cols rows c r _ o O). cbv beta iota zeta. cbn [negb c_first c_set_windows]. rewrite FI. reflexivity.
Qed.

(** What an event does, the drawing apart *)
Lemma space_going : forall cols rows s v oy cx cy lines, going cols rows s -> c_current s = Some v ->
  handle s (ECtrlSpace oy cx cy lines) =
  print (c_set_windows (c_set_current s (next_view (c_packets s) v)) (to_top (if c_packets s then VPacket else next_view (c_packets s) v) (c_windows s)))
        VErr false "white_black" (last_row_text oy cx cy lines).
Proof.
  intros cols rows s v oy cx cy lines G CU. inversion G as [? o v' W O CU' FI EN]; subst. cbn [handle]. unfold switch_view. rewrite CU. unfold set_current_on_top.
  rewrite W, (arranged_has _ _ _ _ _ O). cbn [c_packets c_set_current c_windows]. rewrite W, (arranged_has _ _ _ _ _ O).
  cbn [c_end c_set_windows c_set_current]. rewrite EN. reflexivity.
Qed.
Lemma p_going : forall cols rows s, going cols rows s ->
  handle s ECtrlP = c_set_windows (c_set_packets s (negb (c_packets s))) (to_top (if negb (c_packets s) then VPacket else VMsg) (c_windows s)).
Proof.
  intros cols rows s G. inversion G as [? o v' W O CU' FI EN]; subst. cbn [handle]. unfold show_packet. cbn [c_windows c_set_packets].
  rewrite W, (arranged_has _ _ _ _ _ O). reflexivity.
Qed.
Lemma text_going : forall cols rows s i v t, going cols rows s -> nth_error (c_waiting s) i = Some (v, t) ->
  handle s (EText i) = c_set_text (c_set_waiting s (drop_nth i (c_waiting s))) (fun w => if vname_eqb v w then (c_text s w ++ [t])%list else c_text s w).
Proof.
  intros cols rows s i v t G N. inversion G as [? o v' W O CU' FI EN]; subst. cbn [handle]. rewrite N. unfold run_update. cbn [c_windows c_set_waiting].
  rewrite W, (arranged_has _ _ _ _ _ O). reflexivity.
Qed.
Lemma handle_going : forall cols rows s e, going cols rows s -> e <> ECtrlC -> going cols rows (handle s e).
Proof.
  intros cols rows s e G NC. inversion G as [? o v W O CU FI EN]; subst. destruct e; cbn [handle]; try congruence.
  - destruct (nth_error (c_waiting s) i) as [(w, t)|]; [|exact G]. unfold run_update. cbn [c_windows c_set_waiting]. rewrite W, (arranged_has _ _ _ _ _ O).
    econstructor; eauto.
  - unfold switch_view. rewrite CU. unfold set_current_on_top. rewrite W, (arranged_has _ _ _ _ _ O). cbn [c_packets c_set_current c_windows]. rewrite W, (arranged_has _ _ _ _ _ O).
    cbn [c_end c_set_windows c_set_current]. rewrite EN. rewrite arranged_top. econstructor; cbn; eauto. apply orders_top; [exact O|].
    destruct (c_packets s), v; cbn; auto; discriminate.
  - unfold show_packet. cbn [c_windows c_set_packets]. rewrite W, (arranged_has _ _ _ _ _ O). rewrite arranged_top.
    econstructor; cbn; eauto. apply orders_toggle, O.
Qed.

Lemma step_fresh : forall p s l, fresh s ->
  match l with
  | CPrint v line colour text => cstep p s l = print s v line colour text
  | CLoop e cols rows =>
      if sized cols rows then cstep p s l = opened p s cols rows else c_end (cstep p s l) = Some InvalidDimensions
  end.
Proof.
  intros p s l F. inversion F as [? W CU PK FI TX EN]; subst. unfold cstep. rewrite EN. destruct l; [reflexivity|]. rewrite FI. cbv zeta. rewrite EN.
  destruct (sized maxx maxy) eqn:S; [apply layout_fresh; assumption|apply layout_small; assumption].
Qed.
Lemma step_going : forall p cols rows s l, going cols rows s ->
  match l with
  | CPrint v line colour text => cstep p s l = print s v line colour text
  | CLoop e cols' rows' =>
      match e with
      | ECtrlC => c_end (cstep p s l) = Some Quit
      | _ => if sized cols' rows' then exists o, c_windows (handle s e) = arranged cols rows o /\ In o (orders (c_packets (handle s e))) /\
               cstep p s l = c_set_windows (handle s e) (arranged cols' rows' o)
             else c_end (cstep p s l) = Some InvalidDimensions
      end
  end.
Proof.
  intros p cols rows s l G. pose proof (handle_going cols rows s) as HG. inversion G as [? o v W O CU FI EN]; subst. unfold cstep. rewrite EN. destruct l; [reflexivity|]. rewrite FI. cbv zeta.
  destruct e eqn:EE; [| | | |cbn [handle c_end c_set_end]; reflexivity];
    (match goal with |- context [handle s ?e] => specialize (HG e G ltac:(congruence)) end;
     inversion HG as [? o' v' W' O' CU' FI' EN']; subst; rewrite EN'; destruct (sized maxx maxy) eqn:S;
     [exists o'; repeat split; [exact W'|exact O'|]; eapply layout_going; eassumption|apply layout_small; assumption]).
Qed.
Lemma step_going_going : forall p cols rows s e cols' rows', going cols rows s -> e <> ECtrlC -> sized cols' rows' = true ->
  going cols' rows' (cstep p s (CLoop e cols' rows')) /\
  c_current (cstep p s (CLoop e cols' rows')) = c_current (handle s e) /\ c_packets (cstep p s (CLoop e cols' rows')) = c_packets (handle s e) /\
  c_waiting (cstep p s (CLoop e cols' rows')) = c_waiting (handle s e) /\ c_text (cstep p s (CLoop e cols' rows')) = c_text (handle s e).
Proof.
  intros p cols rows s e cols' rows' G NC S. pose proof (step_going p cols rows s (CLoop e cols' rows') G) as H. cbv beta iota in H. rewrite S in H.
  pose proof (handle_going cols rows s e G NC) as HG. inversion HG as [? o' v' W' O' CU' FI' EN']; subst.
  assert (X : exists o, c_windows (handle s e) = arranged cols rows o /\ In o (orders (c_packets (handle s e))) /\
               cstep p s (CLoop e cols' rows') = c_set_windows (handle s e) (arranged cols' rows' o)) by (destruct e; try exact H; congruence).
  destruct X as (o & W & O & E). rewrite E. split; [econstructor; cbn; eauto|]. repeat split.
Qed.

(** ** How the program ends *)

Lemma fate_sized : forall drawn e cols rows r, fate drawn (CLoop e cols rows :: r) =
  if drawn && (match e with ECtrlC => true | _ => false end) then Some Quit else if sized cols rows then fate true r else Some InvalidDimensions.
Proof. intros. cbn [fate]. unfold sized. destruct (drawn && _); [reflexivity|]. destruct ((cols <? 12) || (rows <? 12)); reflexivity. Qed.
Lemma fate_going : forall p ls cols rows s, going cols rows s -> c_end (crun p s ls) = fate true ls.
Proof.
  induction ls as [|l ls IH]; intros cols rows s G; [inversion G; subst; cbn; assumption|]. cbn [crun].
  destruct l as [v line colour text|e c r].
  - pose proof (step_going p cols rows s (CPrint v line colour text) G) as H. cbv beta iota in H. rewrite H. cbn [fate]. eapply IH, print_going, G.
  - rewrite fate_sized. cbn [andb]. pose proof (step_going p cols rows s (CLoop e c r) G) as H. cbv beta iota in H.
    destruct e; [| | | |rewrite (crun_ended _ _ _ _ H); exact H];
      (match goal with |- context [CLoop ?e c r] => pose proof (step_going_going p cols rows s e c r G ltac:(congruence)) as K end;
       destruct (sized c r); [destruct (K eq_refl) as (K1 & _); eapply IH, K1|rewrite (crun_ended _ _ _ _ H); exact H]).
Qed.
Lemma opened_going : forall p s cols rows, fresh s -> going cols rows (opened p s cols rows).
Proof. intros p s cols rows F. inversion F as [? W CU PK FI TX EN]; subst. econstructor; [reflexivity| |reflexivity..]. cbn [c_packets opened]. rewrite PK. left. reflexivity. Qed.
Lemma fate_fresh : forall p ls s, fresh s -> c_end (crun p s ls) = fate false ls.
Proof.
  induction ls as [|l ls IH]; intros s F; [inversion F; subst; cbn; assumption|]. cbn [crun].
  pose proof (step_fresh p s l F) as H. destruct l as [v line colour text|e c r].
  - rewrite H. cbn [fate]. apply IH, print_fresh, F.
  - rewrite fate_sized. cbn [andb]. destruct (sized c r).
    + rewrite H. eapply fate_going, opened_going, F.
    + rewrite (crun_ended _ _ _ _ H). exact H.
Qed.
Lemma cstart_fresh : fresh cstart.
Proof. constructor; reflexivity. Qed.

(** ** What has happened in a run *)

Lemma sizes_app : forall a b, sizes (a ++ b) = (sizes a ++ sizes b)%list.
Proof. intros. unfold sizes. apply flat_map_app. Qed.
Lemma size_print : forall ls v line colour text, size (ls ++ [CPrint v line colour text]) = size ls.
Proof. intros. unfold size. rewrite sizes_app. cbn [sizes flat_map app]. rewrite app_nil_r. reflexivity. Qed.
Lemma size_loop : forall ls e c r, size (ls ++ [CLoop e c r]) = Some (c, r).
Proof. intros. unfold size. rewrite sizes_app, map_app. cbn [sizes flat_map app map]. apply last_last. Qed.
Lemma events_print : forall ls v line colour text, events (ls ++ [CPrint v line colour text]) = events ls.
Proof. intros. unfold events. rewrite flat_map_app. cbn [flat_map app]. rewrite app_nil_r. reflexivity. Qed.
Lemma size_none : forall ls, size ls = None <-> flat_map (fun l => match l with CLoop e _ _ => [e] | _ => [] end) ls = [].
Proof.
  induction ls as [|l ls IH] using rev_ind; [split; reflexivity|]. destruct l.
  - rewrite size_print, flat_map_app. cbn [flat_map app]. rewrite app_nil_r. exact IH.
  - rewrite size_loop, flat_map_app. cbn [flat_map app]. split; [discriminate|]. intro E. apply app_eq_nil in E as (_ & E). discriminate.
Qed.
Lemma events_loop : forall ls e c r, events (ls ++ [CLoop e c r]) = match size ls with None => [] | Some _ => (events ls ++ [e])%list end.
Proof.
  intros. unfold events. rewrite flat_map_app. cbn [flat_map app]. destruct (size ls) eqn:S.
  - destruct (flat_map _ ls) eqn:F; [|reflexivity]. apply size_none in F. congruence.
  - apply size_none in S. rewrite S. reflexivity.
Qed.
Lemma end_app : forall p s a b, c_end (crun p s (a ++ b)) = None -> c_end (crun p s a) = None.
Proof. intros p s a b E. rewrite crun_app in E. destruct (c_end (crun p s a)) eqn:X; [|reflexivity]. rewrite (crun_ended _ _ _ _ X) in E. congruence. Qed.

(** A run that has not ended *)
Lemma run_state : forall p ls, let s := crun p cstart ls in c_end s = None ->
  match size ls with
  | None => fresh s /\ events ls = []
  | Some (cols, rows) => going cols rows s /\ sized cols rows = true /\ c_packets s = packets_on ls
  end.
Proof.
  intros p ls. induction ls as [|l ls IH] using rev_ind; cbv zeta; intros E; [split; [apply cstart_fresh|reflexivity]|].
  pose proof (end_app _ _ _ _ E) as E0. specialize (IH E0). cbv zeta in IH. rewrite crun_snoc in *. set (s := crun p cstart ls) in *.
  destruct l as [v line colour text|e c r].
  - rewrite size_print, events_print. unfold packets_on, presses in *. rewrite events_print.
    assert (S : cstep p s (CPrint v line colour text) = print s v line colour text) by (unfold cstep; rewrite E0; reflexivity). rewrite S.
    destruct (size ls) as [(c, r)|].
    + destruct IH as (A & B & C). split; [apply print_going, A|]. split; [exact B|exact C].
    + destruct IH as (A & B). split; [apply print_fresh, A|exact B].
  - rewrite size_loop. unfold packets_on, presses in *. rewrite events_loop. destruct (size ls) as [(c0, r0)|].
    + destruct IH as (A & B & C). pose proof (step_going p c0 r0 s (CLoop e c r) A) as H. cbv beta iota in H.
      assert (NC : e <> ECtrlC) by (intro; subst; congruence).
      destruct (sized c r) eqn:SZ; [|exfalso; destruct e; congruence].
      destruct (step_going_going p c0 r0 s e c r A NC SZ) as (G & _ & PK & _). split; [exact G|]. split; [reflexivity|]. rewrite PK.
      rewrite filter_app, app_length. destruct e; cbn [filter is_ctrl_p length handle]; rewrite ?Nat.add_0_r; try exact C; try congruence.
      * destruct (nth_error (c_waiting s) i) as [(w, t)|] eqn:N; [|exact C]. pose proof (text_going _ _ _ _ _ _ A N) as X. cbn [handle] in X. rewrite N in X. rewrite X. exact C.
      * inversion A as [? o v W O CU FI EN]. change (switch_view s oy cx cy lines) with (handle s (ECtrlSpace oy cx cy lines)). rewrite (space_going _ _ _ _ _ _ _ _ A CU). exact C.
      * change (show_packet s) with (handle s ECtrlP). rewrite (p_going _ _ _ A). cbn [c_packets c_set_windows c_set_packets].
        rewrite C, Nat.add_1_r, Nat.odd_succ, <- Nat.negb_odd; reflexivity.
    + destruct IH as (A & B). pose proof (step_fresh p s (CLoop e c r) A) as H. cbv beta iota in H. destruct (sized c r) eqn:SZ; [|congruence].
      rewrite H. split; [apply opened_going, A|]. split; [reflexivity|]. inversion A as [? W CU PK FI TX EN]; subst. exact PK.
Qed.
