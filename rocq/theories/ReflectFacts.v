(** * Reading the members of any value: lemmas *)

From Verif Require Import GoBase GoFacts Holes Data Status Request Beacon Metadata Reflect SpecReflect.
Local Open Scope string_scope.
Local Open Scope N_scope.

Lemma member_lookup : forall fs n v, member fs n v <-> lookup n fs = Some v.
Proof.
  intros fs n v. split.
  - intros (a & b & -> & NI). induction a as [|[k w] a IH]; cbn [lookup app].
    + rewrite String.eqb_refl. reflexivity.
    + destruct (String.eqb_spec n k) as [->|]; [exfalso; apply NI; left; reflexivity|]. apply IH. intros J. apply NI. right. exact J.
  - induction fs as [|[k w] fs IH]; cbn [lookup]; [discriminate|]. destruct (String.eqb_spec n k) as [->|NE]; intros H.
    + injection H as <-. exists [], fs. split; [reflexivity|intros []].
    + destruct (IH H) as (a & b & -> & NI). exists ((k, w) :: a), b. split; [reflexivity|]. cbn. intros [J|J]; [congruence|exact (NI J)].
Qed.
Lemma lacks_lookup : forall fs n, lacks fs n <-> lookup n fs = None.
Proof.
  intros fs n. unfold lacks. induction fs as [|[k w] fs IH]; cbn; [tauto|]. destruct (String.eqb_spec n k) as [->|NE].
  - split; [intros H; exfalso; apply H; left; reflexivity|discriminate].
  - rewrite <- IH. split; intros H J; apply H; [right; exact J|]. destruct J as [J|J]; [congruence|exact J].
Qed.
Lemma text_lookup : forall fs n s, taken_for_text fs n s <-> rv_string (lookup n fs) = s.
Proof.
  intros fs n s. split.
  - intros [t x M|L|v M NT].
    + apply member_lookup in M. rewrite M. reflexivity.
    + apply lacks_lookup in L. rewrite L. reflexivity.
    + apply member_lookup in M. rewrite M. destruct v; try reflexivity. exfalso. apply NT. eexists _, _. reflexivity.
  - intros <-. destruct (lookup n fs) as [v|] eqn:L; [|apply no_member, lacks_lookup, L].
    apply member_lookup in L. destruct v; try (apply (not_text fs n _ L); intros (? & ? & J); discriminate J).
    apply (a_text fs n _ _ L).
Qed.

(** A computation that panics or returns *)
Definition two_ways {A} (o : outcome A) : Prop := o = Panic \/ exists a, o = Ret a.

Ltac two := first [left; reflexivity | right; eexists; reflexivity].

(** What is pointed to *)
Lemma elem_cases : forall info, (exists fs ts, points_to info fs /\ rv_elem info = Ret (Some (GStruct ts fs))) \/
  ((forall fs, ~ points_to info fs) /\ (rv_elem info = Panic \/ exists v, rv_elem info = Ret v /\ forall n, rv_field v n = Panic)).
Proof.
  intros [[| | | | | | |t [g|]|t [g|]|]|];
    try (right; split; [intros fs P; inversion P|first [left; reflexivity|right; eexists; split; [reflexivity|intros; reflexivity]]]).
  - destruct g; try (right; split; [intros fs P; inversion P|right; eexists; split; [reflexivity|intros; reflexivity]]).
    left. eexists _, _. split; [constructor|reflexivity].
  - destruct g; try (right; split; [intros fs P; inversion P|right; eexists; split; [reflexivity|intros; reflexivity]]).
    left. eexists _, _. split; [constructor|reflexivity].
Qed.
Lemma points_elem : forall info fs, points_to info fs -> exists ts, rv_elem info = Ret (Some (GStruct ts fs)).
Proof. intros info fs [t ts f|t ts f]; eexists; reflexivity. Qed.
Lemma points_same : forall info fs gs, points_to info fs -> points_to info gs -> fs = gs.
Proof. intros info fs gs P Q. destruct (points_elem _ _ P) as (t & E), (points_elem _ _ Q) as (u & F). rewrite E in F. injection F as _ <-. reflexivity. Qed.

Lemma uint_cases : forall v, (exists t n, v = Some (GUint t n) /\ rv_uint v = Ret n) \/ ((forall t n, v <> Some (GUint t n)) /\ rv_uint v = Panic).
Proof. intros [[]|]; try (right; split; [intros; discriminate|reflexivity]). left. eexists _, _. split; reflexivity. Qed.
Lemma int_cases : forall v, (exists t n, v = Some (GInt t n) /\ rv_int v = Ret n) \/ ((forall t n, v <> Some (GInt t n)) /\ rv_int v = Panic).
Proof. intros [[]|]; try (right; split; [intros; discriminate|reflexivity]). left. eexists _, _. split; reflexivity. Qed.
Lemma bytes_cases : forall v, (exists t n, v = Some (GBytes t n) /\ rv_bytes v = Ret n) \/ ((forall t n, v <> Some (GBytes t n)) /\ rv_bytes v = Panic).
Proof. intros [[]|]; try (right; split; [intros; discriminate|reflexivity]). left. eexists _, _. split; reflexivity. Qed.

(** *** Data *)
Lemma read_dinfo_iff : forall info i, read_dinfo info = Ret i <-> data_info info i.
Proof.
  intros info i. split.
  - unfold read_dinfo. destruct (elem_cases info) as [(fs & ts & P & ->)|[_ [->|(v & -> & F)]]]; cbn [obind]; [|discriminate|rewrite F; discriminate].
    cbn [rv_field obind].
    destruct (uint_cases (lookup "Session" fs)) as [(t1 & s & L1 & ->)|[_ ->]]; cbn [obind]; [|discriminate].
    destruct (uint_cases (lookup "Offset" fs)) as [(t2 & o & L2 & ->)|[_ ->]]; cbn [obind]; [|discriminate].
    destruct (bytes_cases (lookup "Payload" fs)) as [(t3 & p & L3 & ->)|[_ ->]]; cbn [obind]; [|destruct (rv_len _); discriminate].
    rewrite L3. cbn [rv_len obind]. intros H. injection H as <-. econstructor; [exact P|apply member_lookup..]; eassumption.
  - intros [fs t1 s t2 o t3 p P M1 M2 M3]. apply member_lookup in M1, M2, M3. destruct (points_elem _ _ P) as (ts & E).
    unfold read_dinfo. rewrite E. cbn [obind rv_field]. rewrite M1, M2, M3. reflexivity.
Qed.
Lemma read_dinfo_two : forall info, two_ways (read_dinfo info).
Proof.
  intros info. unfold read_dinfo. destruct (elem_cases info) as [(fs & ts & P & ->)|[_ [->|(v & -> & F)]]]; cbn [obind]; [|two|rewrite F; two].
  cbn [rv_field obind].
  destruct (uint_cases (lookup "Session" fs)) as [(t1 & s & L1 & ->)|[_ ->]]; cbn [obind]; [|two].
  destruct (uint_cases (lookup "Offset" fs)) as [(t2 & o & L2 & ->)|[_ ->]]; cbn [obind]; [|two].
  destruct (lookup "Payload" fs) as [[]|]; cbn [obind rv_len rv_bytes]; two.
Qed.

(** *** Status *)
Lemma read_hole : forall ts fs v i, lookup "Holes" fs = Some v ->
  read_holes (Some (GStruct ts fs)) i 1 = do h <- rv_index (Some v) i; do x <- rv_field h "Start"; do a <- rv_int x;
    do h <- rv_index (Some v) i; do x <- rv_field h "End"; do b <- rv_int x; Ret [{| h_start := a; h_end := b |}].
Proof. intros ts fs v i L. cbn [read_holes rv_field obind]. rewrite L. reflexivity. Qed.

Lemma hole_fields : forall g, (exists h, hole_of g h /\ forall A (k : Z -> Z -> outcome A),
    (do x <- rv_field (Some g) "Start"; do a <- rv_int x; do x <- rv_field (Some g) "End"; do b <- rv_int x; k a b) = k (h_start h) (h_end h)) \/
  ((forall h, ~ hole_of g h) /\ forall A (k : Z -> Z -> outcome A),
    (do x <- rv_field (Some g) "Start"; do a <- rv_int x; do x <- rv_field (Some g) "End"; do b <- rv_int x; k a b) = Panic).
Proof.
  intros g. destruct g as [| | | | | |t fs| | |];
    try (right; split; [intros h (? & ? & ? & ? & E & _); discriminate E|intros; reflexivity]).
  cbn [rv_field obind].
  destruct (int_cases (lookup "Start" fs)) as [(ta & a & La & Ra)|[Na Ra]].
  - destruct (int_cases (lookup "End" fs)) as [(tb & b & Lb & Rb)|[Nb Rb]].
    + left. exists {| h_start := a; h_end := b |}. split.
      * exists t, fs, ta, tb. split; [reflexivity|]. split; apply member_lookup; assumption.
      * intros A k. rewrite Ra. cbn [obind]. rewrite Rb. reflexivity.
    + right. split.
      * intros h (t' & fs' & ta' & tb' & E & _ & M). injection E as <- <-. apply member_lookup in M. exact (Nb _ _ M).
      * intros A k. rewrite Ra. cbn [obind]. rewrite Rb. reflexivity.
  - right. split.
    + intros h (t' & fs' & ta' & tb' & E & M & _). injection E as <- <-. apply member_lookup in M. exact (Na _ _ M).
    + intros A k. rewrite Ra. reflexivity.
Qed.
Lemma hole_of_same : forall g h k, hole_of g h -> hole_of g k -> h = k.
Proof.
  intros g [a b] [c d] (t & fs & ta & tb & -> & M1 & M2) (t' & fs' & ta' & tb' & E & M3 & M4). injection E as <- <-. cbn in *.
  apply member_lookup in M1, M2, M3, M4. congruence.
Qed.

(** The loop over a list *)
Lemma read_holes_list : forall ts fs t l, lookup "Holes" fs = Some (GSlice t l) -> forall n i, (i + n = List.length l)%nat ->
  (exists hs, Forall2 hole_of (skipn i l) hs /\ read_holes (Some (GStruct ts fs)) i n = Ret hs) \/
  ((forall hs, ~ Forall2 hole_of (skipn i l) hs) /\ read_holes (Some (GStruct ts fs)) i n = Panic).
Proof.
  intros ts fs t l L. induction n as [|n IH]; intros i Len.
  - left. exists []. split; [|reflexivity]. rewrite skipn_all2 by lia. constructor.
  - assert (exists g, nth_error l i = Some g) as (g & N).
    { destruct (nth_error l i) eqn:N; [eauto|]. apply nth_error_None in N. lia. }
    assert (S : skipn i l = g :: skipn (S i) l).
    { clear -N. revert i N. induction l as [|x l IH]; intros [|i] N; try discriminate N; cbn in *; [injection N as <-; reflexivity|apply IH, N]. }
    rewrite S. cbn [read_holes rv_field obind]. rewrite L. cbn [obind rv_index]. unfold index. rewrite N. cbn [obind].
    destruct (hole_fields g) as [(h & H & K)|[H K]].
    + rewrite K. destruct (IH (Datatypes.S i)) as [(hs & F & ->)|[F ->]]; [lia|left|right]; cbn [obind].
      * exists (h :: hs). split; [constructor; assumption|]. destruct h; reflexivity.
      * split; [|reflexivity]. intros hs J. inversion J; subst. eapply F. eassumption.
    + right. split; [|rewrite K; reflexivity]. intros hs J. inversion J; subst. eapply H. eassumption.
Qed.
Lemma holes_same : forall v hs ks, holes_of v hs -> holes_of v ks -> hs = ks.
Proof.
  intros v hs ks H K. inversion H; subst; inversion K; subst; try reflexivity.
  clear H K. revert ks H4. induction H0 as [|g h l hs G F IH]; intros ks J; inversion J; subst; [reflexivity|].
  f_equal; [eapply hole_of_same; eassumption|apply IH; assumption].
Qed.
(** The whole reading of the holes *)
Lemma read_holes_cases : forall ts fs,
  let r := do f <- rv_field (Some (GStruct ts fs)) "Holes"; do n <- rv_len f; read_holes (Some (GStruct ts fs)) 0 n in
  (exists v hs, lookup "Holes" fs = Some v /\ holes_of v hs /\ r = Ret hs) \/
  ((forall v hs, lookup "Holes" fs = Some v -> ~ holes_of v hs) /\ r = Panic).
Proof.
  intros ts fs. cbv zeta. cbn [rv_field obind].
  destruct (lookup "Holes" fs) as [v|] eqn:L; [|right; split; [discriminate|reflexivity]].
  destruct v as [t n|t z|t s|t l|t l|t n|t m|t p|t p|t];
    try (right; split; [intros v hs E H; injection E as <-; inversion H|reflexivity]); cbn [rv_len obind].
  - destruct s as [|c s]; [left; eexists _, _; split; [reflexivity|split; [constructor|reflexivity]]|].
    right. split; [intros v hs E H; injection E as <-; inversion H|].
    unfold slen; cbn [String.length read_holes rv_field obind]. rewrite ?L; cbn [obind rv_index rv_field]; unfold index; cbn; reflexivity.
  - destruct l as [|c l]; [left; eexists _, _; split; [reflexivity|split; [constructor|reflexivity]]|].
    right. split; [intros v hs E H; injection E as <-; inversion H|].
    cbn [List.length read_holes rv_field obind]. rewrite ?L; cbn [obind rv_index rv_field]; unfold index; cbn; reflexivity.
  - destruct (read_holes_list ts fs t l L (List.length l) 0 eq_refl) as [(hs & F & ->)|[F ->]]; [left|right].
    + eexists _, _. split; [reflexivity|]. split; [constructor; exact F|reflexivity].
    + split; [|reflexivity]. intros v hs E H. injection E as <-. inversion H; subst. eapply F. eassumption.
  - destruct n; [left; eexists _, _; split; [reflexivity|split; [constructor|reflexivity]]|].
    right. split; [intros v hs E H; injection E as <-; inversion H|].
    cbn [read_holes rv_field obind]. rewrite ?L; cbn [obind rv_index rv_field]; unfold index; cbn; reflexivity.
Qed.

Lemma read_sinfo_cases : forall info,
  (exists i, status_info info i /\ read_sinfo info = Ret i) \/ ((forall i, ~ status_info info i) /\ read_sinfo info = Panic).
Proof.
  intros info. unfold read_sinfo. destruct (elem_cases info) as [(fs & ts & P & ->)|[NP E]].
  2:{ right. split; [intros i [fs t1 s t2 p t3 r v hs P]; exact (NP _ P)|].
      destruct E as [->|(v & -> & F)]; cbn [obind]; [reflexivity|rewrite F; reflexivity]. }
  cbn [obind]. pose proof (read_holes_cases ts fs) as HC. cbv zeta in HC. cbn [rv_field obind] in HC |- *.
  assert (same : forall i, status_info info i -> exists t1 t2 t3 v, member fs "Session" (GUint t1 (si_session i)) /\
     member fs "Progress" (GUint t2 (si_progress i)) /\ member fs "Inrespto" (GUint t3 (si_inrespto i)) /\ member fs "Holes" v /\ holes_of v (si_holes i)).
  { intros i [gs t1 s t2 p t3 r v hs Q M1 M2 M3 M4 H]. rewrite <- (points_same _ _ _ P Q) in *. exists t1, t2, t3, v. auto. }
  destruct (uint_cases (lookup "Session" fs)) as [(t1 & s & L1 & ->)|[N ->]]; cbn [obind].
  2:{ right. split; [|reflexivity]. intros i J. destruct (same i J) as (u1 & u2 & u3 & v & M1 & M2 & M3 & M4 & H). apply member_lookup in M1. exact (N _ _ M1). }
  destruct (uint_cases (lookup "Progress" fs)) as [(t2 & p & L2 & ->)|[N ->]]; cbn [obind].
  2:{ right. split; [|reflexivity]. intros i J. destruct (same i J) as (u1 & u2 & u3 & v & M1 & M2 & M3 & M4 & H). apply member_lookup in M2. exact (N _ _ M2). }
  destruct (uint_cases (lookup "Inrespto" fs)) as [(t3 & r & L3 & ->)|[N ->]]; cbn [obind].
  2:{ right. split; [|reflexivity]. intros i J. destruct (same i J) as (u1 & u2 & u3 & v & M1 & M2 & M3 & M4 & H). apply member_lookup in M3. exact (N _ _ M3). }
  destruct HC as [(v & hs & L4 & H & R)|[N R]].
  - left. exists {| si_session := s; si_progress := p; si_inrespto := r; si_holes := hs |}. split.
    + econstructor; [exact P|apply member_lookup; eassumption..|exact H].
    + destruct (rv_len (lookup "Holes" fs)) as [n| |]; cbn [obind] in R |- *; try discriminate R. rewrite R. reflexivity.
  - right. split.
    + intros i J. destruct (same i J) as (u1 & u2 & u3 & v & M1 & M2 & M3 & M4 & H). apply member_lookup in M4. exact (N _ _ M4 H).
    + destruct (rv_len (lookup "Holes" fs)) as [n| |]; cbn [obind] in R |- *; try reflexivity; try discriminate R. rewrite R. reflexivity.
Qed.
Lemma status_info_same : forall info i j, status_info info i -> status_info info j -> i = j.
Proof.
  intros info i j [fs t1 s t2 p t3 r v hs P M1 M2 M3 M4 H] J. inversion J as [gs u1 s' u2 p' u3 r' v' hs' Q N1 N2 N3 N4 K]; subst.
  pose proof (points_same _ _ _ P Q); subst gs. apply member_lookup in M1, M2, M3, M4, N1, N2, N3, N4.
  assert (v = v') by congruence. subst v'. rewrite (holes_same _ _ _ H K). congruence.
Qed.

(** *** Requests *)
Lemma read_rinfo_iff : forall info i, read_rinfo info = Ret i <-> request_info info i.
Proof.
  intros info i. split.
  - unfold read_rinfo. destruct (elem_cases info) as [(fs & ts & P & ->)|[_ [->|(v & -> & F)]]]; cbn [obind]; [|discriminate|rewrite F; discriminate].
    cbn [rv_field obind].
    destruct (uint_cases (lookup "Session" fs)) as [(t1 & s & L1 & ->)|[_ ->]]; cbn [obind]; [|discriminate]. cbv zeta.
    destruct (bytes_cases (lookup "Auth" fs)) as [(t3 & p & L3 & ->)|[_ ->]]; cbn [obind]; [|discriminate].
    intros H. injection H as <-. econstructor; [exact P|apply member_lookup; eassumption|apply text_lookup; reflexivity|apply member_lookup; eassumption].
  - intros [fs t1 s n t3 a P M1 M2 M3]. apply member_lookup in M1, M3. apply text_lookup in M2. destruct (points_elem _ _ P) as (ts & E).
    unfold read_rinfo. rewrite E. cbn [obind rv_field]. rewrite M1, M2, M3. reflexivity.
Qed.
Lemma read_rinfo_two : forall info, two_ways (read_rinfo info).
Proof.
  intros info. unfold read_rinfo. destruct (elem_cases info) as [(fs & ts & P & ->)|[_ [->|(v & -> & F)]]]; cbn [obind]; [|two|rewrite F; two].
  cbn [rv_field obind].
  destruct (uint_cases (lookup "Session" fs)) as [(t1 & s & L1 & ->)|[_ ->]]; cbn [obind]; [|two]. cbv zeta.
  destruct (bytes_cases (lookup "Auth" fs)) as [(t3 & p & L3 & ->)|[_ ->]]; cbn [obind]; two.
Qed.
(** Make wants two pointers for the session and one for the rest *)
Lemma read_rinfo_make_panics : forall info, read_rinfo_make info = Panic.
Proof.
  intros info. unfold read_rinfo_make. destruct (rv_elem info) as [[e|]| |] eqn:E; try reflexivity;
    [|destruct info as [[]|]; try discriminate E].
  cbn [obind]. destruct e as [| | | | | | |t p|t p|]; try reflexivity; cbn [rv_elem obind];
    (destruct p as [[]|]; try reflexivity; cbn [rv_field obind]; destruct (lookup "Session" members) as [[]|]; reflexivity).
Qed.

(** *** Beacons *)
Lemma read_binfo_true_iff : forall info i, read_binfo true info = Ret i <-> beacon_info info i.
Proof.
  intros info i. split.
  - unfold read_binfo. destruct (elem_cases info) as [(fs & ts & P & ->)|[_ [->|(v & -> & F)]]]; cbn [obind]; [|discriminate|rewrite F; discriminate].
    cbn [rv_field obind]. cbv zeta.
    destruct (uint_cases (lookup "Freespace" fs)) as [(t1 & s & L1 & ->)|[_ ->]]; cbn [obind]; [|discriminate].
    intros H. injection H as <-. econstructor; [exact P|apply member_lookup; eassumption|apply text_lookup; reflexivity].
  - intros [fs t1 n e P M1 M2]. apply member_lookup in M1. apply text_lookup in M2. destruct (points_elem _ _ P) as (ts & E).
    unfold read_binfo. rewrite E. cbn [obind rv_field]. cbv zeta. rewrite M1, M2. reflexivity.
Qed.
Lemma read_binfo_false_iff : forall info e, read_binfo false info = Ret {| bi_freespace := 0; bi_eid := e |} <-> beacon_eid info e.
Proof.
  intros info e. split.
  - unfold read_binfo. destruct (elem_cases info) as [(fs & ts & P & ->)|[_ [->|(v & -> & F)]]]; cbn [obind]; [|discriminate|rewrite F; discriminate].
    cbn [rv_field obind]. cbv zeta. intros H. injection H as H. econstructor; [exact P|apply text_lookup, H].
  - intros [fs e' P M2]. apply text_lookup in M2. destruct (points_elem _ _ P) as (ts & E).
    unfold read_binfo. rewrite E. cbn [obind rv_field]. cbv zeta. rewrite M2. reflexivity.
Qed.
Lemma read_binfo_cases : forall info,
  (exists e, read_binfo false info = Ret {| bi_freespace := 0; bi_eid := e |} /\
     (read_binfo true info = Panic \/ exists n, read_binfo true info = Ret {| bi_freespace := n; bi_eid := e |})) \/
  (read_binfo false info = Panic /\ read_binfo true info = Panic).
Proof.
  intros info. unfold read_binfo. destruct (elem_cases info) as [(fs & ts & P & ->)|[_ [->|(v & -> & F)]]]; cbn [obind];
    [|right; split; reflexivity|right; rewrite F; split; reflexivity].
  cbn [rv_field obind]. cbv zeta. left. eexists. split; [reflexivity|].
  destruct (uint_cases (lookup "Freespace" fs)) as [(t1 & s & L1 & ->)|[_ ->]]; cbn [obind]; [right; eexists; reflexivity|left; reflexivity].
Qed.

(** *** Metadata *)
Lemma read_minfo_iff : forall info i, read_minfo "Fname" info = Ret i <-> meta_info info i.
Proof.
  intros info i. split.
  - unfold read_minfo. destruct (elem_cases info) as [(fs & ts & P & ->)|[_ [->|(v & -> & F)]]]; cbn [obind]; [|discriminate|rewrite F; discriminate].
    cbn [rv_field obind]. destruct (uint_cases (lookup "Session" fs)) as [(t1 & s & L1 & ->)|[_ ->]]; cbn [obind]; [|discriminate].
    intros H. injection H as <-. econstructor; [exact P|apply member_lookup; eassumption|apply text_lookup; reflexivity].
  - intros [fs t1 n e P M1 M2]. apply member_lookup in M1. apply text_lookup in M2. destruct (points_elem _ _ P) as (ts & E).
    unfold read_minfo. rewrite E. cbn [obind rv_field]. rewrite M1, M2. reflexivity.
Qed.
Lemma read_minfo_session : forall info s t, meta_session info s t ->
  read_minfo "Session" info = Ret {| mi_session := s; mi_fname := "<" ++ t ++ " Value>" |}.
Proof.
  intros info s t [fs t' s' P M]. apply member_lookup in M. destruct (points_elem _ _ P) as (ts & E).
  unfold read_minfo. rewrite E. cbn [obind rv_field]. rewrite M. reflexivity.
Qed.
Lemma read_minfo_cases : forall f info, read_minfo f info = Panic \/ exists i, read_minfo f info = Ret i /\ exists t, meta_session info (mi_session i) t.
Proof.
  intros f info. unfold read_minfo. destruct (elem_cases info) as [(fs & ts & P & ->)|[_ [->|(v & -> & F)]]]; cbn [obind];
    [|left; reflexivity|rewrite F; left; reflexivity].
  cbn [rv_field obind]. destruct (uint_cases (lookup "Session" fs)) as [(t1 & s & L1 & ->)|[_ ->]]; cbn [obind]; [right|left; reflexivity].
  eexists. split; [reflexivity|]. exists t1. cbn. econstructor; [exact P|apply member_lookup, L1].
Qed.
