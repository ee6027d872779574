(** * Numbers and strings in texts *)

From Verif Require Import GoBase GoFacts Sarnet SarnetMain SpecWords Words WordsFacts.
From Coq Require Import DecimalN DecimalString.
Local Open Scope string_scope.
Local Open Scope N_scope.

Lemma digits_acc_pos : forall u p, digits_acc (Npos p) (bytes_of (NilEmpty.string_of_uint u)) = Some (Npos (Pos.of_uint_acc u p)).
Proof.
  induction u as [|u IH|u IH|u IH|u IH|u IH|u IH|u IH|u IH|u IH|u IH]; intros p; [reflexivity|..];
    cbn [NilEmpty.string_of_uint bytes_of list_ascii_of_string digits_acc]; unfold bytes_of in IH;
    match goal with |- context[digit ?a] => let r := eval vm_compute in (digit a) in change (digit a) with r end; cbv iota;
    cbn [Pos.of_uint_acc]; rewrite <- IH; (f_equal; lia).
Qed.
Lemma digits_acc_zero : forall u, digits_acc 0 (bytes_of (NilEmpty.string_of_uint u)) = Some (N.of_uint u).
Proof.
  induction u as [|u IH|u IH|u IH|u IH|u IH|u IH|u IH|u IH|u IH|u IH]; [reflexivity|..];
    cbn [NilEmpty.string_of_uint bytes_of list_ascii_of_string digits_acc];
    match goal with |- context[digit ?a] => let r := eval vm_compute in (digit a) in change (digit a) with r end; cbv iota;
    [exact IH|..]; apply digits_acc_pos.
Qed.
Lemma to_uint_nonnil : forall n, N.to_uint n <> Decimal.Nil.
Proof. destruct n; cbn; [discriminate|]. apply DecimalPos.Unsigned.to_uint_nonnil. Qed.
Lemma itoa_empty : forall n, itoa n = NilEmpty.string_of_uint (N.to_uint n).
Proof. intros n. unfold itoa. pose proof (to_uint_nonnil n). destruct (N.to_uint n); [congruence|reflexivity..]. Qed.
Lemma itoa_nonempty : forall n, bytes_of (itoa n) <> [].
Proof. intros n. rewrite itoa_empty. pose proof (to_uint_nonnil n). destruct (N.to_uint n); [congruence|discriminate..]. Qed.
Lemma itoa_digits_acc : forall n, digits_acc 0 (bytes_of (itoa n)) = Some n.
Proof. intros n. rewrite itoa_empty, digits_acc_zero, Unsigned.of_to. reflexivity. Qed.
Lemma itoa_decimal : forall n, decimal (bytes_of (itoa n)) n.
Proof.
  intros n. apply digits_decimal. pose proof (itoa_nonempty n) as E. pose proof (itoa_digits_acc n) as D.
  destruct (bytes_of (itoa n)); [congruence|exact D].
Qed.
(** No zeros in front *)
Lemma itoa_front : forall n l, bytes_of (itoa n) = "0"%char :: l -> n = 0 /\ l = [].
Proof.
  intros n l H. rewrite itoa_empty in H. pose proof (Unsigned.to_of (N.to_uint n)) as A. rewrite Unsigned.of_to in A.
  destruct (N.to_uint n) as [|u|u|u|u|u|u|u|u|u|u] eqn:E; try discriminate.
  assert (S : u = Decimal.Nil).
  { unfold Decimal.unorm in A. cbn [Decimal.nzhead] in A. destruct (Decimal.nzhead u) as [|v|v|v|v|v|v|v|v|v|v] eqn:Z; try discriminate; [congruence|].
    exfalso. revert Z. clear. revert v. induction u; cbn [Decimal.nzhead]; intros v; try discriminate. apply IHu. }
  subst u. split; [|cbn in H; congruence]. rewrite <- (Unsigned.of_to n), E. reflexivity.
Qed.
Lemma decimal_zeros : forall k l n, decimal l n -> decimal (repeat "0"%char k ++ l)%list n.
Proof.
  intros k l n H. apply digits_decimal. apply digits_decimal in H.
  assert (A : digits_acc 0 (repeat "0"%char k ++ l)%list = digits_acc 0 l) by (induction k; [reflexivity|exact IHk]).
  destruct l as [|a l]; [discriminate|]. unfold digits in *. destruct k; cbn [repeat app] in *; [exact H|]. rewrite A. exact H.
Qed.
Lemma decimal_fun : forall l n m, decimal l n -> decimal l m -> n = m.
Proof. intros l n m A B. apply digits_decimal in A, B. congruence. Qed.

Lemma append_inj : forall a b c d, slen a = slen b -> a ++ c = b ++ d -> a = b /\ c = d.
Proof.
  induction a as [|x a IH]; intros [|y b] c d L H; cbn in L; try lia; [auto|]. cbn in H. injection H as -> H.
  destruct (IH b c d) as [-> ->]; [unfold slen; lia|exact H|auto].
Qed.
Lemma append_length : forall a b, slen (a ++ b) = (slen a + slen b)%nat.
Proof. induction a; intros; cbn; [reflexivity|]. unfold slen in *. rewrite IHa. reflexivity. Qed.
Lemma append_inj_r : forall a b c, a ++ c = b ++ c -> a = b.
Proof.
  intros a b c H. apply append_inj in H; [tauto|]. apply (f_equal slen) in H. rewrite !append_length in H. lia.
Qed.
Lemma append_assoc : forall a b c, (a ++ b) ++ c = a ++ b ++ c.
Proof. induction a; intros; cbn; [reflexivity|]. f_equal. apply IHa. Qed.
Lemma append_nil : forall a, a ++ "" = a.
Proof. induction a; cbn; congruence. Qed.
