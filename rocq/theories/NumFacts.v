(** Lemmas about the backends of Num.v. *)
From Coq Require Import Reals List Bool Lra Lia Psatz.
From Verif Require Import Num.
Import ListNotations.
Open Scope R_scope.

(** ** Finite results of the partial operations *)

Lemma ediv_fin : forall a c, c <> 0 -> ediv (Fin a) (Fin c) = Fin (a / c).
Proof. intros a c H. unfold ediv. destruct (Req_EM_T c 0); [contradiction|reflexivity]. Qed.

Lemma esqrt_fin : forall a, 0 <= a -> esqrt (Fin a) = Fin (sqrt a).
Proof. intros a H. unfold esqrt. destruct (Rle_dec 0 a); [reflexivity|contradiction]. Qed.

Lemma eexp_fin : forall a, a <= exp_max -> eexp (Fin a) = Fin (exp a).
Proof. intros a H. unfold eexp. destruct (Rle_dec a exp_max); [reflexivity|contradiction]. Qed.

Lemma eexp_inf : forall a, exp_max < a -> eexp (Fin a) = PInf.
Proof. intros a H. unfold eexp. destruct (Rle_dec a exp_max); [lra|reflexivity]. Qed.

Lemma exp_max_pos : 0 <= exp_max. Proof. unfold exp_max; lra. Qed.

Lemma eexp_neg : forall a, a <= 0 -> eexp (Fin a) = Fin (exp a).
Proof. intros. apply eexp_fin. pose proof exp_max_pos; lra. Qed.

Lemma elog_fin : forall a, 0 < a -> elog (Fin a) = Fin (ln a).
Proof. intros a H. unfold elog. destruct (Rlt_dec 0 a); [reflexivity|contradiction]. Qed.

Lemma epower_fin : forall a c, 0 < a -> epower (Fin a) (Fin c) = Fin (Rpower a c).
Proof. intros a c H. unfold epower. destruct (Rlt_dec 0 a); [reflexivity|contradiction]. Qed.

Lemma eunit_fin : forall f a, -1 <= a <= 1 -> eunit f (Fin a) = Fin (f a).
Proof.
  intros f a [H1 H2]. unfold eunit.
  destruct (Rle_dec (-1) a); [|contradiction]. destruct (Rle_dec a 1); [reflexivity|contradiction].
Qed.

Lemma efmod_fin : forall a c, c <> 0 -> efmod (Fin a) (Fin c) = Fin (Rfmod a c).
Proof. intros a c H. unfold efmod. destruct (Req_EM_T c 0); [contradiction|reflexivity]. Qed.

Lemma Fin_inj : forall a c, Fin a = Fin c -> a = c.
Proof. intros a c H; injection H; auto. Qed.

Lemma Rltb_true : forall x y, x < y -> Rltb x y = true.
Proof. intros; unfold Rltb; destruct (Rlt_dec x y); auto; contradiction. Qed.
Lemma Rltb_false : forall x y, y <= x -> Rltb x y = false.
Proof. intros; unfold Rltb; destruct (Rlt_dec x y); auto; lra. Qed.
Lemma Rltb_spec : forall x y, reflect (x < y) (Rltb x y).
Proof. intros; unfold Rltb; destruct (Rlt_dec x y); constructor; auto. Qed.
Lemma Rleb_true : forall x y, x <= y -> Rleb x y = true.
Proof. intros; unfold Rleb; destruct (Rle_dec x y); auto; contradiction. Qed.
Lemma Rleb_false : forall x y, y < x -> Rleb x y = false.
Proof. intros; unfold Rleb; destruct (Rle_dec x y); auto; lra. Qed.
Lemma Rleb_spec : forall x y, reflect (x <= y) (Rleb x y).
Proof. intros; unfold Rleb; destruct (Rle_dec x y); constructor; auto. Qed.

(** Turn a decimal literal goal into plain fractions. *)
Ltac qr := unfold Q2R in *; simpl QArith_base.Qnum in *; simpl QArith_base.Qden in *.

(** ** Powers and roots of positive reals *)

Lemma Rpower_pos : forall x y, 0 < Rpower x y.
Proof. intros; unfold Rpower; apply exp_pos. Qed.

Lemma Rpower_inv_l : forall x y, 0 < x -> y <> 0 -> Rpower (Rpower x y) (/ y) = x.
Proof. intros x y Hx Hy. rewrite Rpower_mult, Rinv_r by auto. apply Rpower_1; auto. Qed.

Lemma Rpower_lt_base : forall x y z, 0 < x -> x < y -> 0 < z -> Rpower x z < Rpower y z.
Proof. intros x y z Hx Hxy Hz. unfold Rpower. apply exp_increasing. apply Rmult_lt_compat_l; auto. apply ln_increasing; auto. Qed.

Lemma Rpower_le_base : forall x y z, 0 < x -> x <= y -> 0 <= z -> Rpower x z <= Rpower y z.
Proof.
  intros x y z Hx Hxy Hz. destruct (Req_dec z 0) as [->|Hz'].
  - unfold Rpower; rewrite !Rmult_0_l; lra.
  - destruct Hxy as [H| ->]; [|lra]. left; apply Rpower_lt_base; lra.
Qed.

Lemma Rpower_one : forall y, Rpower 1 y = 1.
Proof. intros; unfold Rpower; rewrite ln_1, Rmult_0_r, exp_0; auto. Qed.

Lemma Rpower_ge_1 : forall x z, 1 <= x -> 0 <= z -> 1 <= Rpower x z.
Proof. intros. rewrite <- (Rpower_one z). apply Rpower_le_base; lra. Qed.

Lemma Rpower_gt_1 : forall x z, 1 < x -> 0 < z -> 1 < Rpower x z.
Proof. intros. rewrite <- (Rpower_one z). apply Rpower_lt_base; lra. Qed.

Lemma Rpower_le_1 : forall x z, 0 < x <= 1 -> 0 <= z -> Rpower x z <= 1.
Proof. intros. rewrite <- (Rpower_one z). apply Rpower_le_base; lra. Qed.

Lemma Rpower_lt_exp_lt1 : forall x y z, 0 < x < 1 -> y < z -> Rpower x z < Rpower x y.
Proof.
  intros x y z Hx Hyz. unfold Rpower. apply exp_increasing.
  assert (ln x < 0) by (rewrite <- ln_1; apply ln_increasing; lra). nra.
Qed.

Lemma Rpower_mult_distr' : forall x y z, 0 < x -> 0 < y -> Rpower (x * y) z = Rpower x z * Rpower y z.
Proof. intros. symmetry; apply Rpower_mult_distr; auto. Qed.

Lemma Rpower_div_distr : forall x y z, 0 < x -> 0 < y -> Rpower (x / y) z = Rpower x z / Rpower y z.
Proof.
  intros. unfold Rdiv. rewrite Rpower_mult_distr' by (auto using Rinv_0_lt_compat).
  f_equal. unfold Rpower. rewrite ln_Rinv by auto.
  replace (z * - ln y) with (- (z * ln y)) by ring. apply exp_Ropp.
Qed.
