(** Lemmas about the model of openap/fuel.py. *)
From Coq Require Import Reals List Bool Lra Lia Psatz.
From Coquelicot Require Import Coquelicot.
From Interval Require Import Tactic.
From Verif Require Import Num NumFacts Aero AeroFacts Thrust Drag DragFacts Fuel.
Open Scope R_scope.

(** softplus *)
Definition sp (x : R) : R := ln (1 + exp x).
Lemma sp_pos : forall x, 0 < sp x.
Proof. intros. unfold sp. rewrite <- ln_1. apply ln_increasing; [lra|]. pose proof (exp_pos x). lra. Qed.
Lemma sp_incr : forall x y, x < y -> sp x < sp y.
Proof.
  intros. unfold sp. pose proof (exp_pos x). apply ln_increasing; [lra|].
  pose proof (exp_increasing _ _ H). lra.
Qed.
Lemma sp_le : forall x y, x <= y -> sp x <= sp y.
Proof. intros x y [H|H]; [left; apply sp_incr; auto|subst; lra]. Qed.

(** limited thrust ratio *)
Definition limR (r : R) : R := (sp (50 * (r - 0.03)) - sp (45 * (r - 1.2))) / sp 50 + 0.03.

Definition sg (x : R) : R := exp x / (1 + exp x).
Lemma sg_incr : forall x y, x <= y -> sg x <= sg y.
Proof.
  intros x y H. unfold sg. pose proof (exp_pos x). pose proof (exp_pos y).
  assert (exp x <= exp y) by (destruct H as [H|H]; [left; apply exp_increasing; auto|subst; lra]).
  apply (Rmult_le_reg_r ((1 + exp x) * (1 + exp y))); [nra|].
  replace (exp x / (1 + exp x) * ((1 + exp x) * (1 + exp y))) with (exp x * (1 + exp y)) by (field; lra).
  replace (exp y / (1 + exp y) * ((1 + exp x) * (1 + exp y))) with (exp y * (1 + exp x)) by (field; lra).
  nra.
Qed.
Lemma sg_pos : forall x, 0 < sg x.
Proof. intros. unfold sg. pose proof (exp_pos x). apply Rdiv_lt_0_compat; lra. Qed.

Lemma is_derive_limR : forall r : R,
  is_derive limR r ((50 * sg (50 * (r - 0.03)) - 45 * sg (45 * (r - 1.2))) / sp 50).
Proof.
  intros r. unfold limR, sp, sg. pose proof (exp_pos (50 * (r - 0.03))). pose proof (exp_pos (45 * (r - 1.2))).
  pose proof (sp_pos 50) as S. unfold sp in S.
  evar_last. 
  { auto_derive; [|reflexivity]. repeat split; apply Rplus_lt_0_compat; try apply exp_pos; lra. }
  change (r + - (0.03)) with (r - 0.03). change (r + - (1.2)) with (r - 1.2).
  set (A := exp (50 * (r - 0.03))) in *. set (B := exp (45 * (r - 1.2))) in *. set (D := ln (1 + exp 50)) in *.
  match goal with |- ?a = ?b => change (@eq R a b) end. field. repeat split; lra.
Qed.

Lemma limR_incr : forall r1 r2, -10.5 <= r1 < r2 -> limR r1 < limR r2.
Proof.
  intros r1 r2 [H1 H2].
  destruct (MVT_gen limR r1 r2 (fun r => (50 * sg (50 * (r - 0.03)) - 45 * sg (45 * (r - 1.2))) / sp 50)) as [c [Hc E]].
  - intros; apply is_derive_limR.
  - intros x _. apply continuity_pt_filterlim. apply (@ex_derive_continuous R_AbsRing R_NormedModule).
    eexists; apply is_derive_limR.
  - rewrite Rmin_left, Rmax_right in Hc by lra.
    assert (sg (45 * (c - 1.2)) <= sg (50 * (c - 0.03))) by (apply sg_incr; lra).
    pose proof (sg_pos (45 * (c - 1.2))). pose proof (sp_pos 50).
    assert (0 < (50 * sg (50 * (c - 0.03)) - 45 * sg (45 * (c - 1.2))) / sp 50)
      by (apply Rdiv_lt_0_compat; lra).
    nra.
Qed.

Lemma limR_low : limR (-10.5) = 0.03.
Proof.
  unfold limR. replace (50 * (-10.5 - 0.03)) with (45 * (-10.5 - 1.2)) by lra.
  unfold Rdiv. rewrite Rminus_diag_eq by auto. lra.
Qed.
Lemma limR_ge : forall r, -10.5 <= r -> 0.03 <= limR r.
Proof.
  intros r [H|H]; [|rewrite <- H, limR_low; lra].
  rewrite <- limR_low. left. apply limR_incr. lra.
Qed.

Lemma exp_le_mono : forall x y, x <= y -> exp x <= exp y.
Proof. intros x y [H|H]; [left; apply exp_increasing; auto|subst; lra]. Qed.

(** below -10.5 the limited ratio is 0.03 up to a negligible amount *)
Lemma limR_low_side : forall r, r <= -10.5 -> 0.0299 <= limR r.
Proof.
  intros r H. unfold limR.
  assert (A : sp (45 * (r - 1.2)) <= exp (-10)).
  { unfold sp. pose proof (exp_pos (45 * (r - 1.2))).
    assert (exp (45 * (r - 1.2)) <= exp (-10)) by (apply exp_le_mono; lra).
    apply Rle_trans with (exp (45 * (r - 1.2))); auto.
    rewrite <- (ln_exp (exp (45 * (r - 1.2)))) at 2. apply Rcomplements.ln_le; [lra|].
    apply exp_ineq1_le. }
  pose proof (sp_pos (50 * (r - 0.03))) as B.
  assert (S : 49 <= sp 50) by (unfold sp; interval).
  assert (exp (-10) <= 0.0001) by interval.
  assert (-0.0001 <= (sp (50 * (r - 0.03)) - sp (45 * (r - 1.2))) / sp 50); [|lra].
  apply (Rmult_le_reg_r (sp 50)); [lra|]. unfold Rdiv. rewrite Rmult_assoc, Rinv_l by lra. nra.
Qed.
Lemma limR_pos : forall r, 0.0299 <= limR r.
Proof. intros. destruct (Rle_dec r (-10.5)); [apply limR_low_side; auto|]. pose proof (limR_ge r). lra. Qed.

Lemma limR_14 : limR 14.2 <= 2.6.
Proof. unfold limR, sp. interval. Qed.
Lemma limR_ub : forall r, r <= 14.2 -> limR r <= 2.6.
Proof.
  intros r H. destruct (Rle_dec r (-10.5)) as [L|L].
  - unfold limR. assert (sp (50 * (r - 0.03)) <= 1).
    { apply Rle_trans with (sp (-10)); [apply sp_le; lra|unfold sp; interval]. }
    pose proof (sp_pos (45 * (r - 1.2))). assert (S : 49 <= sp 50) by (unfold sp; interval).
    assert ((sp (50 * (r - 0.03)) - sp (45 * (r - 1.2))) / sp 50 <= 1); [|lra].
    apply (Rmult_le_reg_r (sp 50)); [lra|]. unfold Rdiv. rewrite Rmult_assoc, Rinv_l by lra. lra.
  - destruct H as [H|H]; [|subst; apply limR_14]. pose proof (limR_incr r 14.2). pose proof limR_14. lra.
Qed.

(** fuel law *)
Definition lawR (f : fuel_par) (x : R) : R :=
  fscale f * fc1 f * (1 - exp (- fc2 f * x * exp (fc3 f * x))).

Record fuel_ok (f : fuel_par) : Prop := {
  ok_c1 : 0 < fc1 f <= 1000;
  ok_c2 : 0 < fc2 f;
  ok_c3 : 0 < fc3 f <= 100;
  ok_scale : 0 < fscale f;
  ok_thr : 0 < f_max_thrust f;
  ok_n : 0 < f_n_eng f }.

Lemma ln_c1_small : forall c, 0 < c <= 1000 -> ln c <= 10.
Proof.
  intros c H. apply Rle_trans with (ln 1000); [apply Rcomplements.ln_le; lra|]. interval.
Qed.

Lemma func_fuel_NP : forall f x, fuel_ok f -> 0 <= x <= 2.6 ->
  func_fuel NP f (Fin x) = Fin (lawR f x).
Proof.
  intros f x [H1 H2 H3 H4 H5 H6] Hx. unfold func_fuel. cbn [mul NP cst neg emul eneg bexp blog div sub].
  rewrite (eexp_fin (fc3 f * x)) by (unfold exp_max; nra).
  rewrite elog_fin by lra. rewrite ediv_fin by lra. cbn [emul esub].
  pose proof (exp_pos (fc3 f * x)). pose proof (ln_c1_small _ H1).
  assert (E : - fc2 f * (x * exp (fc3 f * x) - ln (fc1 f) / fc2 f)
              = - fc2 f * x * exp (fc3 f * x) + ln (fc1 f)) by (field; lra).
  assert (0 <= fc2 f * x * exp (fc3 f * x)) by (repeat apply Rmult_le_pos; lra).
  rewrite eexp_fin by (rewrite E; unfold exp_max; lra). cbn [esub emul]. unfold lawR. rewrite E, exp_plus, exp_ln by lra.
  f_equal. ring.
Qed.

Lemma lawR_incr : forall f x y, fuel_ok f -> 0 <= x < y -> lawR f x < lawR f y.
Proof.
  intros f x y [H1 H2 H3 H4 H5 H6] Hx. unfold lawR.
  assert (exp (fc3 f * x) <= exp (fc3 f * y)) by (apply exp_le_mono; nra).
  pose proof (exp_pos (fc3 f * x)).
  assert (x * exp (fc3 f * x) < y * exp (fc3 f * y)) by nra.
  assert (exp (- fc2 f * y * exp (fc3 f * y)) < exp (- fc2 f * x * exp (fc3 f * x))).
  { apply exp_increasing. rewrite !Rmult_assoc. nra. }
  apply Rmult_lt_compat_l; [nra|lra].
Qed.
Lemma lawR_0 : forall f, lawR f 0 = 0.
Proof. intros. unfold lawR. rewrite !Rmult_0_r, Rmult_0_l, exp_0. ring. Qed.
Lemma lawR_ub : forall f x, fuel_ok f -> lawR f x < fscale f * fc1 f.
Proof.
  intros f x [H1 H2 H3 H4 H5 H6]. unfold lawR. pose proof (exp_pos (- fc2 f * x * exp (fc3 f * x))). assert (0 < fscale f * fc1 f) by nra. nra.
Qed.

Definition ratR (f : fuel_par) (t : R) : R := t / f_n_eng f / f_max_thrust f.
Definition atR (f : fuel_par) (t : R) : R := lawR f (limR (ratR f t)) * f_n_eng f.

Lemma thrust_ratio_NP : forall f t, 0 < f_max_thrust f -> 0 < f_n_eng f -> ratR f t <= 14.2 ->
  thrust_ratio NP f (Fin t) = Fin (limR (ratR f t)).
Proof.
  intros f t Hm Hn Hr. unfold thrust_ratio. cbn [div NP cst].
  rewrite (ediv_fin t) by lra. rewrite (ediv_fin (t / _)) by lra. fold (ratR f t).
  set (r := ratR f t) in *. cbn [sub NP esub mul emul add bexp blog].
  rewrite !eexp_fin by (unfold exp_max; lra). cbn [eadd].
  pose proof (exp_pos 50). pose proof (exp_pos (50 * (r - 0.03))). pose proof (exp_pos (45 * (r - 1.2))).
  rewrite !elog_fin by lra. cbn [esub]. pose proof (sp_pos 50) as S. unfold sp in S.
  rewrite ediv_fin by lra. reflexivity.
Qed.

Lemma ratR_le : forall f t c, 0 < f_max_thrust f -> 0 < f_n_eng f ->
  t <= c * (f_n_eng f * f_max_thrust f) -> ratR f t <= c.
Proof.
  intros. unfold ratR. apply (Rmult_le_reg_r (f_n_eng f * f_max_thrust f)); [nra|].
  replace (t / f_n_eng f / f_max_thrust f * (f_n_eng f * f_max_thrust f)) with t by (field; lra). auto.
Qed.
Lemma ratR_ge : forall f t c, 0 < f_max_thrust f -> 0 < f_n_eng f ->
  c * (f_n_eng f * f_max_thrust f) <= t -> c <= ratR f t.
Proof.
  intros. unfold ratR. apply (Rmult_le_reg_r (f_n_eng f * f_max_thrust f)); [nra|].
  replace (t / f_n_eng f / f_max_thrust f * (f_n_eng f * f_max_thrust f)) with t by (field; lra). auto.
Qed.
Lemma ratR_lt : forall f s t, 0 < f_max_thrust f -> 0 < f_n_eng f -> s < t -> ratR f s < ratR f t.
Proof.
  intros. unfold ratR. apply Rmult_lt_compat_r; [apply Rinv_0_lt_compat; auto|].
  apply Rmult_lt_compat_r; [apply Rinv_0_lt_compat; auto|]. auto.
Qed.

Lemma at_thrust_NP : forall f t, fuel_ok f -> t <= 14.2 * (f_n_eng f * f_max_thrust f) ->
  at_thrust NP f (Fin t) = Fin (atR f t).
Proof.
  intros f t Hok Ht. pose proof (ok_thr f Hok). pose proof (ok_n f Hok).
  assert (ratR f t <= 14.2) by (apply ratR_le; auto).
  unfold at_thrust. rewrite thrust_ratio_NP by auto.
  rewrite func_fuel_NP; auto. pose proof (limR_pos (ratR f t)). pose proof (limR_ub (ratR f t)). lra.
Qed.

Lemma atR_incr : forall f s t, fuel_ok f -> -10.5 * (f_n_eng f * f_max_thrust f) <= s < t -> atR f s < atR f t.
Proof.
  intros f s t Hok [H1 H2]. pose proof (ok_thr f Hok). pose proof (ok_n f Hok).
  unfold atR. apply Rmult_lt_compat_r; auto. apply lawR_incr; auto.
  pose proof (ratR_ge f s (-10.5)). pose proof (ratR_lt f s t).
  pose proof (limR_pos (ratR f s)). split; [lra|]. apply limR_incr. split; auto.
Qed.
