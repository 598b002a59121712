(** Comparison with ISA, pressure altitude, crossover altitude. *)
From Coq Require Import Reals List Bool Lra Lia Psatz.
From Interval Require Import Tactic.
From Verif Require Import Num NumFacts Aero AeroFacts AeroFacts2 SpecISA.
Open Scope R_scope.

Ltac ui := unfold isa_lapse, isa_T_sl, isa_p_sl, isa_g, isa_R, isa_tropopause in *.

(** ** C04 *)

Lemma isa_T_eq : forall h, tR h 0 = isa_T h.
Proof.
  intros. unfold isa_T. ui. destruct (Rle_dec h 11000).
  - rewrite tR_low, clipT_0 by auto. uc; lra.
  - rewrite tR_high, clipT_0 by lra. lra.
Qed.

Definition eisa : R := isa_g / (isa_R * isa_lapse).
Lemma eisa_bound : 5.25587 < eisa < 5.25589.
Proof. unfold eisa; ui; split; interval. Qed.

Lemma isa_p_pos : forall h, 0 < isa_p h.
Proof.
  intros. unfold isa_p, isa_p_tropo. ui. destruct (Rle_dec h 11000).
  - apply Rmult_lt_0_compat; [lra|apply Rpower_pos].
  - apply Rmult_lt_0_compat; [|apply exp_pos]. apply Rmult_lt_0_compat; [lra|apply Rpower_pos].
Qed.

Lemma pow_ratio : forall t, 0.75 <= t <= 1 ->
  0.9997 <= cc * Rpower t (5.256848030018761 - eisa) <= 1.
Proof.
  intros t Ht. pose proof cc_bound. pose proof eisa_bound.
  assert (Rpower t (5.256848030018761 - eisa) <= 1) by (apply Rpower_le_1; lra).
  assert (0.99971 <= Rpower t (5.256848030018761 - eisa)).
  { apply Rle_trans with (Rpower 0.75 (5.256848030018761 - 5.25587)).
    - interval.
    - apply Rle_trans with (Rpower 0.75 (5.256848030018761 - eisa)).
      + left. apply Rpower_lt_exp_lt1; lra.
      + apply Rpower_le_base; lra. }
  pose proof (Rpower_pos t (5.256848030018761 - eisa)).
  split; nra.
Qed.

Lemma isa_ratio : forall h, 0 <= h <= 20000 ->
  exists k, 0.9995 <= k <= 1.0001 /\ pR h 0 = k * isa_p h.
Proof.
  intros h Hh. rewrite pR0. unfold isa_p, isa_p_tropo. fold eisa. ui.
  pose proof (tau_pos h) as Ht0. pose proof (tau_le h ltac:(lra)) as Ht1.
  destruct (Rle_dec h 11000) as [Hl|Hl].
  - rewrite exp_strat_1 by auto.
    assert (Et : (288.15 - 0.0065 * h) / 288.15 = tau h) by (rewrite tau_low by auto; lra).
    rewrite Et. exists (cc * Rpower (tau h) (5.256848030018761 - eisa)).
    split. { assert (0.75 <= tau h) by (rewrite tau_low by auto; lra).
             pose proof (pow_ratio (tau h) ltac:(lra)). lra. }
    replace 5.256848030018761 with ((5.256848030018761 - eisa) + eisa) at 1 by ring.
    rewrite Rpower_plus. unfold p0. ring.
  - assert (Et : (288.15 - 0.0065 * 11000) / 288.15 = tau h) by (rewrite tau_high by lra; lra).
    rewrite Et. rewrite Rmax_right by lra.
    exists (cc * Rpower (tau h) (5.256848030018761 - eisa) *
            exp ((h - 11000) * (9.80665 / (287.05287 * (288.15 - 0.0065 * 11000)) - / 6341.552161))).
    split.
    { assert (0.75 <= tau h) by (rewrite tau_high by lra; lra).
      pose proof (pow_ratio (tau h) ltac:(lra)) as Hp.
      assert (He : 0.9999 <= exp ((h - 11000) * (9.80665 / (287.05287 * (288.15 - 0.0065 * 11000)) - / 6341.552161)) <= 1.0001).
      { assert (0 <= h - 11000 <= 9000) by lra. split; interval with (i_prec 60). }
      revert Hp He. set (A := cc * _). set (B := exp _). intros; split; nra. }
    replace 5.256848030018761 with ((5.256848030018761 - eisa) + eisa) at 1 by ring.
    rewrite Rpower_plus.
    replace (- (h - 11000.0) / 6341.552161) with
      ((h - 11000) * (9.80665 / (287.05287 * (288.15 - 0.0065 * 11000)) - / 6341.552161)
       + (- (9.80665) * (h - 11000) / (287.05287 * (288.15 - 0.0065 * 11000)))) by (qr; field).
    rewrite exp_plus. unfold p0. ring.
Qed.

Lemma isa_p_close : forall h, 0 <= h <= 20000 ->
  Rabs (pR h 0 - isa_p h) <= 0.001 * isa_p h.
Proof.
  intros h Hh. destruct (isa_ratio h Hh) as [k [Hk E]]. rewrite E.
  pose proof (isa_p_pos h). apply Rabs_le. split; nra.
Qed.

Lemma isa_rho_close : forall h, 0 <= h <= 20000 ->
  Rabs (rhoR h 0 - isa_rho h) <= 0.001 * isa_rho h.
Proof.
  intros h Hh. destruct (isa_ratio h Hh) as [k [Hk E]].
  pose proof (isa_p_pos h) as Hp. pose proof (tR_pos h 0) as HT.
  unfold isa_rho. rewrite <- isa_T_eq.
  assert (HR : 0 < isa_R * tR h 0) by (ui; nra).
  assert (E2 : rhoR h 0 = k * (isa_p h / (isa_R * tR h 0))).
  { unfold pR in E. replace (k * (isa_p h / (isa_R * tR h 0))) with (k * isa_p h / (isa_R * tR h 0)) by (field; ui; lra).
    rewrite <- E. ui; uc. qr. field. lra. }
  rewrite E2. set (q := isa_p h / (isa_R * tR h 0)).
  assert (0 < q) by (apply Rdiv_lt_0_compat; auto).
  apply Rabs_le. split; nra.
Qed.

(** ** Pressure altitude *)

Definition hexp : R := beta * Rgas / g0.
Definition hlow (p dT : R) : R := ((T0 + dT) * Rpower (p0 / p) hexp - (T0 + dT)) / beta.
Definition hhigh (p dT : R) : R :=
  - Rgas * (T0 + dT + beta * 11000) / g0 * ln (p / 22630) + 11000.
Definition hR (p dT : R) : R := if Rlt_dec 22630 p then hlow p dT else hhigh p dT.

Lemma h_isa_NP : forall p dT, 0 < p -> h_isa NP (Fin p) (Fin dT) = Fin (hR p dT).
Proof.
  intros p dT Hp. unfold h_isa. cbn -[ediv epower elog Rltb].
  pose proof p0_pos. rewrite (ediv_fin p0) by lra.
  rewrite (ediv_fin (beta * Rgas)) by (uc; lra).
  rewrite epower_fin by (apply Rdiv_lt_0_compat; auto).
  cbn -[ediv epower elog Rltb]. rewrite (ediv_fin _ beta) by (uc; lra).
  rewrite (ediv_fin _ g0) by (uc; lra).
  rewrite (ediv_fin p 22630) by lra. rewrite elog_fin by (apply Rdiv_lt_0_compat; lra).
  cbn -[Rltb]. unfold hR, Rltb. destruct (Rlt_dec 22630 p); reflexivity.
Qed.

Lemma hexp_bound : -0.190264 < hexp < -0.190262.
Proof. unfold hexp; uc; split; interval. Qed.

Lemma hlow_eq : forall p dT, 0 < p ->
  hlow p dT = (T0 + dT) / 0.0065 * (1 - Rpower (p / p0) (- hexp)).
Proof.
  intros p dT Hp. unfold hlow. pose proof p0_pos.
  replace (Rpower (p0 / p) hexp) with (Rpower (p / p0) (- hexp)).
  2:{ rewrite Rpower_Ropp, !Rpower_div_distr by auto.
      pose proof (Rpower_pos p hexp). pose proof (Rpower_pos p0 hexp). field. lra. }
  uc. qr. field.
Qed.

Lemma hlow_decr : forall p q dT, 0 < p < q -> - T0 < dT -> hlow q dT < hlow p dT.
Proof.
  intros p q dT Hpq HdT. rewrite !hlow_eq by lra. pose proof p0_pos. pose proof hexp_bound.
  assert (0 < (T0 + dT) / 0.0065) by (apply Rdiv_lt_0_compat; lra).
  apply Rmult_lt_compat_l; auto.
  assert (Rpower (p / p0) (- hexp) < Rpower (q / p0) (- hexp)); [|lra].
  apply Rpower_lt_base; [apply Rdiv_lt_0_compat; lra| |lra].
  apply Rmult_lt_compat_r; [apply Rinv_0_lt_compat|]; lra.
Qed.

Lemma hhigh_decr : forall p q dT, 0 < p < q -> -216.65 < dT -> hhigh q dT < hhigh p dT.
Proof.
  intros p q dT Hpq HdT. unfold hhigh.
  assert (ln (p / 22630) < ln (q / 22630)).
  { apply ln_increasing; [apply Rdiv_lt_0_compat; lra|].
    apply Rmult_lt_compat_r; [apply Rinv_0_lt_compat|]; lra. }
  assert (0 < Rgas * (T0 + dT + beta * 11000) / g0).
  { apply Rdiv_lt_0_compat; [|uc; lra]. apply Rmult_lt_0_compat; uc; lra. }
  replace (- Rgas * (T0 + dT + beta * 11000) / g0) with (- (Rgas * (T0 + dT + beta * 11000) / g0)) by (uc; qr; field).
  nra.
Qed.

Lemma hhigh_switch : forall dT, hhigh 22630 dT = 11000.
Proof. intros. unfold hhigh. replace (22630 / 22630) with 1 by lra. rewrite ln_1. lra. Qed.

(** Limit of the troposphere branch at the switch *)
Lemma hlow_switch_0 : 11000.5 < hlow 22630 0 < 11000.6.
Proof. rewrite hlow_eq by lra. unfold hexp; uc. split; interval. Qed.

Lemma hlow_switch_10 : 11380 < hlow 22630 10.
Proof. rewrite hlow_eq by lra. unfold hexp; uc. interval. Qed.

(** ** C09 *)
Lemma pR0_low : forall h, h <= 11000 -> pR h 0 = p0 * (cc * Rpower (tau h) 5.256848030018761).
Proof. intros. rewrite pR0, exp_strat_1 by auto. ring. Qed.

Lemma hlow_pR : forall h, 0 <= h <= 11000 ->
  hlow (pR h 0) 0 - h = T0 / 0.0065 * tau h * (1 - Rpower cc (- hexp) * Rpower (tau h) (5.256848030018761 * - hexp - 1)).
Proof.
  intros h Hh. rewrite hlow_eq by apply pR_pos. rewrite pR0_low by lra.
  pose proof p0_pos. pose proof cc_bound. pose proof (tau_pos h).
  replace (p0 * (cc * Rpower (tau h) 5.256848030018761) / p0) with (cc * Rpower (tau h) 5.256848030018761) by (field; lra).
  rewrite Rpower_mult_distr' by (auto using Rpower_pos; lra).
  rewrite Rpower_mult.
  replace (5.256848030018761 * - hexp) with ((5.256848030018761 * - hexp - 1) + 1) at 1 by ring.
  rewrite Rpower_plus, Rpower_1 by auto.
  assert (E : h = T0 / 0.0065 * (1 - tau h)).
  { rewrite tau_low by lra. uc. qr. field. }
  match goal with |- ?a - h = _ => transitivity (a - T0 / 0.0065 * (1 - tau h)); [f_equal; exact E|] end.
  rewrite Rplus_0_r. ring.
Qed.

Lemma hlow_err : forall h, 0 <= h <= 11000 -> 0 < hlow (pR h 0) 0 - h < 3.
Proof.
  intros h Hh. rewrite hlow_pR by auto.
  pose proof cc_bound. pose proof hexp_bound. pose proof (tau_pos h). pose proof (tau_le h ltac:(lra)).
  assert (Ht : 0.75 <= tau h) by (rewrite tau_low by lra; lra).
  assert (E : 0.00018 < 5.256848030018761 * - hexp - 1 < 0.00019) by (unfold hexp; uc; split; interval).
  assert (A : Rpower cc (- hexp) < 1).
  { rewrite <- (Rpower_one (- hexp)). apply Rpower_lt_base; lra. }
  assert (A' : 0.999999 <= Rpower cc (- hexp)).
  { apply Rle_trans with (Rpower 0.99999998 (- hexp)).
    - unfold hexp; uc; interval.
    - apply Rpower_le_base; lra. }
  assert (B : Rpower (tau h) (5.256848030018761 * - hexp - 1) <= 1) by (apply Rpower_le_1; lra).
  assert (B' : 0.99994 <= Rpower (tau h) (5.256848030018761 * - hexp - 1)).
  { apply Rle_trans with (Rpower 0.75 0.00019); [clear; interval|].
    apply Rle_trans with (Rpower 0.75 (5.256848030018761 * - hexp - 1)).
    - left. apply Rpower_lt_exp_lt1; lra.
    - apply Rpower_le_base; lra. }
  assert (HT : 0 < T0 / 0.0065 < 44331) by (uc; lra).
  revert A A' B B' HT. set (a := Rpower cc _). set (bb := Rpower (tau h) _). set (tt := T0 / 0.0065).
  intros.
  assert (0 < tt * tau h <= 44331) by nra.
  assert (0 < 1 - a * bb <= 0.000062) by (split; nra).
  revert H3 H4. set (X := tt * tau h). set (Y := 1 - a * bb). intros. split; nra.
Qed.
Lemma hhigh_err_low : forall h, 10990 <= h <= 11000 -> Rabs (hhigh (pR h 0) 0 - h) < 5.
Proof.
  intros h Hh. rewrite pR0_low by lra. unfold hhigh. rewrite tau_low by lra. unfold cc; uc.
  apply Rabs_def1; interval with (i_bisect h, i_prec 60).
Qed.

Lemma hhigh_err_high : forall h, 11000 <= h <= 20000 -> Rabs (hhigh (pR h 0) 0 - h) < 5.
Proof.
  intros h Hh. rewrite pR0. unfold hhigh. rewrite tau_high by lra. rewrite Rmax_right by lra.
  pose proof p0_pos. pose proof cc_bound.
  set (A := cc * Rpower (216.65 / 288.15) 5.256848030018761).
  assert (HA : 0 < A) by (apply Rmult_lt_0_compat; [lra|apply Rpower_pos]).
  replace (p0 * A * exp (- (h - 11000.0) / 6341.552161) / 22630)
    with (p0 * A / 22630 * exp (- (h - 11000.0) / 6341.552161)) by (uc; qr; field).
  rewrite ln_mult, ln_exp; [|apply Rdiv_lt_0_compat; [apply Rmult_lt_0_compat; auto|lra]|apply exp_pos].
  assert (HL : -0.0003 < ln (p0 * A / 22630) < 0) by (unfold A, cc; uc; split; interval).
  assert (HC : 6341.55 < Rgas * (T0 + 0 + beta * 11000) / g0 < 6341.63) by (uc; split; interval).
  replace (- Rgas * (T0 + 0 + beta * 11000) / g0) with (- (Rgas * (T0 + 0 + beta * 11000) / g0)) by (uc; qr; field).
  revert HL HC. set (L := ln _). set (Cc := Rgas * _ / _). intros.
  assert (HK : 0.99999 < Cc / 6341.552161 < 1.00002) by (split; lra).
  replace (- Cc * (L + - (h - 11000.0) / 6341.552161) + 11000 - h) with
    (- Cc * L + (h - 11000) * (Cc / 6341.552161 - 1)) by (qr; field).
  set (kk := Cc / 6341.552161) in *.
  apply Rabs_def1; nra.
Qed.

Lemma pR_10990 : 22630 < pR 10990 0.
Proof. rewrite pR0_low by lra. rewrite tau_low by lra. unfold cc; uc. interval. Qed.

Lemma pR_11000 : pR 11000 0 < 22630.
Proof. rewrite pR0_low by lra. rewrite tau_low by lra. unfold cc; uc. interval. Qed.

Lemma h_isa_err : forall h, 0 <= h <= 20000 -> Rabs (hR (pR h 0) 0 - h) < 5.
Proof.
  intros h Hh. unfold hR. destruct (Rlt_dec 22630 (pR h 0)) as [Hp|Hp].
  - assert (h <= 11000).
    { destruct (Rle_dec h 11000); auto. exfalso. pose proof (pR_decr 11000 h 0 ltac:(lra)). pose proof pR_11000. lra. }
    pose proof (hlow_err h ltac:(lra)). apply Rabs_def1; lra.
  - assert (10990 <= h).
    { destruct (Rle_dec 10990 h); auto. exfalso. pose proof (pR_decr h 10990 0 ltac:(lra)). pose proof pR_10990. lra. }
    destruct (Rle_dec h 11000); [apply hhigh_err_low; lra|apply hhigh_err_high; lra].
Qed.

Lemma h_isa_not_exact : forall h, 0 <= h <= 10990 -> hR (pR h 0) 0 <> h.
Proof.
  intros h Hh. unfold hR.
  assert (22630 < pR h 0).
  { pose proof pR_10990. destruct (Req_dec h 10990) as [->|]; auto. pose proof (pR_decr h 10990 0 ltac:(lra)). lra. }
  destruct (Rlt_dec 22630 (pR h 0)); [|contradiction].
  pose proof (hlow_err h ltac:(lra)). lra.
Qed.

Lemma h_isa_offisa : hR (pR 0 10) 10 < -250.
Proof.
  assert (Ep : pR 0 10 = 1.225 * 287.05287 * 298.15).
  { unfold pR, rhoR. rewrite tR_low, clipT_id by lra.
    replace ((T0 + 10 + beta * 0) / (T0 + 10)) with 1 by (uc; lra).
    rewrite Rpower_one. rewrite Rmax_left by lra. replace (- 0.0 / 6341.552161) with 0 by lra.
    rewrite exp_0. uc; lra. }
  unfold hR. rewrite Ep. destruct (Rlt_dec 22630 _); [|lra].
  rewrite hlow_eq by lra. unfold hexp; uc. interval.
Qed.
