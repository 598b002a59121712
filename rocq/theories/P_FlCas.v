(** * Property C113: calibrated airspeed in binary64 *)
From Coq Require Import Reals List ZArith Lra Lia Psatz.
From Flocq Require Import Core.
From Coquelicot Require Import Coquelicot.
From Interval Require Import Tactic.
From Verif Require Import Num NumFacts SpecNum Aero AeroFacts Fl SpecFl FlFacts P_Fl.
Import ListNotations.
Open Scope R_scope.

Lemma ln_1p_le : forall e, 0 <= e -> 0 <= ln (1 + e) <= e.
Proof.
  intros e H. split.
  - rewrite <- ln_1. destruct H as [H|<-]; [left; apply ln_increasing; lra|rewrite Rplus_0_r; lra].
  - pose proof (exp_ineq1_le (ln (1 + e))) as Q. rewrite exp_ln in Q by lra. lra.
Qed.
Lemma pow35_lb : forall e, 0 <= e -> 1 + 3 * e <= Rpower (1 + e) 3.5.
Proof.
  intros e H. apply Rle_trans with (Rpower (1 + e) 3).
  - replace 3 with (INR 3) at 2 by (cbn; ring). rewrite Rpower_pow by lra. cbn. nra.
  - apply Rle_Rpower; lra.
Qed.
Lemma pow27_lb : forall s, 0 <= s -> 2 / 7 * (s / (1 + s)) <= Rpower (1 + s) (2 / 7) - 1.
Proof.
  intros s H. unfold Rpower. pose proof (exp_ineq1_le (2 / 7 * ln (1 + s))). assert (s / (1 + s) <= ln (1 + s)); [|lra].
  assert (E : ln (1 + s) = - ln (/ (1 + s))) by (rewrite ln_Rinv by lra; ring). rewrite E.
  assert (0 < / (1 + s)) by (apply Rinv_0_lt_compat; lra).
  pose proof (exp_ineq1_le (ln (/ (1 + s)))) as Q. rewrite exp_ln in Q by auto. assert (s / (1 + s) = 1 - / (1 + s)) by (field; lra). lra.
Qed.

Section Cas.
Context (rd : rounding) (Hrd : accurate rd).
Local Notation cs := (cst (FL rd)).
Local Notation "x +: y" := (add (FL rd) x y) (at level 50, left associativity).
Local Notation "x -: y" := (sub (FL rd) x y) (at level 50, left associativity).
Local Notation "x *: y" := (mul (FL rd) x y) (at level 40, left associativity).
Local Notation "x /: y" := (div (FL rd) x y) (at level 40, left associativity).
Lemma c1 : cs 1.0 = Fin 1.
Proof. replace 1.0 with (IZR 1) by lra. apply c_int; auto; cbn; lia. Qed.
Lemma c7 : cs 7.0 = Fin 7.
Proof. replace 7.0 with (IZR 7) by lra. apply c_int; auto; cbn; lia. Qed.
Lemma c2 : cs 2.0 = Fin 2.
Proof. replace 2.0 with (IZR 2) by lra. apply c_int; auto; cbn; lia. Qed.
Lemma qd_fl : forall p kp P r kr D s, nr p kp P -> nr r kr D -> 0 < p -> 0 < r -> kp <= 101 -> kr <= 88 -> 1.5e-4 <= r * s * s / (7 * p) <= 2 ->
  nr (qd p r s) 13000 (P *: (power (FL rd) (cs 1.0 +: D *: Fin s *: Fin s /: (cs 7.0 *: P)) (cs 3.5) -: cs 1.0)).
Proof.
  intros p kp P r kr D s HP HD Pp Pr Kp Kr He. rewrite c1, c7. unfold qd. replace 7.0 with 7 by lra. replace 1.0 with 1 by lra.
  set (e := r * s * s / (7 * p)) in *.
  assert (N1 : nr e 193 (D *: Fin s *: Fin s /: (Fin 7 *: P))).
  { unfold e. eapply nr_w; [apply nr_div; auto; [apply nr_mul; auto; [apply nr_mul; auto; [exact HD|apply nr_exact]|apply nr_exact]|apply nr_mul; auto; [apply nr_exact|exact HP]|lra]|lra]. }
  assert (N2 : nr (1 + e) (202.65 * e + 1) (Fin 1 +: D *: Fin s *: Fin s /: (Fin 7 *: P))).
  { eapply nr_w; [apply (nr_add rd Hrd 1 0 _ e 193 _ (193 * e)); auto; try lra; [apply nr_exact|]|lra]. rewrite !Rabs_pos_eq by lra. nra. }
  pose proof (ln_1p_le e ltac:(lra)) as L.
  assert (N3 : nr (Rpower (1 + e) 3.5) (734.5 * e + 4.7) (power (FL rd) (Fin 1 +: D *: Fin s *: Fin s /: (Fin 7 *: P)) (cs 3.5))).
  { eapply nr_w; [apply nr_power; auto; [exact N2|apply nr_cst; auto|lra|lra]|]. rewrite (Rabs_pos_eq 3.5), (Rabs_pos_eq (3.5 * ln (1 + e))) by lra. lra. }
  pose proof (pow35_lb e ltac:(lra)) as W. set (w := Rpower (1 + e) 3.5) in *.
  assert (N4 : nr (w - 1) 12800 (power (FL rd) (Fin 1 +: D *: Fin s *: Fin s /: (Fin 7 *: P)) (cs 3.5) -: Fin 1)).
  { eapply nr_w; [apply (nr_sub rd Hrd w (734.5 * e + 4.7) _ 1 0 _ 12100 N3 (nr_exact 1)); try lra|lra]. rewrite (Rabs_pos_eq (w - 1)), (Rabs_pos_eq w) by lra.
    (* w K <= 12100 (w - 1) where w - 1 >= 3 e *)
    assert ((734.5 * e + 4.7) * 1 <= (12100 - (734.5 * e + 4.7)) * (3 * e)) by nra.
    assert ((12100 - (734.5 * e + 4.7)) * (3 * e) <= (12100 - (734.5 * e + 4.7)) * (w - 1)) by (apply Rmult_le_compat_l; lra). lra. }
  eapply nr_w; [apply nr_mul; auto; [exact HP|exact N4]|lra].
Qed.
Lemma vq_fl : forall p kp P r kr D q Q Y, nr p kp P -> nr r kr D -> nr q 13000 Q -> 0 < p -> 0 < r -> kp <= 101 -> kr <= 88 -> 1.9e-5 <= q / p <= 200 ->
  Y = cs 1.0 +: Q /: P \/ Y = Q /: P +: cs 1.0 ->
  nr (vq p r q) 300000 (bsqrt (FL rd) (cs 7.0 *: P /: D *: (power (FL rd) Y (cs 2.0 /: cs 7.0) -: cs 1.0))).
Proof.
  intros p kp P r kr D q Q Y HP HD HQ Pp Pr Kp Kr Hs HY. rewrite c1, c7, c2 in *. unfold vq. replace 7.0 with 7 by lra. replace 1.0 with 1 by lra. replace 2.0 with 2 by lra.
  set (s := q / p) in *.
  assert (N1 : nr s 13102 (Q /: P)) by (eapply nr_w; [apply nr_div; auto; [exact HQ|exact HP|lra]|lra]).
  set (w := s / (1 + s)). assert (Ew : s = w * (1 + s)) by (unfold w; field; lra). assert (Bw : 1.8e-5 <= w <= 1) by (split; nra).
  assert (N2 : nr (1 + s) (13758 * w + 1) Y).
  { destruct HY as [-> | ->].
    - eapply nr_w; [apply (nr_add rd Hrd 1 0 _ s 13102 _ (13102 * w)); auto; try lra; [apply nr_exact|]|lra]. rewrite !Rabs_pos_eq by lra. nra.
    - apply nr_x with (s + 1); [|ring]. eapply nr_w; [apply (nr_add rd Hrd s 13102 _ 1 0 _ (13102 * w)); auto; try lra; [apply nr_exact|]|lra]. rewrite !Rabs_pos_eq by lra. nra. }
  assert (Ne : nr (2 / 7) 1 (Fin 2 /: Fin 7)). { apply nr_w with (0 + 0 + 1); [|lra]. apply (nr_div rd Hrd); [apply nr_exact|apply nr_exact|lra]. }
  assert (L : 0 <= ln (1 + s) <= 5.4). { split; [apply ln_1p_le; lra|]. apply Rle_trans with (ln 201); [|interval]. destruct (Req_dec s 200) as [->|]; [right; f_equal; ring|]. left. apply ln_increasing; lra. }
  assert (N3 : nr (Rpower (1 + s) (2 / 7)) (4050 * w + 3) (power (FL rd) Y (Fin 2 /: Fin 7))).
  { eapply nr_w; [apply nr_power; auto; [exact N2|exact Ne|lra|lra]|]. rewrite (Rabs_pos_eq (2 / 7)), (Rabs_pos_eq (2 / 7 * ln (1 + s))) by lra. lra. }
  pose proof (pow27_lb s ltac:(lra)) as Z. fold w in Z. set (z := Rpower (1 + s) (2 / 7)) in *.
  assert (N4 : nr (z - 1) 599500 (power (FL rd) Y (Fin 2 /: Fin 7) -: Fin 1)).
  { eapply nr_w; [apply (nr_sub rd Hrd z (4050 * w + 3) _ 1 0 _ 570000 N3 (nr_exact 1)); try lra|lra]. rewrite (Rabs_pos_eq (z - 1)), (Rabs_pos_eq z) by lra.
    assert (I1 : 4050 * w + 3 <= (570000 - (4050 * w + 3)) * (2 / 7 * w)) by nra.
    assert (I2 : (570000 - (4050 * w + 3)) * (2 / 7 * w) <= (570000 - (4050 * w + 3)) * (z - 1)) by (apply Rmult_le_compat_l; lra).
    lra. }
  eapply nr_w; [apply nr_sqrt; auto; [apply nr_mul; auto; [apply nr_div; auto; [apply nr_mul; auto; [apply nr_exact|exact HP]|exact HD|lra]|exact N4]|]|lra].
  apply Rmult_le_pos; [|lra]. left. apply Rdiv_lt_0_compat; lra.
Qed.
End Cas.

Lemma tR_ub : forall h dT, -1000 <= h -> tR h dT <= 309.65.
Proof. intros h dT H. pose proof (clipT_range dT). unfold tR. apply Rmax_lub; uc; lra. Qed.
Lemma rho_lb : forall h dT, h <= 20000 -> 0.0763 <= rhoR h dT.
Proof.
  intros h dT H. pose proof (T0s_pos dT). pose proof (tR_lb h dT). pose proof (clipT_range dT). unfold rhoR.
  assert (L : 0.728 <= tR h dT / (T0 + clipT dT)). { apply Rmult_le_reg_r with (T0 + clipT dT); try lra; unfold Rdiv; rewrite Rmult_assoc, Rinv_l by lra; uc; lra. }
  assert (A : 0.2586 <= Rpower (tR h dT / (T0 + clipT dT)) 4.256848030018761).
  { apply Rle_trans with (Rpower 0.728 4.256848030018761); [clear; unfold Rpower; interval|apply Rpower_le_base; lra]. }
  assert (B : 0.2418 <= exp (- Rmax 0.0 (h - 11000.0) / 6341.552161)).
  { apply Rle_trans with (exp (- 9000 / 6341.552161)); [clear; interval|]. assert (E : - 9000 / 6341.552161 <= - Rmax 0.0 (h - 11000.0) / 6341.552161).
    { apply Rmult_le_compat_r; [left; apply Rinv_0_lt_compat; lra|]. assert (Rmax 0.0 (h - 11000.0) <= 9000) by (apply Rmax_lub; lra). lra. }
    destruct E as [E| ->]; [left; apply exp_increasing; auto|lra]. }
  uc. nra.
Qed.
Lemma rho_ub : forall h dT, -1000 <= h -> rhoR h dT <= 1.362.
Proof.
  intros h dT H. pose proof (T0s_pos dT). pose proof (tR_pos h dT). pose proof (clipT_range dT). unfold rhoR.
  assert (U : tR h dT <= T0 + clipT dT + 6.5). { unfold tR. apply Rmax_lub; uc; lra. }
  assert (L : 0 < tR h dT / (T0 + clipT dT) <= 1.025).
  { split; [apply Rdiv_lt_0_compat; lra|]. apply Rmult_le_reg_r with (T0 + clipT dT); try lra; unfold Rdiv; rewrite Rmult_assoc, Rinv_l by lra; uc; lra. }
  assert (A : 0 < Rpower (tR h dT / (T0 + clipT dT)) 4.256848030018761 <= 1.1109).
  { split; [apply Rpower_pos|]. apply Rle_trans with (Rpower 1.025 4.256848030018761); [apply Rpower_le_base; lra|clear; unfold Rpower; interval]. }
  assert (B : 0 < exp (- Rmax 0.0 (h - 11000.0) / 6341.552161) <= 1).
  { split; [apply exp_pos|]. rewrite <- exp_0. assert (E : - Rmax 0.0 (h - 11000.0) / 6341.552161 <= 0). { assert (0 <= Rmax 0.0 (h - 11000.0)) by (eapply Rle_trans; [|apply Rmax_l]; lra). unfold Rdiv. assert (0 < / 6341.552161) by (apply Rinv_0_lt_compat; lra). nra. }
    destruct E as [E| ->]; [left; apply exp_increasing; auto|lra]. }
  uc. nra.
Qed.
Lemma p_bounds : forall h dT, -1000 <= h <= 20000 -> 4190 <= pR h dT <= 121100.
Proof.
  intros h dT H. pose proof (rho_lb h dT ltac:(lra)). pose proof (rho_ub h dT ltac:(lra)). pose proof (tR_pos h dT). pose proof (tR_ub h dT ltac:(lra)). unfold pR. uc. split; nra.
Qed.
Lemma W_ub : forall e, 0 <= e <= 1.28 -> Rpower (1 + e) 3.5 - 1 <= 17.
Proof. intros e H. assert (Rpower (1 + e) 3.5 <= Rpower 2.28 3.5) by (apply Rpower_le_base; lra). assert (Rpower 2.28 3.5 <= 18) by (clear; unfold Rpower; interval). lra. Qed.

Section Thms.
Context (rd : rounding) (Hrd : accurate rd) (h dT : R) (Hh : -1000 <= h <= 20000).
Lemma tas2cas_fl : forall s, 10 <= s <= 700 -> nr (t2cR s h dT) 300000 (tas2cas (FL rd) (Fin s) (Fin h) (Fin dT)).
Proof.
  intros s Hs. destruct (atmos_fl rd Hrd h dT ltac:(lra)) as (P & D & K & E & NP' & ND & NK). unfold tas2cas. rewrite E.
  pose proof (p_bounds h dT Hh) as Bp. pose proof (rhoR_pos h dT). pose proof (tR_pos h dT). pose proof (tR_ub h dT ltac:(lra)).
  set (e := rhoR h dT * s * s / (7 * pR h dT)).
  assert (Ee : e = s * s / (7 * Rgas * tR h dT)) by (unfold e, pR; field; repeat split; uc; lra).
  assert (He : 1.6e-4 <= e <= 1.28).
  { rewrite Ee. assert (BX : 385000 <= 7 * Rgas * tR h dT <= 622300) by (uc; lra). set (X := 7 * Rgas * tR h dT) in *.
    split; apply Rmult_le_reg_r with X; try lra; replace (s * s / X * X) with (s * s) by (field; lra); nra. }
  unfold t2cR, conv. eapply vq_fl; auto.
  - apply nr_w with 1; [apply nr_cst; auto|]. apply Rle_refl.
  - apply nr_w with 1; [apply nr_cst; auto|]. apply Rle_refl.
  - eapply qd_fl; eauto; try lra. fold e. lra.
  - uc; lra.
  - uc; lra.
  - lra.
  - lra.
  - unfold qd. replace 7.0 with 7 by lra. replace 1.0 with 1 by lra. fold e. pose proof (pow35_lb e ltac:(lra)). pose proof (W_ub e ltac:(lra)).
    assert (WL : 3 * e <= Rpower (1 + e) 3.5 - 1) by lra. set (W := Rpower (1 + e) 3.5 - 1) in *. set (p := pR h dT) in *. split; apply Rmult_le_reg_r with p0; try (uc; lra); replace (p * W / p0 * p0) with (p * W) by (field; uc; lra); uc; nra.
Qed.
Lemma cas2tas_fl : forall s, 10 <= s <= 700 -> nr (c2tR s h dT) 300000 (cas2tas (FL rd) (Fin s) (Fin h) (Fin dT)).
Proof.
  intros s Hs. destruct (atmos_fl rd Hrd h dT ltac:(lra)) as (P & D & K & E & NP' & ND & NK). unfold cas2tas. rewrite E.
  pose proof (p_bounds h dT Hh) as Bp. pose proof (rhoR_pos h dT).
  set (e := rho0 * s * s / (7 * p0)).
  assert (He : 1.7e-4 <= e <= 0.85).
  { unfold e. replace (rho0 * s * s / (7 * p0)) with (s * s * (rho0 / (7 * p0))) by (field; uc; lra). assert (1.727e-6 <= rho0 / (7 * p0) <= 1.728e-6) by (uc; lra). split; nra. }
  unfold c2tR, conv. eapply vq_fl; eauto; try lra.
  - eapply qd_fl; auto; [apply nr_cst; auto|apply nr_cst; auto|uc; lra|uc; lra|lra|lra|]. fold e. lra.
  - unfold qd. replace 7.0 with 7 by lra. replace 1.0 with 1 by lra. fold e. pose proof (pow35_lb e ltac:(lra)).
    assert (U : Rpower (1 + e) 3.5 - 1 <= 7.7). { assert (Rpower (1 + e) 3.5 <= Rpower 1.85 3.5) by (apply Rpower_le_base; lra). assert (Rpower 1.85 3.5 <= 8.7) by (clear; unfold Rpower; interval). lra. }
    assert (WL : 3 * e <= Rpower (1 + e) 3.5 - 1) by lra. set (W := Rpower (1 + e) 3.5 - 1) in *. set (p := pR h dT) in *. split; apply Rmult_le_reg_r with p; try lra; replace (p0 * W / p * p) with (p0 * W) by (field; lra); uc; nra.
Qed.
(** calibrated and true airspeed between 10 and 700 m/s are correct to nine digits *)
Theorem C113_conversions : forall s, 10 <= s <= 700 ->
  within 3e-10 (tas2cas NP (Fin s) (Fin h) (Fin dT)) (tas2cas (FL rd) (Fin s) (Fin h) (Fin dT)) /\
  within 3e-10 (cas2tas NP (Fin s) (Fin h) (Fin dT)) (cas2tas (FL rd) (Fin s) (Fin h) (Fin dT)).
Proof.
  intros s Hs. rewrite tas2cas_NP, cas2tas_NP. split.
  - apply nr_within with 300000; [apply tas2cas_fl; auto|lra|lra].
  - apply nr_within with 300000; [apply cas2tas_fl; auto|lra|lra].
Qed.
End Thms.

(** How a relative change of the input spreads. *)
Lemma pow35_scale : forall e l, 0 <= e -> 1 <= l -> Rpower (1 + l * e) 3.5 - 1 <= Rpower l 3.5 * (Rpower (1 + e) 3.5 - 1).
Proof.
  intros e l He Hl. assert (P : 0 < / l <= 1). { split; [apply Rinv_0_lt_compat; lra|]. rewrite <- Rinv_1. apply Rinv_le_contravar; lra. }
  set (a := / l) in *.
  assert (I : Rpower (a + e) 3.5 - Rpower a 3.5 <= Rpower (1 + e) 3.5 - Rpower 1 3.5).
  { destruct (Req_dec a 1) as [->|N]; [lra|]. destruct (MVT_gen (fun t => Rpower (t + e) 3.5 - Rpower t 3.5) a 1 (fun t => 3.5 * (Rpower (t + e) 2.5 - Rpower t 2.5))) as (c & Bc & E).
    - intros x [B _]. rewrite Rmin_left in B by lra. unfold Rpower. auto_derive; [lra|]. 
      replace (2.5 * ln (x + e)) with (3.5 * ln (x + e) + - ln (x + e)) by lra. replace (2.5 * ln x) with (3.5 * ln x + - ln x) by lra.
      rewrite !exp_plus, !exp_Ropp, !exp_ln by lra. qr. field. lra.
    - intros x [B _]. rewrite Rmin_left in B by lra. unfold Rpower. apply derivable_continuous_pt. exists (3.5 * (Rpower (x + e) 2.5 - Rpower x 2.5)). apply is_derive_Reals. unfold Rpower. auto_derive; [lra|].
      replace (2.5 * ln (x + e)) with (3.5 * ln (x + e) + - ln (x + e)) by lra. replace (2.5 * ln x) with (3.5 * ln x + - ln x) by lra.
      rewrite !exp_plus, !exp_Ropp, !exp_ln by lra. qr. field. lra.
    - rewrite Rmin_left, Rmax_right in Bc by lra. assert (Rpower c 2.5 <= Rpower (c + e) 2.5) by (apply Rpower_le_base; lra). nra. }
  rewrite Rpower_one in I.
  assert (E1' : 1 + l * e = l * (a + e)) by (unfold a; field; lra). rewrite E1', Rpower_mult_distr' by lra.
  assert (E2' : Rpower l 3.5 * Rpower a 3.5 = 1) by (rewrite <- Rpower_mult_distr' by lra; unfold a; rewrite Rinv_r by lra; apply Rpower_one).
  pose proof (Rpower_pos l 3.5). nra.
Qed.
Lemma pow35_convex : forall y k, 0 <= y -> 1 <= k -> k * (Rpower (1 + y) 3.5 - 1) <= Rpower (1 + k * y) 3.5 - 1.
Proof.
  intros y k Hy Hk.
  assert (D : forall x, 0 < 1 + x * y -> is_derive (fun t => Rpower (1 + t * y) 3.5) x (3.5 * y * Rpower (1 + x * y) 2.5)).
  { intros x P. unfold Rpower. auto_derive; [lra|]. replace (2.5 * ln (1 + x * y)) with (3.5 * ln (1 + x * y) + - ln (1 + x * y)) by lra. rewrite exp_plus, exp_Ropp, exp_ln by lra. qr. field. lra. }
  assert (M : forall a b, 0 <= a < b -> exists c, a <= c <= b /\ Rpower (1 + b * y) 3.5 - Rpower (1 + a * y) 3.5 = 3.5 * y * Rpower (1 + c * y) 2.5 * (b - a)).
  { intros a b Hab. destruct (MVT_gen (fun t => Rpower (1 + t * y) 3.5) a b (fun x => 3.5 * y * Rpower (1 + x * y) 2.5)) as (c & Bc & E).
    - intros x [B _]. rewrite Rmin_left in B by lra. apply D. nra.
    - intros x [B _]. rewrite Rmin_left in B by lra. apply derivable_continuous_pt. eexists. apply is_derive_Reals. apply D. nra.
    - rewrite Rmin_left, Rmax_right in Bc by lra. exists c. split; auto. }
  destruct (M 0 1 ltac:(lra)) as (c & Bc & Ec). replace (1 + 0 * y) with 1 in Ec by ring. rewrite Rpower_one, Rmult_1_l in Ec.
  destruct (Req_dec k 1) as [->|N]; [rewrite !Rmult_1_l; lra|].
  destruct (M 1 k ltac:(lra)) as (d & Bd & Ed). rewrite Rmult_1_l in Ed.
  assert (Rpower (1 + c * y) 2.5 <= Rpower (1 + d * y) 2.5) by (apply Rpower_le_base; [nra|nra|lra]).
  assert (3.5 * y * Rpower (1 + c * y) 2.5 * (k - 1) <= 3.5 * y * Rpower (1 + d * y) 2.5 * (k - 1)). { apply Rmult_le_compat_r; [lra|]. apply Rmult_le_compat_l; lra. }
  rewrite Rminus_0_r, Rmult_1_r in Ec. nra.
Qed.
Lemma pow27_scale : forall s k, 0 <= s -> 1 <= k -> Rpower (1 + k * s) (2 / 7) - 1 <= k * (Rpower (1 + s) (2 / 7) - 1).
Proof.
  intros s k Hs Hk. set (y := Rpower (1 + s) (2 / 7) - 1). assert (Py : 0 <= y) by (unfold y; pose proof (Rpower_ge_1 (1 + s) (2 / 7) ltac:(lra) ltac:(lra)); lra).
  assert (Es : Rpower (1 + y) 3.5 = 1 + s). { unfold y. replace (1 + (Rpower (1 + s) (2 / 7) - 1)) with (Rpower (1 + s) (2 / 7)) by ring. rewrite Rpower_mult. replace (2 / 7 * 3.5) with 1 by lra. apply Rpower_1. lra. }
  pose proof (pow35_convex y k Py Hk) as C. rewrite Es in C.
  assert (Q : Rpower (1 + k * s) (2 / 7) <= Rpower (Rpower (1 + k * y) 3.5) (2 / 7)) by (apply Rpower_le_base; nra).
  rewrite Rpower_mult in Q. replace (3.5 * (2 / 7)) with 1 in Q by lra. rewrite Rpower_1 in Q by nra. lra.
Qed.
Lemma conv_scale : forall p1 r1 p2 r2 s m, 0 < p1 -> 0 < r1 -> 0 < p2 -> 0 < r2 -> 0 <= s -> 1 <= m ->
  conv p1 r1 p2 r2 (m * s) <= Rpower m 3.5 * conv p1 r1 p2 r2 s.
Proof.
  intros p1 r1 p2 r2 s m Pp1 Pr1 Pp2 Pr2 Hs Hm. unfold conv, vq, qd. replace 7.0 with 7 by lra. replace 1.0 with 1 by lra. replace 2.0 with 2 by lra.
  set (e := r1 * s * s / (7 * p1)). assert (Pe : 0 <= e). { unfold e. apply Rmult_le_pos; [nra|]. left. apply Rinv_0_lt_compat. lra. }
  replace (r1 * (m * s) * (m * s) / (7 * p1)) with (m * m * e) by (unfold e; field; lra).
  set (k := Rpower (m * m) 3.5). assert (Hk : 1 <= k) by (apply Rpower_ge_1; nra).
  pose proof (pow35_scale e (m * m) Pe ltac:(nra)) as A. fold k in A.
  set (W := Rpower (1 + e) 3.5 - 1) in *. assert (PW : 0 <= W) by (unfold W; pose proof (Rpower_ge_1 (1 + e) 3.5 ltac:(lra) ltac:(lra)); lra).
  set (W' := Rpower (1 + m * m * e) 3.5 - 1) in *. assert (PW' : 0 <= W') by (unfold W'; pose proof (Rpower_ge_1 (1 + m * m * e) 3.5 ltac:(nra) ltac:(lra)); lra).
  set (q := p1 * W / p2). assert (Pq : 0 <= q). { unfold q. apply Rmult_le_pos; [nra|]. left. apply Rinv_0_lt_compat. lra. }
  assert (Q' : p1 * W' / p2 <= k * q). { unfold q. replace (k * (p1 * W / p2)) with (p1 * (k * W) / p2) by (field; lra). apply Rmult_le_compat_r; [left; apply Rinv_0_lt_compat; lra|]. apply Rmult_le_compat_l; lra. }
  assert (Pq' : 0 <= p1 * W' / p2). { apply Rmult_le_pos; [nra|]. left. apply Rinv_0_lt_compat. lra. }
  pose proof (pow27_scale q k Pq Hk) as B.
  assert (B' : Rpower (1 + p1 * W' / p2) (2 / 7) <= Rpower (1 + k * q) (2 / 7)) by (apply Rpower_le_base; lra).
  assert (F : 0 < 7 * p2 / r2) by (apply Rdiv_lt_0_compat; lra).
  assert (Z : 0 <= Rpower (1 + q) (2 / 7) - 1) by (pose proof (Rpower_ge_1 (1 + q) (2 / 7) ltac:(lra) ltac:(lra)); lra).
  assert (Ek : Rpower m 3.5 = sqrt k). { unfold k. rewrite Rpower_mult_distr' by lra. rewrite sqrt_square; auto. left. apply Rpower_pos. }
  rewrite Ek, <- sqrt_mult; [|lra|apply Rmult_le_pos; lra]. apply sqrt_le_1_alt. 
  replace (k * (7 * p2 / r2 * (Rpower (1 + q) (2 / 7) - 1))) with (7 * p2 / r2 * (k * (Rpower (1 + q) (2 / 7) - 1))) by ring. apply Rmult_le_compat_l; lra.
Qed.
Lemma conv_nr : forall p1 r1 p2 r2 s t, 0 < p1 -> 0 < r1 -> 0 < p2 -> 0 < r2 -> 0 < s -> exists t', conv p1 r1 p2 r2 (s * exp t) = conv p1 r1 p2 r2 s * exp t' /\ Rabs t' <= 3.5 * Rabs t.
Proof.
  assert (Up : forall p1 r1 p2 r2 s t, 0 < p1 -> 0 < r1 -> 0 < p2 -> 0 < r2 -> 0 < s -> 0 <= t -> exists t', conv p1 r1 p2 r2 (s * exp t) = conv p1 r1 p2 r2 s * exp t' /\ 0 <= t' <= 3.5 * t).
  { intros p1 r1 p2 r2 s t P1 R1 P2 R2 Ps Pt. assert (He : 1 <= exp t) by (pose proof (exp_ineq1_le t); lra).
    pose proof (conv_scale p1 r1 p2 r2 s (exp t) P1 R1 P2 R2 ltac:(lra) He) as U. rewrite Rmult_comm in U.
    assert (L : conv p1 r1 p2 r2 s <= conv p1 r1 p2 r2 (s * exp t)). { destruct (Req_dec (exp t) 1) as [->|N]; [rewrite Rmult_1_r; lra|]. left. apply conv_incr; auto. split; [lra|nra]. }
    assert (C : 0 < conv p1 r1 p2 r2 s). { rewrite <- (conv_0 p1 r1 p2 r2 P1). apply conv_incr; auto. lra. }
    exists (ln (conv p1 r1 p2 r2 (s * exp t) / conv p1 r1 p2 r2 s)). set (A := conv p1 r1 p2 r2 (s * exp t)) in *. set (B := conv p1 r1 p2 r2 s) in *.
    assert (Q1 : 1 <= A / B). { apply Rmult_le_reg_r with B; auto. replace (A / B * B) with A by (field; lra). lra. }
    assert (Q2 : A / B <= exp (3.5 * t)). { apply Rmult_le_reg_r with B; auto. replace (A / B * B) with A by (field; lra). unfold Rpower in U. rewrite ln_exp in U. lra. }
    split; [rewrite exp_ln by lra; field; lra|]. split.
    - rewrite <- ln_1. destruct Q1 as [Q1| <-]; [left; apply ln_increasing; lra|lra].
    - rewrite <- (ln_exp (3.5 * t)). destruct Q2 as [Q2| ->]; [left; apply ln_increasing; lra|lra]. }
  intros p1 r1 p2 r2 s t P1 R1 P2 R2 Ps. destruct (Rle_dec 0 t) as [Pt|Nt].
  - destruct (Up p1 r1 p2 r2 s t P1 R1 P2 R2 Ps Pt) as (t' & E & B). exists t'. split; auto. rewrite !Rabs_pos_eq; lra.
  - pose proof (exp_pos t). destruct (Up p1 r1 p2 r2 (s * exp t) (- t) P1 R1 P2 R2 ltac:(nra) ltac:(lra)) as (t' & E & B).
    replace (s * exp t * exp (- t)) with s in E by (rewrite Rmult_assoc, <- exp_plus; replace (t + - t) with 0 by ring; rewrite exp_0; ring).
    exists (- t'). split; [|rewrite Rabs_Ropp, Rabs_pos_eq, Rabs_left; lra]. rewrite E, Rmult_assoc, <- exp_plus. replace (t' + - t') with 0 by ring. rewrite exp_0. ring.
Qed.

(** there and back again, as long as the calibrated airspeed is between 11 and 690 m/s *)
Theorem C113_round_trip : forall rd, accurate rd -> forall s h dT, -1000 <= h <= 20000 -> 10 <= s <= 700 ->
  fle (Fin 11) (tas2cas NP (Fin s) (Fin h) (Fin dT)) -> fle (tas2cas NP (Fin s) (Fin h) (Fin dT)) (Fin 690) ->
  within 2e-9 (Fin s) (cas2tas (FL rd) (tas2cas (FL rd) (Fin s) (Fin h) (Fin dT)) (Fin h) (Fin dT)).
Proof.
  intros rd Hrd s h dT Hh Hs L U. rewrite tas2cas_NP in L, U. cbn [fle] in L, U. destruct (tas2cas_fl rd Hrd h dT Hh s Hs) as (t & -> & Bt).
  set (c := t2cR s h dT) in *. pose proof v_pos. pose proof v_small.
  assert (St : Rabs t <= 0.01) by nra. pose proof (exp_m1 t 0.01 St ltac:(lra)) as Q. apply Rabs_le_inv in Q.
  destruct (cas2tas_fl rd Hrd h dT Hh (c * exp t) ltac:(nra)) as (t2 & -> & B2).
  unfold c2tR. destruct (conv_nr p0 rho0 (pR h dT) (rhoR h dT) c t p0_pos rho0_pos (pR_pos h dT) (rhoR_pos h dT) ltac:(lra)) as (t' & -> & Bt').
  change (conv p0 rho0 (pR h dT) (rhoR h dT) c) with (c2tR c h dT). unfold c. rewrite c2tR_t2cR, Rabs_pos_eq by lra.
  apply nr_within with 1400000; [|lra|lra]. exists (t' + t2). split; [rewrite exp_plus; f_equal; ring|]. eapply Rle_trans; [apply Rabs_triang|]. lra.
Qed.
(** 250 m/s at 10 km *)
Example C113_ex : within 3e-10 (tas2cas NP (Fin 250) (Fin 10000) (Fin 0)) (tas2cas (FL binary64) (Fin 250) (Fin 10000) (Fin 0)).
Proof. apply (C113_conversions binary64 (proj1 C112_binary64) 10000 0); lra. Qed.

(** A speed of a nanometre per second has no calibrated airspeed in binary64: the sum 1 + M^2/5 rounds to 1. *)
Lemma r64_0 : forall o l, binary64 o l 0 = 0.
Proof. intros. unfold binary64. apply round_0. apply valid_rnd_N. Qed.
Lemma r64_1 : forall o l, binary64 o l 1 = 1.
Proof. intros. apply (proj2 (proj1 C112_binary64) 1%Z). cbn. lia. Qed.
Lemma r64_near1 : forall o l x, 1 <= x <= 1 + / 2 ^ 54 -> binary64 o l x = 1.
Proof.
  intros o l x H. apply Rle_antisym.
  - unfold binary64. apply round_N_le_midp; [apply FLX_exp_valid; reflexivity| |].
    + apply generic_format_FLX. exists (Float radix2 1 0); [unfold F2R; cbn; ring|cbn; lia].
    + rewrite succ_eq_pos by lra. unfold ulp. rewrite Req_bool_false by lra. unfold cexp. rewrite (mag_unique_pos radix2 1 1) by (cbn; lra). cbn -[pow]. lra.
  - rewrite <- (r64_1 o l). apply (proj2 C112_binary64). lra.
Qed.
Theorem C113_tiny_refuted : tas2cas (FL binary64) (Fin 1e-9) (Fin 0) (Fin 0) = Fin 0 /\ flt (Fin 0) (tas2cas NP (Fin 1e-9) (Fin 0) (Fin 0)).
Proof.
  split.
  - destruct C112_binary64 as [A M]. destruct (atmos_fl binary64 A 0 0 ltac:(lra)) as (P & D & K & E & NP' & ND & NK). unfold tas2cas. rewrite E.
    rewrite (c1 binary64 A), (c7 binary64 A), (c2 binary64 A).
    pose proof (p_bounds 0 0 ltac:(lra)) as Bp. pose proof (rho_ub 0 0 ltac:(lra)). pose proof (rhoR_pos 0 0).
    assert (N : nr (rhoR 0 0 * 1e-9 * 1e-9 / (7 * pR 0 0)) 193 (div (FL binary64) (mul (FL binary64) (mul (FL binary64) D (Fin 1e-9)) (Fin 1e-9)) (mul (FL binary64) (Fin 7) P))).
    { eapply nr_w; [apply (nr_div binary64 A); [apply nr_mul; auto; [apply nr_mul; auto; [exact ND|apply nr_exact]|apply nr_exact]|apply nr_mul; auto; [apply nr_exact|exact NP']|lra]|lra]. }
    destruct N as (t & -> & Bt). set (e := rhoR 0 0 * 1e-9 * 1e-9 / (7 * pR 0 0)) in *.
    assert (He : 0 <= e <= 1e-20). { unfold e. split; [apply Rmult_le_pos; [nra|left; apply Rinv_0_lt_compat; lra]|]. assert (Ri : / (7 * pR 0 0) <= / 7000) by (apply Rinv_le_contravar; lra). unfold Rdiv. assert (0 < / (7 * pR 0 0)) by (apply Rinv_0_lt_compat; lra). replace (rhoR 0 0 * 1e-9 * 1e-9 * / (7 * pR 0 0)) with (1e-9 * 1e-9 * (rhoR 0 0 * / (7 * pR 0 0))) by ring. assert (rhoR 0 0 * / (7 * pR 0 0) <= 1.362 * / 7000) by (apply Rmult_le_compat; lra). lra. }
    pose proof v_pos. pose proof v_small. assert (St : Rabs t <= 0.01) by nra. pose proof (exp_m1 t 0.01 St ltac:(lra)) as Q. apply Rabs_le_inv in Q.
    assert (E1' : add (FL binary64) (Fin 1) (Fin (e * exp t)) = Fin 1). { cbn [add FL]. unfold fadd. cbn [eadd rnd]. rewrite r64_near1; auto. nra. }
    rewrite E1'. destruct (nr_cst binary64 A 3.5) as (t3 & -> & _).
    assert (E2' : forall y, power (FL binary64) (Fin 1) (Fin y) = Fin 1). { intros y. cbn [power FL]. rewrite epower_fin by lra. cbn [rnd]. rewrite Rpower_one, r64_1. reflexivity. }
    rewrite E2'. destruct NP' as (tp & -> & _).
    assert (E3 : sub (FL binary64) (Fin 1) (Fin 1) = Fin 0). { cbn [sub FL]. unfold fsub. cbn [esub rnd]. replace (1 - 1) with 0 by ring. rewrite r64_0. reflexivity. }
    rewrite E3. assert (E4 : forall y, mul (FL binary64) (Fin y) (Fin 0) = Fin 0). { intros y. cbn [mul FL]. unfold fmul. cbn [emul rnd]. rewrite Rmult_0_r, r64_0. reflexivity. }
    rewrite E4. destruct (nr_cst binary64 A p0) as (tp0 & -> & _). destruct (nr_cst binary64 A rho0) as (tr0 & -> & _).
    assert (Pp : 0 < p0 * exp tp0) by (pose proof (exp_pos tp0); uc; nra). assert (Pr : 0 < rho0 * exp tr0) by (pose proof (exp_pos tr0); uc; nra).
    assert (E5 : div (FL binary64) (Fin 0) (Fin (p0 * exp tp0)) = Fin 0). { cbn [div FL]. unfold fdiv. rewrite ediv_fin by lra. cbn [rnd]. unfold Rdiv. rewrite Rmult_0_l, r64_0. reflexivity. }
    rewrite E5. assert (E6 : add (FL binary64) (Fin 0) (Fin 1) = Fin 1). { cbn [add FL]. unfold fadd. cbn [eadd rnd]. rewrite Rplus_0_l, r64_1. reflexivity. }
    rewrite E6. assert (E7 : exists y, div (FL binary64) (Fin 2) (Fin 7) = Fin y). { cbn [div FL]. unfold fdiv. rewrite ediv_fin by lra. eexists. reflexivity. }
    destruct E7 as (y & ->). rewrite E2', E3.
    assert (E8 : exists y', div (FL binary64) (mul (FL binary64) (Fin 7) (Fin (p0 * exp tp0))) (Fin (rho0 * exp tr0)) = Fin y').
    { cbn [mul FL]. unfold fmul. cbn [emul rnd]. cbn [div FL]. unfold fdiv. rewrite ediv_fin by lra. eexists. reflexivity. }
    destruct E8 as (y' & ->). rewrite E4. cbn [bsqrt FL esqrt]. destruct (Rle_dec 0 0) as [_|Nn]; [|lra]. rewrite sqrt_0. cbn [rnd]. rewrite r64_0. reflexivity.
  - rewrite tas2cas_NP. cbn [flt]. pose proof (t2cR_incr 0 1e-9 0 0 ltac:(lra)) as Q. rewrite t2cR_0 in Q. exact Q.
Qed.
