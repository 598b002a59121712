(** * Property C81: contrail formulas against the published closed forms *)
From Coq Require Import Reals List Bool Lra Lia Psatz.
From Coquelicot Require Import Coquelicot.
From Interval Require Import Tactic.
From Verif Require Import Num NumFacts SpecNum Contrail ContrailFacts.
Import ListNotations.
Open Scope R_scope.

(** ** The published formulas, written without reference to the model
    (pressures in Pa, temperatures in K, angles in degrees) *)
(** Murphy and Koop 2005, equations 7 and 10 (the references of openap/contrail.py:56, 88) *)
Definition mk_ice (T : R) : R := exp (9.550426 - 5723.265 / T + 3.53068 * ln T - 0.00728332 * T).
Definition mk_water (T : R) : R :=
  exp (54.842763 - 6763.22 / T - 4.210 * ln T + 0.000367 * T
       + tanh (0.0415 * (T - 218.8)) * (53.878 - 1331.22 / T - 9.44523 * ln T + 0.014025 * T)).
(** vapour pressure of air with specific humidity q at pressure p: both gases ideal *)
Definition vapour_pressure (q p : R) : R := q * p * 461.51 / 287.05.
(** Schumann 1996: slope of the mixing line, with the hydrogen content, heat capacity, mass ratio and
    heat of combustion listed in openap/contrail.py:37-40 *)
Definition mixing_slope (p eta : R) : R := 1.2232 * 1004 / (0.622 * 43e6) * p / (1 - eta).
Definition threshold (G : R) : R := 273.15 - 46.46 + 9.43 * ln (G - 0.053) + 0.72 * (ln (G - 0.053)) ^ 2.

Theorem C81_humidity_laws : forall q p T, 0 < T <= 10000 ->
  saturation_pressure_over_ice NP (Fin T) = Fin (mk_ice T) /\
  saturation_pressure_over_water NP (Fin T) = Fin (mk_water T) /\
  relative_humidity NP (Fin q) (Fin p) (Fin T) Ice = Fin (vapour_pressure q p / mk_ice T) /\
  relative_humidity NP (Fin q) (Fin p) (Fin T) Water = Fin (vapour_pressure q p / mk_water T) /\
  (forall rh, rhw2rhi NP (Fin rh) (Fin T) = Fin (rh * (mk_water T / mk_ice T))).
Proof.
  intros q p T HT. change (mk_ice T) with (exp (liR T)). change (mk_water T) with (exp (lwR T)).
  pose proof (exp_pos (liR T)) as P1. pose proof (exp_pos (lwR T)) as P2.
  unfold relative_humidity, rhw2rhi. rewrite ice_NP, water_NP by auto.
  cbn [cst NP mul emul div]. unfold gas_constant_water_vapor, gas_constant_dry_air, vapour_pressure.
  rewrite (ediv_fin 461.51) by lra. cbn [emul]. rewrite !ediv_fin by lra.
  repeat split; intros; cbn [emul]; rewrite ?ediv_fin by lra; f_equal.
  all: unfold Rdiv; ring.
Qed.

Theorem C81_threshold_laws : forall p eta, eta < 1 ->
  isobaric_mixing_slope NP (Fin p) (Fin eta) = Fin (mixing_slope p eta) /\
  (0.053 < mixing_slope p eta -> critical_temperature_water NP (Fin p) (Fin eta) = Fin (threshold (mixing_slope p eta))) /\
  (mixing_slope p eta <= 0.053 -> critical_temperature_water NP (Fin p) (Fin eta) = NaN).
Proof.
  intros p eta H. assert (E : mixing_slope p eta = gR p eta).
  { unfold mixing_slope, gR. replace 43e6 with 43000000 by lra. qr. field. lra. }
  rewrite E. split; [apply slope_NP; lra|]. split; intros G.
  - rewrite crit_NP by (auto; lra). f_equal. unfold twR, threshold. lra.
  - apply crit_NaN; auto; lra.
Qed.

(** the ice threshold solves "saturation over ice = the mixing line through the water threshold" *)
Theorem C81_ice_threshold_law : forall t tw G, 0 < t <= 10000 -> 0 < tw <= 10000 ->
  crit_func NP (Fin t) (Fin tw) (Fin G) = Fin 0 <-> mk_ice t = mk_water tw - G * (tw - t).
Proof.
  intros. rewrite crit_func_NP by auto. unfold ceR. change (mk_ice t) with (exp (liR t)). change (mk_water tw) with (exp (lwR tw)).
  split; [intros E; apply Fin_inj in E; lra|intros E; f_equal; lra].
Qed.

(** shortwave forcing: solar flux times squared transmittance margin times contrail albedo times the
    effect of natural cirrus above *)
Definition sw_mu (z : R) : R := cos (z * PI / 180).
Definition size_factor : R := 1 - 0.512 * (1 - exp (- (0.15 * 16))).
Definition angular (mu : R) : R := (if Rlt_dec mu 1 then Rpower (2 * (1 - mu)) 1.676 else 0) - 1.
Definition contrail_albedo (mu tau : R) : R :=
  let d := tau * size_factor / mu in
  (1 - exp (- (0.242 * d))) * (0.709 + 0.361 * exp (- (0.323 * d)) * angular mu).
Definition cirrus_effect (mu tau_c : R) : R := exp (tau_c * (0.157 - 0.23 * size_factor / mu)).

Theorem C81_shortwave_law : forall z tau tau_c, 0 <= z < 90 -> 0 <= tau -> 0 <= tau_c <= 4000 ->
  rf_shortwave NP (Fin z) (Fin tau) (Fin tau_c) =
  Fin (- (1361 * sw_mu z * (0.879 - 0.2) ^ 2 * contrail_albedo (sw_mu z) tau * cirrus_effect (sw_mu z) tau_c)).
Proof.
  intros z tau tau_c Hz Ht Hc. rewrite sw_NP by auto. f_equal.
  assert (M : muR z = sw_mu z) by (unfold muR, sw_mu; f_equal; field).
  pose proof (muR_range z Hz) as Hm. unfold swR. rewrite M in *. set (mu := sw_mu z) in *. clearbody mu.
  assert (F : FswR = size_factor) by (unfold FswR, size_factor; repeat f_equal; ring).
  assert (A : FmuR mu = angular mu).
  { unfold FmuR, angular, pwR. f_equal. destruct (Rlt_dec 0 (1 - mu)), (Rlt_dec mu 1); try lra.
    - replace (1 - mu) with (2 * (1 - mu) * (1 / 2)) at 1 by lra. rewrite <- Rpower_mult_distr by lra.
      pose proof (Rpower_pos (1 / 2) 1.676). field. lra. }
  assert (C : EswR mu tau_c = cirrus_effect mu tau_c).
  { unfold EswR, cirrus_effect. rewrite F. f_equal. field. lra. }
  rewrite C, A. unfold alR, contrail_albedo. cbv zeta. rewrite F.
  replace (- (0.242) * (tau * size_factor / mu)) with (- (0.242 * (tau * size_factor / mu))) by ring.
  replace (- (0.323) * (tau * size_factor / mu)) with (- (0.323 * (tau * size_factor / mu))) by ring. ring.
Qed.
(** longwave forcing: outgoing flux minus a linear function of the contrail temperature, never negative *)
Theorem C81_longwave_law : forall olr T, 
  rf_longwave NP (Fin olr) (Fin T) = Fin (Rmax 0 (olr - 1.935 * (T - 152))) /\
  (forall z tau tau_c s, rf_shortwave NP z tau tau_c = Fin s ->
     rf_net NP z tau tau_c (Fin olr) (Fin T) = Fin (s + Rmax 0 (olr - 1.935 * (T - 152)))).
Proof.
  intros olr T. assert (E : rf_longwave NP (Fin olr) (Fin T) = Fin (Rmax 0 (olr - 1.935 * (T - 152)))).
  { unfold rf_longwave. cbn [maximum NP cst mul emul sub esub emax]. f_equal. apply Rmax_comm. }
  split; auto. intros. unfold rf_net. rewrite E, H. reflexivity.
Qed.

(** Natural cirrus above the contrail weakens its cooling when the sun is low, but strengthens it when the
    sun is high; the factor changes sides at a zenith angle between 38 and 39 degrees. *)
Theorem C81_cirrus_above : forall z tau c d, 0 < tau -> 0 <= c < d -> d <= 4000 ->
  (39 <= z < 90 -> flt (rf_shortwave NP (Fin z) (Fin tau) (Fin c)) (rf_shortwave NP (Fin z) (Fin tau) (Fin d))) /\
  (0 <= z <= 38 -> flt (rf_shortwave NP (Fin z) (Fin tau) (Fin d)) (rf_shortwave NP (Fin z) (Fin tau) (Fin c))).
Proof.
  intros z tau c d Ht Hc Hd.
  assert (S : forall z, 0 <= z < 90 -> 0 < 1361 * sw_mu z * (0.879 - 0.2) ^ 2 * contrail_albedo (sw_mu z) tau).
  { clear z. intros z Hz. pose proof (C81_shortwave_law z tau 0 Hz ltac:(lra) ltac:(lra)) as E.
    pose proof (swR_mono z 0 tau 0 Hz ltac:(lra)) as N. rewrite swR_0 in N.
    rewrite sw_NP in E by lra. apply Fin_inj in E. rewrite E in N.
    assert (C : cirrus_effect (sw_mu z) 0 = 1) by (unfold cirrus_effect; rewrite Rmult_0_l; apply exp_0).
    rewrite C in N. lra. }
  assert (SF : 0.53444 < size_factor < 0.53448) by (unfold size_factor; split; interval).
  split; intros Hz; rewrite !C81_shortwave_law by lra; cbn [flt]; specialize (S z ltac:(lra));
  set (A := 1361 * sw_mu z * (0.879 - 0.2) ^ 2 * contrail_albedo (sw_mu z) tau) in *; clearbody A;
  apply Ropp_lt_contravar; apply Rmult_lt_compat_l; auto; unfold cirrus_effect; apply exp_increasing.
  - assert (M : 0 < sw_mu z <= 0.7772).
    { split.
      - pose proof (muR_range z ltac:(lra)) as P. unfold muR in P. unfold sw_mu.
        replace (z * PI / 180) with (z * (PI / 180)) by field. lra.
      - unfold sw_mu. apply Rle_trans with (cos (39 * PI / 180)); [|interval].
        pose proof PI_RGT_0. apply cos_decr_1; nra. }
    assert (K : 0.157 - 0.23 * size_factor / sw_mu z < 0); [|set (k := 0.157 - _) in *; clearbody k; clear - Hc K; nra].
    assert (0.157 * sw_mu z < 0.23 * size_factor) by nra.
    apply (Rmult_lt_reg_r (sw_mu z)); [lra|]. replace ((0.157 - 0.23 * size_factor / sw_mu z) * sw_mu z) with (0.157 * sw_mu z - 0.23 * size_factor) by (field; lra). lra.
  - assert (M : 0.788 <= sw_mu z).
    { unfold sw_mu. apply Rle_trans with (cos (38 * PI / 180)); [interval|].
      pose proof PI_RGT_0. apply cos_decr_1; nra. }
    assert (K : 0 < 0.157 - 0.23 * size_factor / sw_mu z); [|set (k := 0.157 - _) in *; clearbody k; clear - Hc K; nra].
    apply (Rmult_lt_reg_r (sw_mu z)); [lra|]. replace ((0.157 - 0.23 * size_factor / sw_mu z) * sw_mu z) with (0.157 * sw_mu z - 0.23 * size_factor) by (field; lra). nra.
Qed.

(** sun 60 degrees from overhead, contrail of depth 0.4 under cirrus of depth 0.36: about -21 W/m2; and a threshold at 250 hPa *)
Example C81_ex : fclose 1 (rf_shortwave NP (Fin 60) (Fin 0.4) (Fin 0.36)) (Fin (-21)) /\
  fclose 0.5 (critical_temperature_water NP (Fin 25000) (Fin 0.4)) (Fin 232.8).
Proof.
  split.
  - rewrite C81_shortwave_law by lra. unfold fclose, contrail_albedo, cirrus_effect, angular. cbv zeta.
    assert (sw_mu 60 = 0.5) as -> by (unfold sw_mu; replace (60 * PI / 180) with (PI / 3) by lra; rewrite cos_PI3; lra).
    destruct (Rlt_dec 0.5 1) as [L|L]; [clear L|lra].
    replace (Rpower (2 * (1 - 0.5)) 1.676) with 1 by (unfold Rpower; replace (2 * (1 - 0.5)) with 1 by lra; rewrite ln_1, Rmult_0_r, exp_0; auto).
    assert (SF : 0.53444 < size_factor < 0.53448) by (unfold size_factor; split; interval).
    set (sf := size_factor) in *. clearbody sf. interval.
  - destruct (C81_threshold_laws 25000 0.4 ltac:(lra)) as (_ & H & _).
    rewrite H by (unfold mixing_slope; interval). unfold fclose, threshold, mixing_slope. interval.
Qed.
