(** * Properties C54-C57 and C61-C63: contrail formation and forcing *)
From Coq Require Import Reals Ranalysis5 List Bool Lra Lia Psatz.
From Coquelicot Require Import Coquelicot.
From Interval Require Import Tactic.
From Verif Require Import Num NumFacts SpecNum Contrail ContrailFacts.
Import ListNotations.
Open Scope R_scope.

(** ** C54 *)
Theorem C54_humidity_conversion : forall q p t, 0 < t <= 10000 ->
  finite (relative_humidity NP (Fin q) (Fin p) (Fin t) Ice) /\
  rhw2rhi NP (relative_humidity NP (Fin q) (Fin p) (Fin t) Water) (Fin t)
  = relative_humidity NP (Fin q) (Fin p) (Fin t) Ice.
Proof.
  intros q p t Ht. unfold rhw2rhi, relative_humidity. rewrite water_NP, ice_NP by auto.
  pose proof (exp_pos (lwR t)). pose proof (exp_pos (liR t)).
  cbn [cst NP mul emul div].
  assert (G : gas_constant_dry_air <> 0) by (unfold gas_constant_dry_air; lra).
  rewrite ediv_fin by auto. cbn [emul]. rewrite !ediv_fin by lra. cbn [emul].
  rewrite ediv_fin by lra. split; [eexists; reflexivity|]. f_equal. field. repeat split; lra.
Qed.
(** 0.1 g/kg at 250 hPa and 225 K: about 82 % over ice *)
Example C54_ex : fclose 0.02 (rhw2rhi NP (relative_humidity NP (Fin 0.0001) (Fin 25000) (Fin 225) Water) (Fin 225)) (Fin 0.82).
Proof.
  rewrite (proj2 (C54_humidity_conversion 0.0001 25000 225 ltac:(lra))). unfold relative_humidity.
  rewrite ice_NP by lra. cbn [cst NP mul emul div]. unfold gas_constant_water_vapor, gas_constant_dry_air.
  rewrite ediv_fin by lra. cbn [emul]. rewrite ediv_fin by (pose proof (exp_pos (liR 225)); lra).
  unfold fclose, liR. interval.
Qed.

(** ** C55 *)
Theorem C55_saturation_pressures :
  (forall t, 0 < t <= 10000 -> flt (Fin 0) (saturation_pressure_over_ice NP (Fin t)) /\
                               flt (Fin 0) (saturation_pressure_over_water NP (Fin t))) /\
  (forall t u, 0 < t < u -> u <= 1000 ->
     flt (saturation_pressure_over_ice NP (Fin t)) (saturation_pressure_over_ice NP (Fin u))) /\
  (forall t u, 123 <= t -> t < u -> u <= 332 ->
     flt (saturation_pressure_over_water NP (Fin t)) (saturation_pressure_over_water NP (Fin u))) /\
  (forall t, 110 <= t <= 273.15 ->
     flt (saturation_pressure_over_ice NP (Fin t)) (saturation_pressure_over_water NP (Fin t))) /\
  (forall t, 273.17 <= t <= 332 ->
     flt (saturation_pressure_over_water NP (Fin t)) (saturation_pressure_over_ice NP (Fin t))).
Proof.
  repeat split; intros; rewrite ?ice_NP, ?water_NP by lra; cbn [flt]; try apply exp_pos; apply exp_increasing.
  - apply liR_incr; lra.
  - apply lwR_incr; lra.
  - apply ice_below_water; lra.
  - apply water_below_ice; lra.
Qed.
(** at the ice point the two pressures agree with the tabulated 611.7 Pa *)
Example C55_ex : fclose 1 (saturation_pressure_over_ice NP (Fin 273.16)) (Fin 611.73) /\
                 fclose 1 (saturation_pressure_over_water NP (Fin 273.16)) (Fin 611.73).
Proof.
  rewrite ice_NP, water_NP by lra. rewrite lwR_E. unfold fclose, liR, lwE. split; interval.
Qed.

(** ** C56 *)
Theorem C56_forcing_signs :
  (forall z tau tau_c, 90 < z -> rf_shortwave NP (Fin z) tau tau_c = Fin 0) /\
  (forall z tau tau_c, 0 <= z < 90 -> 0 < tau -> 0 <= tau_c <= 4000 ->
     flt (rf_shortwave NP (Fin z) (Fin tau) (Fin tau_c)) (Fin 0)) /\
  (forall z tau_c, 0 <= z < 90 -> 0 <= tau_c <= 4000 ->
     rf_shortwave NP (Fin z) (Fin 0) (Fin tau_c) = Fin 0) /\
  (forall olr t, fle (Fin 0) (rf_longwave NP (Fin olr) (Fin t))) /\
  (forall olr t u, t <= u -> fle (rf_longwave NP (Fin olr) (Fin u)) (rf_longwave NP (Fin olr) (Fin t))) /\
  (forall o p t, o <= p -> fle (rf_longwave NP (Fin o) (Fin t)) (rf_longwave NP (Fin p) (Fin t))).
Proof.
  repeat split.
  - intros; apply sw_night; auto.
  - intros. rewrite sw_NP by lra. cbn [flt]. rewrite <- (swR_0 z tau_c). apply swR_mono; lra.
  - intros. rewrite sw_NP by lra. f_equal. apply swR_0.
  - intros. unfold rf_longwave. cbn. apply Rmax_r.
  - intros. unfold rf_longwave. cbn [maximum NP cst mul emul sub esub emax fle].
    apply Rle_max_compat_r. lra.
  - intros. unfold rf_longwave. cbn [maximum NP cst mul emul sub esub emax fle].
    apply Rle_max_compat_r. lra.
Qed.

(** A contrail of zero optical depth does not have zero net forcing: the longwave part ignores
    the depth. *)
Theorem C56_zero_depth_net_refuted :
  (forall z tau_c olr t, 0 <= z < 90 -> 0 <= tau_c <= 4000 ->
     rf_net NP (Fin z) (Fin 0) (Fin tau_c) (Fin olr) (Fin t) = rf_longwave NP (Fin olr) (Fin t)) /\
  flt (Fin 80) (rf_net NP (Fin 45) (Fin 0) (Fin 0) (Fin 240) (Fin 225)).
Proof.
  assert (K : forall z tau_c olr t, 0 <= z < 90 -> 0 <= tau_c <= 4000 ->
     rf_net NP (Fin z) (Fin 0) (Fin tau_c) (Fin olr) (Fin t) = rf_longwave NP (Fin olr) (Fin t)).
  { intros. unfold rf_net. rewrite sw_NP by lra. rewrite swR_0. unfold rf_longwave. cbn. f_equal. ring. }
  split; auto. rewrite K by lra. unfold rf_longwave. cbn [maximum NP cst mul emul sub esub emax flt].
  rewrite Rmax_left; lra.
Qed.
(** a typical daytime contrail *)
Example C56_ex : rf_shortwave NP (Fin 120) (Fin 0.4) (Fin 0.36) = Fin 0. Proof. apply sw_night; lra. Qed.

(** ** C57 *)
Theorem C57_critical_temperature_increasing :
  (forall p q e f, 1200 <= p <= q -> 0 <= e <= f -> f < 1 -> p < q \/ e < f ->
     flt (critical_temperature_water NP (Fin p) (Fin e)) (critical_temperature_water NP (Fin q) (Fin f))).
Proof.
  intros p q e f Hp He Hf H.
  pose proof (gR_lb p e ltac:(lra) ltac:(lra)). pose proof (gR_lb q f ltac:(lra) ltac:(lra)).
  rewrite !crit_NP by lra. cbn [flt]. apply twR_incr; [lra|]. apply gR_mono; auto; lra.
Qed.
(** Near the lower end of the formula's domain it is not: the threshold at 693 Pa (about 33 km)
    lies above the one at 694 Pa, and at 690 Pa there is none. *)
Theorem C57_low_pressure_refuted :
  flt (critical_temperature_water NP (Fin 694) (Fin DEFAULT_PROPULSION_EFFICIENCY))
      (critical_temperature_water NP (Fin 693) (Fin DEFAULT_PROPULSION_EFFICIENCY)) /\
  critical_temperature_water NP (Fin 690) (Fin DEFAULT_PROPULSION_EFFICIENCY) = NaN.
Proof.
  unfold DEFAULT_PROPULSION_EFFICIENCY. split.
  - rewrite !crit_NP; [|lra|unfold gR; interval|lra|unfold gR; interval]. cbn [flt].
    apply Rminus_lt. unfold twR, gR. interval.
  - apply crit_NaN; [lra|]. unfold gR. interval.
Qed.
(** usual cruise: 250 hPa, default efficiency: about 233 K *)
Example C57_ex : fclose 1 (critical_temperature_water NP (Fin 25000) (Fin 0.4)) (Fin 233).
Proof. rewrite crit_NP; [|lra|unfold gR; interval]. unfold fclose, twR, gR. interval. Qed.

(** ** C61: the ice threshold is well defined

    [optimize.root_scalar(..., bracket=[a, b], method="brentq")] (openap/contrail.py:256-262)
    raises ValueError unless the function has opposite signs at the ends, and then returns a
    point of the bracket where it vanishes. *)
Theorem C61_ice_threshold_unique : forall p e tw g, 5000 <= p <= 105000 -> 0 <= e <= 0.7 ->
  critical_temperature_water NP (Fin p) (Fin e) = Fin tw ->
  isobaric_mixing_slope NP (Fin p) (Fin e) = Fin g ->
  flt (crit_func NP (Fin 100) (Fin tw) (Fin g)) (Fin 0) /\
  flt (Fin 0) (crit_func NP (Fin tw) (Fin tw) (Fin g)) /\
  exists r, 100 < r < tw /\ crit_func NP (Fin r) (Fin tw) (Fin g) = Fin 0 /\
    (forall s, 100 <= s <= tw -> crit_func NP (Fin s) (Fin tw) (Fin g) = Fin 0 -> s = r).
Proof.
  intros p e tw g Hp He Htw Hg.
  assert (G0 : 0.2 <= gR p e <= 17).
  { split.
    - apply Rle_trans with (gR 5000 0); [unfold gR; interval|].
      destruct (Req_dec p 5000) as [->|]; [destruct (Req_dec e 0) as [->|]; [lra|]|]; left; apply gR_mono; lra.
    - apply Rle_trans with (gR 105000 0.7); [|unfold gR; interval].
      destruct (Req_dec p 105000) as [->|]; [destruct (Req_dec e 0.7) as [->|]; [lra|]|]; left; apply gR_mono; lra. }
  rewrite crit_NP in Htw by lra. rewrite slope_NP in Hg by lra.
  apply Fin_inj in Htw. apply Fin_inj in Hg. subst tw g.
  set (g := gR p e) in *. clearbody g.
  set (l := ln (g - 0.053)).
  assert (Hl : -2 <= l <= 3.4).
  { unfold l. split.
    - interval.
    - interval. }
  assert (E1 : twR g = twL l) by reflexivity.
  assert (E2 : g = exp l + 0.053) by (unfold l; rewrite exp_ln by lra; lra).
  pose proof (bracket_hi l Hl) as Bh. pose proof (bracket_lo l Hl) as Bl.
  rewrite <- E1, <- E2 in Bh, Bl.
  assert (B : 110 <= twR g <= 273.15) by (rewrite E1; unfold twL; split; [interval|]; interval with (i_bisect l)).
  rewrite !crit_func_NP by lra. cbn [flt]. repeat split; auto.
  destruct (ceR_exists (twR g) g ltac:(lra) Bl Bh) as [r [Hr Er]].
  exists r. rewrite crit_func_NP by lra. rewrite Er. repeat split; try lra.
  intros s Hs. rewrite crit_func_NP by lra. intros Es. apply Fin_inj in Es.
  destruct (Rtotal_order s r) as [L|[L|L]]; auto; exfalso.
  - apply (ceR_unique (twR g) g s r); lra || auto; lra.
  - apply (ceR_unique (twR g) g r s); lra || auto; lra.
Qed.
(** the hypotheses hold at cruise: 250 hPa, default efficiency *)
Example C61_ex : exists tw g, critical_temperature_water NP (Fin 25000) (Fin 0.4) = Fin tw /\
  isobaric_mixing_slope NP (Fin 25000) (Fin 0.4) = Fin g /\ 232 < tw < 234 /\ 1.9 < g < 2.
Proof.
  eexists; eexists; split; [apply crit_NP; [lra|unfold gR; interval]|]. split; [apply slope_NP; lra|].
  unfold twR, gR. repeat split; interval.
Qed.

(** ** C62: an optically thicker contrail always cools more by day *)
Theorem C62_thicker_cools_more : forall z t u tau_c, 0 <= z < 90 -> 0 <= t < u -> 0 <= tau_c <= 4000 ->
  flt (rf_shortwave NP (Fin z) (Fin u) (Fin tau_c)) (rf_shortwave NP (Fin z) (Fin t) (Fin tau_c)).
Proof. intros. rewrite !sw_NP by lra. cbn [flt]. apply swR_mono; lra. Qed.
(** overhead sun, depths 0.4 and 0.7 *)
Example C62_ex : flt (rf_shortwave NP (Fin 0) (Fin 0.7) (Fin 0.63)) (rf_shortwave NP (Fin 0) (Fin 0.4) (Fin 0.63)).
Proof. apply C62_thicker_cools_more; lra. Qed.

(** ** C63: optical properties by age *)
(** the table of the docstring, openap/contrail.py:457-463, read as half-open intervals *)
Definition documented_row (age : R) (row : R * R * R) : Prop :=
  (age < 1 /\ row = (0.40, 500, 0.360)) \/
  (1 <= age < 2 /\ row = (0.60, 1500, 0.540)) \/
  (2 <= age < 4 /\ row = (0.68, 3500, 0.612)) \/
  (4 <= age < 6 /\ row = (0.70, 6500, 0.630)) \/
  (6 <= age /\ row = (0.71, 10500, 0.639)).

Lemma age_cases : forall age,
  (age < 1 \/ 1 <= age < 2) \/ (2 <= age < 4 \/ 4 <= age < 6) \/ 6 <= age.
Proof. intros; destruct (Rlt_dec age 1), (Rlt_dec age 2), (Rlt_dec age 4), (Rlt_dec age 6); lra. Qed.

Ltac row_eq := cbn; repeat match goal with |- (_, _) = (_, _) => apply f_equal2 end; lra.

Theorem C63_optical_table :
  (forall age, documented_row age (contrail_optical_properties age)) /\
  (forall x y, x <= y ->
     let '(t1, w1, c1) := contrail_optical_properties x in
     let '(t2, w2, c2) := contrail_optical_properties y in
     0 < t1 <= t2 /\ 0 < w1 <= w2 /\ 0 < c1 <= c2 /\ c1 < t1).
Proof.
  assert (K : forall age, documented_row age (contrail_optical_properties age)).
  { intros age. unfold contrail_optical_properties, searchsorted_right, documented_row. cbn [filter length].
    destruct (age_cases age) as [[H|H]|[[H|H]|H]].
    - left. split; auto. rewrite !Rleb_false by lra. row_eq.
    - right; left. split; auto. rewrite Rleb_true by lra. rewrite !Rleb_false by lra. row_eq.
    - right; right; left. split; auto. rewrite (Rleb_true 1), (Rleb_true 2) by lra. rewrite !Rleb_false by lra. row_eq.
    - right; right; right; left. split; auto. rewrite (Rleb_true 1), (Rleb_true 2), (Rleb_true 4) by lra. rewrite !Rleb_false by lra. row_eq.
    - right; right; right; right. split; auto. rewrite !Rleb_true by lra. row_eq. }
  split; auto. intros x y H. pose proof (K x) as Kx. pose proof (K y) as Ky.
  destruct (contrail_optical_properties x) as [[t1 w1] c1]. destruct (contrail_optical_properties y) as [[t2 w2] c2].
  unfold documented_row in Kx, Ky.
  destruct Kx as [[? E]|[[? E]|[[? E]|[[? E]|[? E]]]]]; injection E as -> -> ->;
  destruct Ky as [[? E]|[[? E]|[[? E]|[[? E]|[? E]]]]]; injection E as -> -> ->; lra.
Qed.
(** 3 hours *)
Example C63_ex : contrail_optical_properties 3 = (0.68, 3500, 0.612).
Proof.
  destruct (proj1 C63_optical_table 3) as [[? E]|[[? E]|[[? E]|[[? E]|[? E]]]]]; auto; lra.
Qed.
