(** * Property C72: the zenith angle obeys the spherical law of the sun

    [P_Geo.v] states range and periodicity of the angle.  Here the angle is tied to an
    independent description of the sun's position: a declination and an equation of time
    which depend on the date only and have the signs and sizes known from any almanac. *)
From Coq Require Import Reals List Bool Lra Lia Psatz ZArith.
From Interval Require Import Tactic.
From Verif Require Import Num NumFacts SpecNum Geo GeoFacts P_Geo.
Open Scope R_scope.

(** Specification.  A declination (degrees) that fits the calendar: never beyond the
    tropics, north of the equator between the equinoxes (days 81 to 266), south of it
    otherwise, and near its extremes at the solstices. *)
Definition almanac_declination (day d : R) : Prop :=
  -23.5 <= d <= 23.5 /\
  (81 <= day <= 266 -> 0 < d) /\
  (1 <= day <= 80 \/ 267 <= day <= 366 -> d < 0) /\
  (165 <= day <= 180 -> 23 < d) /\
  (350 <= day <= 362 -> d < -23).

(** An equation of time (minutes) that fits the calendar: the sun is late in winter and
    in high summer, early in May and in autumn, by about a quarter of an hour at most. *)
Definition almanac_equation_of_time (day e : R) : Prop :=
  -14.5 <= e <= 16.5 /\
  (1 <= day <= 105 \/ 166 <= day <= 245 \/ 360 <= day <= 366 -> e < 0) /\
  (106 <= day <= 165 \/ 246 <= day <= 359 -> 0 < e) /\
  (40 <= day <= 50 -> e < -14) /\
  (302 <= day <= 312 -> 16 < e).

(** Cosine of the zenith angle of a body of declination [d] seen from latitude [lat] when
    its hour angle is [h], all in degrees (spherical law of cosines). *)
Definition zenith_cosine (lat d h : R) : R :=
  sin (radians lat) * sin (radians d) + cos (radians lat) * cos (radians d) * cos (radians h).

(** Hour angle in degrees: 15 degrees an hour from noon, shifted by longitude and by the
    equation of time (a minute is a quarter of a degree). *)
Definition hour_angle_of (lon hour e : R) : R := 15 * (hour - 12) + lon + e / 4.

Definition ddecl (day : R) : R := decl day * 180 / PI.

Definition dcl (g : R) : R :=
  0.006918 - 0.399912 * cos g + 0.070257 * sin g - 0.006758 * cos (2 * g) + 0.000907 * sin (2 * g)
  - 0.002697 * cos (3 * g) + 0.00148 * sin (3 * g).
Definition eqm (g : R) : R :=
  229.18 * (0.000075 + 0.001868 * cos g - 0.032077 * sin g - 0.014615 * cos (2 * g) - 0.040849 * sin (2 * g)).
Definition gm (day : R) : R := 2 * PI * (day - 1) / 365.

Lemma decl_eq : forall day, decl day = dcl (gm day).
Proof.
  intros. unfold decl, solar_gamma. cbn -[ediv]. rewrite ediv_fin by lra. reflexivity.
Qed.
Lemma eqt_eq : forall day, eqt day = eqm (gm day).
Proof.
  intros. unfold eqt, solar_gamma. cbn -[ediv]. rewrite ediv_fin by lra. reflexivity.
Qed.

Ltac sun day := unfold ddecl; rewrite ?decl_eq, ?eqt_eq; unfold dcl, eqm, gm;
  interval with (i_bisect day, i_depth 22, i_autodiff day).

Lemma ddecl_almanac : forall day, 1 <= day <= 366 -> almanac_declination day (ddecl day).
Proof.
  intros day H. unfold almanac_declination.
  refine (conj _ (conj _ (conj _ (conj _ _)))).
  - sun day.
  - intros H1. sun day.
  - intros [H1|H1]; sun day.
  - intros H1. sun day.
  - intros H1. sun day.
Qed.

Lemma eqt_almanac : forall day, 1 <= day <= 366 -> almanac_equation_of_time day (eqt day).
Proof.
  intros day H. unfold almanac_equation_of_time.
  refine (conj _ (conj _ (conj _ (conj _ _)))).
  - sun day.
  - intros [H1|[H1|H1]]; sun day.
  - intros [H1|H1]; sun day.
  - intros H1. sun day.
  - intros H1. sun day.
Qed.

Lemma solar_zenith_law : forall lat lon day hour,
  exists z, solar_zenith NP (Fin lat) (Fin lon) (Fin day) (Fin hour) = Fin z /\ 0 <= z <= 180 /\
    cos (radians z) = zenith_cosine lat (ddecl day) (hour_angle_of lon hour (eqt day)).
Proof.
  intros. destruct (C18_solar_zenith lat lon day hour) as (c & z & Hc & _ & Hz & Hr & Hcz & _).
  exists z. refine (conj Hz (conj Hr _)). rewrite Hcz. rewrite cos_zenith_NP in Hc. injection Hc as <-.
  unfold zenith_cosine. pose proof PI_RGT_0.
  replace (radians (ddecl day)) with (decl day) by (unfold radians, ddecl; field; lra).
  replace (radians lat) with (lat * (PI / 180)) by (unfold radians; field).
  replace (radians (hour_angle_of lon hour (eqt day))) with (hangle lon day hour)
    by (unfold radians, hour_angle_of, hangle; field).
  reflexivity.
Qed.

(** For every date there are a declination and an equation of time, both in agreement with
    the calendar and the same for every place and every hour, such that the returned angle
    is the zenith angle of a sun so placed. *)
Theorem C72_spherical_law : forall day, 1 <= day <= 366 ->
  exists d e, almanac_declination day d /\ almanac_equation_of_time day e /\
  forall lat lon hour, exists z,
    solar_zenith NP (Fin lat) (Fin lon) (Fin day) (Fin hour) = Fin z /\ 0 <= z <= 180 /\
    cos (radians z) = zenith_cosine lat d (hour_angle_of lon hour e).
Proof.
  intros day H. exists (ddecl day), (eqt day).
  refine (conj (ddecl_almanac _ H) (conj (eqt_almanac _ H) _)). intros. apply solar_zenith_law.
Qed.

Lemma radians_le : forall x y, x <= y -> radians x <= radians y.
Proof. intros. unfold radians. pose proof PI_RGT_0. nra. Qed.
Lemma radians_180 : radians 180 = PI.
Proof. unfold radians. field. Qed.
Lemma radians_90 : radians 90 = PI / 2.
Proof. unfold radians. field. Qed.
Lemma radians_0 : radians 0 = 0.
Proof. unfold radians. field. Qed.

Lemma zenith_order : forall z1 z2, 0 <= z1 <= 180 -> 0 <= z2 <= 180 ->
  cos (radians z2) <= cos (radians z1) -> z1 <= z2.
Proof.
  intros z1 z2 H1 H2 Hc. apply Rnot_lt_le. intros Hlt. apply Rle_not_lt in Hc. apply Hc.
  pose proof PI_RGT_0. pose proof (radians_le 0 z1 (proj1 H1)). pose proof (radians_le z1 180 (proj2 H1)).
  pose proof (radians_le 0 z2 (proj1 H2)). pose proof (radians_le z2 180 (proj2 H2)).
  rewrite radians_0, radians_180 in *. apply cos_decreasing_1; try lra. unfold radians. nra.
Qed.

Lemma cos_lat_pos : forall lat, -90 <= lat <= 90 -> 0 <= cos (radians lat).
Proof.
  intros lat H. pose proof PI_RGT_0. apply cos_ge_0; unfold radians; nra.
Qed.

(** The sun stands highest when the hour angle is zero, and its zenith distance is then the
    difference between latitude and declination: at noon UTC corrected for longitude (an hour
    for 15 degrees) and for the equation of time. *)
Theorem C72_highest_at_solar_noon : forall day, 1 <= day <= 366 ->
  exists d e, almanac_declination day d /\ almanac_equation_of_time day e /\
  forall lat lon, -90 <= lat <= 90 ->
    let noon := 12 - lon / 15 - e / 60 in
    solar_zenith NP (Fin lat) (Fin lon) (Fin day) (Fin noon) = Fin (Rabs (lat - d)) /\
    forall hour, fle (Fin (Rabs (lat - d))) (solar_zenith NP (Fin lat) (Fin lon) (Fin day) (Fin hour)).
Proof.
  intros day H. exists (ddecl day), (eqt day). pose proof (ddecl_almanac _ H) as HD.
  refine (conj HD (conj (eqt_almanac _ H) _)). intros lat lon Hlat noon.
  destruct HD as [HD _]. set (d := ddecl day) in *.
  assert (HL : 0 <= cos (radians lat)) by (apply cos_lat_pos; lra).
  assert (HDc : 0 <= cos (radians d)) by (apply cos_lat_pos; lra).
  assert (HA : 0 <= Rabs (lat - d) <= 180) by (split; [apply Rabs_pos|apply Rabs_le; lra]).
  assert (HC : cos (radians (Rabs (lat - d))) = cos (radians lat - radians d)).
  { unfold Rabs. destruct (Rcase_abs _).
    - rewrite <- (cos_neg (radians lat - radians d)). f_equal. unfold radians. field.
    - f_equal. unfold radians. field. }
  rewrite cos_minus in HC.
  split.
  - destruct (solar_zenith_law lat lon day noon) as (z & -> & Hz & Hcz). f_equal.
    unfold zenith_cosine in Hcz. fold d in Hcz.
    replace (hour_angle_of lon noon (eqt day)) with 0 in Hcz by (unfold hour_angle_of, noon; field).
    rewrite radians_0, cos_0 in Hcz.
    apply Rle_antisym; apply zenith_order; auto; rewrite Hcz, HC; lra.
  - intros hour. destruct (solar_zenith_law lat lon day hour) as (z & -> & Hz & Hcz). cbn [fle].
    apply zenith_order; auto. rewrite Hcz, HC. unfold zenith_cosine. fold d.
    pose proof (COS_bound (radians (hour_angle_of lon hour (eqt day)))) as [_ Hb].
    assert (0 <= cos (radians lat) * cos (radians d)) by (apply Rmult_le_pos; auto). nra.
Qed.

(** Polar day and polar night: beyond latitude 67.5 the sun never sets around the June
    solstice and never rises around the December solstice. *)
Theorem C72_polar_day_and_night : forall lat lon day hour, 67.5 <= lat <= 90 ->
  (165 <= day <= 180 -> flt (solar_zenith NP (Fin lat) (Fin lon) (Fin day) (Fin hour)) (Fin 90)) /\
  (350 <= day <= 362 -> flt (Fin 90) (solar_zenith NP (Fin lat) (Fin lon) (Fin day) (Fin hour))).
Proof.
  intros lat lon day hour Hlat.
  assert (HL : 0 <= cos (radians lat)) by (apply cos_lat_pos; lra).
  destruct (solar_zenith_law lat lon day hour) as (z & -> & Hz & Hcz). cbn [flt].
  pose proof (COS_bound (radians (hour_angle_of lon hour (eqt day)))) as Hb.
  set (h := radians (hour_angle_of lon hour (eqt day))) in *.
  unfold zenith_cosine in Hcz. fold h in Hcz. set (d := ddecl day) in *.
  pose proof PI_RGT_0 as HP.
  assert (H90 : cos (radians 90) = 0) by (rewrite radians_90; apply cos_PI2).
  split; intros Hd.
  - destruct (ddecl_almanac day) as (HD & _ & _ & HS & _); [lra|]. specialize (HS Hd). fold d in HD, HS.
    assert (HDc : 0 <= cos (radians d)) by (apply cos_lat_pos; lra).
    apply Rnot_le_lt. intros Hn.
    assert (cos (radians z) <= 0).
    { rewrite <- H90. pose proof (radians_le 90 z Hn). pose proof (radians_le z 180 (proj2 Hz)).
      rewrite radians_90, radians_180 in *. apply cos_decr_1; lra. }
    (* cos z >= - cos (lat + d) > 0 *)
    assert (0 < - cos (radians lat + radians d)).
    { rewrite <- Rtrigo_facts.cos_pi_minus. apply cos_gt_0; unfold radians; nra. }
    rewrite cos_plus in *. assert (0 <= cos (radians lat) * cos (radians d)) by (apply Rmult_le_pos; auto). nra.
  - destruct (ddecl_almanac day) as (HD & _ & _ & _ & HS); [lra|]. specialize (HS Hd). fold d in HD, HS.
    assert (HDc : 0 <= cos (radians d)) by (apply cos_lat_pos; lra).
    apply Rnot_le_lt. intros Hn.
    assert (0 <= cos (radians z)).
    { rewrite <- H90. pose proof (radians_le z 90 Hn). pose proof (radians_le 0 z (proj1 Hz)).
      rewrite radians_90, radians_0 in *. apply cos_decr_1; lra. }
    assert (cos (radians lat - radians d) < 0).
    { apply cos_lt_0; unfold radians; nra. }
    rewrite cos_minus in *. assert (0 <= cos (radians lat) * cos (radians d)) by (apply Rmult_le_pos; auto). nra.
Qed.

(** The fractional hour: seconds since midnight over 3600, so it lies in [0, 24) and is
    strictly increasing along the clock. *)
Theorem C72_clock_hour : forall hh mm ss, (0 <= hh < 24)%Z -> (0 <= mm < 60)%Z -> (0 <= ss < 60)%Z ->
  hour_utc hh mm ss = IZR (3600 * hh + 60 * mm + ss) / 3600 /\ 0 <= hour_utc hh mm ss < 24.
Proof.
  intros. unfold hour_utc.
  assert (E : IZR hh + IZR mm / 60 + IZR ss / 3600 = IZR (3600 * hh + 60 * mm + ss) / 3600).
  { rewrite !plus_IZR, !mult_IZR. field. }
  rewrite E. split; auto.
  assert (0 <= IZR (3600 * hh + 60 * mm + ss) <= 86399) by (split; apply IZR_le; lia). lra.
Qed.

(** Delft (52 N, 4.4 E) on 21 June (day 172) at 12:00 UTC: the sun stands 28 to 30 degrees from the
    zenith.  Longyearbyen (78 N) sees the midnight sun that day. *)
Example C72_ex_delft : exists z, solar_zenith NP (Fin 52) (Fin 4.4) (Fin 172) (Fin 12) = Fin z /\ 28 < z < 30.
Proof.
  destruct (solar_zenith_law 52 4.4 172 12) as (z & Hz & Hr & Hc). exists z. split; auto.
  assert (HB : cos (radians 30) < cos (radians z) < cos (radians 28)).
  { rewrite Hc. unfold zenith_cosine, hour_angle_of, ddecl, radians. rewrite decl_eq, eqt_eq.
    unfold dcl, eqm, gm. split; interval. }
  split; apply Rnot_le_lt; intros Hn.
  - pose proof (radians_le _ _ Hn). pose proof (radians_le _ _ (proj1 Hr)). rewrite radians_0 in *.
    pose proof PI_RGT_0.
    assert (radians 28 <= PI) by (unfold radians; nra).
    pose proof (cos_decr_1 (radians z) (radians 28)). lra.
  - pose proof (radians_le _ _ Hn). pose proof (radians_le _ _ (proj2 Hr)). rewrite radians_180 in *.
    pose proof PI_RGT_0. assert (0 <= radians 30) by (unfold radians; nra).
    pose proof (cos_decr_1 (radians 30) (radians z)). lra.
Qed.
Example C72_ex_midnight_sun : flt (solar_zenith NP (Fin 78) (Fin 15) (Fin 172) (Fin 23)) (Fin 90).
Proof. apply C72_polar_day_and_night; lra. Qed.
Example C72_ex_noon : exists d e, almanac_declination 172 d /\ almanac_equation_of_time 172 e /\
  solar_zenith NP (Fin 52) (Fin 4.4) (Fin 172) (Fin (12 - 4.4 / 15 - e / 60)) = Fin (Rabs (52 - d)).
Proof.
  destruct (C72_highest_at_solar_noon 172) as (d & e & Hd & He & H); [lra|].
  exists d, e. refine (conj Hd (conj He _)). apply (H 52 4.4). lra.
Qed.
