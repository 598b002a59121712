(** * Properties C12-C18: great-circle geometry and sun position *)
From Coq Require Import Reals List Bool Lra Lia Psatz ZArith.
From Interval Require Import Tactic.
From Verif Require Import Num NumFacts SpecNum Geo GeoFacts.
Open Scope R_scope.

(** Specification: a point of the unit sphere given by latitude and longitude in degrees,
    and the angle between two such points. *)
Definition radians (x : R) : R := x * PI / 180.
Definition sphere_x (lat lon : R) : R := cos (radians lat) * cos (radians lon).
Definition sphere_y (lat lon : R) : R := cos (radians lat) * sin (radians lon).
Definition sphere_z (lat : R) : R := sin (radians lat).
Definition central_angle (lat1 lon1 lat2 lon2 : R) : R :=
  acos (sphere_x lat1 lon1 * sphere_x lat2 lon2 + sphere_y lat1 lon1 * sphere_y lat2 lon2
        + sphere_z lat1 * sphere_z lat2).

Lemma radians_rad : forall x, radians x = rad x.
Proof. intros; unfold radians, rad; qr; field. Qed.

Lemma central_ang : forall a b c d, central_angle a b c d = ang a b c d.
Proof.
  intros. unfold central_angle, ang, sphere_x, sphere_y, sphere_z. rewrite dotp_xyz, !radians_rad. auto.
Qed.

(** ** C12 *)
Theorem C12_distance_is_great_circle : forall lat1 lon1 lat2 lon2 h,
  distance NP (Fin lat1) (Fin lon1) (Fin lat2) (Fin lon2) (Fin h)
  = Fin (central_angle lat1 lon1 lat2 lon2 * (6371000 + h)).
Proof. intros. rewrite distance_NP, central_ang. auto. Qed.

Theorem C12_distance_metric : forall lat1 lon1 lat2 lon2 h,
  distance NP (Fin lat1) (Fin lon1) (Fin lat2) (Fin lon2) (Fin h)
    = distance NP (Fin lat2) (Fin lon2) (Fin lat1) (Fin lon1) (Fin h) /\
  distance NP (Fin lat1) (Fin lon1) (Fin lat1) (Fin lon1) (Fin h) = Fin 0 /\
  distance NP (Fin lat1) (Fin (lon1 + 360)) (Fin lat2) (Fin lon2) (Fin h)
    = distance NP (Fin lat1) (Fin lon1) (Fin lat2) (Fin lon2) (Fin h) /\
  (- 6371000 <= h ->
     fle (Fin 0) (distance NP (Fin lat1) (Fin lon1) (Fin lat2) (Fin lon2) (Fin h)) /\
     fle (distance NP (Fin lat1) (Fin lon1) (Fin lat2) (Fin lon2) (Fin h)) (Fin (PI * (6371000 + h)))).
Proof.
  intros. rewrite !distance_NP. cbn [fle]. unfold ang. split; [|split; [|split]].
  - f_equal. f_equal. f_equal. rewrite !dotp_xyz. ring.
  - rewrite dotp_xyz, unit_xyz, acos_1. f_equal. ring.
  - f_equal. f_equal. f_equal. rewrite rad_360. unfold dotp.
    replace (rad lon2 - (rad lon1 + 2 * PI)) with (rad lon2 - rad lon1 - 2 * PI) by ring.
    rewrite (cos_minus _ (2 * PI)), cos_2PI, sin_2PI. ring.
  - intros Hh. pose proof (acos_range (dotp (rad lat1) (rad lon1) (rad lat2) (rad lon2))). split; nra.
Qed.
(** a quarter of the way round the equator *)
Example C12_ex : distance NP (Fin 0) (Fin 0) (Fin 0) (Fin 90) (Fin 0) = Fin (PI / 2 * 6371000).
Proof.
  rewrite distance_NP. f_equal. unfold ang, dotp, rad.
  replace (90 * (PI / 180.0) - 0 * (PI / 180.0)) with (PI / 2) by (qr; field).
  rewrite !Rmult_0_l, sin_0, cos_PI2, Rmult_0_r, Rplus_0_l, Rmult_0_l, acos_0. ring.
Qed.

(** ** C13 *)
Theorem C13_triangle_inequality : forall lat1 lon1 lat2 lon2 lat3 lon3 h, - 6371000 <= h ->
  exists ab bc ac,
    distance NP (Fin lat1) (Fin lon1) (Fin lat2) (Fin lon2) (Fin h) = Fin ab /\
    distance NP (Fin lat2) (Fin lon2) (Fin lat3) (Fin lon3) (Fin h) = Fin bc /\
    distance NP (Fin lat1) (Fin lon1) (Fin lat3) (Fin lon3) (Fin h) = Fin ac /\
    ac <= ab + bc.
Proof.
  intros. rewrite !distance_NP. do 3 eexists. do 3 (split; [reflexivity|]).
  rewrite <- Rmult_plus_distr_r. apply Rmult_le_compat_r; [lra|]. unfold ang.
  apply acos_triangle; try apply dotp_range. rewrite !dotp_xyz. apply gram; apply unit_xyz.
Qed.
Example C13_ex : exists ab bc ac,
    distance NP (Fin 52) (Fin 4) (Fin 48) (Fin 2) (Fin 0) = Fin ab /\
    distance NP (Fin 48) (Fin 2) (Fin 40) (Fin (-4)) (Fin 0) = Fin bc /\
    distance NP (Fin 52) (Fin 4) (Fin 40) (Fin (-4)) (Fin 0) = Fin ac /\ ac <= ab + bc.
Proof. apply C13_triangle_inequality; lra. Qed.

(** ** C14 *)
Theorem C14_bearing_range : forall lat1 lon1 lat2 lon2,
  exists r, bearing NP (Fin lat1) (Fin lon1) (Fin lat2) (Fin lon2) = Fin r /\ 0 <= r < 360.
Proof.
  intros. rewrite bearing_NP. eexists; split; [reflexivity|].
  apply Rfmod_pos; [|lra]. set (A := Ratan2 _ _).
  pose proof (Ratan2_range (bx (rad lat1) (rad lon1) (rad lat2) (rad lon2)) (by_ (rad lat1) (rad lon1) (rad lat2) (rad lon2))) as H.
  fold A in H. pose proof PI_RGT_0.
  assert (deg (- PI) < deg A) by (apply deg_lt; lra).
  replace (deg (- PI)) with (-180) in H1 by (unfold deg; qr; field; lra). lra.
Qed.

(** due east along the equator is 90 degrees, due west 270 *)
Example C14_ex_east : bearing NP (Fin 0) (Fin 0) (Fin 0) (Fin 10) = Fin 90.
Proof.
  rewrite bearing_NP. f_equal. unfold bx, by_. unfold rad at 1 2 3 4 5 6 7 8 9.
  pose proof PI_RGT_0 as HP. rewrite !Rmult_0_l, sin_0, cos_0.
  replace (1 * 0 - 0 * 1 * cos (10 * (PI / 180.0) - 0)) with 0 by ring.
  replace (10 * (PI / 180.0) - 0) with (PI / 18) by (qr; field).
  assert (0 < sin (PI / 18)) by (apply sin_gt_0; lra).
  unfold Ratan2. destruct (Rlt_dec 0 0); [lra|]. destruct (Rlt_dec 0 (sin (PI / 18) * 1)); [|lra].
  rewrite (Rfmod_eq _ _ 1); unfold deg; replace (PI / 2 * (180.0 / PI)) with 90 by (qr; field; lra); lra.
Qed.

(** ** C15 *)
Lemma cos_rad_nonneg : forall lat, -90 <= lat <= 90 -> 0 <= cos (rad lat).
Proof.
  intros. apply cos_ge_0.
  - replace (- (PI / 2)) with (rad (-90)) by (unfold rad; qr; field). apply rad_le; lra.
  - replace (PI / 2) with (rad 90) by (unfold rad; qr; field). apply rad_le; lra.
Qed.

Lemma cos_rad_pos : forall lat, -90 < lat < 90 -> 0 < cos (rad lat).
Proof.
  intros. apply cos_gt_0.
  - replace (- (PI / 2)) with (rad (-90)) by (unfold rad; qr; field). apply rad_lt; lra.
  - replace (PI / 2) with (rad 90) by (unfold rad; qr; field). apply rad_lt; lra.
Qed.

Theorem C15_destination_distance : forall lat lon d brg h, -90 <= lat <= 90 -> - 6371000 < h ->
  0 <= d <= PI * (6371000 + h) ->
  let '(lat2, lon2) := latlon NP (Fin lat) (Fin lon) (Fin d) (Fin brg) (Fin h) in
  distance NP (Fin lat) (Fin lon) lat2 lon2 (Fin h) = Fin d.
Proof.
  intros lat lon d brg h Hl Hh Hd. rewrite latlon_NP by lra. rewrite distance_NP. f_equal.
  unfold ang. rewrite !rad_deg. rewrite ll_dot by (apply cos_rad_nonneg; auto).
  assert (Hr : 0 < 6371000 + h) by lra.
  rewrite acos_cos.
  - field; lra.
  - split.
    + apply Rmult_le_pos; [lra|]. left; apply Rinv_0_lt_compat; auto.
    + apply Rmult_le_reg_r with (6371000 + h); auto. unfold Rdiv. rewrite Rmult_assoc, Rinv_l by lra. lra.
Qed.
Example C15_ex :
  let '(lat2, lon2) := latlon NP (Fin 52) (Fin 4) (Fin 100000) (Fin 300) (Fin 10000) in
  distance NP (Fin 52) (Fin 4) lat2 lon2 (Fin 10000) = Fin 100000.
Proof. apply C15_destination_distance; try lra. pose proof PI2_1. lra. Qed.

(** ** C16 *)
Theorem C16_destination_bearing : forall lat lon d brg h, -90 < lat < 90 -> - 6371000 < h ->
  0 < d < PI * (6371000 + h) -> 0 <= brg < 360 ->
  let '(lat2, lon2) := latlon NP (Fin lat) (Fin lon) (Fin d) (Fin brg) (Fin h) in
  bearing NP (Fin lat) (Fin lon) lat2 lon2 = Fin brg.
Proof.
  intros lat lon d brg h Hl Hh Hd Hb. rewrite latlon_NP by lra. rewrite bearing_NP. f_equal.
  rewrite !rad_deg. set (dl := d / (6371000 + h)). set (t := rad brg).
  destruct (ll_bearing (rad lat) (rad lon) t dl (cos_rad_pos lat Hl)) as [E1 E2].
  cbv zeta in E1, E2. rewrite E1, E2.
  assert (Hr : 0 < 6371000 + h) by lra. pose proof PI_RGT_0 as HP.
  assert (Hdl : 0 < dl < PI).
  { unfold dl. split; [apply Rdiv_lt_0_compat; lra|].
    apply Rmult_lt_reg_r with (6371000 + h); auto. unfold Rdiv. rewrite Rmult_assoc, Rinv_l by lra. lra. }
  assert (Ht : 0 <= t < 2 * PI).
  { unfold t. replace 0 with (rad 0) by (unfold rad; ring).
    replace (2 * PI) with (rad 360) by (unfold rad; qr; field). split; [apply rad_le|apply rad_lt]; lra. }
  rewrite Ratan2_angle_2pi; auto; [|apply sin_gt_0; lra].
  assert (Hbt : deg t = brg) by apply deg_rad.
  destruct (Rle_dec t PI) as [Hle|Hgt].
  - rewrite Hbt. rewrite (Rfmod_eq _ _ 1); lra.
  - replace (deg (t - 2 * PI)) with (brg - 360).
    + rewrite (Rfmod_eq _ _ 0); lra.
    + rewrite <- Hbt. unfold deg. qr. field. lra.
Qed.
Example C16_ex :
  let '(lat2, lon2) := latlon NP (Fin 52) (Fin 4) (Fin 100000) (Fin 300) (Fin 0) in
  bearing NP (Fin 52) (Fin 4) lat2 lon2 = Fin 300.
Proof. apply C16_destination_bearing; try lra. pose proof PI2_1. lra. Qed.

(** ** C17 *)
Theorem C17_destination_range : forall lat lon d brg h, 6371000 + h <> 0 ->
  exists lat2 lon2, latlon NP (Fin lat) (Fin lon) (Fin d) (Fin brg) (Fin h) = (Fin lat2, Fin lon2) /\
  -90 <= lat2 <= 90 /\ -180 < lon2 - lon <= 180.
Proof.
  intros. rewrite latlon_NP by auto. do 2 eexists. split; [reflexivity|]. pose proof PI_RGT_0 as HP.
  set (dl := d / (6371000 + h)). set (f1 := rad lat). set (t := rad brg). split.
  - pose proof (asin_bound (ll_s f1 t dl)) as Hb. fold (ll_f2 f1 t dl) in Hb.
    assert (E1 : deg (PI / 2) = 90) by (unfold deg; qr; field; lra).
    assert (E2 : deg (- (PI / 2)) = -90) by (unfold deg; qr; field; lra).
    rewrite <- E1, <- E2 at 1. split; apply deg_le; lra.
  - set (A := Ratan2 _ _). pose proof (Ratan2_range (ll_x f1 t dl) (ll_y f1 t dl)) as Hb. fold A in Hb.
    replace (deg (rad lon + A) - lon) with (deg A).
    2:{ unfold deg. rewrite Rmult_plus_distr_r. fold (deg (rad lon)). rewrite deg_rad. ring. }
    assert (E1 : deg PI = 180) by (unfold deg; qr; field; lra).
    assert (E2 : deg (- PI) = -180) by (unfold deg; qr; field; lra).
    rewrite <- E1, <- E2 at 1. split; [apply deg_lt|apply deg_le]; lra.
Qed.

(** 222 km east from 179E on the equator: longitude 181, not -179 *)
Theorem C17_longitude_normalised_refuted :
  latlon NP (Fin 0) (Fin 179) (Fin (PI / 90 * 6371000)) (Fin 90) (Fin 0) = (Fin 0, Fin 181).
Proof.
  rewrite latlon_NP by lra. pose proof PI_RGT_0 as HP.
  replace (PI / 90 * 6371000 / (6371000 + 0)) with (PI / 90) by field.
  assert (Ef : rad 0 = 0) by (unfold rad; ring).
  assert (Et : rad 90 = PI / 2) by (unfold rad; qr; field).
  unfold ll_f2, ll_x, ll_y, ll_s. rewrite Ef, Et, sin_0, cos_0, cos_PI2, sin_PI2.
  replace (0 * cos (PI / 90) + 1 * sin (PI / 90) * 0) with 0 by ring. rewrite asin_0.
  replace (1 * sin (PI / 90) * 1) with (1 * sin (PI / 90)) by ring.
  replace (cos (PI / 90) - 0 * 0) with (1 * cos (PI / 90)) by ring.
  rewrite Ratan2_angle by lra. f_equal; f_equal; unfold deg, rad; qr; field; lra.
Qed.
Example C17_ex : exists lat2 lon2, latlon NP (Fin 89) (Fin 10) (Fin 500000) (Fin 0) (Fin 0) = (Fin lat2, Fin lon2) /\
  -90 <= lat2 <= 90 /\ -180 < lon2 - 10 <= 180.
Proof. apply C17_destination_range; lra. Qed.

(** ** C18 *)
Definition decl (day : R) : R :=
  match solar_declination NP (solar_gamma NP (Fin day)) with Fin x => x | _ => 0 end.
Definition eqt (day : R) : R :=
  match equation_of_time NP (solar_gamma NP (Fin day)) with Fin x => x | _ => 0 end.

Lemma decl_NP : forall day, solar_declination NP (solar_gamma NP (Fin day)) = Fin (decl day).
Proof.
  intros. unfold decl, solar_gamma. cbn -[ediv]. rewrite ediv_fin by lra. reflexivity.
Qed.
Lemma eqt_NP : forall day, equation_of_time NP (solar_gamma NP (Fin day)) = Fin (eqt day).
Proof.
  intros. unfold eqt, solar_gamma. cbn -[ediv]. rewrite ediv_fin by lra. reflexivity.
Qed.

Definition hangle (lon day hour : R) : R := ((hour * 60 + (eqt day + 4 * lon)) / 4 - 180) * (PI / 180).

Lemma cos_zenith_NP : forall lat lon day hour,
  cos_zenith NP (Fin lat) (Fin lon) (Fin day) (Fin hour) =
  Fin (sin (lat * (PI / 180)) * sin (decl day) + cos (lat * (PI / 180)) * cos (decl day) * cos (hangle lon day hour)).
Proof.
  intros. unfold cos_zenith. rewrite decl_NP, eqt_NP. unfold deg2rad_. cbn -[ediv decl eqt].
  rewrite !ediv_fin by lra. cbn -[ediv decl eqt]. reflexivity.
Qed.

Theorem C18_solar_zenith : forall lat lon day hour,
  exists c z,
    cos_zenith NP (Fin lat) (Fin lon) (Fin day) (Fin hour) = Fin c /\ -1 <= c <= 1 /\
    solar_zenith NP (Fin lat) (Fin lon) (Fin day) (Fin hour) = Fin z /\ 0 <= z <= 180 /\
    cos (radians z) = c /\
    solar_zenith NP (Fin lat) (Fin (lon + 360)) (Fin day) (Fin hour) = Fin z /\
    solar_zenith NP (Fin lat) (Fin lon) (Fin day) (Fin (hour + 1)) =
    solar_zenith NP (Fin lat) (Fin (lon + 15)) (Fin day) (Fin hour).
Proof.
  intros lat lon day hour.
  set (C := fun lon hour => sin (lat * (PI / 180)) * sin (decl day) + cos (lat * (PI / 180)) * cos (decl day) * cos (hangle lon day hour)).
  assert (HC : forall lon hour, -1 <= C lon hour <= 1).
  { intros. pose proof (dotp_range (lat * (PI / 180)) 0 (decl day) (hangle lon0 day hour0)) as H.
    unfold dotp in H. rewrite Rminus_0_r in H. unfold C. lra. }
  assert (HZ : forall lon hour, solar_zenith NP (Fin lat) (Fin lon) (Fin day) (Fin hour) = Fin (deg (acos (C lon hour)))).
  { intros. unfold solar_zenith. rewrite cos_zenith_NP. fold (C lon0 hour0). unfold rad2deg_.
    cbn -[ediv eunit Rmin Rmax C]. pose proof PI_RGT_0. rewrite ediv_fin by lra.
    pose proof (HC lon0 hour0). rewrite Rmax_left, Rmin_left by (try rewrite Rmax_left; lra).
    rewrite eunit_fin by auto. cbn -[C]. f_equal. unfold deg. qr. field. lra. }
  exists (C lon hour), (deg (acos (C lon hour))). pose proof PI_RGT_0 as HP.
  rewrite cos_zenith_NP. rewrite !HZ.
  split; [reflexivity|]. split; [auto|]. split; [reflexivity|]. split; [|split; [|split]].
  - pose proof (acos_range (C lon hour)) as Ha.
    assert (E1 : deg PI = 180) by (unfold deg; qr; field; lra).
    assert (E2 : deg 0 = 0) by (unfold deg; ring).
    rewrite <- E1, <- E2 at 1. split; apply deg_le; lra.
  - rewrite radians_rad, rad_deg, cos_acos; auto.
  - f_equal. f_equal. f_equal. unfold C. f_equal. f_equal.
    replace (hangle (lon + 360) day hour) with (hangle lon day hour + 2 * PI) by (unfold hangle; field).
    rewrite cos_plus, cos_2PI, sin_2PI. ring.
  - f_equal. f_equal. f_equal. unfold C. f_equal. f_equal. f_equal. unfold hangle. field.
Qed.

(** On 21 March (day 80) at noon UTC, at 0E on the equator, the sun is within about 4 degrees
    of overhead. *)
Example C18_ex : flt (Fin 0.997) (cos_zenith NP (Fin 0) (Fin 0) (Fin 80) (Fin 12)).
Proof.
  rewrite cos_zenith_NP. cbn [flt]. unfold hangle, decl, eqt, solar_gamma.
  cbn -[ediv]. rewrite ediv_fin by lra. cbn. interval.
Qed.
Example C18_ex_hour : hour_utc 12 30 36 = 12.51.
Proof. unfold hour_utc. lra. Qed.
