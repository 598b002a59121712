(** * Properties C73-C75: the published laws

    The theorems of [P_Thrust.v], [P_Drag.v] and [P_Fuel.v] state what a user relies on
    qualitatively.  Here thrust, drag and fuel flow are compared with the formulas of the
    literature the package cites, written out as functions of real numbers. *)
From Coq Require Import Reals List Bool Lra Lia Psatz.
From Interval Require Import Tactic.
From Verif Require Import Num NumFacts SpecNum Aero AeroFacts AeroFacts2 Thrust ThrustFacts Drag DragFacts
  Fuel FuelFacts P_Thrust P_Drag P_Fuel.
Open Scope R_scope.

(** ** C73: take-off *)
(** Take-off thrust of a turbofan as a fraction of its static sea-level thrust (Bartel and Young
    2007): by-pass ratio [l], pressure ratio [p], Mach number [m]. *)
Definition bartel_young (l p m : R) : R :=
  let G := 0.0606 * l + 0.6337 in
  let A := - (0.4327) * p ^ 2 + 1.3855 * p + 0.0472 in
  let Z := 0.9106 * p ^ 3 - 1.7736 * p ^ 2 + 1.8697 * p in
  let X := 0.1377 * p ^ 3 - 0.4374 * p ^ 2 + 1.3003 * p in
  A - 0.377 * (1 + l) / sqrt ((1 + 0.82 * l) * G) * Z * m + (0.23 + 0.19 * sqrt l) * X * m ^ 2.

(** The Mach number is formed with the speed of sound at sea level whatever the altitude; the
    pressure is that of the altitude. *)
Theorem C73_take_off_law : forall e tas alt dT, 0 <= eng_bpr e ->
  exists m p,
    tas2mach NP (Fin (tas * 0.514444)) (Fin 0) (Fin dT) = Fin m /\
    pressure NP (Fin (alt * 0.3048)) (Fin dT) = Fin p /\
    takeoff_thrust NP e (Fin tas) (Fin alt) (Fin dT)
      = Fin (eng_number e * eng_max_thrust e * bartel_young (eng_bpr e) (p / 101325) m).
Proof.
  intros e tas alt dT Hb. rewrite tas2mach_NP, pressure_NP, takeoff_NP by auto.
  do 2 eexists. split; [reflexivity|]. split; [reflexivity|]. f_equal.
  unfold toR, dpR, bartel_young, polyA, polyX, polyZ, coefa, coefb. uc.
  set (m := tas * 0.514444 / aR 0 dT). set (p := pR (alt * 0.3048) dT).
  replace (p / 101325.0) with (p / 101325) by lra.
  set (s := sqrt ((1 + _) * _)). replace (-0.4327) with (- (0.4327)) by lra. ring.
Qed.

Example C73_ex_take_off : 0 <= eng_bpr a320_thrust /\ 0.7 < bartel_young 5.9 1 0.2 < 0.85.
Proof. rewrite a320_thrust_eq. cbn [eng_bpr]. split; [lra|]. unfold bartel_young. split; interval. Qed.

(** ** C73: climb *)
(** The three climb laws: [pr] pressure, [vr] calibrated airspeed and [mr] Mach number, each
    relative to cruise; [p10] the pressure ratio at 10000 ft; [roc] rate of climb in ft/min.
    Thrust relative to cruise thrust. *)
Definition climb_high (pr mr : R) : R := (1.0824 - 0.4204 * mr) * ln pr + Rpower mr (- (0.11)).
Definition climb_mid (pr vr roc : R) : R :=
  Rpower vr (- (0.1)) * Rpower pr (0.8633 + 0.00002667 * roc - 0.355 * vr).
Definition climb_low (pr p10 vr roc : R) : R :=
  climb_mid p10 vr roc +
  (0.47379 + 0.000024444 * roc - 0.0000000088889 * roc ^ 2 - 0.12043 * vr) * (pr - p10).
Definition climb_ratio (alt pr p10 vr mr roc r : R) : Prop :=
  (30000 < alt -> r = climb_high pr mr) /\
  (10000 < alt <= 30000 -> r = climb_mid pr vr roc) /\
  (alt <= 10000 -> r = climb_low pr p10 vr roc).

Theorem C73_three_segment_climb_law : forall e tas alt roc dT,
  0 < cruise_mach e -> 0 < eng_cruise_thrust e -> 0 < eng_number e ->
  let h := Fin (alt * 0.3048) in
  let hc := Fin (cruise_alt e * 0.3048) in
  let v := Fin (Rmax 10 tas * 0.514444) in
  exists m cas casr p p10 pc r,
    tas2mach NP v h (Fin dT) = Fin m /\ tas2cas NP v h (Fin dT) = Fin cas /\
    mach2cas NP (Fin (cruise_mach e)) hc (Fin dT) = Fin casr /\
    pressure NP h (Fin dT) = Fin p /\ pressure NP (Fin (10000 * 0.3048)) (Fin dT) = Fin p10 /\
    pressure NP hc (Fin dT) = Fin pc /\
    climb_ratio alt (p / pc) (p10 / pc) (cas / casr) (m / cruise_mach e) (Rabs roc) r /\
    climb_thrust NP e (Fin tas) (Fin alt) (Fin roc) (Fin dT)
      = Fin (eng_number e * eng_cruise_thrust e * r).
Proof.
  intros e tas alt roc dT Hm Hc Hn h hc v. subst h hc v.
  assert (HF : eng_cruise_thrust e * eng_number e <> 0) by nra.
  rewrite tas2mach_NP, tas2cas_NP, mach2cas_NP, !pressure_NP, climb_NP by auto.
  do 7 eexists. do 6 (split; [reflexivity|]). split.
  2:{ f_equal. unfold climbR, FcrR. rewrite Rmult_comm, (Rmult_comm (eng_cruise_thrust e)). reflexivity. }
  uc. set (va := Rmax 10 tas * 0.514444). unfold climb_ratio.
  refine (conj _ (conj _ _)); intros Ha.
  - rewrite Rltb_true by lra. unfold seg3R, climb_high, mrR, prR. uc. f_equal; [f_equal; lra|f_equal; lra].
  - rewrite Rltb_false, Rltb_true by lra. unfold seg2R, climb_mid, xrR, prR, vrefR, expo, xrR, vrefR. uc.
    f_equal; f_equal; lra.
  - rewrite !Rltb_false by lra. unfold seg1R, climb_low, climb_mid, mR, expo, xrR, prR, vrefR. uc.
    set (pp := pR (alt * _) dT / _). set (p1 := pR (10000 * _) dT / _).
    set (x := t2cR va _ dT / _).
    replace (-0.355 * x + (2.667e-05 * Rabs roc + 0.8633)) with (0.8633 + 0.00002667 * Rabs roc - 0.355 * x) by lra.
    replace (Rpower x (-0.1)) with (Rpower x (- (0.1))) by (f_equal; lra).
    set (A := Rpower x _). set (B := Rpower p1 _).
    replace (FcrR e * A * B / FcrR e) with (A * B) by (field; exact HF).
    replace (-1.2043e-1) with (- (0.12043)) by lra. replace 8.8889e-9 with 0.0000000088889 by lra.
    replace 2.4444e-5 with 0.000024444 by lra. replace 4.7379e-1 with 0.47379 by lra. ring.
Qed.

(** Which cruise data the constructor takes: those of the engine row when it has a positive
    cruise Mach number, else the aircraft's Mach number and 0.2 F + 890 N per engine.  At cruise
    height and at that Mach number the thrust is that value times the number of engines. *)
Theorem C73_cruise_data_selection : forall height mach n bpr F ecm ect tas roc dT,
  0 < n -> 0 < F -> 0 < mach -> 30000 * 0.3048 < height -> 10 <= tas ->
  let e := thrust_init height mach n bpr F ecm ect in
  let out := climb_thrust NP e (Fin tas) (Fin (height / 0.3048)) (Fin roc) (Fin dT) in
  (forall m f, ecm = Some m -> ect = Some f -> 0 < m -> 0 < f ->
     tas2mach NP (Fin (tas * 0.514444)) (Fin height) (Fin dT) = Fin m -> out = Fin (n * f)) /\
  (ecm = None \/ (exists m, ecm = Some m /\ m <= 0) ->
     tas2mach NP (Fin (tas * 0.514444)) (Fin height) (Fin dT) = Fin mach -> out = Fin (n * (0.2 * F + 890))).
Proof.
  intros height mach n bpr F ecm ect tas roc dT Hn HF Hm Hh Ht e out.
  assert (K : forall c M, 0 < M -> 0 < c -> tas2mach NP (Fin (tas * 0.514444)) (Fin height) (Fin dT) = Fin M ->
     climb_thrust NP (mkThrust (height / ft) bpr F n M c) (Fin tas) (Fin (height / 0.3048)) (Fin roc) (Fin dT) = Fin (n * c)).
  { intros c M HM Hc E.
    destruct (C20_symmetry_floor_cruise_reference (mkThrust (height / ft) bpr F n M c) tas (height / 0.3048) roc dT HM Hc Hn)
      as (_ & _ & _ & R). cbn [cruise_alt cruise_mach eng_number eng_cruise_thrust] in R.
    apply R; auto.
    - uc. lra.
    - replace (height / ft * 0.3048) with height by (uc; qr; field). auto. }
  subst e out. split.
  - intros m f -> -> Hm' Hf E. unfold thrust_init. rewrite Rltb_true by auto. apply K; auto.
  - intros H E. assert (G : thrust_init height mach n bpr F ecm ect = mkThrust (height / ft) bpr F n mach (0.2 * F + 890)).
    { unfold thrust_init. destruct ecm as [m|]; auto. destruct ect as [f|]; auto.
      destruct H as [H|[m' [H L]]]; try discriminate. injection H as <-. rewrite Rltb_false by lra. auto. }
    rewrite G. apply K; auto. lra.
Qed.

(** A320 with CFM56-5B4: cruise Mach 0.8 and 22241 N come from the engine row.
    openap/data/aircraft/a320.yml:36-40, openap/data/engine/engines.csv:53 *)
Example C73_ex_selection : exists tas, 10 <= tas /\
  climb_thrust NP a320_thrust (Fin tas)
    (Fin (11000 / 0.3048)) (Fin 0) (Fin 0) = Fin (2 * 22241).
Proof.
  exists (0.8 * aR 11000 0 / 0.514444). 
  assert (HA : 277 <= aR 11000 0).
  { unfold aR. replace 277 with (sqrt (277 * 277)) by (apply sqrt_square; lra).
    apply sqrt_le_1_alt. pose proof (tR_pos 11000 0). uc. nra. }
  split; [lra|].
  destruct (C73_cruise_data_selection 11000 0.78 2 5.9 117900 (Some 0.8) (Some 22241) (0.8 * aR 11000 0 / 0.514444) 0 0)
    as [K _]; try lra. unfold a320_thrust. apply (K 0.8 22241); try lra; auto.
  rewrite tas2mach_NP. f_equal. pose proof (aR_pos 11000 0). qr. field. lra.
Qed.

(** ** C74 *)
(** Drag of a parabolic polar: zero-lift coefficient [cd0], induced-drag factor [k], lift [L],
    dynamic pressure times wing area [qS]. *)
Definition polar_drag (cd0 k L qS : R) : R := cd0 * qS + k * L ^ 2 / qS.
(** dynamic pressure times area, never below a thousandth of a newton *)
Definition pressure_area (rho v S : R) : R := Rmax (rho * v ^ 2 / 2 * S) 0.001.

Lemma pressure_area_qSR : forall S tas alt dT,
  pressure_area (rhoR (alt * ft) dT) (si_kt tas) S = qSR S tas alt dT.
Proof. intros. unfold pressure_area, qSR, si_kt. uc. f_equal; lra. Qed.

Lemma dragR_polar : forall S cd0 k mass tas alt vs dT c, path_cosine (si_kt tas) (si_fpm vs) c ->
  dragR S cd0 k mass tas alt vs dT
  = polar_drag cd0 k (mass * gravity * c) (pressure_area (rhoR (alt * ft) dT) (si_kt tas) S).
Proof.
  intros. rewrite dragR_eq, pressure_area_qSR. unfold polar_drag, liftR. rewrite (path_cosine_spec _ _ _ H). reflexivity.
Qed.

(** Clean drag without wave drag is the polar at the lift that carries the weight across the
    flight path. *)
Theorem C74_parabolic_polar : forall a mass tas alt vs dT c, path_cosine (si_kt tas) (si_fpm vs) c ->
  exists rho, density NP (Fin (si_ft alt)) (Fin dT) = Fin rho /\
    clean NP a false (Fin mass) (Fin tas) (Fin alt) (Fin vs) (Fin dT)
    = Fin (polar_drag (cd0_clean a) (k_clean a) (mass * gravity * c)
             (pressure_area rho (si_kt tas) (wing_area a))).
Proof.
  intros. rewrite density_NP, clean_NP. eexists; split; [reflexivity|]. f_equal.
  apply dragR_polar; auto.
Qed.

(** Flap drag (profile) and Oswald-factor gain per degree of flap; gear drag from the maximum
    take-off mass. *)
Definition flap_cd (lambda chord area flap : R) : R :=
  lambda * Rpower chord 1.38 * area * sin (flap * PI / 180) ^ 2.
Definition gear_cd (mtow S : R) : R := mtow * gravity / S * 0.0000316 * Rpower mtow (- (0.215)).
Definition flap_k (k span S gain flap : R) : R := / (/ k + PI * (span ^ 2 / S) * (gain * flap)).

Theorem C74_high_lift_polar : forall a mass tas alt flap vs dT (gear : bool) c,
  0 < k_clean a -> 0 < wing_area a -> 0 < cf_c a -> 0 < mtow a -> 0 <= flap ->
  path_cosine (si_kt tas) (si_fpm vs) c ->
  exists rho, density NP (Fin (si_ft alt)) (Fin dT) = Fin rho /\
    nonclean NP a (Fin mass) (Fin tas) (Fin alt) (Fin flap) (Fin vs) (Fin dT) gear
    = Fin (polar_drag
             (cd0_clean a + flap_cd (lambda_f a) (cf_c a) (Sf_S a) flap
                + if gear then gear_cd (mtow a) (wing_area a) else 0)
             (flap_k (k_clean a) (wing_span a) (wing_area a) (if rear_mounted a then 0.0046 else 0.0026) flap)
             (mass * gravity * c) (pressure_area rho (si_kt tas) (wing_area a))).
Proof.
  intros. rewrite density_NP, nonclean_NP by auto. eexists; split; [reflexivity|]. f_equal.
  rewrite (dragR_polar _ _ _ _ _ _ _ _ c) by auto. unfold si_ft. uc. f_equal.
  - f_equal. unfold gearcdR, gear_cd, gravity. destruct gear; auto. uc.
    replace 3.16e-5 with 0.0000316 by lra. replace (-0.215) with (- (0.215)) by lra. reflexivity.
  - unfold ktotR, flap_k, deltaeR. unfold Rdiv. rewrite !Rmult_1_l. reflexivity.
Qed.

(** 60 t A320, 140 kt at sea level on a 3 degree glide, flaps 30, gear down *)
Example C74_ex : path_cosine (si_kt 140) (si_fpm (-700)) (si_kt 140 / sqrt (si_kt 140 * si_kt 140 + si_fpm (-700) * si_fpm (-700)))
  /\ 0.0034 < flap_cd (lambda_f a320_drag) (cf_c a320_drag) (Sf_S a320_drag) 30 < 0.0035
  /\ 0.017 < gear_cd (mtow a320_drag) (wing_area a320_drag) < 0.0175.
Proof.
  cbn [lambda_f cf_c Sf_S mtow wing_area a320_drag]. unfold path_cosine, flap_cd, gear_cd, gravity.
  split; [right; split; [left; unfold si_kt; lra|reflexivity]|]. unfold Rpower. split; split; interval.
Qed.

(** ** C75 *)
(** Between 15 % and 100 % of rated thrust the limiter is transparent: the fuel law is evaluated at
    the thrust ratio itself up to one part in ten thousand. *)
Lemma limR_tracks : forall r, 0.15 <= r <= 1 -> Rabs (limR r - r) <= 1e-4.
Proof.
  intros r H. unfold limR, sp. interval with (i_bisect r, i_depth 22, i_autodiff r).
Qed.

Theorem C75_tracks_thrust_ratio : forall f, fuel_ok f -> forall t,
  0.15 * rated f <= t <= rated f ->
  exists x, at_thrust NP f (Fin t) = Fin (flow f x) /\ Rabs (x - t / rated f) <= 1e-4.
Proof.
  intros f Hok t Ht. pose proof (ok_thr f Hok). pose proof (ok_n f Hok). unfold rated in *.
  assert (0 < f_n_eng f * f_max_thrust f) by nra.
  exists (limR (ratR f t)). rewrite at_thrust_NP by (auto; lra). split.
  - f_equal. unfold atR. rewrite flow_law. reflexivity.
  - replace (t / (f_n_eng f * f_max_thrust f)) with (ratR f t) by (unfold ratR; field; lra).
    apply limR_tracks. split; [apply ratR_ge|apply ratR_le]; auto; lra.
Qed.
(** Idle side: at zero thrust the law is evaluated at about 3.3 %, never below 3 %. *)
Theorem C75_idle_floor : forall f, fuel_ok f ->
  exists x, at_thrust NP f (Fin 0) = Fin (flow f x) /\ 0.03 < x < 0.035.
Proof.
  intros f Hok. pose proof (ok_thr f Hok). pose proof (ok_n f Hok).
  exists (limR (ratR f 0)). assert (0 < f_n_eng f * f_max_thrust f) by nra.
  rewrite at_thrust_NP by (auto; lra). split.
  - f_equal. unfold atR. rewrite flow_law. reflexivity.
  - replace (ratR f 0) with 0 by (unfold ratR; field; lra). unfold limR, sp. split; interval.
Qed.
(** A320 at half of its rated thrust *)
Example C75_ex : fuel_ok a320_fuel /\ 0.15 * rated a320_fuel <= 117900 <= rated a320_fuel.
Proof. split; [apply a320_fuel_ok|]. unfold rated. cbn. lra. Qed.
