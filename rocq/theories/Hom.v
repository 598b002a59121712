(** * Backend homomorphisms

    Proof device: two backends whose operations preserve a relation give related results for
    every backend-generic model function.  Used with three target backends: arrays against
    their elements (P_Vec.v), arrays against the set of arguments that matter for the shape,
    and CasADi expressions against numbers (P_Sym.v). *)
From Coq Require Import Reals List Lra.
From Verif Require Import Num Aero Geo Thrust Drag Fuel Emission Mass Contrail.
Import ListNotations.
Open Scope R_scope.

Record hom (b1 b2 : backend) : Type := mkHom {
  hR : T b1 -> T b2 -> Prop;
  hC : C b1 -> C b2 -> Prop;
  h_cst : forall r, hR (cst b1 r) (cst b2 r);
  h_pi : hR (bpi b1) (bpi b2);
  h_add : forall x x' y y', hR x x' -> hR y y' -> hR (add b1 x y) (add b2 x' y');
  h_sub : forall x x' y y', hR x x' -> hR y y' -> hR (sub b1 x y) (sub b2 x' y');
  h_mul : forall x x' y y', hR x x' -> hR y y' -> hR (mul b1 x y) (mul b2 x' y');
  h_div : forall x x' y y', hR x x' -> hR y y' -> hR (div b1 x y) (div b2 x' y');
  h_neg : forall x x', hR x x' -> hR (neg b1 x) (neg b2 x');
  h_powi : forall x x' n, n <> O -> hR x x' -> hR (powi b1 x n) (powi b2 x' n);
  h_power : forall x x' y y', hR x x' -> hR y y' -> hR (power b1 x y) (power b2 x' y');
  h_sqrt : forall x x', hR x x' -> hR (bsqrt b1 x) (bsqrt b2 x');
  h_exp : forall x x', hR x x' -> hR (bexp b1 x) (bexp b2 x');
  h_log : forall x x', hR x x' -> hR (blog b1 x) (blog b2 x');
  h_sin : forall x x', hR x x' -> hR (bsin b1 x) (bsin b2 x');
  h_cos : forall x x', hR x x' -> hR (bcos b1 x) (bcos b2 x');
  h_asin : forall x x', hR x x' -> hR (barcsin b1 x) (barcsin b2 x');
  h_acos : forall x x', hR x x' -> hR (barccos b1 x) (barccos b2 x');
  h_tanh : forall x x', hR x x' -> hR (btanh b1 x) (btanh b2 x');
  h_atan2 : forall x x' y y', hR x x' -> hR y y' -> hR (barctan2 b1 x y) (barctan2 b2 x' y');
  h_abs : forall x x', hR x x' -> hR (babs b1 x) (babs b2 x');
  h_max : forall x x' y y', hR x x' -> hR y y' -> hR (maximum b1 x y) (maximum b2 x' y');
  h_min : forall x x' y y', hR x x' -> hR y y' -> hR (minimum b1 x y) (minimum b2 x' y');
  h_clip : forall x x' lo hi, lo <= hi -> hR x x' ->
     hR (clip b1 x (cst b1 lo) (cst b1 hi)) (clip b2 x' (cst b2 lo) (cst b2 hi));
  h_fmod : forall x x' y y', hR x x' -> hR y y' -> hR (fmod b1 x y) (fmod b2 x' y');
  h_gt : forall x x' y y', hR x x' -> hR y y' -> hC (gt b1 x y) (gt b2 x' y');
  h_where : forall c c' x x' y y', hC c c' -> hR x x' -> hR y y' ->
     hR (where_ b1 c x y) (where_ b2 c' x' y')
}.

Ltac hom1 :=
  first [ assumption
        | simple apply h_cst | simple apply h_pi
        | simple apply h_add | simple apply h_sub | simple apply h_mul | simple apply h_div | simple apply h_neg
        | simple apply h_powi; [discriminate|]
        | simple apply h_power | simple apply h_sqrt | simple apply h_exp | simple apply h_log
        | simple apply h_sin | simple apply h_cos | simple apply h_asin | simple apply h_acos | simple apply h_tanh
        | simple apply h_atan2 | simple apply h_abs | simple apply h_max | simple apply h_min
        | simple apply h_clip; [lra|]
        | simple apply h_fmod | simple apply h_where | simple apply h_gt ].
Ltac hom := cbv zeta; repeat hom1.

Section Hom.
Context (b1 b2 : backend) (H : hom b1 b2).
Local Notation Rl := (hR b1 b2 H).

(** ** aero.py *)
Lemma atmos_hom : forall h h' d d', Rl h h' -> Rl d d' ->
  Rl (fst (fst (atmos b1 h d))) (fst (fst (atmos b2 h' d'))) /\
  Rl (snd (fst (atmos b1 h d))) (snd (fst (atmos b2 h' d'))) /\
  Rl (snd (atmos b1 h d)) (snd (atmos b2 h' d')).
Proof.
  intros h h' d d' Hh Hd. unfold atmos. cbv zeta. cbn [fst snd].
  refine (conj _ (conj _ _)); hom.
Qed.

Lemma temperature_hom : forall h h' d d', Rl h h' -> Rl d d' ->
  Rl (temperature b1 h d) (temperature b2 h' d').
Proof. intros. apply atmos_hom; assumption. Qed.
Lemma pressure_hom : forall h h' d d', Rl h h' -> Rl d d' ->
  Rl (pressure b1 h d) (pressure b2 h' d').
Proof. intros. apply atmos_hom; assumption. Qed.
Lemma density_hom : forall h h' d d', Rl h h' -> Rl d d' ->
  Rl (density b1 h d) (density b2 h' d').
Proof. intros. apply atmos_hom; assumption. Qed.
Lemma vsound_hom : forall h h' d d', Rl h h' -> Rl d d' ->
  Rl (vsound b1 h d) (vsound b2 h' d').
Proof. intros. unfold vsound. hom. apply temperature_hom; assumption. Qed.
Lemma h_isa_hom : forall p p' d d', Rl p p' -> Rl d d' -> Rl (h_isa b1 p d) (h_isa b2 p' d').
Proof. intros. unfold h_isa. hom. Qed.
Lemma tas2mach_hom : forall v v' h h' d d', Rl v v' -> Rl h h' -> Rl d d' ->
  Rl (tas2mach b1 v h d) (tas2mach b2 v' h' d').
Proof. intros. unfold tas2mach. hom. apply vsound_hom; assumption. Qed.
Lemma mach2tas_hom : forall v v' h h' d d', Rl v v' -> Rl h h' -> Rl d d' ->
  Rl (mach2tas b1 v h d) (mach2tas b2 v' h' d').
Proof. intros. unfold mach2tas. hom. apply vsound_hom; assumption. Qed.
Lemma eas2tas_hom : forall v v' h h' d d', Rl v v' -> Rl h h' -> Rl d d' ->
  Rl (eas2tas b1 v h d) (eas2tas b2 v' h' d').
Proof. intros. unfold eas2tas. hom. apply density_hom; assumption. Qed.
Lemma tas2eas_hom : forall v v' h h' d d', Rl v v' -> Rl h h' -> Rl d d' ->
  Rl (tas2eas b1 v h d) (tas2eas b2 v' h' d').
Proof. intros. unfold tas2eas. hom. apply density_hom; assumption. Qed.
Lemma cas2tas_hom : forall v v' h h' d d', Rl v v' -> Rl h h' -> Rl d d' ->
  Rl (cas2tas b1 v h d) (cas2tas b2 v' h' d').
Proof.
  intros v v' h h' d d' Hv Hh Hd. unfold cas2tas.
  generalize (atmos_hom h h' d d' Hh Hd).
  destruct (atmos b1 h d) as [[p r] t], (atmos b2 h' d') as [[p' r'] t']. cbn [fst snd].
  intros (Hp & Hr & Ht). hom.
Qed.
Lemma tas2cas_hom : forall v v' h h' d d', Rl v v' -> Rl h h' -> Rl d d' ->
  Rl (tas2cas b1 v h d) (tas2cas b2 v' h' d').
Proof.
  intros v v' h h' d d' Hv Hh Hd. unfold tas2cas.
  generalize (atmos_hom h h' d d' Hh Hd).
  destruct (atmos b1 h d) as [[p r] t], (atmos b2 h' d') as [[p' r'] t']. cbn [fst snd].
  intros (Hp & Hr & Ht). hom.
Qed.
Lemma mach2cas_hom : forall v v' h h' d d', Rl v v' -> Rl h h' -> Rl d d' ->
  Rl (mach2cas b1 v h d) (mach2cas b2 v' h' d').
Proof. intros. apply tas2cas_hom; try assumption. apply mach2tas_hom; assumption. Qed.
Lemma cas2mach_hom : forall v v' h h' d d', Rl v v' -> Rl h h' -> Rl d d' ->
  Rl (cas2mach b1 v h d) (cas2mach b2 v' h' d').
Proof. intros. apply tas2mach_hom; try assumption. apply cas2tas_hom; assumption. Qed.
Lemma crossover_hom : forall v v' h h' d d', Rl v v' -> Rl h h' -> Rl d d' ->
  Rl (crossover_alt b1 v h d) (crossover_alt b2 v' h' d').
Proof. intros. unfold crossover_alt. hom. Qed.

(** ** geo.py *)
Lemma distance_hom : forall x1 y1 x2 y2 h x1' y1' x2' y2' h',
  Rl x1 x1' -> Rl y1 y1' -> Rl x2 x2' -> Rl y2 y2' -> Rl h h' ->
  Rl (distance b1 x1 y1 x2 y2 h) (distance b2 x1' y1' x2' y2' h').
Proof. intros. unfold distance. hom. Qed.
Lemma bearing_hom : forall x1 y1 x2 y2 x1' y1' x2' y2',
  Rl x1 x1' -> Rl y1 y1' -> Rl x2 x2' -> Rl y2 y2' ->
  Rl (bearing b1 x1 y1 x2 y2) (bearing b2 x1' y1' x2' y2').
Proof. intros. unfold bearing. hom. Qed.
Lemma latlon_hom : forall x y d g h x' y' d' g' h',
  Rl x x' -> Rl y y' -> Rl d d' -> Rl g g' -> Rl h h' ->
  Rl (fst (latlon b1 x y d g h)) (fst (latlon b2 x' y' d' g' h')) /\
  Rl (snd (latlon b1 x y d g h)) (snd (latlon b2 x' y' d' g' h')).
Proof. intros. unfold latlon. cbv zeta. cbn [fst snd]. split; hom. Qed.
Lemma solar_zenith_hom : forall x y d g x' y' d' g',
  Rl x x' -> Rl y y' -> Rl d d' -> Rl g g' ->
  Rl (solar_zenith b1 x y d g) (solar_zenith b2 x' y' d' g').
Proof.
  intros. unfold solar_zenith, cos_zenith, solar_declination, equation_of_time, solar_gamma,
    rad2deg_, deg2rad_. hom.
Qed.

(** ** thrust.py *)
Lemma takeoff_thrust_hom : forall e v v' h h' d d', Rl v v' -> Rl h h' -> Rl d d' ->
  Rl (takeoff_thrust b1 e v h d) (takeoff_thrust b2 e v' h' d').
Proof.
  intros. unfold takeoff_thrust. hom; first [simple apply tas2mach_hom | simple apply pressure_hom]; hom.
Qed.
Lemma climb_thrust_hom : forall e v v' h h' r r' d d', Rl v v' -> Rl h h' -> Rl r r' -> Rl d d' ->
  Rl (climb_thrust b1 e v h r d) (climb_thrust b2 e v' h' r' d').
Proof.
  intros. unfold climb_thrust, dfunc, nfunc, mfunc.
  hom; first [simple apply tas2mach_hom | simple apply tas2cas_hom | simple apply mach2cas_hom | simple apply pressure_hom]; hom.
Qed.
Lemma cruise_thrust_hom : forall e v v' h h' d d', Rl v v' -> Rl h h' -> Rl d d' ->
  Rl (cruise_thrust b1 e v h d) (cruise_thrust b2 e v' h' d').
Proof. intros. apply climb_thrust_hom; hom. Qed.
Lemma descent_idle_hom : forall e v v' h h' d d', Rl v v' -> Rl h h' -> Rl d d' ->
  Rl (descent_idle b1 e v h d) (descent_idle b2 e v' h' d').
Proof. intros. unfold descent_idle. hom. apply takeoff_thrust_hom; assumption. Qed.

(** ** drag.py *)
Lemma cl_qS_hom : forall a m m' v v' h h' s s' d d',
  Rl m m' -> Rl v v' -> Rl h h' -> Rl s s' -> Rl d d' ->
  Rl (fst (cl_qS b1 a m v h s d)) (fst (cl_qS b2 a m' v' h' s' d')) /\
  Rl (snd (cl_qS b1 a m v h s d)) (snd (cl_qS b2 a m' v' h' s' d')).
Proof.
  intros. unfold cl_qS. cbv zeta. cbn [fst snd]. split; hom; apply density_hom; hom.
Qed.
Lemma calc_drag_hom : forall a m m' v v' h h' c c' k k' s s' d d',
  Rl m m' -> Rl v v' -> Rl h h' -> Rl c c' -> Rl k k' -> Rl s s' -> Rl d d' ->
  Rl (calc_drag b1 a m v h c k s d) (calc_drag b2 a m' v' h' c' k' s' d').
Proof.
  intros a m m' v v' h h' c c' k k' s s' d d' Hm Hv Hh Hc Hk Hs Hd. unfold calc_drag.
  generalize (cl_qS_hom a m m' v v' h h' s s' d d' Hm Hv Hh Hs Hd).
  destruct (cl_qS b1 a m v h s d) as [x y], (cl_qS b2 a m' v' h' s' d') as [x' y'].
  cbn [fst snd]. intros (Hx & Hy). hom.
Qed.
Lemma mach_crit_hom : forall a m m' v v' h h' d d',
  Rl m m' -> Rl v v' -> Rl h h' -> Rl d d' ->
  Rl (mach_crit b1 a m v h d) (mach_crit b2 a m' v' h' d').
Proof.
  intros a m m' v v' h h' d d' Hm Hv Hh Hd. unfold mach_crit.
  assert (Hs : Rl (cst b1 0) (cst b2 0)) by hom.
  generalize (cl_qS_hom a m m' v v' h h' _ _ d d' Hm Hv Hh Hs Hd).
  destruct (cl_qS b1 a m v h (cst b1 0) d) as [x y], (cl_qS b2 a m' v' h' (cst b2 0) d') as [x' y'].
  cbn [fst snd]. intros (Hx & Hy). hom.
Qed.
Lemma wave_cd_hom : forall a m m' v v' h h' d d',
  Rl m m' -> Rl v v' -> Rl h h' -> Rl d d' ->
  Rl (wave_cd b1 a m v h d) (wave_cd b2 a m' v' h' d').
Proof.
  intros. unfold wave_cd. hom; first [simple apply tas2mach_hom | simple apply mach_crit_hom]; hom.
Qed.
Lemma clean_hom : forall a w m m' v v' h h' s s' d d',
  Rl m m' -> Rl v v' -> Rl h h' -> Rl s s' -> Rl d d' ->
  Rl (clean b1 a w m v h s d) (clean b2 a w m' v' h' s' d').
Proof.
  intros. unfold clean. cbv zeta. apply calc_drag_hom; try assumption; hom.
  destruct w; hom. apply wave_cd_hom; assumption.
Qed.
Lemma nonclean_hom : forall a g m m' v v' h h' f f' s s' d d',
  Rl m m' -> Rl v v' -> Rl h h' -> Rl f f' -> Rl s s' -> Rl d d' ->
  Rl (nonclean b1 a m v h f s d g) (nonclean b2 a m' v' h' f' s' d' g).
Proof.
  intros. unfold nonclean. cbv zeta.
  apply calc_drag_hom; try assumption; destruct g, (rear_mounted a); hom.
Qed.

(** ** fuel.py *)
Lemma at_thrust_hom : forall f x x', Rl x x' -> Rl (at_thrust b1 f x) (at_thrust b2 f x').
Proof. intros. unfold at_thrust, func_fuel, thrust_ratio. hom. Qed.
Lemma takeoff_fuel_hom : forall e f v v' h h' th th', Rl v v' -> Rl h h' -> Rl th th' ->
  match takeoff_fuel b1 e f v (Some h) th, takeoff_fuel b2 e f v' (Some h') th' with
  | inr x, inr x' => Rl x x'
  | inl _, _ | _, inl _ => False
  end.
Proof.
  intros. cbn [takeoff_fuel]. hom. apply at_thrust_hom, takeoff_thrust_hom; hom.
Qed.
Lemma enroute_hom : forall a w f m m' v v' h h' s s' c c' d d' l,
  Rl m m' -> Rl v v' -> Rl h h' -> Rl s s' -> Rl c c' -> Rl d d' ->
  Rl (enroute b1 a w f m v h s c d l) (enroute b2 a w f m' v' h' s' c' d' l).
Proof.
  intros. unfold enroute. cbv zeta. apply at_thrust_hom. hom. apply clean_hom; assumption.
Qed.

(** ** emission.py *)
Lemma fl2sl_hom : forall n x x' v v' h h' d d',
  Rl x x' -> Rl v v' -> Rl h h' -> Rl d d' ->
  Rl (fst (fl2sl b1 n x v h d)) (fst (fl2sl b2 n x' v' h' d')) /\
  Rl (snd (fl2sl b1 n x v h d)) (snd (fl2sl b2 n x' v' h' d')).
Proof.
  intros. unfold fl2sl. cbv zeta. cbn [fst snd].
  split; hom; first [simple apply tas2mach_hom | simple apply temperature_hom]; hom.
Qed.
Lemma nox_hom : forall n t x x' v v' h h' d d',
  Rl x x' -> Rl v v' -> Rl h h' -> Rl d d' ->
  Rl (interp b1 (fst (fl2sl b1 n x v h d)) (ei_points t))
     (interp b2 (fst (fl2sl b2 n x' v' h' d')) (ei_points t)) ->
  Rl (nox b1 n t x v h d) (nox b2 n t x' v' h' d').
Proof.
  intros n t x x' v v' h h' d d' Hx Hv Hh Hd. unfold nox.
  generalize (fl2sl_hom n x x' v v' h h' d d' Hx Hv Hh Hd).
  destruct (fl2sl b1 n x v h d) as [p q], (fl2sl b2 n x' v' h' d') as [p' q'].
  cbn [fst snd]. intros (Hp & Hq) HI. hom.
Qed.
Lemma co_hc_hom : forall n t x x' v v' h h' d d',
  Rl x x' -> Rl v v' -> Rl h h' -> Rl d d' ->
  Rl (interp b1 (fst (fl2sl b1 n x v h d)) (ei_points t))
     (interp b2 (fst (fl2sl b2 n x' v' h' d')) (ei_points t)) ->
  Rl (co_hc b1 n t x v h d) (co_hc b2 n t x' v' h' d').
Proof.
  intros n t x x' v v' h h' d d' Hx Hv Hh Hd. unfold co_hc.
  generalize (fl2sl_hom n x x' v v' h h' d d' Hx Hv Hh Hd).
  destruct (fl2sl b1 n x v h d) as [p q], (fl2sl b2 n x' v' h' d') as [p' q'].
  cbn [fst snd]. intros (Hp & Hq) HI. hom.
Qed.

(** ** mass.py *)
Lemma from_range_hom : forall ac x x' l l' f, Rl x x' -> Rl l l' ->
  match from_range b1 ac x l f, from_range b2 ac x' l' f with
  | inr r, inr r' => Rl r r'
  | inl e, inl e' => e = e'
  | _, _ => False
  end.
Proof.
  intros. unfold from_range. destruct (m_range ac); [|reflexivity].
  cbv zeta. destruct f; hom.
Qed.

(** ** contrail.py *)
Lemma sat_water_hom : forall t t', Rl t t' ->
  Rl (saturation_pressure_over_water b1 t) (saturation_pressure_over_water b2 t').
Proof. intros. unfold saturation_pressure_over_water. hom. Qed.
Lemma sat_ice_hom : forall t t', Rl t t' ->
  Rl (saturation_pressure_over_ice b1 t) (saturation_pressure_over_ice b2 t').
Proof. intros. unfold saturation_pressure_over_ice. hom. Qed.
Lemma relative_humidity_hom : forall q q' p p' t t' to, Rl q q' -> Rl p p' -> Rl t t' ->
  Rl (relative_humidity b1 q p t to) (relative_humidity b2 q' p' t' to).
Proof.
  intros. unfold relative_humidity. destruct to; hom;
  first [simple apply sat_water_hom | simple apply sat_ice_hom]; hom.
Qed.
Lemma rhw2rhi_hom : forall q q' t t', Rl q q' -> Rl t t' ->
  Rl (rhw2rhi b1 q t) (rhw2rhi b2 q' t').
Proof.
  intros. unfold rhw2rhi. hom; first [simple apply sat_water_hom | simple apply sat_ice_hom]; hom.
Qed.
Lemma crit_water_hom : forall p p' e e', Rl p p' -> Rl e e' ->
  Rl (critical_temperature_water b1 p e) (critical_temperature_water b2 p' e').
Proof. intros. unfold critical_temperature_water, isobaric_mixing_slope. hom. Qed.
Lemma rf_shortwave_hom : forall z z' t t' c c', Rl z z' -> Rl t t' -> Rl c c' ->
  Rl (rf_shortwave b1 z t c) (rf_shortwave b2 z' t' c').
Proof. intros. unfold rf_shortwave, Fsw. hom. Qed.
Lemma rf_longwave_hom : forall z z' t t', Rl z z' -> Rl t t' ->
  Rl (rf_longwave b1 z t) (rf_longwave b2 z' t').
Proof. intros. unfold rf_longwave. hom. Qed.
Lemma rf_net_hom : forall z z' t t' c c' o o' k k', Rl z z' -> Rl t t' -> Rl c c' -> Rl o o' -> Rl k k' ->
  Rl (rf_net b1 z t c o k) (rf_net b2 z' t' c' o' k').
Proof.
  intros. unfold rf_net. hom; first [simple apply rf_shortwave_hom | simple apply rf_longwave_hom]; hom.
Qed.
End Hom.
