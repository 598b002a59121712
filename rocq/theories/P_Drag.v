(** * Properties C28-C31: aerodynamic drag *)
From Coq Require Import Reals List Bool Lra Lia Psatz.
From Interval Require Import Tactic.
From Verif Require Import Num NumFacts SpecNum Aero AeroFacts GeoFacts Drag DragFacts.
Open Scope R_scope.

(** Specification: [c] is the cosine of the flight-path angle of the velocity with horizontal
    component [v] and vertical component [w]; a body at rest counts as level. *)
Definition path_cosine (v w c : R) : Prop :=
  (v = 0 /\ w = 0 /\ c = 1) \/ ((v <> 0 \/ w <> 0) /\ c = v / sqrt (v * v + w * w)).

(** Specification: knots and feet per minute in m/s, feet in m, standard gravity. *)
Definition si_kt (x : R) : R := x * 0.514444.
Definition si_fpm (x : R) : R := x * 0.00508.
Definition si_ft (x : R) : R := x * 0.3048.
Definition gravity : R := 9.80665.

Lemma path_cosine_spec : forall tas vs c, path_cosine (si_kt tas) (si_fpm vs) c ->
  c = cos (Ratan2 (vs * fpm) (tas * kts)).
Proof.
  intros tas vs c [[Hv [Hw Hc]]|[H Hc]]; subst c.
  - unfold si_kt, si_fpm in *. unfold kts, fpm. rewrite Hv, Hw, atan2_00, cos_0. auto.
  - symmetry. apply cos_atan2_hyp. auto.
Qed.

(** an A320 (openap/data/aircraft/a320.yml, openap/data/dragpolar/a320.yml) *)
Definition a320_drag : drag_par :=
  mkDrag 124 35.8 25 None 78000 false 0.018 0.039 0.9 0.176 0.17.

(** ** C28 *)
Theorem C28_clean_drag_bounds : forall a mass tas alt vs dT,
  0 < cd0_clean a -> 0 < k_clean a ->
  exists D, clean NP a false (Fin mass) (Fin tas) (Fin alt) (Fin vs) (Fin dT) = Fin D /\ 0 < D /\
    forall c, path_cosine (si_kt tas) (si_fpm vs) c ->
      2 * (mass * gravity * c) * sqrt (cd0_clean a * k_clean a) <= D.
Proof.
  intros a mass tas alt vs dT Hc Hk. rewrite clean_NP. eexists; split; [reflexivity|]. split.
  - apply dragR_pos; lra.
  - intros c H. apply path_cosine_spec in H. subst c.
    pose proof (dragR_min (wing_area a) (cd0_clean a) (k_clean a) mass tas alt vs dT Hc Hk) as M.
    change (mass * gravity * cos (Ratan2 (vs * fpm) (tas * kts))) with (liftR mass tas vs).
    pose proof (Rle_abs (liftR mass tas vs)). pose proof (sqrt_pos (cd0_clean a * k_clean a)). nra.
Qed.
(** ... and the same with the wave-drag model switched on *)
Theorem C28_clean_drag_bounds_wave : forall a mass tas alt vs dT,
  0 < cd0_clean a -> 0 < k_clean a -> -90 < wing_sweep a < 90 -> 0 <= tas ->
  exists D, clean NP a true (Fin mass) (Fin tas) (Fin alt) (Fin vs) (Fin dT) = Fin D /\ 0 < D /\
    forall c, path_cosine (si_kt tas) (si_fpm vs) c ->
      2 * (mass * gravity * c) * sqrt (cd0_clean a * k_clean a) <= D.
Proof.
  intros a mass tas alt vs dT Hc Hk Hs Ht. rewrite clean_wave_NP by auto.
  pose proof (wcdR_nonneg a mass tas alt dT) as Hw. eexists; split; [reflexivity|]. split.
  - apply dragR_pos; lra.
  - intros c H. apply path_cosine_spec in H. subst c.
    pose proof (dragR_min (wing_area a) (cd0_clean a) (k_clean a) mass tas alt vs dT Hc Hk) as M.
    pose proof (dragR_cd0 (wing_area a) (cd0_clean a) (cd0_clean a + wcdR a mass tas alt dT) (k_clean a)
      mass tas alt vs dT ltac:(lra)).
    change (mass * gravity * cos (Ratan2 (vs * fpm) (tas * kts))) with (liftR mass tas vs).
    pose proof (Rle_abs (liftR mass tas vs)). pose proof (sqrt_pos (cd0_clean a * k_clean a)). nra.
Qed.
(** level flight of a 60 t A320 at sea level and 250 kt *)
Example C28_ex : 0 < cd0_clean a320_drag /\ 0 < k_clean a320_drag /\
  path_cosine (si_kt 250) (si_fpm 0) 1 /\
  31000 < 2 * (60000 * gravity * 1) * sqrt (cd0_clean a320_drag * k_clean a320_drag).
Proof.
  cbn [cd0_clean k_clean a320_drag]. split; [lra|]. split; [lra|]. split.
  - right. unfold si_kt, si_fpm. split; [left; lra|]. rewrite !Rmult_0_l, Rplus_0_r.
    rewrite sqrt_square by lra. field. lra.
  - unfold gravity. interval.
Qed.

(** Specification: drag of a parabolic polar with [cd0], [k], at dynamic pressure times wing area [q] and lift [l] *)
Definition parabolic (cd0 k q l : R) : R := cd0 * q + k * l ^ 2 / q.
Lemma dragR_value : forall S cd0 k mass tas alt vs dT rho c,
  density NP (Fin (si_ft alt)) (Fin dT) = Fin rho -> path_cosine (si_kt tas) (si_fpm vs) c ->
  0.001 <= rho * (si_kt tas) ^ 2 / 2 * S ->
  dragR S cd0 k mass tas alt vs dT = parabolic cd0 k (rho * (si_kt tas) ^ 2 / 2 * S) (mass * gravity * c).
Proof.
  intros S cd0 k mass tas alt vs dT rho c Hr Hc Hq. rewrite density_NP in Hr. apply Fin_inj in Hr. apply path_cosine_spec in Hc. subst c.
  assert (E : qSR S tas alt dT = rho * (si_kt tas) ^ 2 / 2 * S).
  { unfold qSR. change (alt * ft) with (si_ft alt). rewrite Hr. change (tas * kts) with (si_kt tas). rewrite Rmax_left by lra. lra. }
  unfold dragR. rewrite E. unfold parabolic, liftR. change g0 with gravity.
  set (q := rho * si_kt tas ^ 2 / 2 * S) in *. clearbody q. field. lra.
Qed.
(** The value of the clean drag *)
Theorem C28_clean_value : forall a mass tas alt vs dT rho c,
  density NP (Fin (si_ft alt)) (Fin dT) = Fin rho -> path_cosine (si_kt tas) (si_fpm vs) c ->
  let q := rho * (si_kt tas) ^ 2 / 2 * wing_area a in 0.001 <= q ->
  clean NP a false (Fin mass) (Fin tas) (Fin alt) (Fin vs) (Fin dT) = Fin (parabolic (cd0_clean a) (k_clean a) q (mass * gravity * c)).
Proof.
  intros a mass tas alt vs dT rho c Hr Hc q Hq. rewrite clean_NP. f_equal. apply dragR_value; auto.
Qed.

(** ** C29 *)
Theorem C29_symmetric_and_increasing_in_mass : forall a mass tas alt vs dT,
  clean NP a false (Fin mass) (Fin tas) (Fin alt) (Fin (- vs)) (Fin dT)
    = clean NP a false (Fin mass) (Fin tas) (Fin alt) (Fin vs) (Fin dT) /\
  (0 < k_clean a -> tas <> 0 \/ vs = 0 -> forall heavier, 0 <= mass < heavier ->
     flt (clean NP a false (Fin mass) (Fin tas) (Fin alt) (Fin vs) (Fin dT))
         (clean NP a false (Fin heavier) (Fin tas) (Fin alt) (Fin vs) (Fin dT))).
Proof.
  intros. rewrite !clean_NP. split.
  - f_equal. unfold dragR. rewrite liftR_even. auto.
  - intros. rewrite clean_NP. cbn [flt]. apply dragR_mass; auto.
Qed.
Example C29_ex : 0 < k_clean a320_drag /\ (250 <> 0 \/ 1500 = 0) /\ 0 <= 60000 < 60001.
Proof. cbn. lra. Qed.

(** ** C30 *)
Theorem C30_gear_and_zero_flap : forall a mass tas alt vs dT,
  0 < k_clean a -> 0 < wing_area a -> 0 < cf_c a -> 0 < mtow a ->
  nonclean NP a (Fin mass) (Fin tas) (Fin alt) (Fin 0) (Fin vs) (Fin dT) false
    = clean NP a false (Fin mass) (Fin tas) (Fin alt) (Fin vs) (Fin dT) /\
  (forall flap, 0 <= flap ->
    flt (nonclean NP a (Fin mass) (Fin tas) (Fin alt) (Fin flap) (Fin vs) (Fin dT) false)
        (nonclean NP a (Fin mass) (Fin tas) (Fin alt) (Fin flap) (Fin vs) (Fin dT) true)).
Proof.
  intros. split.
  - rewrite nonclean_NP by (auto; lra). rewrite clean_NP. f_equal. unfold dragR, flapcdR, gearcdR, ktotR, deltaeR.
    replace (0 * PI / 180) with 0 by (field). rewrite sin_0.
    replace (1 / (1 / k_clean a + PI * (wing_span a ^ 2 / wing_area a) *
         ((if rear_mounted a then 0.0046 else 0.0026) * 0))) with (k_clean a).
    2:{ rewrite !Rmult_0_r, Rplus_0_r. field. lra. }
    ring.
  - intros. rewrite !nonclean_NP by auto. cbn [flt]. apply dragR_cd0_lt. apply Rplus_lt_compat_l.
    unfold gearcdR. pose proof (Rpower_pos (mtow a) (-0.215)).
    apply Rmult_lt_0_compat; auto. apply Rmult_lt_0_compat; [|lra].
    apply Rdiv_lt_0_compat; auto. uc. nra.
Qed.
(** The value of the non-clean drag: flaps add to the profile drag and lower the induced drag by the stated change of
    the Oswald factor; the gear adds its own term. *)
Theorem C30_nonclean_value : forall a mass tas alt flap vs dT (gear : bool) rho c,
  0 < k_clean a -> 0 < wing_area a -> 0 < cf_c a -> 0 < mtow a -> 0 <= flap ->
  density NP (Fin (si_ft alt)) (Fin dT) = Fin rho -> path_cosine (si_kt tas) (si_fpm vs) c ->
  let q := rho * (si_kt tas) ^ 2 / 2 * wing_area a in 0.001 <= q ->
  let flaps := Sf_S a * (sin (flap * (PI / 180))) ^ 2 * lambda_f a * Rpower (cf_c a) 1.38 in
  let wheels := if gear then 3.16e-5 * (mtow a * gravity / wing_area a) * Rpower (mtow a) (-0.215) else 0 in
  let oswald := flap * (if rear_mounted a then 0.0046 else 0.0026) in
  let k := / (/ k_clean a + PI * (wing_span a ^ 2 / wing_area a) * oswald) in
  nonclean NP a (Fin mass) (Fin tas) (Fin alt) (Fin flap) (Fin vs) (Fin dT) gear
    = Fin (parabolic (cd0_clean a + flaps + wheels) k q (mass * gravity * c)).
Proof.
  intros a mass tas alt flap vs dT gear rho c H1 H2 H3 H4 H5 Hr Hc q Hq flaps wheels oswald k.
  rewrite nonclean_NP by auto. f_equal. rewrite (dragR_value _ _ _ mass tas alt vs dT rho c Hr Hc Hq).
  assert (E1 : flapcdR a flap = flaps). { unfold flapcdR, flaps. replace (flap * PI / 180) with (flap * (PI / 180)) by lra. lra. }
  assert (E2 : gearcdR a gear = wheels). { unfold gearcdR, wheels. destruct gear; [change g0 with gravity; unfold Rdiv; ring|auto]. }
  assert (E3 : ktotR a flap = k). { unfold ktotR, k, deltaeR, oswald, Rdiv. rewrite !Rmult_1_l. do 3 f_equal. lra. }
  rewrite E1, E2, E3. reflexivity.
Qed.
(** Flaps can reduce the computed drag: 70 t A320, 180 kt at sea level, 10 degrees of flap. *)
Theorem C30_flaps_add_drag_refuted :
  flt (nonclean NP a320_drag (Fin 70000) (Fin 180) (Fin 0) (Fin 10) (Fin 0) (Fin 0) false)
      (clean NP a320_drag false (Fin 70000) (Fin 180) (Fin 0) (Fin 0) (Fin 0)).
Proof.
  rewrite nonclean_NP by (cbn; lra). rewrite clean_NP. cbn [flt].
  assert (Hq : qSR (wing_area a320_drag) 180 0 0 = 0.5 * 1.225 * (180 * 0.514444) ^ 2 * 124).
  { unfold qSR. rewrite Rmult_0_l. unfold rhoR. rewrite tR_low by lra. rewrite clipT_0.
    replace ((T0 + 0 + beta * 0) / (T0 + 0)) with 1 by (uc; qr; field).
    rewrite Rpower_one, (Rmax_left 0.0) by lra.
    replace (- 0.0 / 6341.552161) with 0 by (qr; field). rewrite exp_0. cbn [wing_area a320_drag].
    rewrite Rmax_left; uc; qr; lra. }
  rewrite !dragR_eq, Hq, liftR_level by lra.
  unfold ktotR, flapcdR, gearcdR, deltaeR, Rpower. cbn [rear_mounted cd0_clean k_clean wing_span wing_area lambda_f cf_c Sf_S a320_drag].
  uc. interval.
Qed.
Example C30_ex : 0 < k_clean a320_drag /\ 0 < wing_area a320_drag /\ 0 < cf_c a320_drag /\ 0 < mtow a320_drag.
Proof. cbn. lra. Qed.

(** ** C31 *)
(** Specification of the drag-divergence rule: critical Mach number of a swept wing at level-flight
    lift coefficient [cl]. *)
Definition critical_mach (sweep_deg tc cl : R) : R :=
  let c := cos (sweep_deg * PI / 180) in 0.95 / c - tc / c ^ 2 - 0.1 * cl / c ^ 3 - 0.108.
(** level-flight lift coefficient from the modelled density, with the code's floor on dynamic pressure *)
Definition level_cl (S rho mass v cl : R) : Prop :=
  cl * Rmax (rho * v ^ 2 / 2 * S) 0.001 = mass * gravity.

Theorem C31_wave_drag_only_adds : forall a mass tas alt vs dT,
  -90 < wing_sweep a < 90 -> 0 <= tas ->
  fle (clean NP a false (Fin mass) (Fin tas) (Fin alt) (Fin vs) (Fin dT))
      (clean NP a true (Fin mass) (Fin tas) (Fin alt) (Fin vs) (Fin dT)) /\
  (forall rho snd cl,
     density NP (Fin (si_ft alt)) (Fin dT) = Fin rho ->
     vsound NP (Fin (si_ft alt)) (Fin dT) = Fin snd ->
     level_cl (wing_area a) rho mass (si_kt tas) cl ->
     si_kt tas / snd <= critical_mach (wing_sweep a) (match wing_tc a with Some t => t | None => 0.12 end) cl ->
     clean NP a true (Fin mass) (Fin tas) (Fin alt) (Fin vs) (Fin dT)
     = clean NP a false (Fin mass) (Fin tas) (Fin alt) (Fin vs) (Fin dT)) /\
  (forall rho snd cl,
     density NP (Fin (si_ft alt)) (Fin dT) = Fin rho ->
     vsound NP (Fin (si_ft alt)) (Fin dT) = Fin snd ->
     level_cl (wing_area a) rho mass (si_kt tas) cl ->
     critical_mach (wing_sweep a) (match wing_tc a with Some t => t | None => 0.12 end) cl < si_kt tas / snd ->
     flt (clean NP a false (Fin mass) (Fin tas) (Fin alt) (Fin vs) (Fin dT))
         (clean NP a true (Fin mass) (Fin tas) (Fin alt) (Fin vs) (Fin dT))).
Proof.
  intros a mass tas alt vs dT Hs Ht. rewrite clean_NP, clean_wave_NP by auto.
  pose proof (wcdR_nonneg a mass tas alt dT) as Hw.
  assert (K : forall rho snd cl,
     density NP (Fin (si_ft alt)) (Fin dT) = Fin rho ->
     vsound NP (Fin (si_ft alt)) (Fin dT) = Fin snd ->
     level_cl (wing_area a) rho mass (si_kt tas) cl ->
     critical_mach (wing_sweep a) (match wing_tc a with Some t => t | None => 0.12 end) cl = mcritR a mass tas alt dT
     /\ si_kt tas / snd = tas * kts / aR (alt * ft) dT).
  { intros rho snd cl Hr Ha Hl. rewrite density_NP in Hr. rewrite vsound_NP in Ha.
    apply Fin_inj in Hr, Ha. subst. split; [|reflexivity].
    unfold mcritR, critical_mach. assert (cl = mass * g0 / qSR (wing_area a) tas alt dT); [|subst; reflexivity].
    unfold level_cl in Hl. pose proof (qSR_pos (wing_area a) tas alt dT) as Hq.
    replace (Rmax (rhoR (si_ft alt) dT * si_kt tas ^ 2 / 2 * wing_area a) 0.001)
      with (qSR (wing_area a) tas alt dT) in Hl.
    - apply (Rmult_eq_reg_r (qSR (wing_area a) tas alt dT)); [|lra]. rewrite Hl.
      unfold gravity, g0. field. lra.
    - unfold qSR, si_kt, si_ft. uc. f_equal. qr. field. }
  cbn [fle flt]. split; [apply dragR_cd0; lra|]. split; intros rho snd cl Hr Ha Hl Hm.
  - f_equal. f_equal. destruct (K _ _ _ Hr Ha Hl) as [E1 E2]. rewrite E1, E2 in Hm.
    unfold wcdR. rewrite Rmax_right by lra. qr. field.
  - destruct (K _ _ _ Hr Ha Hl) as [E1 E2]. rewrite E1, E2 in Hm. apply dragR_cd0_lt.
    unfold wcdR. match goal with |- _ < _ + 20 * Rmax ?x _ ^ 4 => assert (0 < Rmax x 0.0 ^ 4) end; [|lra].
    apply pow_lt. rewrite Rmax_left; lra.
Qed.
(** sweep of the A320, and the two regimes at sea level: Mach 0.3 is below, Mach 1 above critical *)
Example C31_ex : -90 < wing_sweep a320_drag < 90 /\ 0 <= 200 /\
  0.7 < critical_mach 25 0.12 0.5 < 0.8.
Proof. cbn [wing_sweep a320_drag]. split; [lra|]. split; [lra|]. unfold critical_mach. split; interval. Qed.
