(** * Properties C19-C22, C58-C60: engine thrust *)
From Coq Require Import Reals List Bool Lra Lia Psatz.
From Interval Require Import Tactic.
From Verif Require Import Num NumFacts SpecNum Aero AeroFacts AeroFacts2 Thrust Cts ThrustFacts.
Open Scope R_scope.

(** A320 with CFM56-5B4 (openap/data/aircraft/a320.yml, openap/data/engine/engines.csv:53),
    as computed by the constructor. *)
Definition a320_thrust : thrust_par := thrust_init 11000 0.78 2 5.9 117900 (Some 0.8) (Some 22241).

Lemma a320_thrust_eq : a320_thrust = mkThrust (11000 / ft) 5.9 117900 2 0.8 22241.
Proof. unfold a320_thrust, thrust_init. rewrite Rltb_true by lra. reflexivity. Qed.

(** ** C19 *)
Theorem C19_static_rated_thrust : forall e, 0 <= eng_bpr e -> 0 < eng_max_thrust e -> 0 < eng_number e ->
  exists F, takeoff_thrust NP e (Fin 0) (Fin 0) (Fin 0) = Fin F /\
    Rabs (F - eng_number e * eng_max_thrust e) <= 1e-6 * (eng_number e * eng_max_thrust e).
Proof.
  intros e Hb Hf Hn. rewrite takeoff_NP by auto. eexists; split; [reflexivity|].
  unfold toR. rewrite dpR_0. pose proof cc_bound as C. set (w := eng_number e * eng_max_thrust e).
  assert (0 < w) by (unfold w; nra).
  match goal with |- Rabs (?x * _ * _ - _) <= _ => set (ra := x) end.
  replace (ra * eng_max_thrust e * eng_number e - w) with ((ra - 1) * w) by (unfold w; ring).
  rewrite Rabs_mult, (Rabs_pos_eq w) by lra. apply Rmult_le_compat_r; [lra|].
  unfold ra. replace (0 * kts / aR 0 0) with 0 by (unfold Rdiv; ring).
  rewrite pow_i by lia. rewrite !Rmult_0_r, Rminus_0_r, Rplus_0_r. unfold polyA. clear - C.
  apply Rabs_le. split; nra.
Qed.
Theorem C19_defined_and_proportional : forall e tas alt dT, 0 <= eng_bpr e ->
  finite (takeoff_thrust NP e (Fin tas) (Fin alt) (Fin dT)) /\
  forall k n, takeoff_thrust NP (mkThrust (cruise_alt e) (eng_bpr e) (k * eng_max_thrust e) (n * eng_number e)
                 (cruise_mach e) (eng_cruise_thrust e)) (Fin tas) (Fin alt) (Fin dT)
    = mul NP (Fin (k * n)) (takeoff_thrust NP e (Fin tas) (Fin alt) (Fin dT)).
Proof.
  intros. rewrite takeoff_NP by auto. split; [eexists; reflexivity|]. intros.
  rewrite takeoff_NP by auto. cbn [mul NP emul]. f_equal. unfold toR.
  cbn [eng_bpr eng_max_thrust eng_number]. ring.
Qed.
Theorem C19_static_decreases_with_altitude : forall e a1 a2 dT,
  0 <= eng_bpr e -> 0 < eng_max_thrust e -> 0 < eng_number e -> -2000 <= a1 < a2 ->
  flt (takeoff_thrust NP e (Fin 0) (Fin a2) (Fin dT)) (takeoff_thrust NP e (Fin 0) (Fin a1) (Fin dT)).
Proof.
  intros e a1 a2 dT Hb Hf Hn Ha. rewrite !takeoff_NP by auto. cbn [flt]. unfold toR.
  replace (0 * kts / aR 0 dT) with 0 by (unfold Rdiv; ring).
  rewrite pow_i by lia. rewrite !Rmult_0_r, !Rminus_0_r, !Rplus_0_r.
  apply Rmult_lt_compat_r; auto. apply Rmult_lt_compat_r; auto.
  apply polyA_incr; [split; [apply dpR_pos|apply dpR_decr; lra]|apply dpR_ub; lra].
Qed.
Example C19_ex : 0 <= eng_bpr a320_thrust /\ 0 < eng_max_thrust a320_thrust /\ 0 < eng_number a320_thrust.
Proof. rewrite a320_thrust_eq. cbn. lra. Qed.

(** ** C20 *)
Theorem C20_symmetry_floor_cruise_reference : forall e tas alt roc dT,
  0 < cruise_mach e -> 0 < eng_cruise_thrust e -> 0 < eng_number e ->
  climb_thrust NP e (Fin tas) (Fin alt) (Fin (- roc)) (Fin dT)
    = climb_thrust NP e (Fin tas) (Fin alt) (Fin roc) (Fin dT) /\
  (tas <= 10 -> climb_thrust NP e (Fin tas) (Fin alt) (Fin roc) (Fin dT)
                = climb_thrust NP e (Fin 10) (Fin alt) (Fin roc) (Fin dT)) /\
  cruise_thrust NP e (Fin tas) (Fin alt) (Fin dT)
    = climb_thrust NP e (Fin tas) (Fin alt) (Fin 0) (Fin dT) /\
  (10 <= tas -> 30000 < cruise_alt e ->
   tas2mach NP (Fin (tas * 0.514444)) (Fin (cruise_alt e * 0.3048)) (Fin dT) = Fin (cruise_mach e) ->
   climb_thrust NP e (Fin tas) (Fin (cruise_alt e)) (Fin roc) (Fin dT)
     = Fin (eng_number e * eng_cruise_thrust e)).
Proof.
  intros e tas alt roc dT Hm Hc Hn. assert (HF : eng_cruise_thrust e * eng_number e <> 0) by nra.
  unfold cruise_thrust. change (cst NP 0) with (Fin 0). rewrite !climb_NP by auto.
  split; [|split; [|split]].
  - unfold climbR. rewrite Rabs_Ropp. auto.
  - intros Ht. unfold climbR. rewrite (Rmax_left 10 tas), (Rmax_left 10 10) by lra. auto.
  - reflexivity.
  - intros Ht Ha HM. rewrite tas2mach_NP in HM. apply Fin_inj in HM.
    unfold climbR. rewrite Rltb_true by auto. rewrite Rmax_right by lra.
    unfold seg3R, mrR, prR. change (tas * kts / aR (cruise_alt e * ft) dT) with
      (tas * 0.514444 / aR (cruise_alt e * 0.3048) dT). rewrite HM.
    pose proof (pR_pos (cruise_alt e * ft) dT).
    unfold Rdiv; rewrite !Rinv_r by lra. rewrite ln_1, Rpower_one. unfold FcrR. f_equal. ring.
Qed.
(** Continuity in altitude everywhere except possibly at 30000 ft; in particular at 10000 ft where
    the formula changes. *)
Theorem C20_continuous_in_altitude : forall e tas alt roc dT,
  0 < cruise_mach e -> 0 < eng_cruise_thrust e -> 0 < eng_number e -> alt <> 30000 ->
  forall eps, 0 < eps -> exists d, 0 < d /\
    forall alt', Rabs (alt' - alt) < d ->
      fclose eps (climb_thrust NP e (Fin tas) (Fin alt') (Fin roc) (Fin dT))
                 (climb_thrust NP e (Fin tas) (Fin alt) (Fin roc) (Fin dT)).
Proof.
  intros e tas alt roc dT Hm Hc Hn Ha eps He. assert (HF : eng_cruise_thrust e * eng_number e <> 0) by nra.
  destruct (cts_eps _ _ (climbR_cts e tas roc dT alt Hm HF Ha) eps He) as [d [Hd K]].
  exists d; split; auto. intros alt' H. rewrite !climb_NP by auto. cbn [fclose].
  left. apply K; auto.
Qed.
Example C20_ex : 0 < cruise_mach a320_thrust /\ 0 < eng_cruise_thrust a320_thrust /\ 0 < eng_number a320_thrust
  /\ 30000 < cruise_alt a320_thrust /\ 10000 <> 30000.
Proof. rewrite a320_thrust_eq. cbn [cruise_mach eng_cruise_thrust eng_number cruise_alt]. uc. repeat split; lra. Qed.

(** ** C21 *)
Theorem C21_climb_thrust_defined : forall e tas alt roc dT,
  0 < cruise_mach e -> eng_cruise_thrust e <> 0 -> eng_number e <> 0 ->
  finite (climb_thrust NP e (Fin tas) (Fin alt) (Fin roc) (Fin dT)) /\
  finite (cruise_thrust NP e (Fin tas) (Fin alt) (Fin dT)).
Proof.
  intros. assert (eng_cruise_thrust e * eng_number e <> 0) by (apply Rmult_integral_contrapositive; auto).
  unfold cruise_thrust. change (cst NP 0) with (Fin 0). rewrite !climb_NP by auto.
  split; eexists; reflexivity.
Qed.
(** The constructor establishes these conditions for every engine row with positive rated thrust and
    every aircraft with positive cruise Mach number. *)
Theorem C21_constructor_meets_conditions : forall height mach n bpr ft_ ecm ect,
  0 < mach -> 0 < n -> 0 < ft_ -> (forall m, ecm = Some m -> exists f, ect = Some f /\ 0 < f) ->
  let e := thrust_init height mach n bpr ft_ ecm ect in
  0 < cruise_mach e /\ 0 < eng_cruise_thrust e /\ 0 < eng_number e.
Proof.
  intros height mach n bpr ft_ ecm ect Hm Hn Hf He. unfold thrust_init.
  destruct ecm as [m|]; [|cbn; lra].
  destruct (He m eq_refl) as [f [-> Hf']]. destruct (Rltb_spec 0 m); cbn; lra.
Qed.
Example C21_ex : 0 < cruise_mach a320_thrust /\ eng_cruise_thrust a320_thrust <> 0 /\ eng_number a320_thrust <> 0.
Proof. rewrite a320_thrust_eq. cbn. lra. Qed.

(** ** C22 *)
(** A320, 450 kt, level, ISA: arbitrarily close above 30000 ft the thrust is more than 2 kN higher
    than at 30000 ft. *)
Lemma tR_30000 : tR (30000 * ft) 0 = 288.15 - 0.0065 * 9144.
Proof. rewrite tR_low by (uc; lra). rewrite clipT_0. uc. lra. Qed.
Lemma tR_cr : tR (11000 / ft * ft) 0 = 216.65.
Proof. replace (11000 / ft * ft) with 11000 by (unfold ft; qr; field). rewrite tR_high by lra. rewrite clipT_0. lra. Qed.

Definition rho30 : R := 1.225 * Rpower ((288.15 - 0.0065 * 9144) / 288.15) 4.256848030018761.
Definition rhocr : R := 1.225 * Rpower (216.65 / 288.15) 4.256848030018761.
Lemma rho30_eq : rhoR (30000 * ft) 0 = rho30.
Proof.
  unfold rhoR, rho30. rewrite tR_30000, clipT_0, (Rmax_left 0.0) by (uc; lra).
  replace (- 0.0 / 6341.552161) with 0 by (qr; field). rewrite exp_0, Rmult_1_r. uc. repeat f_equal. lra.
Qed.
Lemma rhocr_eq : rhoR (11000 / ft * ft) 0 = rhocr.
Proof.
  unfold rhoR, rhocr. rewrite tR_cr, clipT_0. replace (11000 / ft * ft) with 11000 by (unfold ft; qr; field).
  rewrite (Rmax_left 0.0) by lra.
  replace (- 0.0 / 6341.552161) with 0 by (qr; field). rewrite exp_0, Rmult_1_r. uc. repeat f_equal. lra.
Qed.

Lemma jump_30000 :
  seg3R a320_thrust (450 * kts) (30000 * ft) 0 > 1.18 /\ seg2R a320_thrust (450 * kts) (30000 * ft) 0 0 < 1.15.
Proof.
  rewrite a320_thrust_eq.
  unfold seg3R, seg2R, expo, mrR, xrR, prR, vrefR, t2cR, conv, vq, qd, pR, aR.
  cbn [cruise_mach cruise_alt].
  rewrite rho30_eq, rhocr_eq, tR_30000, tR_cr. unfold rho30, rhocr, Rpower. uc.
  split; interval.
Qed.

Theorem C22_climb_thrust_continuous_at_30000_refuted :
  exists low, climb_thrust NP a320_thrust (Fin 450) (Fin 30000) (Fin 0) (Fin 0) = Fin low /\
  forall d, 0 < d -> exists alt high, 30000 < alt < 30000 + d /\
    climb_thrust NP a320_thrust (Fin 450) (Fin alt) (Fin 0) (Fin 0) = Fin high /\ low + 1000 < high.
Proof.
  assert (Hm : 0 < cruise_mach a320_thrust) by (rewrite a320_thrust_eq; cbn; lra).
  assert (HF : eng_cruise_thrust a320_thrust * eng_number a320_thrust <> 0) by (rewrite a320_thrust_eq; cbn; lra).
  assert (EF : FcrR a320_thrust = 44482) by (unfold FcrR; rewrite a320_thrust_eq; cbn; lra).
  destruct jump_30000 as [J3 J2].
  rewrite climb_NP by auto. eexists; split; [reflexivity|]. intros d Hd.
  assert (C3 : cts (fun y => seg3R a320_thrust (450 * kts) (y * ft) 0) 30000).
  { apply (cts_comp (fun h => seg3R a320_thrust (450 * kts) h 0)); [apply cts_h|].
    apply cts_seg3; auto. uc; lra. }
  destruct (cts_eps _ _ C3 0.005 ltac:(lra)) as [d' [Hd' K]].
  pose proof (Rmin_l d d') as M1. pose proof (Rmin_r d d') as M2.
  assert (Hmin : 0 < Rmin d d') by (apply Rmin_Rgt_r; auto).
  exists (30000 + Rmin d d' / 2). eexists. split; [lra|]. rewrite climb_NP by auto. split; [reflexivity|].
  specialize (K (30000 + Rmin d d' / 2)).
  assert (Hk : Rabs (30000 + Rmin d d' / 2 - 30000) < d') by (rewrite Rabs_pos_eq; lra).
  specialize (K Hk). apply Rabs_def2 in K. cbv beta in K.
  unfold climbR. rewrite (Rmax_right 10 450) by lra. rewrite Rabs_R0, EF.
  rewrite (Rltb_false 30000 30000), (Rltb_true 10000 30000) by lra.
  rewrite (Rltb_true 30000) by lra. lra.
Qed.

(** ** C58: the temperature trend of static thrust *)
Lemma pR_dT_incr : forall h d1 d2, 0 <= h -> -25 <= d1 < d2 -> d2 <= 15 -> pR h d1 < pR h d2.
Proof.
  intros h d1 d2 Hh H1 H2. unfold pR, rhoR.
  assert (C1 : clipT d1 = d1) by (apply clipT_id; lra).
  assert (C2 : clipT d2 = d2) by (apply clipT_id; lra).
  pose proof (tR_pos h d1) as T1.
  assert (T12 : tR h d1 + (d2 - d1) = tR h d2).
  { unfold tR. rewrite C1, C2. unfold Rmax. destruct (Rle_dec _ _), (Rle_dec _ _); uc; lra. }
  assert (U1 : tR h d1 <= T0 + d1).
  { unfold tR. rewrite C1. apply Rmax_lub; uc; lra. }
  assert (Q : Rpower (tR h d1 / (T0 + clipT d1)) 4.256848030018761
              <= Rpower (tR h d2 / (T0 + clipT d2)) 4.256848030018761).
  { assert (0 < T0 + d1) by (uc; lra). rewrite C1, C2.
    apply Rpower_le_base; [apply Rdiv_lt_0_compat; lra| |lra].
    apply (Rmult_le_reg_r ((T0 + d1) * (T0 + d2))); [apply Rmult_lt_0_compat; lra|].
    replace (tR h d1 / (T0 + d1) * ((T0 + d1) * (T0 + d2))) with (tR h d1 * (T0 + d2)) by (field; lra).
    replace (tR h d2 / (T0 + d2) * ((T0 + d1) * (T0 + d2))) with (tR h d2 * (T0 + d1)) by (field; lra).
    rewrite <- T12. nra. }
  set (E := exp _). assert (0 < E) by apply exp_pos.
  set (P1 := Rpower (tR h d1 / _) _) in *. set (P2 := Rpower (tR h d2 / _) _) in *.
  assert (0 < P1) by apply Rpower_pos.
  assert (0 < rho0 * E * Rgas) by (apply Rmult_lt_0_compat; [apply Rmult_lt_0_compat|]; auto; uc; lra).
  replace (rho0 * P1 * E * Rgas * tR h d1) with (rho0 * E * Rgas * (P1 * tR h d1)) by ring.
  replace (rho0 * P2 * E * Rgas * tR h d2) with (rho0 * E * Rgas * (P2 * tR h d2)) by ring.
  apply Rmult_lt_compat_l; auto. nra.
Qed.

Theorem C58_static_thrust_increases_with_temperature : forall e alt d1 d2,
  0 <= eng_bpr e -> 0 < eng_max_thrust e -> 0 < eng_number e -> 0 <= alt -> -25 <= d1 < d2 -> d2 <= 15 ->
  flt (takeoff_thrust NP e (Fin 0) (Fin alt) (Fin d1)) (takeoff_thrust NP e (Fin 0) (Fin alt) (Fin d2)).
Proof.
  intros e alt d1 d2 Hb Hf Hn Ha H1 H2. rewrite !takeoff_NP by auto. cbn [flt]. unfold toR.
  replace (0 * kts / aR 0 d1) with 0 by (unfold Rdiv; ring).
  replace (0 * kts / aR 0 d2) with 0 by (unfold Rdiv; ring).
  rewrite pow_i by lia. rewrite !Rmult_0_r, !Rminus_0_r, !Rplus_0_r.
  apply Rmult_lt_compat_r; auto. apply Rmult_lt_compat_r; auto.
  apply polyA_incr; [split; [apply dpR_pos|]|apply dpR_ub; lra].
  unfold dpR. apply Rmult_lt_compat_r; [apply Rinv_0_lt_compat, p0_pos|].
  apply pR_dT_incr; auto. uc; lra.
Qed.
(** An engine never exceeds its rating on a hot day: refuted by the A320 at ISA+15, which gains 2 %. *)
Theorem C58_hot_day_within_rating_refuted :
  exists F, takeoff_thrust NP a320_thrust (Fin 0) (Fin 0) (Fin 15) = Fin F /\
    1.02 * (eng_number a320_thrust * eng_max_thrust a320_thrust) < F.
Proof.
  rewrite takeoff_NP by (rewrite a320_thrust_eq; cbn; lra). eexists; split; [reflexivity|].
  rewrite a320_thrust_eq. unfold toR. cbn [eng_number eng_max_thrust eng_bpr].
  replace (0 * kts / aR 0 15) with 0 by (unfold Rdiv; ring).
  rewrite pow_i by lia. rewrite !Rmult_0_r, !Rminus_0_r, !Rplus_0_r.
  assert (E : dpR 0 15 = rho0 * Rgas * (T0 + 15) / p0).
  { unfold dpR, pR, rhoR. rewrite Rmult_0_l, tR_low by lra. rewrite clipT_id by lra.
    replace ((T0 + 15 + beta * 0) / (T0 + 15)) with 1 by (uc; qr; field).
    rewrite Rpower_one, (Rmax_left 0.0) by lra.
    replace (- 0.0 / 6341.552161) with 0 by (qr; field). rewrite exp_0. f_equal. ring. }
  rewrite E. unfold polyA. uc. interval.
Qed.

(** ** C59: thrust lapse with speed *)
Lemma coefa_ge_b : forall bpr, 0 <= bpr <= 40 -> coefb bpr <= coefa bpr.
Proof. intros. unfold coefa, coefb. apply Rminus_le. interval with (i_bisect bpr, i_depth 14). Qed.
Lemma coefb_pos : forall bpr, 0 < coefb bpr.
Proof. intros. unfold coefb. pose proof (sqrt_pos bpr). lra. Qed.

Theorem C59_thrust_lapse_with_speed : forall e t1 t2 alt dT,
  0 <= eng_bpr e <= 40 -> 0 < eng_max_thrust e -> 0 < eng_number e -> 0 <= t1 < t2 -> t2 <= 280 ->
  flt (takeoff_thrust NP e (Fin t2) (Fin alt) (Fin dT)) (takeoff_thrust NP e (Fin t1) (Fin alt) (Fin dT)).
Proof.
  intros e t1 t2 alt dT Hb Hf Hn Ht H2. rewrite !takeoff_NP by lra. cbn [flt]. unfold toR.
  pose proof (aR_pos 0 dT) as Ha.
  assert (Ha' : 325 <= aR 0 dT).
  { unfold aR. replace 325 with (sqrt (325 * 325)) by (apply sqrt_square; lra). apply sqrt_le_1_alt.
    rewrite tR_low by lra. pose proof (clipT_range dT). uc. lra. }
  assert (HM : t2 * kts / aR 0 dT <= 0.445).
  { apply (Rmult_le_reg_r (aR 0 dT)); auto. unfold Rdiv. rewrite Rmult_assoc, Rinv_l by lra. uc. lra. }
  assert (HL : t1 * kts / aR 0 dT < t2 * kts / aR 0 dT).
  { apply Rmult_lt_compat_r; [apply Rinv_0_lt_compat; auto|]. uc; lra. }
  assert (H0 : 0 <= t1 * kts / aR 0 dT).
  { apply Rmult_le_pos; [uc; lra|]. apply Rlt_le, Rinv_0_lt_compat; auto. }
  set (m1 := t1 * kts / aR 0 dT) in *. set (m2 := t2 * kts / aR 0 dT) in *.
  apply Rmult_lt_compat_r; auto. apply Rmult_lt_compat_r; auto.
  pose proof (dpR_pos alt dT) as Hp. set (p := dpR alt dT) in *.
  pose proof (polyZ_ge_X p Hp) as ZX. pose proof (polyX_pos p Hp) as HX.
  pose proof (coefa_ge_b _ Hb) as AB. pose proof (coefb_pos (eng_bpr e)) as HB.
  set (a := coefa (eng_bpr e)) in *. set (b := coefb (eng_bpr e)) in *.
  set (Z := polyZ p) in *. set (X := polyX p) in *.
  assert (a * Z >= 0.9 * (b * X)). { assert (0.9 * X * b <= Z * a) by (apply Rmult_le_compat; lra). lra. }
  assert (0 < b * X) by nra.
  assert (b * X * (m1 + m2) < a * Z). { assert (m1 + m2 < 0.9) by lra. nra. }
  assert (0 < (m2 - m1) * (a * Z - b * X * (m1 + m2))) by (apply Rmult_lt_0_compat; lra).
  nra.
Qed.
Example C59_ex : 0 <= eng_bpr a320_thrust <= 40 /\ 0 < eng_max_thrust a320_thrust /\ 0 < eng_number a320_thrust
  /\ 0 <= 0 < 150 /\ 150 <= 280.
Proof. rewrite a320_thrust_eq. cbn. lra. Qed.

(** ** C60: take-off and idle thrust are positive *)
Lemma dpR_ub' : forall alt dT, -2000 <= alt -> dpR alt dT <= 1.3.
Proof.
  intros alt dT H.
  assert (L : dpR (-2000) dT <= 1.3).
  { unfold dpR, pR, rhoR. rewrite tR_low by (uc; lra). pose proof (clipT_range dT) as C.
    set (c := clipT dT) in *. clearbody c. rewrite (Rmax_left 0.0) by (uc; lra).
    unfold Rpower. uc. interval with (i_bisect c). }
  destruct H as [H|H]; [|subst; auto]. pose proof (dpR_decr (-2000) alt dT H). lra.
Qed.
Lemma coef_disc : forall bpr, 0 <= bpr <= 100 -> coefa bpr ^ 2 <= 1.9 * coefb bpr.
Proof. intros. unfold coefa, coefb. apply Rminus_le. interval with (i_bisect bpr, i_depth 16). Qed.
Lemma poly_disc : forall p, 0 < p <= 1.3 -> 1.9 * polyZ p ^ 2 < 4 * polyX p * polyA p.
Proof.
  intros p Hp. unfold polyZ, polyX, polyA.
  replace (1.9 * (0.9106 * p ^ 3 - 1.7736 * p ^ 2 + 1.8697 * p) ^ 2)
    with (p * (1.9 * p * (0.9106 * p ^ 2 - 1.7736 * p + 1.8697) ^ 2)) by ring.
  replace (4 * (0.1377 * p ^ 3 - 0.4374 * p ^ 2 + 1.3003 * p) * (-0.4327 * p ^ 2 + 1.3855 * p + 0.0472))
    with (p * (4 * (0.1377 * p ^ 2 - 0.4374 * p + 1.3003) * (-0.4327 * p ^ 2 + 1.3855 * p + 0.0472))) by ring.
  apply Rmult_lt_compat_l; [lra|]. apply Rminus_lt.
  assert (0 <= p <= 1.3) by lra. interval with (i_bisect p, i_depth 14).
Qed.

Theorem C60_takeoff_and_idle_thrust_positive : forall e tas alt dT,
  0 <= eng_bpr e <= 100 -> 0 < eng_max_thrust e -> 0 < eng_number e -> -2000 <= alt ->
  exists F, takeoff_thrust NP e (Fin tas) (Fin alt) (Fin dT) = Fin F /\ 0 < F /\
    descent_idle NP e (Fin tas) (Fin alt) (Fin dT) = Fin (7 / 100 * F).
Proof.
  intros e tas alt dT Hb Hf Hn Ha. unfold descent_idle. rewrite takeoff_NP by lra.
  eexists; split; [reflexivity|]. split.
  - unfold toR. apply Rmult_lt_0_compat; auto. apply Rmult_lt_0_compat; auto.
    pose proof (dpR_pos alt dT) as Hp. pose proof (dpR_ub' alt dT Ha) as Hu. set (p := dpR alt dT) in *.
    pose proof (poly_disc p (conj Hp Hu)) as D. pose proof (coef_disc _ Hb) as K.
    pose proof (coefb_pos (eng_bpr e)) as HB. pose proof (polyX_pos p Hp) as HX.
    set (a := coefa (eng_bpr e)) in *. set (b := coefb (eng_bpr e)) in *.
    set (Z := polyZ p) in *. set (X := polyX p) in *. set (A := polyA p) in *.
    set (M := tas * kts / aR 0 dT).
    assert (0 < b * X) by nra.
    apply (Rmult_lt_reg_l (4 * (b * X))); [lra|]. rewrite Rmult_0_r.
    replace (4 * (b * X) * (A - a * Z * M + b * X * M ^ 2)) with
      ((2 * b * X * M - a * Z)² + (4 * b * X * A - a ^ 2 * Z ^ 2)) by (unfold Rsqr; ring).
    pose proof (Rle_0_sqr (2 * b * X * M - a * Z)).
    assert (a ^ 2 * Z ^ 2 <= 1.9 * b * Z ^ 2) by (apply Rmult_le_compat_r; [apply pow2_ge_0|auto]).
    assert (b * (1.9 * Z ^ 2) < b * (4 * X * A)) by (apply Rmult_lt_compat_l; auto).
    lra.
  - reflexivity.
Qed.
Example C60_ex : 0 <= eng_bpr a320_thrust <= 100 /\ -2000 <= 0.
Proof. rewrite a320_thrust_eq. cbn. lra. Qed.
