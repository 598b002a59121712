(** * Properties C01-C11: atmosphere and airspeeds *)
From Coq Require Import Reals List Bool Lra Lia Psatz.
From Interval Require Import Tactic.
From Verif Require Import Num NumFacts SpecNum Aero AeroFacts AeroFacts2 AeroFacts3 AeroFacts4 SpecISA.
Open Scope R_scope.

(** ** C01 *)
Theorem C01_atmos_defined : forall h dT, exists p rho T a,
  atmos NP (Fin h) (Fin dT) = (Fin p, Fin rho, Fin T) /\
  vsound NP (Fin h) (Fin dT) = Fin a /\
  0 < p /\ 0 < rho /\ 191.65 <= T /\ 0 < a /\
  p = rho * 287.05287 * T /\ a * a = 1.4 * 287.05287 * T.
Proof.
  intros. exists (pR h dT), (rhoR h dT), (tR h dT), (aR h dT).
  rewrite atmos_NP, vsound_NP.
  pose proof (pR_pos h dT). pose proof (rhoR_pos h dT). pose proof (tR_pos h dT). pose proof (aR_pos h dT).
  do 6 (split; [solve [auto]|]). split; [reflexivity|].
  unfold aR. rewrite sqrt_sqrt; uc; [lra|nra].
Qed.
Example C01_ex : exists p rho, atmos NP (Fin (-500)) (Fin 100) = (Fin p, Fin rho, Fin (303.15 + 0.0065 * 500)).
Proof.
  exists (pR (-500) 100), (rhoR (-500) 100). rewrite atmos_NP. rewrite (tR_low (-500)) by lra.
  unfold clipT. rewrite Rmax_left, Rmin_right by lra. f_equal. f_equal. uc; lra.
Qed.

(** ** C02 *)
(** the shift limited to the interval [-25, 15] *)
Definition limited (dT : R) : R :=
  if Rlt_dec dT (-25) then -25 else if Rlt_dec 15 dT then 15 else dT.

Lemma limited_clipT : forall dT, limited dT = clipT dT.
Proof.
  intros; unfold limited, clipT, Rmin, Rmax.
  destruct (Rlt_dec dT (-25)); destruct (Rlt_dec 15 dT); destruct (Rle_dec dT (-25)); destruct (Rle_dec _ 15); lra.
Qed.

Theorem C02_shift_saturates : forall h dT,
  atmos NP (Fin h) (Fin dT) = atmos NP (Fin h) (Fin (limited dT)) /\
  (exists T T', temperature NP (Fin h) (Fin dT) = Fin T /\ temperature NP (Fin h) (Fin 0) = Fin T' /\
                T = T' + limited dT) /\
  density NP (Fin 0) (Fin dT) = Fin 1.225.
Proof.
  intros. rewrite limited_clipT. split; [|split].
  - rewrite !atmos_NP. unfold pR, rhoR, tR. rewrite clipT_idem. auto.
  - exists (tR h dT), (tR h 0). rewrite !temperature_NP. repeat (split; [auto|]).
    unfold tR. rewrite clipT_0. unfold Rmax; destruct (Rle_dec _ _); destruct (Rle_dec _ _); uc; lra.
  - rewrite density_NP. f_equal. unfold rhoR. rewrite tR_low by lra. pose proof (T0s_pos dT).
    replace ((T0 + clipT dT + beta * 0) / (T0 + clipT dT)) with 1 by (field; lra).
    rewrite Rpower_one, exp_strat_1 by lra. uc; lra.
Qed.
Example C02_ex : temperature NP (Fin 20000) (Fin 40) = Fin 231.65.
Proof.
  rewrite temperature_NP, tR_high by lra. rewrite <- limited_clipT. unfold limited.
  destruct (Rlt_dec 40 (-25)); [lra|]. destruct (Rlt_dec 15 40); [|lra]. f_equal; lra.
Qed.

(** ** C03 *)
Theorem C03_thinner_with_altitude : forall h1 h2 dT, h1 < h2 ->
  flt (pressure NP (Fin h2) (Fin dT)) (pressure NP (Fin h1) (Fin dT)) /\
  flt (density NP (Fin h2) (Fin dT)) (density NP (Fin h1) (Fin dT)) /\
  fle (temperature NP (Fin h2) (Fin dT)) (temperature NP (Fin h1) (Fin dT)) /\
  (11000 <= h1 -> temperature NP (Fin h2) (Fin dT) = temperature NP (Fin h1) (Fin dT)) /\
  (h2 <= 11000 -> flt (temperature NP (Fin h2) (Fin dT)) (temperature NP (Fin h1) (Fin dT))).
Proof.
  intros h1 h2 dT H. rewrite !pressure_NP, !density_NP, !temperature_NP. cbn [flt fle].
  repeat split; auto using pR_decr, rhoR_decr.
  - apply tR_anti; lra.
  - intros. rewrite !tR_high by lra. auto.
  - intros. rewrite !tR_low by lra. uc; lra.
Qed.
Example C03_ex : flt (density NP (Fin 11001) (Fin 0)) (density NP (Fin 10999) (Fin 0)).
Proof. apply (C03_thinner_with_altitude 10999 11001 0); lra. Qed.

(** ** C04 *)
Theorem C04_isa_agreement : forall h, 0 <= h <= 20000 ->
  temperature NP (Fin h) (Fin 0) = Fin (isa_T h) /\
  fclose (0.001 * isa_p h) (pressure NP (Fin h) (Fin 0)) (Fin (isa_p h)) /\
  fclose (0.001 * isa_rho h) (density NP (Fin h) (Fin 0)) (Fin (isa_rho h)).
Proof.
  intros h Hh. rewrite pressure_NP, density_NP, temperature_NP, isa_T_eq. cbn [fclose].
  auto using isa_p_close, isa_rho_close.
Qed.
(** at 11 km the specification is the familiar 22632 Pa *)
Example C04_ex : 22631 < isa_p 11000 < 22633.
Proof.
  unfold isa_p, isa_p_tropo, isa_tropopause. destruct (Rle_dec 11000 11000); [|lra].
  unfold isa_T_sl, isa_p_sl, isa_lapse, isa_g, isa_R. split; interval.
Qed.

(** ** C05 *)
Theorem C05_mach_eas_inverse : forall v w h dT,
  let m := tas2mach NP (Fin v) (Fin h) (Fin dT) in
  let t := mach2tas NP (Fin v) (Fin h) (Fin dT) in
  let e := tas2eas NP (Fin v) (Fin h) (Fin dT) in
  let u := eas2tas NP (Fin v) (Fin h) (Fin dT) in
  finite m /\ finite t /\ finite e /\ finite u /\
  mach2tas NP m (Fin h) (Fin dT) = Fin v /\
  tas2mach NP t (Fin h) (Fin dT) = Fin v /\
  eas2tas NP e (Fin h) (Fin dT) = Fin v /\
  tas2eas NP u (Fin h) (Fin dT) = Fin v /\
  (v < w ->
     flt m (tas2mach NP (Fin w) (Fin h) (Fin dT)) /\
     flt t (mach2tas NP (Fin w) (Fin h) (Fin dT)) /\
     flt e (tas2eas NP (Fin w) (Fin h) (Fin dT)) /\
     flt u (eas2tas NP (Fin w) (Fin h) (Fin dT))).
Proof.
  intros v w h dT. cbn zeta.
  pose proof (aR_pos h dT) as Ha. pose proof (rhoR_pos h dT) as Hr. pose proof rho0_pos as H0.
  rewrite ?tas2mach_NP, ?mach2tas_NP, ?eas2tas_NP, ?tas2eas_NP.
  rewrite ?tas2mach_NP, ?mach2tas_NP, ?eas2tas_NP, ?tas2eas_NP. cbn [flt].
  repeat (split; [eexists; reflexivity|]).
  split; [f_equal; field; lra|]. split; [f_equal; field; lra|].
  split; [f_equal; rewrite Rmult_assoc, sqrt_ratio_inv by auto; ring|].
  split; [f_equal; rewrite Rmult_assoc, sqrt_ratio_inv by auto; ring|].
  intros Hvw. repeat split; apply Rmult_lt_compat_r; auto using Rinv_0_lt_compat;
    apply sqrt_lt_R0, Rdiv_lt_0_compat; auto.
Qed.
Example C05_ex : tas2mach NP (mach2tas NP (Fin 0.78) (Fin 11000) (Fin 5)) (Fin 11000) (Fin 5) = Fin 0.78.
Proof. apply (C05_mach_eas_inverse 0.78 1 11000 5). Qed.

(** ** C06 *)
Theorem C06_cas_tas_inverse : forall v h dT, 0 <= v ->
  tas2cas NP (cas2tas NP (Fin v) (Fin h) (Fin dT)) (Fin h) (Fin dT) = Fin v /\
  cas2tas NP (tas2cas NP (Fin v) (Fin h) (Fin dT)) (Fin h) (Fin dT) = Fin v /\
  fle (Fin 0) (cas2tas NP (Fin v) (Fin h) (Fin dT)) /\
  fle (Fin 0) (tas2cas NP (Fin v) (Fin h) (Fin dT)) /\
  (forall w, v < w ->
     flt (cas2tas NP (Fin v) (Fin h) (Fin dT)) (cas2tas NP (Fin w) (Fin h) (Fin dT)) /\
     flt (tas2cas NP (Fin v) (Fin h) (Fin dT)) (tas2cas NP (Fin w) (Fin h) (Fin dT))).
Proof.
  intros v h dT Hv. rewrite cas2tas_NP, tas2cas_NP, tas2cas_NP, cas2tas_NP, c2tR_t2cR, t2cR_c2tR.
  rewrite Rabs_pos_eq by auto. cbn [fle].
  repeat (split; [solve [auto using c2tR_nonneg, t2cR_nonneg]|]).
  intros w Hw. rewrite cas2tas_NP, tas2cas_NP. cbn [flt].
  split; [apply c2tR_incr|apply t2cR_incr]; lra.
Qed.

Theorem C06_zero : forall h dT,
  cas2tas NP (Fin 0) (Fin h) (Fin dT) = Fin 0 /\ tas2cas NP (Fin 0) (Fin h) (Fin dT) = Fin 0.
Proof. intros. rewrite cas2tas_NP, tas2cas_NP, c2tR_0, t2cR_0. auto. Qed.

(** the sign is lost: negative speeds give the value for |v| *)
Theorem C06_sign_lost : forall v h dT,
  cas2tas NP (Fin (- v)) (Fin h) (Fin dT) = cas2tas NP (Fin v) (Fin h) (Fin dT) /\
  tas2cas NP (Fin (- v)) (Fin h) (Fin dT) = tas2cas NP (Fin v) (Fin h) (Fin dT) /\
  (v < 0 -> tas2cas NP (cas2tas NP (Fin v) (Fin h) (Fin dT)) (Fin h) (Fin dT) <> Fin v).
Proof.
  intros. rewrite !cas2tas_NP, !tas2cas_NP.
  assert (E : forall a c d e x, conv a c d e (- x) = conv a c d e x) by (intros; unfold conv; rewrite qd_even; auto).
  unfold c2tR, t2cR. rewrite !E. repeat split; auto.
  intros Hv He. apply Fin_inj in He. fold (c2tR v h dT) in He. fold (t2cR (c2tR v h dT) h dT) in He.
  rewrite t2cR_c2tR in He. rewrite Rabs_left in He by auto. lra.
Qed.
Example C06_ex : cas2tas NP (tas2cas NP (Fin 230) (Fin 11000) (Fin (-5))) (Fin 11000) (Fin (-5)) = Fin 230.
Proof. apply (C06_cas_tas_inverse 230); lra. Qed.

(** ** C07 *)
Theorem C07_cas_mach_inverse : forall x h dT, 0 <= x ->
  cas2mach NP (mach2cas NP (Fin x) (Fin h) (Fin dT)) (Fin h) (Fin dT) = Fin x /\
  mach2cas NP (cas2mach NP (Fin x) (Fin h) (Fin dT)) (Fin h) (Fin dT) = Fin x /\
  (forall y, x < y ->
     flt (cas2mach NP (Fin x) (Fin h) (Fin dT)) (cas2mach NP (Fin y) (Fin h) (Fin dT)) /\
     flt (mach2cas NP (Fin x) (Fin h) (Fin dT)) (mach2cas NP (Fin y) (Fin h) (Fin dT))).
Proof.
  intros x h dT Hx. pose proof (aR_pos h dT) as Ha.
  rewrite !mach2cas_NP, !cas2mach_NP, !mach2cas_NP. rewrite c2tR_t2cR.
  replace (c2tR x h dT / aR h dT * aR h dT) with (c2tR x h dT) by (field; lra).
  rewrite t2cR_c2tR, !Rabs_pos_eq by nra.
  split; [f_equal; field; lra|]. split; [auto|].
  intros y Hy. rewrite mach2cas_NP, cas2mach_NP. cbn [flt]. split.
  - apply Rmult_lt_compat_r; [apply Rinv_0_lt_compat; auto|]. apply c2tR_incr; lra.
  - apply t2cR_incr. split; nra.
Qed.
Example C07_ex : cas2mach NP (mach2cas NP (Fin 0.82) (Fin 12000) (Fin 0)) (Fin 12000) (Fin 0) = Fin 0.82.
Proof. apply (C07_cas_mach_inverse 0.82); lra. Qed.

(** ** C08 *)
Theorem C08_eas_cas_tas_order : forall v h, 1 <= h -> 0 <= v ->
  fle (tas2eas NP (Fin v) (Fin h) (Fin 0)) (tas2cas NP (Fin v) (Fin h) (Fin 0)) /\
  fle (tas2cas NP (Fin v) (Fin h) (Fin 0)) (Fin v).
Proof.
  intros v h Hh Hv. rewrite tas2eas_NP, tas2cas_NP. cbn [fle].
  split; [apply eas_le_cas; lra|apply cas_le_tas; auto].
Qed.
Example C08_ex : fle (tas2cas NP (Fin 250) (Fin 10000) (Fin 0)) (Fin 250).
Proof. apply C08_eas_cas_tas_order; lra. Qed.

(** ** C09 *)
Theorem C09_h_isa_approx_inverse : forall h, 0 <= h <= 20000 ->
  fclose 10 (h_isa NP (pressure NP (Fin h) (Fin 0)) (Fin 0)) (Fin h).
Proof.
  intros. rewrite pressure_NP, h_isa_NP by apply pR_pos. cbn [fclose].
  pose proof (h_isa_err h H). lra.
Qed.

Theorem C09_exact_inverse_refuted : forall h, 0 <= h <= 10990 ->
  h_isa NP (pressure NP (Fin h) (Fin 0)) (Fin 0) <> Fin h.
Proof.
  intros h H E. rewrite pressure_NP, h_isa_NP in E by apply pR_pos. apply Fin_inj in E.
  apply (h_isa_not_exact h H E).
Qed.

Theorem C09_off_isa_refuted :
  flt (h_isa NP (pressure NP (Fin 0) (Fin 10)) (Fin 10)) (Fin (-250)).
Proof. rewrite pressure_NP, h_isa_NP by apply pR_pos. exact h_isa_offisa. Qed.
Example C09_ex : fclose 10 (h_isa NP (pressure NP (Fin 10999) (Fin 0)) (Fin 0)) (Fin 10999).
Proof. apply C09_h_isa_approx_inverse; lra. Qed.

(** ** C10 *)
Theorem C10_h_isa_piecewise_monotone : forall p q dT, 0 < p < q -> -216.65 < dT ->
  finite (h_isa NP (Fin p) (Fin dT)) /\
  (22630 < p \/ q <= 22630 -> flt (h_isa NP (Fin q) (Fin dT)) (h_isa NP (Fin p) (Fin dT))).
Proof.
  intros p q dT Hpq HdT. rewrite !h_isa_NP by lra. split; [eexists; reflexivity|].
  cbn [flt]. unfold hR. intros [H|H].
  - destruct (Rlt_dec 22630 p); [|lra]. destruct (Rlt_dec 22630 q); [|lra]. apply hlow_decr; [auto|uc; lra].
  - destruct (Rlt_dec 22630 p); [lra|]. destruct (Rlt_dec 22630 q); [lra|]. apply hhigh_decr; auto.
Qed.

(** At the switch pressure the returned altitude is 11000 m; just above it (at ISA
    temperature) it is between 11000 and 11001 m: a jump of less than 1 m upwards while
    the pressure increases, so the function is not monotone overall. *)
Theorem C10_switch_jump : h_isa NP (Fin 22630) (Fin 0) = Fin 11000 /\
  forall p, 22630 < p -> flt (h_isa NP (Fin p) (Fin 0)) (Fin 11001).
Proof.
  split.
  - rewrite h_isa_NP by lra. unfold hR. destruct (Rlt_dec 22630 22630); [lra|]. rewrite hhigh_switch; auto.
  - intros p Hp. rewrite h_isa_NP by lra. cbn [flt]. unfold hR. destruct (Rlt_dec 22630 p); [|lra].
    pose proof hlow_switch_0. pose proof (hlow_decr 22630 p 0 ltac:(lra) ltac:(uc; lra)). lra.
Qed.

Theorem C10_global_monotone_refuted :
  flt (h_isa NP (Fin 22630) (Fin 0)) (h_isa NP (Fin 22631) (Fin 0)).
Proof.
  rewrite !h_isa_NP by lra. cbn [flt]. unfold hR.
  destruct (Rlt_dec 22630 22630); [lra|]. destruct (Rlt_dec 22630 22631); [|lra].
  rewrite hhigh_switch, hlow_eq by lra. unfold hexp; uc. interval.
Qed.

(** With a temperature shift the jump is large: more than 300 m at dT = 10. *)
Theorem C10_switch_jump_off_isa :
  h_isa NP (Fin 22630) (Fin 10) = Fin 11000 /\
  flt (Fin 11300) (h_isa NP (Fin 22631) (Fin 10)).
Proof.
  rewrite !h_isa_NP by lra. cbn [flt]. unfold hR.
  destruct (Rlt_dec 22630 22630); [lra|]. destruct (Rlt_dec 22630 22631); [|lra].
  rewrite hhigh_switch, hlow_eq by lra. split; auto. unfold hexp; uc. interval.
Qed.
Example C10_ex : flt (h_isa NP (Fin 50000) (Fin 0)) (h_isa NP (Fin 30000) (Fin 0)).
Proof. apply C10_h_isa_piecewise_monotone; [lra|lra|left; lra]. Qed.

(** ** C11 *)
Theorem C11_crossover_consistent : forall v m h, 0 < v -> 0.0001 <= m ->
  crossover_alt NP (Fin v) (Fin m) (Fin 0) = Fin h -> 0 <= h <= 11000 ->
  fclose (0.002 * m) (cas2mach NP (Fin v) (Fin h) (Fin 0)) (Fin m).
Proof.
  intros v m h Hv Hm E Hh. rewrite crossover_NP in E by auto. apply Fin_inj in E. subst h.
  rewrite cas2mach_NP. cbn [fclose]. apply xover_close; auto; lra.
Qed.

Theorem C11_crossover_monotone : forall v m dT, 0 < v -> -288.15 < dT ->
  finite (crossover_alt NP (Fin v) (Fin m) (Fin dT)) /\
  (forall w, v < w -> flt (crossover_alt NP (Fin w) (Fin m) (Fin dT)) (crossover_alt NP (Fin v) (Fin m) (Fin dT))) /\
  (forall n, 0.0001 <= m -> m < n ->
     flt (crossover_alt NP (Fin v) (Fin m) (Fin dT)) (crossover_alt NP (Fin v) (Fin n) (Fin dT))).
Proof.
  intros v m dT Hv HdT. rewrite crossover_NP by auto. split; [eexists; reflexivity|]. split.
  - intros w Hw. rewrite crossover_NP by lra. cbn [flt]. apply xR_decr_v; [auto|uc; lra].
  - intros n Hm Hn. rewrite crossover_NP by lra. cbn [flt]. apply xR_incr_m; [auto|lra|uc; lra].
Qed.

(** 300 kt (154.33 m/s) and Mach 0.78: crossover between 8 and 9.5 km, so C11 applies *)
Example C11_ex : exists h, crossover_alt NP (Fin 154.33) (Fin 0.78) (Fin 0) = Fin h /\ 8000 <= h <= 9500.
Proof.
  exists (xR 154.33 0.78 0). rewrite crossover_NP by lra. split; auto.
  unfold xR, xd, im, hexp. rewrite Rmax_left by lra. uc. split; interval.
Qed.
