(** Lemmas about the model of openap/drag.py. *)
From Coq Require Import Reals List Bool Lra Lia Psatz.
From Verif Require Import Num NumFacts Aero AeroFacts GeoFacts Drag.
Open Scope R_scope.

Definition liftR (mass tas vs : R) : R := mass * g0 * cos (Ratan2 (vs * fpm) (tas * kts)).
Definition qSR (S tas alt dT : R) : R :=
  Rmax (0.5 * rhoR (alt * ft) dT * (tas * kts) ^ 2 * S) 1e-3.
Definition dragR (S cd0 k mass tas alt vs dT : R) : R :=
  (cd0 + k * (liftR mass tas vs / qSR S tas alt dT) ^ 2) * qSR S tas alt dT.

Lemma qSR_pos : forall S tas alt dT, 0 < qSR S tas alt dT.
Proof. intros. unfold qSR. pose proof (Rmax_r (0.5 * rhoR (alt * ft) dT * (tas * kts) ^ 2 * S) 1e-3). lra. Qed.

Lemma cl_qS_NP : forall a mass tas alt vs dT,
  cl_qS NP a (Fin mass) (Fin tas) (Fin alt) (Fin vs) (Fin dT)
  = (Fin (liftR mass tas vs / qSR (wing_area a) tas alt dT), Fin (qSR (wing_area a) tas alt dT)).
Proof.
  intros. unfold cl_qS. cbn [T mul cst NP powi bcos barctan2 maximum div emul epowi eatan2 elift].
  rewrite density_NP. cbn [emul emax].
  change (1 / 1000) with 1e-3.
  fold (qSR (wing_area a) tas alt dT).
  rewrite ediv_fin by (pose proof (qSR_pos (wing_area a) tas alt dT); lra). reflexivity.
Qed.

Lemma calc_drag_NP : forall a mass tas alt cd0 k vs dT,
  calc_drag NP a (Fin mass) (Fin tas) (Fin alt) (Fin cd0) (Fin k) (Fin vs) (Fin dT)
  = Fin (dragR (wing_area a) cd0 k mass tas alt vs dT).
Proof. intros. unfold calc_drag. rewrite cl_qS_NP. reflexivity. Qed.

Lemma dragR_eq : forall S cd0 k mass tas alt vs dT,
  dragR S cd0 k mass tas alt vs dT
  = cd0 * qSR S tas alt dT + k * liftR mass tas vs ^ 2 / qSR S tas alt dT.
Proof. intros. unfold dragR. pose proof (qSR_pos S tas alt dT). field. lra. Qed.

Lemma dragR_pos : forall S cd0 k mass tas alt vs dT, 0 < cd0 -> 0 <= k ->
  0 < dragR S cd0 k mass tas alt vs dT.
Proof.
  intros. unfold dragR. pose proof (qSR_pos S tas alt dT). apply Rmult_lt_0_compat; auto.
  pose proof (pow2_ge_0 (liftR mass tas vs / qSR S tas alt dT)). nra.
Qed.

Lemma dragR_min : forall S cd0 k mass tas alt vs dT, 0 < cd0 -> 0 < k ->
  2 * Rabs (liftR mass tas vs) * sqrt (cd0 * k) <= dragR S cd0 k mass tas alt vs dT.
Proof.
  intros. rewrite dragR_eq. pose proof (qSR_pos S tas alt dT) as Hq.
  set (q := qSR S tas alt dT) in *. set (L := liftR mass tas vs).
  assert (E : cd0 * q + k * L ^ 2 / q - 2 * Rabs L * sqrt (cd0 * k)
              = Rsqr (sqrt (cd0 * q) - Rabs L * sqrt (k / q))).
  { rewrite Rsqr_minus. rewrite Rsqr_sqrt by nra. rewrite Rsqr_mult, <- Rsqr_abs.
    rewrite Rsqr_sqrt. 2:{ apply Rlt_le, Rdiv_lt_0_compat; lra. }
    assert (sqrt (cd0 * q) * sqrt (k / q) = sqrt (cd0 * k)).
    { rewrite <- sqrt_mult_alt by nra. f_equal. field. lra. }
    replace (2 * sqrt (cd0 * q) * (Rabs L * sqrt (k / q)))
      with (2 * Rabs L * (sqrt (cd0 * q) * sqrt (k / q))) by ring.
    rewrite H1. unfold Rsqr. field. lra. }
  pose proof (Rle_0_sqr (sqrt (cd0 * q) - Rabs L * sqrt (k / q))). lra.
Qed.

(** cosine of the flight-path angle *)
Lemma cos_atan2_hyp : forall w v, (v <> 0 \/ w <> 0) -> cos (Ratan2 w v) = v / sqrt (v * v + w * w).
Proof.
  intros w v H. destruct (Ratan2_polar w v) as [E _]. unfold hyp in E.
  assert (0 < sqrt (v * v + w * w)).
  { apply sqrt_lt_R0. destruct H as [H|H]; apply Rsqr_pos_lt in H; unfold Rsqr in H;
      pose proof (Rle_0_sqr v); pose proof (Rle_0_sqr w); unfold Rsqr in *; lra. }
  rewrite <- E at 2. field. lra.
Qed.

Lemma atan2_00 : Ratan2 0 0 = 0.
Proof. unfold Ratan2. repeat (destruct (Rlt_dec _ _); try lra). Qed.

Lemma cos_atan2_even : forall w v, cos (Ratan2 (- w) v) = cos (Ratan2 w v).
Proof.
  intros. destruct (Req_dec v 0) as [Hv|Hv]; [destruct (Req_dec w 0) as [Hw|Hw]|].
  - subst. rewrite Ropp_0. auto.
  - rewrite !cos_atan2_hyp by (right; lra). f_equal. f_equal. ring.
  - rewrite !cos_atan2_hyp by (left; lra). f_equal. f_equal. ring.
Qed.

Lemma kts_nz : forall tas, tas <> 0 -> tas * kts <> 0.
Proof. intros. uc. apply Rmult_integral_contrapositive; split; lra. Qed.

Lemma cos_atan2_nz : forall w v, v <> 0 -> cos (Ratan2 w v) <> 0.
Proof.
  intros w v H E. destruct (Ratan2_polar w v) as [E' _]. rewrite E in E'. lra.
Qed.

Lemma liftR_even : forall mass tas vs, liftR mass tas (- vs) = liftR mass tas vs.
Proof.
  intros. unfold liftR. rewrite Ropp_mult_distr_l_reverse, cos_atan2_even. auto.
Qed.

Lemma liftR_mass : forall m1 m2 tas vs, tas <> 0 \/ vs = 0 -> 0 <= m1 < m2 ->
  liftR m1 tas vs ^ 2 < liftR m2 tas vs ^ 2.
Proof.
  intros. unfold liftR.
  assert (N : cos (Ratan2 (vs * fpm) (tas * kts)) <> 0).
  { destruct (Req_dec tas 0) as [E|E].
    - destruct H as [H|H]; [lra|]. subst. rewrite !Rmult_0_l, atan2_00, cos_0. lra.
    - apply cos_atan2_nz, kts_nz, E. }
  set (c := cos _) in *. apply Rsqr_pos_lt in N. unfold Rsqr in N.
  replace ((m1 * g0 * c) ^ 2) with (m1 * m1 * (g0 * g0 * (c * c))) by ring.
  replace ((m2 * g0 * c) ^ 2) with (m2 * m2 * (g0 * g0 * (c * c))) by ring.
  apply Rmult_lt_compat_r. { uc. nra. } nra.
Qed.

Lemma dragR_mass : forall S cd0 k m1 m2 tas alt vs dT, 0 < k -> tas <> 0 \/ vs = 0 -> 0 <= m1 < m2 ->
  dragR S cd0 k m1 tas alt vs dT < dragR S cd0 k m2 tas alt vs dT.
Proof.
  intros. rewrite !dragR_eq. pose proof (qSR_pos S tas alt dT).
  pose proof (liftR_mass m1 m2 tas vs H0 H1).
  apply Rplus_lt_compat_l. apply Rmult_lt_compat_r. apply Rinv_0_lt_compat; auto. nra.
Qed.

Lemma dragR_cd0 : forall S c1 c2 k mass tas alt vs dT, c1 <= c2 ->
  dragR S c1 k mass tas alt vs dT <= dragR S c2 k mass tas alt vs dT.
Proof. intros. rewrite !dragR_eq. pose proof (qSR_pos S tas alt dT). nra. Qed.

Lemma dragR_cd0_lt : forall S c1 c2 k mass tas alt vs dT, c1 < c2 ->
  dragR S c1 k mass tas alt vs dT < dragR S c2 k mass tas alt vs dT.
Proof. intros. rewrite !dragR_eq. pose proof (qSR_pos S tas alt dT). nra. Qed.

Lemma clean_NP : forall a mass tas alt vs dT,
  clean NP a false (Fin mass) (Fin tas) (Fin alt) (Fin vs) (Fin dT)
  = Fin (dragR (wing_area a) (cd0_clean a) (k_clean a) mass tas alt vs dT).
Proof.
  intros. unfold clean. change (add NP (cst NP (cd0_clean a)) (cst NP 0)) with (Fin (cd0_clean a + 0)).
  rewrite Rplus_0_r. apply calc_drag_NP.
Qed.

(** critical Mach number, closed form *)
Definition mcritR (a : drag_par) (mass tas alt dT : R) : R :=
  let c := cos (wing_sweep a * PI / 180) in
  0.95 / c - (match wing_tc a with Some t => t | None => 0.12 end) / c ^ 2
  - 0.1 * (mass * g0 / qSR (wing_area a) tas alt dT) / c ^ 3 - 0.108.

Lemma cos_sweep_pos : forall s, -90 < s < 90 -> 0 < cos (s * PI / 180).
Proof. intros. pose proof PI_RGT_0. apply cos_gt_0; nra. Qed.

Lemma liftR_level : forall mass tas, 0 <= tas -> liftR mass tas 0 = mass * g0.
Proof.
  intros. unfold liftR. rewrite Rmult_0_l. assert (E : cos (Ratan2 0 (tas * kts)) = 1).
  { destruct (Req_dec tas 0). subst. rewrite Rmult_0_l, atan2_00. apply cos_0.
    assert (0 < tas * kts) by (uc; nra).
    unfold Ratan2. destruct (Rlt_dec 0 (tas * kts)); [|lra]. unfold Rdiv. rewrite Rmult_0_l, atan_0. apply cos_0. }
  rewrite E. ring.
Qed.

Lemma mach_crit_NP : forall a mass tas alt dT, -90 < wing_sweep a < 90 -> 0 <= tas ->
  mach_crit NP a (Fin mass) (Fin tas) (Fin alt) (Fin dT) = Fin (mcritR a mass tas alt dT).
Proof.
  intros. unfold mach_crit. change (cst NP 0) with (Fin 0). rewrite cl_qS_NP.
  pose proof (cos_sweep_pos _ H) as Hc. rewrite liftR_level by auto.
  cbn [cst NP mul bpi div sub powi bcos emul].
  rewrite (ediv_fin (wing_sweep a * PI) 180) by lra. cbn [elift epowi].
  set (c := cos (wing_sweep a * PI / 180)) in *.
  assert (0 < c ^ 2) by (apply pow_lt; auto). assert (0 < c ^ 3) by (apply pow_lt; auto).
  rewrite !ediv_fin by lra. reflexivity.
Qed.

Definition wcdR (a : drag_par) (mass tas alt dT : R) : R :=
  20 * Rmax (tas * kts / aR (alt * ft) dT - mcritR a mass tas alt dT) 0.0 ^ 4.

Lemma wave_cd_NP : forall a mass tas alt dT, -90 < wing_sweep a < 90 -> 0 <= tas ->
  wave_cd NP a (Fin mass) (Fin tas) (Fin alt) (Fin dT) = Fin (wcdR a mass tas alt dT).
Proof.
  intros. unfold wave_cd. rewrite mach_crit_NP by auto. cbn [mul NP cst emul].
  rewrite tas2mach_NP. reflexivity.
Qed.

Lemma wcdR_nonneg : forall a mass tas alt dT, 0 <= wcdR a mass tas alt dT.
Proof.
  intros. unfold wcdR. apply Rmult_le_pos; [lra|]. apply pow_le.
  match goal with |- 0 <= Rmax ?x 0.0 => pose proof (Rmax_r x 0.0); lra end.
Qed.

Lemma clean_wave_NP : forall a mass tas alt vs dT, -90 < wing_sweep a < 90 -> 0 <= tas ->
  clean NP a true (Fin mass) (Fin tas) (Fin alt) (Fin vs) (Fin dT)
  = Fin (dragR (wing_area a) (cd0_clean a + wcdR a mass tas alt dT) (k_clean a) mass tas alt vs dT).
Proof. intros. unfold clean. rewrite wave_cd_NP by auto. apply calc_drag_NP. Qed.

Definition flapcdR (a : drag_par) (flap : R) : R :=
  lambda_f a * Rpower (cf_c a) 1.38 * Sf_S a * sin (flap * PI / 180) ^ 2.
Definition gearcdR (a : drag_par) (gear : bool) : R :=
  if gear then mtow a * g0 / wing_area a * 3.16e-5 * Rpower (mtow a) (-0.215) else 0.
Definition deltaeR (a : drag_par) (flap : R) : R := (if rear_mounted a then 0.0046 else 0.0026) * flap.
Definition ktotR (a : drag_par) (flap : R) : R :=
  1 / (1 / k_clean a + PI * (wing_span a ^ 2 / wing_area a) * deltaeR a flap).

Lemma ktot_den : forall a flap, 0 < k_clean a -> 0 < wing_area a -> 0 <= flap ->
  0 < 1 / k_clean a + PI * (wing_span a ^ 2 / wing_area a) * deltaeR a flap.
Proof.
  intros. assert (0 < 1 / k_clean a) by (apply Rdiv_lt_0_compat; lra).
  assert (0 <= wing_span a ^ 2 / wing_area a).
  { apply Rmult_le_pos. apply pow2_ge_0. apply Rlt_le, Rinv_0_lt_compat; auto. }
  assert (0 <= deltaeR a flap) by (unfold deltaeR; destruct (rear_mounted a); lra).
  pose proof PI_RGT_0. assert (0 <= PI * (wing_span a ^ 2 / wing_area a)) by nra. nra.
Qed.

Lemma nonclean_NP : forall a mass tas alt flap vs dT gear,
  0 < k_clean a -> 0 < wing_area a -> 0 < cf_c a -> 0 < mtow a -> 0 <= flap ->
  nonclean NP a (Fin mass) (Fin tas) (Fin alt) (Fin flap) (Fin vs) (Fin dT) gear
  = Fin (dragR (wing_area a) (cd0_clean a + flapcdR a flap + gearcdR a gear) (ktotR a flap)
           mass tas alt vs dT).
Proof.
  intros. pose proof (ktot_den a flap H H0 H3) as D.
  unfold nonclean, ktotR, gearcdR in *. unfold deltaeR in *.
  cbn [cst NP mul bpi div add powi power bsin].
  rewrite (epower_fin (cf_c a)), (epower_fin (mtow a)) by auto.
  destruct gear, (rear_mounted a); cbn [emul];
  rewrite (ediv_fin (flap * PI) 180), (ediv_fin 1 (k_clean a)) by lra; cbn [epowi];
  rewrite (ediv_fin (wing_span a ^ 2)) by lra; try rewrite (ediv_fin (mtow a * g0)) by lra;
  cbn [elift emul epowi eadd]; rewrite ediv_fin by lra; apply calc_drag_NP.
Qed.
