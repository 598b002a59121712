(** Lemmas about the model of openap/aero.py. *)
From Coq Require Import Reals List Bool Lra Lia Psatz.
From Verif Require Import Num NumFacts Aero.
Open Scope R_scope.

Ltac uc := unfold kts, ft, fpm, g0, Rgas, p0, rho0, T0, gamma, beta, r_earth, a0 in *.

(** Plain real closed forms. *)
Definition clipT (dT : R) : R := Rmin (Rmax dT (-25)) 15.
Definition tR (h dT : R) : R := Rmax (T0 + clipT dT + beta * h) (216.65 + clipT dT).
Definition rhoR (h dT : R) : R :=
  rho0 * Rpower (tR h dT / (T0 + clipT dT)) 4.256848030018761
    * exp (- Rmax 0.0 (h - 11000.0) / 6341.552161).
Definition pR (h dT : R) : R := rhoR h dT * Rgas * tR h dT.

Lemma clipT_range : forall dT, -25 <= clipT dT <= 15.
Proof.
  intros; unfold clipT, Rmin, Rmax.
  destruct (Rle_dec dT (-25)); destruct (Rle_dec _ 15); lra.
Qed.

Lemma clipT_id : forall dT, -25 <= dT <= 15 -> clipT dT = dT.
Proof.
  intros dT H; unfold clipT. rewrite Rmax_left by lra. rewrite Rmin_left by lra. auto.
Qed.

Lemma clipT_0 : clipT 0 = 0.
Proof. apply clipT_id; lra. Qed.

Lemma clipT_idem : forall dT, clipT (clipT dT) = clipT dT.
Proof. intros; apply clipT_id, clipT_range. Qed.

Lemma T0s_pos : forall dT, 263.15 <= T0 + clipT dT <= 303.15.
Proof. intros; pose proof (clipT_range dT); uc; lra. Qed.

Lemma tR_lb : forall h dT, 216.65 + clipT dT <= tR h dT.
Proof. intros; unfold tR; apply Rmax_r. Qed.

Lemma tR_pos : forall h dT, 191.65 <= tR h dT.
Proof. intros; pose proof (tR_lb h dT); pose proof (clipT_range dT); lra. Qed.

Lemma rhoR_pos : forall h dT, 0 < rhoR h dT.
Proof.
  intros; unfold rhoR. apply Rmult_lt_0_compat; [|apply exp_pos].
  apply Rmult_lt_0_compat; [uc; lra|apply Rpower_pos].
Qed.

Lemma pR_pos : forall h dT, 0 < pR h dT.
Proof.
  intros; unfold pR. pose proof (tR_pos h dT). pose proof (rhoR_pos h dT).
  apply Rmult_lt_0_compat; [|lra]. apply Rmult_lt_0_compat; [lra|uc; lra].
Qed.

Lemma atmos_RB : forall h dT, atmos RB h dT = (pR h dT, rhoR h dT, tR h dT).
Proof. reflexivity. Qed.

Lemma atmos_NP : forall h dT,
  atmos NP (Fin h) (Fin dT) = (Fin (pR h dT), Fin (rhoR h dT), Fin (tR h dT)).
Proof.
  intros h dT. unfold atmos. cbn -[Rpower Rmax Rmin exp ediv eexp epower].
  fold (clipT dT). fold (tR h dT).
  pose proof (T0s_pos dT). pose proof (tR_pos h dT).
  rewrite ediv_fin by lra.
  rewrite epower_fin by (apply Rdiv_lt_0_compat; lra).
  rewrite (ediv_fin (- _)) by lra.
  assert (0 <= Rmax 0.0 (h - 11000.0)) by (eapply Rle_trans; [|apply Rmax_l]; lra).
  rewrite eexp_neg by (unfold Rdiv; pose proof (Rinv_0_lt_compat 6341.552161 ltac:(lra)); nra).
  reflexivity.
Qed.

Lemma temperature_NP : forall h dT, temperature NP (Fin h) (Fin dT) = Fin (tR h dT).
Proof. intros; unfold temperature; rewrite atmos_NP; auto. Qed.
Lemma pressure_NP : forall h dT, pressure NP (Fin h) (Fin dT) = Fin (pR h dT).
Proof. intros; unfold pressure; rewrite atmos_NP; auto. Qed.
Lemma density_NP : forall h dT, density NP (Fin h) (Fin dT) = Fin (rhoR h dT).
Proof. intros; unfold density; rewrite atmos_NP; auto. Qed.

Definition aR (h dT : R) : R := sqrt (gamma * Rgas * tR h dT).

Lemma vsound_NP : forall h dT, vsound NP (Fin h) (Fin dT) = Fin (aR h dT).
Proof.
  intros; unfold vsound; rewrite temperature_NP. pose proof (tR_pos h dT).
  cbn -[esqrt sqrt]. rewrite esqrt_fin; [reflexivity|]. uc; nra.
Qed.

Lemma aR_pos : forall h dT, 0 < aR h dT.
Proof. intros; unfold aR; apply sqrt_lt_R0. pose proof (tR_pos h dT). uc; nra. Qed.

(** ** Monotonicity in altitude *)

Lemma tR_low : forall h dT, h <= 11000 -> tR h dT = T0 + clipT dT + beta * h.
Proof. intros; unfold tR; apply Rmax_left; uc; lra. Qed.

Lemma tR_high : forall h dT, 11000 <= h -> tR h dT = 216.65 + clipT dT.
Proof. intros; unfold tR; apply Rmax_right; uc; lra. Qed.

Lemma tR_anti : forall h1 h2 dT, h1 <= h2 -> tR h2 dT <= tR h1 dT.
Proof. intros; unfold tR; apply Rle_max_compat_r; uc; lra. Qed.

Lemma rhoR_decr : forall h1 h2 dT, h1 < h2 -> rhoR h2 dT < rhoR h1 dT.
Proof.
  intros h1 h2 dT H. unfold rhoR.
  pose proof (T0s_pos dT) as Hs. pose proof (tR_pos h1 dT). pose proof (tR_pos h2 dT).
  pose proof (tR_anti h1 h2 dT ltac:(lra)).
  assert (Hd : forall a, 0 < a -> 0 < a / (T0 + clipT dT)) by (intros; apply Rdiv_lt_0_compat; lra).
  assert (HE : exp (- Rmax 0.0 (h2 - 11000.0) / 6341.552161) <= exp (- Rmax 0.0 (h1 - 11000.0) / 6341.552161)).
  { destruct (Rle_lt_dec (- Rmax 0.0 (h1 - 11000.0) / 6341.552161) (- Rmax 0.0 (h2 - 11000.0) / 6341.552161)) as [Hc|Hc].
    - assert (Rmax 0.0 (h1 - 11000.0) <= Rmax 0.0 (h2 - 11000.0)) by (apply Rle_max_compat_l; lra).
      replace (- Rmax 0.0 (h1 - 11000.0) / 6341.552161) with (- Rmax 0.0 (h2 - 11000.0) / 6341.552161); [lra|].
      apply Rle_antisym; auto. unfold Rdiv. apply Rmult_le_compat_r; [|lra]. left; apply Rinv_0_lt_compat; lra.
    - left; apply exp_increasing; auto. }
  assert (HP : Rpower (tR h2 dT / (T0 + clipT dT)) 4.256848030018761 <= Rpower (tR h1 dT / (T0 + clipT dT)) 4.256848030018761).
  { apply Rpower_le_base; try lra. apply Hd; lra. apply Rmult_le_compat_r; auto. left; apply Rinv_0_lt_compat; lra. }
  pose proof (exp_pos (- Rmax 0.0 (h1 - 11000.0) / 6341.552161)).
  pose proof (exp_pos (- Rmax 0.0 (h2 - 11000.0) / 6341.552161)).
  pose proof (Rpower_pos (tR h1 dT / (T0 + clipT dT)) 4.256848030018761).
  pose proof (Rpower_pos (tR h2 dT / (T0 + clipT dT)) 4.256848030018761).
  assert (Hr : 0 < rho0) by (uc; lra).
  rewrite !Rmult_assoc. apply Rmult_lt_compat_l; auto.
  destruct (Rlt_dec h1 11000) as [Hl|Hl].
  - assert (tR h2 dT < tR h1 dT).
    { rewrite (tR_low h1) by lra. unfold tR. apply Rmax_lub_lt; uc; lra. }
    assert (Rpower (tR h2 dT / (T0 + clipT dT)) 4.256848030018761 < Rpower (tR h1 dT / (T0 + clipT dT)) 4.256848030018761).
    { apply Rpower_lt_base; try lra. apply Hd; lra. apply Rmult_lt_compat_r; auto. apply Rinv_0_lt_compat; lra. }
    nra.
  - assert (exp (- Rmax 0.0 (h2 - 11000.0) / 6341.552161) < exp (- Rmax 0.0 (h1 - 11000.0) / 6341.552161)).
    { apply exp_increasing. rewrite !Rmax_right by lra. unfold Rdiv.
      apply Rmult_lt_compat_r; [apply Rinv_0_lt_compat; lra|lra]. }
    nra.
Qed.

Lemma pR_decr : forall h1 h2 dT, h1 < h2 -> pR h2 dT < pR h1 dT.
Proof.
  intros h1 h2 dT H. unfold pR.
  pose proof (rhoR_decr h1 h2 dT H). pose proof (tR_anti h1 h2 dT ltac:(lra)).
  pose proof (rhoR_pos h2 dT). pose proof (tR_pos h2 dT).
  assert (0 < Rgas) by (uc; lra).
  assert (rhoR h2 dT * Rgas < rhoR h1 dT * Rgas) by nra.
  assert (0 < rhoR h2 dT * Rgas) by nra.
  nra.
Qed.

(** ** The compressible-flow speed conversion

    [conv p1 r1 p2 r2 v]: speed [v] at (pressure p1, density r1) gives impact
    pressure q; the result is the speed with the same q at (p2, r2). *)
Definition qd (p r v : R) : R := p * (Rpower (1.0 + r * v * v / (7.0 * p)) 3.5 - 1.0).
Definition vq (p r q : R) : R := sqrt (7.0 * p / r * (Rpower (1.0 + q / p) (2.0 / 7.0) - 1.0)).

Lemma qd_arg : forall p r v, 0 < p -> 0 < r -> 1 <= 1.0 + r * v * v / (7.0 * p).
Proof.
  intros. assert (0 <= r * v * v / (7.0 * p)); [|lra].
  apply Rmult_le_pos; [nra|]. left; apply Rinv_0_lt_compat; lra.
Qed.

Lemma qd_nonneg : forall p r v, 0 < p -> 0 < r -> 0 <= qd p r v.
Proof.
  intros. unfold qd. pose proof (Rpower_ge_1 _ 3.5 (qd_arg p r v H H0) ltac:(lra)). nra.
Qed.

Lemma vq_arg : forall p q, 0 < p -> 0 <= q -> 1 <= 1.0 + q / p.
Proof.
  intros. assert (0 <= q / p); [|lra]. apply Rmult_le_pos; auto. left; apply Rinv_0_lt_compat; auto.
Qed.

Lemma vq_sqrt_arg : forall p r q, 0 < p -> 0 < r -> 0 <= q ->
  0 <= 7.0 * p / r * (Rpower (1.0 + q / p) (2.0 / 7.0) - 1.0).
Proof.
  intros. apply Rmult_le_pos.
  - apply Rmult_le_pos; [lra|]. left; apply Rinv_0_lt_compat; auto.
  - pose proof (Rpower_ge_1 _ (2.0/7.0) (vq_arg p q H H1) ltac:(lra)). lra.
Qed.

Lemma vq_qd : forall p r v, 0 < p -> 0 < r -> vq p r (qd p r v) = Rabs v.
Proof.
  intros p r v Hp Hr. unfold vq, qd.
  pose proof (qd_arg p r v Hp Hr) as Ha.
  replace (1.0 + p * (Rpower (1.0 + r * v * v / (7.0 * p)) 3.5 - 1.0) / p)
    with (Rpower (1.0 + r * v * v / (7.0 * p)) 3.5).
  2:{ qr. field. lra. }
  rewrite Rpower_mult.
  replace (3.5 * (2.0 / 7.0)) with 1 by lra.
  rewrite Rpower_1 by lra.
  replace (7.0 * p / r * (1.0 + r * v * v / (7.0 * p) - 1.0)) with (v * v).
  2:{ qr. field. lra. }
  fold (Rsqr v). apply sqrt_Rsqr_abs.
Qed.

Lemma qd_vq : forall p r q, 0 < p -> 0 < r -> 0 <= q -> qd p r (vq p r q) = q.
Proof.
  intros p r q Hp Hr Hq. unfold qd.
  pose proof (vq_sqrt_arg p r q Hp Hr Hq) as Ha.
  assert (Hsq : vq p r q * vq p r q = 7.0 * p / r * (Rpower (1.0 + q / p) (2.0 / 7.0) - 1.0)).
  { unfold vq. apply sqrt_sqrt; auto. }
  rewrite Rmult_assoc, Hsq.
  replace (1.0 + r * (7.0 * p / r * (Rpower (1.0 + q / p) (2.0 / 7.0) - 1.0)) / (7.0 * p))
    with (Rpower (1.0 + q / p) (2.0 / 7.0)).
  2:{ qr. field. lra. }
  rewrite Rpower_mult. replace (2.0 / 7.0 * 3.5) with 1 by lra.
  pose proof (vq_arg p q Hp Hq).
  rewrite Rpower_1 by lra. qr. field. lra.
Qed.

Lemma vq_nonneg : forall p r q, 0 <= vq p r q.
Proof. intros; apply sqrt_pos. Qed.

Lemma qd_incr : forall p r v w, 0 < p -> 0 < r -> 0 <= v < w -> qd p r v < qd p r w.
Proof.
  intros p r v w Hp Hr Hv. unfold qd. apply Rmult_lt_compat_l; auto.
  apply Rplus_lt_compat_r. pose proof (qd_arg p r v Hp Hr).
  apply Rpower_lt_base; try lra.
  apply Rplus_lt_compat_l. apply Rmult_lt_compat_r; [apply Rinv_0_lt_compat; lra|].
  rewrite !Rmult_assoc. apply Rmult_lt_compat_l; auto. nra.
Qed.

Lemma vq_incr : forall p r q s, 0 < p -> 0 < r -> 0 <= q < s -> vq p r q < vq p r s.
Proof.
  intros p r q s Hp Hr Hq. unfold vq. apply sqrt_lt_1_alt.
  split; [apply vq_sqrt_arg; lra|].
  apply Rmult_lt_compat_l; [apply Rdiv_lt_0_compat; lra|].
  apply Rplus_lt_compat_r. pose proof (vq_arg p q Hp ltac:(lra)).
  apply Rpower_lt_base; try lra.
  apply Rplus_lt_compat_l. apply Rmult_lt_compat_r; [apply Rinv_0_lt_compat|]; lra.
Qed.

Lemma qd_even : forall p r v, qd p r (- v) = qd p r v.
Proof. intros; unfold qd. replace (r * - v * - v) with (r * v * v) by ring. auto. Qed.

Lemma qd_abs : forall p r v, qd p r (Rabs v) = qd p r v.
Proof. intros; unfold Rabs; destruct (Rcase_abs v); auto using qd_even. Qed.

Definition conv (p1 r1 p2 r2 v : R) : R := vq p2 r2 (qd p1 r1 v).

Lemma conv_inv : forall p1 r1 p2 r2 v, 0 < p1 -> 0 < r1 -> 0 < p2 -> 0 < r2 ->
  conv p2 r2 p1 r1 (conv p1 r1 p2 r2 v) = Rabs v.
Proof.
  intros. unfold conv. rewrite qd_vq; auto using qd_nonneg. apply vq_qd; auto.
Qed.

Lemma conv_incr : forall p1 r1 p2 r2 v w, 0 < p1 -> 0 < r1 -> 0 < p2 -> 0 < r2 ->
  0 <= v < w -> conv p1 r1 p2 r2 v < conv p1 r1 p2 r2 w.
Proof. intros. unfold conv. apply vq_incr; auto. split; auto using qd_nonneg, qd_incr. Qed.

Lemma conv_0 : forall p1 r1 p2 r2, 0 < p1 -> conv p1 r1 p2 r2 0 = 0.
Proof.
  intros. unfold conv, qd, vq.
  replace (1.0 + r1 * 0 * 0 / (7.0 * p1)) with 1 by (qr; field; lra).
  rewrite Rpower_one. replace (1.0 + p1 * (1 - 1.0) / p2) with 1.
  2:{ replace (1 - 1.0) with 0 by lra. unfold Rdiv; rewrite Rmult_0_r, Rmult_0_l; lra. }
  rewrite Rpower_one. replace (1 - 1.0) with 0 by lra. rewrite Rmult_0_r. apply sqrt_0.
Qed.

Lemma conv_nonneg : forall p1 r1 p2 r2 v, 0 <= conv p1 r1 p2 r2 v.
Proof. intros; apply vq_nonneg. Qed.

Lemma conv_abs : forall p1 r1 p2 r2 v, conv p1 r1 p2 r2 (Rabs v) = conv p1 r1 p2 r2 v.
Proof. intros; unfold conv; rewrite qd_abs; auto. Qed.

Definition c2tR (v h dT : R) : R := conv p0 rho0 (pR h dT) (rhoR h dT) v.
Definition t2cR (v h dT : R) : R := conv (pR h dT) (rhoR h dT) p0 rho0 v.

Lemma p0_pos : 0 < p0. Proof. uc; lra. Qed.
Lemma rho0_pos : 0 < rho0. Proof. uc; lra. Qed.


Lemma conv_code : forall p1 r1 p2 r2 v, 0 < p1 -> 0 < r1 -> 0 < p2 -> 0 < r2 ->
  esqrt (emul (ediv (emul (Fin 7.0) (Fin p2)) (Fin r2))
     (esub (epower (eadd (Fin 1.0) (ediv (emul (Fin p1) (esub (epower (eadd (Fin 1.0)
        (ediv (emul (emul (Fin r1) (Fin v)) (Fin v)) (emul (Fin 7.0) (Fin p1)))) (Fin 3.5)) (Fin 1.0))) (Fin p2)))
        (ediv (Fin 2.0) (Fin 7.0))) (Fin 1.0))) = Fin (conv p1 r1 p2 r2 v).
Proof.
  intros p1 r1 p2 r2 v Hp1 Hr1 Hp2 Hr2.
  pose proof (qd_arg p1 r1 v Hp1 Hr1). pose proof (qd_nonneg p1 r1 v Hp1 Hr1) as Hq.
  pose proof (vq_arg p2 _ Hp2 Hq). pose proof (vq_sqrt_arg p2 r2 _ Hp2 Hr2 Hq).
  cbn [emul]. rewrite (ediv_fin (r1 * v * v)) by lra. cbn [eadd].
  rewrite epower_fin by lra. cbn [esub emul]. fold (qd p1 r1 v).
  rewrite (ediv_fin (qd p1 r1 v)) by lra. cbn [eadd].
  rewrite (ediv_fin 2.0) by lra. rewrite epower_fin by lra. cbn [esub].
  rewrite ediv_fin by lra. cbn [emul]. rewrite esqrt_fin by auto. reflexivity.
Qed.

Lemma cas2tas_NP : forall v h dT, cas2tas NP (Fin v) (Fin h) (Fin dT) = Fin (c2tR v h dT).
Proof.
  intros. unfold cas2tas. rewrite atmos_NP. cbn -[esqrt epower ediv eadd emul esub].
  apply conv_code; auto using p0_pos, rho0_pos, pR_pos, rhoR_pos.
Qed.

Lemma eadd_comm : forall a c, eadd a c = eadd c a.
Proof. intros [a| | |] [c| | |]; simpl; auto. f_equal; ring. Qed.

Lemma tas2cas_NP : forall v h dT, tas2cas NP (Fin v) (Fin h) (Fin dT) = Fin (t2cR v h dT).
Proof.
  intros. unfold tas2cas. rewrite atmos_NP. cbn -[esqrt epower ediv eadd emul esub].
  rewrite (eadd_comm _ (Fin 1.0)).
  apply conv_code; auto using p0_pos, rho0_pos, pR_pos, rhoR_pos.
Qed.

(** ** Mach and EAS *)

Lemma tas2mach_NP : forall v h dT, tas2mach NP (Fin v) (Fin h) (Fin dT) = Fin (v / aR h dT).
Proof.
  intros; unfold tas2mach; rewrite vsound_NP. cbn -[ediv].
  apply ediv_fin. pose proof (aR_pos h dT); lra.
Qed.

Lemma mach2tas_NP : forall m h dT, mach2tas NP (Fin m) (Fin h) (Fin dT) = Fin (m * aR h dT).
Proof. intros; unfold mach2tas; rewrite vsound_NP. reflexivity. Qed.

Lemma eas2tas_NP : forall v h dT,
  eas2tas NP (Fin v) (Fin h) (Fin dT) = Fin (v * sqrt (rho0 / rhoR h dT)).
Proof.
  intros; unfold eas2tas; rewrite density_NP. cbn -[ediv esqrt].
  pose proof (rhoR_pos h dT). pose proof rho0_pos. rewrite ediv_fin by lra.
  rewrite esqrt_fin; [reflexivity|]. left; apply Rdiv_lt_0_compat; auto.
Qed.

Lemma tas2eas_NP : forall v h dT,
  tas2eas NP (Fin v) (Fin h) (Fin dT) = Fin (v * sqrt (rhoR h dT / rho0)).
Proof.
  intros; unfold tas2eas; rewrite density_NP. cbn -[ediv esqrt].
  pose proof (rhoR_pos h dT). pose proof rho0_pos. rewrite ediv_fin by lra.
  rewrite esqrt_fin; [reflexivity|]. left; apply Rdiv_lt_0_compat; auto.
Qed.

Lemma sqrt_ratio_inv : forall a c, 0 < a -> 0 < c -> sqrt (a / c) * sqrt (c / a) = 1.
Proof.
  intros. rewrite <- sqrt_mult_alt by (left; apply Rdiv_lt_0_compat; auto).
  replace (a / c * (c / a)) with 1 by (field; lra). apply sqrt_1.
Qed.

Lemma mach2cas_NP : forall m h dT,
  mach2cas NP (Fin m) (Fin h) (Fin dT) = Fin (t2cR (m * aR h dT) h dT).
Proof. intros; unfold mach2cas; rewrite mach2tas_NP; apply tas2cas_NP. Qed.

Lemma cas2mach_NP : forall v h dT,
  cas2mach NP (Fin v) (Fin h) (Fin dT) = Fin (c2tR v h dT / aR h dT).
Proof. intros; unfold cas2mach; rewrite cas2tas_NP; apply tas2mach_NP. Qed.

Lemma c2tR_t2cR : forall v h dT, c2tR (t2cR v h dT) h dT = Rabs v.
Proof. intros; apply conv_inv; auto using p0_pos, rho0_pos, pR_pos, rhoR_pos. Qed.
Lemma t2cR_c2tR : forall v h dT, t2cR (c2tR v h dT) h dT = Rabs v.
Proof. intros; apply conv_inv; auto using p0_pos, rho0_pos, pR_pos, rhoR_pos. Qed.
Lemma c2tR_incr : forall v w h dT, 0 <= v < w -> c2tR v h dT < c2tR w h dT.
Proof. intros; apply conv_incr; auto using p0_pos, rho0_pos, pR_pos, rhoR_pos. Qed.
Lemma t2cR_incr : forall v w h dT, 0 <= v < w -> t2cR v h dT < t2cR w h dT.
Proof. intros; apply conv_incr; auto using p0_pos, rho0_pos, pR_pos, rhoR_pos. Qed.
Lemma c2tR_nonneg : forall v h dT, 0 <= c2tR v h dT. Proof. intros; apply conv_nonneg. Qed.
Lemma t2cR_nonneg : forall v h dT, 0 <= t2cR v h dT. Proof. intros; apply conv_nonneg. Qed.
Lemma c2tR_0 : forall h dT, c2tR 0 h dT = 0. Proof. intros; apply conv_0, p0_pos. Qed.
Lemma t2cR_0 : forall h dT, t2cR 0 h dT = 0. Proof. intros; apply conv_0, pR_pos. Qed.
