(** Speed ordering, comparison with ISA, pressure altitude, crossover altitude. *)
From Coq Require Import Reals List Bool Lra Lia Psatz.
From Interval Require Import Tactic.
From Verif Require Import Num NumFacts Aero AeroFacts.
Open Scope R_scope.

(** ** Convexity of z^3.5 *)

Lemma Rpower_mvt : forall e a c, 0 < a -> a < c -> exists x,
  a < x < c /\ Rpower c e - Rpower a e = e * Rpower x (e - 1) * (c - a).
Proof.
  intros e a c Ha Hac.
  destruct (MVT_cor2 (fun z => Rpower z e) (fun z => e * Rpower z (e - 1)) a c Hac) as [x [Hx1 Hx2]].
  { intros z Hz. apply derivable_pt_lim_power. lra. }
  exists x; auto.
Qed.

(** increments of z^e over a fixed step grow with the starting point (e >= 1) *)
Lemma Rpower_incr_mono : forall e s t x, 1 <= e -> 0 < s <= t -> 0 <= x ->
  Rpower (s + x) e - Rpower s e <= Rpower (t + x) e - Rpower t e.
Proof.
  intros e s t x He [Hs Hst] Hx.
  destruct (Req_dec s t) as [->|Hn]; [lra|].
  destruct (Req_dec x 0) as [->|Hx0]; [rewrite !Rplus_0_r; lra|].
  pose (f := fun z => Rpower (z + x) e - Rpower z e).
  pose (f' := fun z => e * Rpower (z + x) (e - 1) * (1 + 0) - e * Rpower z (e - 1)).
  destruct (MVT_cor2 f f' s t) as [c [Hc1 Hc2]]; [lra| |].
  { intros z Hz. unfold f, f'. apply derivable_pt_lim_minus.
    - apply (derivable_pt_lim_comp (fun z => z + x) (fun y => Rpower y e)).
      + apply derivable_pt_lim_plus; [apply derivable_pt_lim_id|apply derivable_pt_lim_const].
      + apply derivable_pt_lim_power; lra.
    - apply derivable_pt_lim_power; lra. }
  unfold f, f' in Hc1.
  assert (Rpower c (e - 1) <= Rpower (c + x) (e - 1)) by (apply Rpower_le_base; lra).
  assert (0 <= (e * Rpower (c + x) (e - 1) * (1 + 0) - e * Rpower c (e - 1)) * (t - s)).
  { apply Rmult_le_pos; [|lra].
    replace (e * Rpower (c + x) (e - 1) * (1 + 0) - e * Rpower c (e - 1))
      with (e * (Rpower (c + x) (e - 1) - Rpower c (e - 1))) by ring.
    apply Rmult_le_pos; lra. }
  lra.
Qed.

(** chords of (1+z)^e - 1 from the origin get steeper (e >= 1) *)
Lemma Rpower_chord : forall e k z, 1 <= e -> 1 <= k -> 0 <= z ->
  k * (Rpower (1 + z) e - 1) <= Rpower (1 + k * z) e - 1.
Proof.
  intros e k z He Hk Hz.
  destruct (Req_dec z 0) as [->|Hz0].
  { rewrite Rmult_0_r, Rplus_0_r, Rpower_one. lra. }
  destruct (Req_dec k 1) as [->|Hk1]; [rewrite !Rmult_1_l; lra|].
  destruct (Rpower_mvt e 1 (1 + z)) as [c1 [Hc1 E1]]; [lra|lra|].
  destruct (Rpower_mvt e (1 + z) (1 + k * z)) as [c2 [Hc2 E2]]; [lra|nra|].
  rewrite Rpower_one in E1.
  assert (Hm : Rpower c1 (e - 1) <= Rpower c2 (e - 1)) by (apply Rpower_le_base; lra).
  replace (1 + z - 1) with z in E1 by ring.
  replace (1 + k * z - (1 + z)) with ((k - 1) * z) in E2 by ring.
  assert (0 <= e * (k - 1) * z * (Rpower c2 (e - 1) - Rpower c1 (e - 1))).
  { apply Rmult_le_pos; [|lra]. apply Rmult_le_pos; [|lra]. apply Rmult_le_pos; lra. }
  nra.
Qed.

(** ** EAS <= CAS <= TAS *)

Lemma qd_eq : forall p r v, qd p r v = p * (Rpower (1 + r * v * v / (7 * p)) 3.5 - 1).
Proof.
  intros; unfold qd. replace 7.0 with 7 by lra.
  replace (1.0 + r * v * v / (7 * p)) with (1 + r * v * v / (7 * p)) by lra.
  replace 1.0 with 1 by lra. auto.
Qed.

Lemma qd_le_p : forall p1 p2 r v, 0 < p1 <= p2 -> 0 < r -> qd p2 r v <= qd p1 r v.
Proof.
  intros p1 p2 r v [H1 H2] Hr. rewrite !qd_eq.
  set (z := r * v * v / (7 * p2)).
  assert (Hz : 0 <= z).
  { unfold z. apply Rmult_le_pos; [nra|]. left; apply Rinv_0_lt_compat; lra. }
  replace (r * v * v / (7 * p1)) with (p2 / p1 * z) by (unfold z; field; lra).
  assert (Hk : 1 <= p2 / p1).
  { apply Rmult_le_reg_r with p1; auto. unfold Rdiv. rewrite Rmult_assoc, Rinv_l; lra. }
  pose proof (Rpower_chord 3.5 (p2 / p1) z ltac:(lra) Hk Hz) as Hc.
  apply (Rmult_le_compat_l p1) in Hc; [|lra].
  replace (p1 * (p2 / p1 * (Rpower (1 + z) 3.5 - 1))) with (p2 * (Rpower (1 + z) 3.5 - 1)) in Hc by (field; lra).
  lra.
Qed.

Lemma conv_ge : forall p1 r1 p2 r2 v w, 0 < p1 -> 0 < r1 -> 0 < p2 -> 0 < r2 -> 0 <= w ->
  qd p2 r2 w <= qd p1 r1 v -> w <= conv p1 r1 p2 r2 v.
Proof.
  intros. destruct (Rle_lt_dec w (conv p1 r1 p2 r2 v)) as [Hc|Hc]; auto. exfalso.
  assert (qd p2 r2 (conv p1 r1 p2 r2 v) < qd p2 r2 w).
  { apply qd_incr; auto. split; auto. apply conv_nonneg. }
  unfold conv in H5. rewrite qd_vq in H5; auto using qd_nonneg. lra.
Qed.

Lemma conv_le : forall p1 r1 p2 r2 v w, 0 < p1 -> 0 < r1 -> 0 < p2 -> 0 < r2 -> 0 <= w ->
  qd p1 r1 v <= qd p2 r2 w -> conv p1 r1 p2 r2 v <= w.
Proof.
  intros. destruct (Rle_lt_dec (conv p1 r1 p2 r2 v) w) as [Hc|Hc]; auto. exfalso.
  assert (qd p2 r2 w < qd p2 r2 (conv p1 r1 p2 r2 v)).
  { apply qd_incr; auto. }
  unfold conv in H5. rewrite qd_vq in H5; auto using qd_nonneg. lra.
Qed.

(** [cc] = rho0 R T0 / p0, slightly below 1 in the source constants *)
Definition cc : R := rho0 * Rgas * T0 / p0.
Lemma cc_bound : 0.99999998 < cc < 0.99999999.
Proof. unfold cc; uc; split; interval. Qed.

Definition tau (h : R) : R := tR h 0 / T0.

Lemma tau_low : forall h, h <= 11000 -> tau h = 1 - 0.0065 / 288.15 * h.
Proof. intros; unfold tau; rewrite tR_low, clipT_0 by auto. uc; qr; field. Qed.

Lemma tau_high : forall h, 11000 <= h -> tau h = 216.65 / 288.15.
Proof. intros; unfold tau; rewrite tR_high, clipT_0 by auto. uc; qr; field. Qed.

Lemma tau_pos : forall h, 0 < tau h.
Proof. intros; unfold tau. apply Rdiv_lt_0_compat. pose proof (tR_pos h 0); lra. uc; lra. Qed.

Lemma rhoR0 : forall h, rhoR h 0 =
  rho0 * Rpower (tau h) 4.256848030018761 * exp (- Rmax 0.0 (h - 11000.0) / 6341.552161).
Proof. intros; unfold rhoR, tau. rewrite clipT_0, Rplus_0_r. auto. Qed.

Lemma tR0 : forall h, tR h 0 = T0 * tau h.
Proof. intros; unfold tau; uc; qr; field. Qed.

Lemma pR0 : forall h, pR h 0 =
  p0 * (cc * Rpower (tau h) 5.256848030018761) * exp (- Rmax 0.0 (h - 11000.0) / 6341.552161).
Proof.
  intros; unfold pR. rewrite rhoR0, tR0.
  replace 5.256848030018761 with (4.256848030018761 + 1) by lra.
  rewrite Rpower_plus, Rpower_1 by apply tau_pos.
  unfold cc. assert (p0 <> 0) by (pose proof p0_pos; lra). field; auto.
Qed.

Lemma exp_strat_le : forall h, exp (- Rmax 0.0 (h - 11000.0) / 6341.552161) <= 1.
Proof.
  intros. rewrite <- exp_0.
  assert (0 <= Rmax 0.0 (h - 11000.0)) by (eapply Rle_trans; [|apply Rmax_l]; lra).
  assert (- Rmax 0.0 (h - 11000.0) / 6341.552161 <= 0).
  { unfold Rdiv; pose proof (Rinv_0_lt_compat 6341.552161 ltac:(lra)); nra. }
  destruct H0 as [H0|H0]; [left; apply exp_increasing; auto|rewrite H0; lra].
Qed.

Lemma exp_strat_1 : forall h, h <= 11000 -> exp (- Rmax 0.0 (h - 11000.0) / 6341.552161) = 1.
Proof.
  intros. rewrite Rmax_left by lra. replace (- 0.0 / 6341.552161) with 0 by lra. apply exp_0.
Qed.

Lemma tau_le : forall h, 0 <= h -> tau h <= 1.
Proof.
  intros. destruct (Rle_dec h 11000).
  - rewrite tau_low by auto. lra.
  - rewrite tau_high by lra. lra.
Qed.

Lemma pR0_le_p0 : forall h, 0 <= h -> pR h 0 <= p0.
Proof.
  intros. rewrite pR0. pose proof p0_pos.
  pose proof (exp_strat_le h). pose proof (exp_pos (- Rmax 0.0 (h - 11000.0) / 6341.552161)).
  pose proof cc_bound.
  assert (Rpower (tau h) 5.256848030018761 <= 1).
  { apply Rpower_le_1; [|lra]. split; [apply tau_pos|apply tau_le; auto]. }
  pose proof (Rpower_pos (tau h) 5.256848030018761).
  assert (0 < cc * Rpower (tau h) 5.256848030018761 <= 1) by nra.
  rewrite Rmult_assoc. rewrite <- (Rmult_1_r p0) at 2.
  apply Rmult_le_compat_l; [lra|]. nra.
Qed.

(** delta <= theta^3.5 from 1 m upwards *)
Lemma delta_theta : forall h, 1 <= h ->
  pR h 0 / p0 <= Rpower (pR h 0 / p0 / (rhoR h 0 / rho0)) 3.5.
Proof.
  intros h Hh.
  assert (Hth : pR h 0 / p0 / (rhoR h 0 / rho0) = cc * tau h).
  { unfold pR. rewrite tR0. unfold cc. pose proof (rhoR_pos h 0). pose proof p0_pos. pose proof rho0_pos.
    field. lra. }
  rewrite Hth. pose proof cc_bound. pose proof (tau_pos h) as Ht.
  rewrite Rpower_mult_distr' by lra.
  rewrite pR0. pose proof p0_pos.
  replace (p0 * (cc * Rpower (tau h) 5.256848030018761) * exp (- Rmax 0.0 (h - 11000.0) / 6341.552161) / p0)
    with ((cc * Rpower (tau h) 5.256848030018761) * exp (- Rmax 0.0 (h - 11000.0) / 6341.552161)) by (field; lra).
  apply Rle_trans with (cc * Rpower (tau h) 5.256848030018761).
  { pose proof (exp_strat_le h). pose proof (Rpower_pos (tau h) 5.256848030018761).
    assert (0 < cc * Rpower (tau h) 5.256848030018761) by nra. nra. }
  replace 5.256848030018761 with (3.5 + 1.756848030018761) by lra.
  rewrite Rpower_plus. rewrite <- Rmult_assoc, (Rmult_comm cc), Rmult_assoc, (Rmult_comm _ (Rpower (tau h) 3.5)).
  apply Rmult_le_compat_l; [left; apply Rpower_pos|].
  replace 3.5 with (1 + 2.5) by lra. rewrite Rpower_plus, Rpower_1 by lra.
  apply Rmult_le_compat_l; [lra|].
  assert (H1 : Rpower (tau h) 1.756848030018761 <= 0.99999).
  { assert (tau h <= 0.99998).
    { destruct (Rle_dec h 11000). rewrite tau_low by auto; lra. rewrite tau_high by lra; lra. }
    apply Rle_trans with (Rpower 0.99998 1.756848030018761).
    - apply Rpower_le_base; lra.
    - interval. }
  assert (H2 : 0.99999 <= Rpower cc 2.5).
  { apply Rle_trans with (Rpower 0.99999998 2.5); [interval|apply Rpower_le_base; lra]. }
  lra.
Qed.

Lemma cas_le_tas : forall v h, 1 <= h -> 0 <= v -> t2cR v h 0 <= v.
Proof.
  intros v h Hh Hv. unfold t2cR. pose proof p0_pos as P0. pose proof rho0_pos as R0.
  pose proof (pR_pos h 0) as Hp. pose proof (rhoR_pos h 0) as Hr.
  apply conv_le; auto.
  rewrite !qd_eq.
  set (x := rho0 * v * v / (7 * p0)).
  set (d := pR h 0 / p0). set (th := d / (rhoR h 0 / rho0)).
  assert (Hd : 0 < d) by (apply Rdiv_lt_0_compat; auto).
  assert (Hth : 0 < th) by (apply Rdiv_lt_0_compat; auto; apply Rdiv_lt_0_compat; auto).
  assert (Hx : 0 <= x) by (unfold x; apply Rmult_le_pos; [nra|left; apply Rinv_0_lt_compat; lra]).
  replace (rhoR h 0 * v * v / (7 * pR h 0)) with (x / th) by (unfold x, th, d; field; lra).
  replace (pR h 0) with (p0 * d) by (unfold d; field; lra).
  rewrite Rmult_assoc. apply Rmult_le_compat_l; [lra|].
  pose proof (delta_theta h Hh) as Hdt. fold d in Hdt. fold th in Hdt.
  assert (Hth1 : th <= 1).
  { assert (E : th = cc * tau h).
    { unfold th, d, pR. rewrite tR0. unfold cc. field. lra. }
    rewrite E. pose proof cc_bound. pose proof (tau_le h ltac:(lra)). pose proof (tau_pos h). nra. }
  assert (Hxt : 0 <= x / th) by (apply Rmult_le_pos; auto; left; apply Rinv_0_lt_compat; auto).
  assert (H1 : 1 <= Rpower (1 + x / th) 3.5) by (apply Rpower_ge_1; lra).
  apply Rle_trans with (Rpower th 3.5 * (Rpower (1 + x / th) 3.5 - 1)).
  { apply Rmult_le_compat_r; lra. }
  rewrite Rmult_minus_distr_l, Rmult_1_r, <- Rpower_mult_distr' by lra.
  replace (th * (1 + x / th)) with (th + x) by (field; lra).
  pose proof (Rpower_incr_mono 3.5 th 1 x ltac:(lra) ltac:(lra) Hx) as Hm.
  rewrite Rpower_one in Hm. lra.
Qed.

Lemma eas_le_cas : forall v h, 0 <= h -> 0 <= v -> v * sqrt (rhoR h 0 / rho0) <= t2cR v h 0.
Proof.
  intros v h Hh Hv. unfold t2cR. pose proof p0_pos as P0. pose proof rho0_pos as R0.
  pose proof (pR_pos h 0) as Hp. pose proof (rhoR_pos h 0) as Hr.
  assert (Hq : 0 <= rhoR h 0 / rho0) by (left; apply Rdiv_lt_0_compat; auto).
  apply conv_ge; auto.
  { apply Rmult_le_pos; auto. apply sqrt_pos. }
  replace (qd p0 rho0 (v * sqrt (rhoR h 0 / rho0))) with (qd p0 (rhoR h 0) v).
  2:{ rewrite !qd_eq.
      replace (rho0 * (v * sqrt (rhoR h 0 / rho0)) * (v * sqrt (rhoR h 0 / rho0)))
        with (rho0 * v * v * (sqrt (rhoR h 0 / rho0) * sqrt (rhoR h 0 / rho0))) by ring.
      rewrite sqrt_sqrt by auto.
      replace (rho0 * v * v * (rhoR h 0 / rho0)) with (rhoR h 0 * v * v) by (field; lra). auto. }
  apply qd_le_p; auto. split; auto. apply pR0_le_p0; auto.
Qed.
