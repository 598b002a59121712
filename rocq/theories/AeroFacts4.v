(** Crossover altitude. *)
From Coq Require Import Reals List Bool Lra Lia Psatz.
From Interval Require Import Tactic.
From Verif Require Import Num NumFacts Aero AeroFacts AeroFacts2 AeroFacts3.
Open Scope R_scope.

(** impact pressure ratio minus... [(1+y)^3.5 - 1] *)
Definition im (y : R) : R := Rpower (1 + y) 3.5 - 1.

Lemma im_pos : forall y, 0 < y -> 0 < im y.
Proof. intros; unfold im. pose proof (Rpower_gt_1 (1 + y) 3.5 ltac:(lra) ltac:(lra)). lra. Qed.
Lemma im_incr : forall y z, 0 <= y < z -> im y < im z.
Proof. intros; unfold im. pose proof (Rpower_lt_base (1 + y) (1 + z) 3.5 ltac:(lra) ltac:(lra) ltac:(lra)). lra. Qed.

Definition xd (v m : R) : R := im (0.2 * (v / a0) ^ 2) / im (0.2 * (Rmax m 1e-4) ^ 2).
Definition xR (v m dT : R) : R := (T0 + dT) / beta * (Rpower (xd v m) (- hexp) - 1).

Lemma ms_pos : forall m, 0 < 0.2 * (Rmax m 1e-4) ^ 2.
Proof.
  intros. pose proof (Rmax_r m 1e-4). assert (0 < Rmax m 1e-4) by lra. simpl. nra.
Qed.

Lemma xv_pos : forall v, 0 < v -> 0 < 0.2 * (v / a0) ^ 2.
Proof.
  intros. assert (0 < v / a0) by (apply Rdiv_lt_0_compat; uc; lra). simpl. nra.
Qed.

Lemma xd_pos : forall v m, 0 < v -> 0 < xd v m.
Proof.
  intros. unfold xd. apply Rdiv_lt_0_compat; apply im_pos; auto using ms_pos, xv_pos.
Qed.

Lemma crossover_NP : forall v m dT, 0 < v ->
  crossover_alt NP (Fin v) (Fin m) (Fin dT) = Fin (xR v m dT).
Proof.
  intros v m dT Hv. unfold crossover_alt. cbn -[ediv epower Rmax pow].
  change (1 / 10000) with 1e-4.
  pose proof (xv_pos v Hv). pose proof (ms_pos m).
  rewrite (ediv_fin v a0) by (uc; lra). cbn [eadd esub emul epowi].
  rewrite !epower_fin by lra. cbn [eadd esub emul epowi].
  replace (0.2 * (v / a0) ^ 2 + 1) with (1 + 0.2 * (v / a0) ^ 2) by ring.
  replace (0.2 * Rmax m 1e-4 ^ 2 + 1) with (1 + 0.2 * Rmax m 1e-4 ^ 2) by ring.
  fold (im (0.2 * (v / a0) ^ 2)). fold (im (0.2 * Rmax m 1e-4 ^ 2)).
  pose proof (im_pos _ H0). rewrite (ediv_fin (im _)) by lra. fold (xd v m).
  rewrite (ediv_fin (T0 + dT)) by (uc; lra).
  rewrite (ediv_fin _ g0) by (uc; lra).
  rewrite epower_fin by (apply xd_pos; auto). cbn [eadd esub emul epowi].
  unfold xR, hexp. f_equal. f_equal. f_equal. f_equal. uc; qr; field.
Qed.

Lemma xd_incr_v : forall v w m, 0 < v < w -> xd v m < xd w m.
Proof.
  intros. unfold xd. pose proof (im_pos _ (ms_pos m)).
  apply Rmult_lt_compat_r; [apply Rinv_0_lt_compat; auto|].
  apply im_incr. split; [left; apply xv_pos; lra|].
  assert (0 < v / a0) by (apply Rdiv_lt_0_compat; uc; lra).
  assert (v / a0 < w / a0) by (apply Rmult_lt_compat_r; [apply Rinv_0_lt_compat; uc|]; lra).
  simpl. nra.
Qed.

Lemma xd_decr_m : forall v m n, 0 < v -> 1e-4 <= m < n -> xd v n < xd v m.
Proof.
  intros v m n Hv Hmn. unfold xd.
  pose proof (im_pos _ (ms_pos m)). pose proof (im_pos _ (ms_pos n)). pose proof (im_pos _ (xv_pos v Hv)).
  apply Rmult_lt_compat_l; auto. apply Rinv_lt_contravar; [nra|].
  apply im_incr. rewrite !Rmax_left by lra. simpl. split; nra.
Qed.

Lemma xR_decr_v : forall v w m dT, 0 < v < w -> - T0 < dT -> xR w m dT < xR v m dT.
Proof.
  intros v w m dT Hv HdT. unfold xR. pose proof hexp_bound.
  pose proof (xd_incr_v v w m Hv). pose proof (xd_pos v m ltac:(lra)).
  assert (Rpower (xd v m) (- hexp) < Rpower (xd w m) (- hexp)) by (apply Rpower_lt_base; lra).
  assert ((T0 + dT) / beta < 0).
  { replace ((T0 + dT) / beta) with (- ((T0 + dT) / 0.0065)) by (uc; qr; field).
    assert (0 < (T0 + dT) / 0.0065) by (apply Rdiv_lt_0_compat; lra). lra. }
  nra.
Qed.

Lemma xR_incr_m : forall v m n dT, 0 < v -> 1e-4 <= m < n -> - T0 < dT -> xR v m dT < xR v n dT.
Proof.
  intros v m n dT Hv Hm HdT. unfold xR. pose proof hexp_bound.
  pose proof (xd_decr_m v m n Hv Hm). pose proof (xd_pos v n ltac:(lra)).
  assert (Rpower (xd v n) (- hexp) < Rpower (xd v m) (- hexp)) by (apply Rpower_lt_base; lra).
  assert ((T0 + dT) / beta < 0).
  { replace ((T0 + dT) / beta) with (- ((T0 + dT) / 0.0065)) by (uc; qr; field).
    assert (0 < (T0 + dT) / 0.0065) by (apply Rdiv_lt_0_compat; lra). lra. }
  nra.
Qed.

(** ** Consistency with cas2mach *)

Lemma root_chord_hi : forall k y, 1 <= k -> 0 <= y ->
  Rpower (1 + k * im y) (2.0 / 7.0) - 1 <= k * y.
Proof.
  intros k y Hk Hy.
  pose proof (Rpower_chord 3.5 k y ltac:(lra) Hk Hy) as H. fold (im y) in H.
  assert (0 <= im y). { destruct (Req_dec y 0) as [->|]. unfold im; rewrite Rplus_0_r, Rpower_one; lra. left; apply im_pos; lra. }
  assert (Rpower (1 + k * im y) (2.0/7.0) <= Rpower (Rpower (1 + k * y) 3.5) (2.0/7.0)).
  { apply Rpower_le_base; try lra. nra. }
  rewrite Rpower_mult in H1. replace (3.5 * (2.0 / 7.0)) with 1 in H1 by lra.
  rewrite Rpower_1 in H1 by nra. lra.
Qed.

Lemma root_chord_lo : forall k y, 0 < k <= 1 -> 0 <= y ->
  k * y <= Rpower (1 + k * im y) (2.0 / 7.0) - 1.
Proof.
  intros k y Hk Hy.
  assert (H1k : 1 <= / k). { rewrite <- Rinv_1. apply Rinv_le_contravar; lra. }
  pose proof (Rpower_chord 3.5 (/ k) (k * y) ltac:(lra) H1k ltac:(nra)) as H.
  replace (/ k * (k * y)) with y in H by (field; lra). fold (im y) in H.
  assert (H2 : Rpower (1 + k * y) 3.5 <= 1 + k * im y).
  { apply (Rmult_le_compat_l k) in H; [|lra].
    rewrite <- Rmult_assoc, Rinv_r in H by lra. lra. }
  assert (0 <= k * y) by nra.
  apply (Rpower_le_base _ _ (2.0 / 7.0)) in H2; [|apply Rpower_pos|lra].
  rewrite Rpower_mult in H2. replace (3.5 * (2.0 / 7.0)) with 1 in H2 by lra.
  rewrite Rpower_1 in H2 by lra. lra.
Qed.

Lemma cas2mach_sq : forall v h, (c2tR v h 0 / aR h 0) ^ 2 =
  5 * (Rpower (1 + im (rho0 * v * v / (7 * p0)) * (p0 / pR h 0)) (2.0 / 7.0) - 1).
Proof.
  intros v h. pose proof (pR_pos h 0) as Hp. pose proof (rhoR_pos h 0) as Hr.
  pose proof (tR_pos h 0) as HT. pose proof p0_pos as P0. pose proof rho0_pos as R0.
  unfold c2tR, conv. rewrite qd_eq. fold (im (rho0 * v * v / (7 * p0))).
  set (I := im _). unfold vq, aR.
  assert (HI : 0 <= I).
  { unfold I. pose proof (qd_nonneg p0 rho0 v P0 R0) as Hq. rewrite qd_eq in Hq. fold (im (rho0 * v * v / (7 * p0))) in Hq.
    fold I in Hq. destruct (Rle_dec 0 I); auto. fold I. nra. }
  assert (HqI : 0 <= p0 * I) by nra.
  pose proof (vq_sqrt_arg (pR h 0) (rhoR h 0) (p0 * I) Hp Hr HqI) as Ha.
  assert (Hb : 0 < gamma * Rgas * tR h 0) by (uc; nra).
  unfold Rdiv at 1. rewrite Rpow_mult_distr. rewrite pow_inv.
  replace (sqrt (7.0 * pR h 0 / rhoR h 0 * (Rpower (1.0 + p0 * I / pR h 0) (2.0 / 7.0) - 1.0)) ^ 2)
    with (7.0 * pR h 0 / rhoR h 0 * (Rpower (1.0 + p0 * I / pR h 0) (2.0 / 7.0) - 1.0)).
  2:{ symmetry. simpl. rewrite Rmult_1_r. apply sqrt_sqrt; auto. }
  replace (sqrt (gamma * Rgas * tR h 0) ^ 2) with (gamma * Rgas * tR h 0).
  2:{ symmetry. simpl. rewrite Rmult_1_r. apply sqrt_sqrt; lra. }
  replace (1.0 + p0 * I / pR h 0) with (1 + I * (p0 / pR h 0)) by (qr; field; lra).
  set (W := Rpower _ _). unfold pR. uc. qr. field. split; lra.
Qed.

Definition rr : R := rho0 * 5 * a0 * a0 / (7 * p0).
Lemma rr_bound : 0.99999998 < rr < 0.99999999.
Proof. unfold rr; uc; split; interval. Qed.

(** impact ratios with the two sets of constants *)
Lemma im_ratio : forall y, 0 < y -> 0.9999999 * im y <= im (rr * y) <= im y.
Proof.
  intros y Hy. pose proof rr_bound as Hr. split.
  - pose proof (Rpower_incr_mono 3.5 rr 1 (rr * y) ltac:(lra) ltac:(lra) ltac:(nra)) as H.
    rewrite Rpower_one in H. replace (rr + rr * y) with (rr * (1 + y)) in H by ring.
    rewrite Rpower_mult_distr' in H by lra. fold (im (rr * y)) in H.
    assert (H3 : 0.9999999 <= Rpower rr 3.5).
    { apply Rle_trans with (Rpower 0.99999998 3.5); [clear; interval|apply Rpower_le_base; lra]. }
    pose proof (im_pos y Hy). unfold im in *. nra.
  - left. apply im_incr. split; nra.
Qed.

Lemma xover_close : forall v m, 0 < v -> 1e-4 <= m ->
  let H := xR v m 0 in 0 <= H <= 11000 ->
  Rabs (c2tR v H 0 / aR H 0 - m) <= 0.002 * m.
Proof.
  intros v m Hv Hm H HH.
  set (d := xd v m). assert (Hd : 0 < d) by (apply xd_pos; auto).
  pose proof cc_bound as Hcc. pose proof hexp_bound as Hhe.
  assert (Htau : tau H = Rpower d (- hexp)).
  { rewrite tau_low by lra. unfold H, xR. fold d. uc. qr. field. }
  set (N := im (0.2 * m ^ 2)).
  assert (Hmm : 0 < 0.2 * m ^ 2) by (simpl; nra).
  assert (HN : 0 < N) by (apply im_pos; auto).
  set (y := 0.2 * (v / a0) ^ 2). assert (Hy : 0 < y) by (apply xv_pos; auto).
  assert (HQ' : im y = d * N).
  { unfold d, xd. rewrite Rmax_left by lra. fold y. fold N. field. lra. }
  assert (Hx : rho0 * v * v / (7 * p0) = rr * y).
  { unfold rr, y. uc. qr. field. }
  assert (Hp : pR H 0 = p0 * (cc * Rpower d (- hexp * 5.256848030018761))).
  { rewrite pR0_low by lra. rewrite Htau, Rpower_mult. auto. }
  (* kappa *)
  set (e := - hexp * 5.256848030018761 - 1).
  set (k := im (rr * y) / im y * Rpower d (- e) / cc).
  assert (Hiy : 0 < im y) by (apply im_pos; auto).
  assert (Hk : im (rr * y) * (p0 / pR H 0) = k * N).
  { rewrite Hp. replace (- hexp * 5.256848030018761) with (e + 1) by (unfold e; ring).
    rewrite Rpower_plus, Rpower_1 by auto. unfold k.
    rewrite Rpower_Ropp. pose proof (Rpower_pos d e). pose proof p0_pos.
    replace (im (rr * y) / im y) with (im (rr * y) / (d * N)) by (rewrite HQ'; auto).
    field. lra. }
  assert (Hkb : 0.9999 <= k <= 1.001).
  { pose proof (im_ratio y Hy) as [Hr1 Hr2].
    assert (A : 0.9999999 <= im (rr * y) / im y <= 1).
    { split; apply Rmult_le_reg_r with (im y); auto; unfold Rdiv; rewrite Rmult_assoc, Rinv_l by lra; lra. }
    assert (B : 1 <= Rpower d (- e) <= 1.0004).
    { assert (Ht : 0.75 <= Rpower d (- hexp) <= 1).
      { rewrite <- Htau. rewrite tau_low by lra. lra. }
      replace (Rpower d (- e)) with (Rpower (Rpower d (- hexp)) (e / hexp)).
      2:{ rewrite Rpower_mult. f_equal. field. lra. }
      assert (E : -0.00098 < e / hexp < 0) by (unfold e, hexp; uc; split; interval).
      split.
      - rewrite <- (Rinv_involutive (Rpower _ _)) by (pose proof (Rpower_pos (Rpower d (- hexp)) (e / hexp)); lra).
        rewrite <- Rpower_Ropp. rewrite <- Rinv_1. apply Rinv_le_contravar; [apply Rpower_pos|].
        apply Rpower_le_1; lra.
      - apply Rle_trans with (Rpower 0.75 (-0.00098)); [|clear; interval].
        apply Rle_trans with (Rpower 0.75 (e / hexp)).
        + replace (e / hexp) with (- (- (e / hexp))) by ring.
          rewrite !(Rpower_Ropp _ (- (e / hexp))). apply Rinv_le_contravar; [apply Rpower_pos|].
          apply Rpower_le_base; lra.
        + left. apply Rpower_lt_exp_lt1; lra. }
    unfold k. set (a := im (rr * y) / im y) in *. set (bb := Rpower d (- e)) in *.
    assert (C : 1 <= / cc <= 1.0000001).
    { split.
      - rewrite <- Rinv_1. apply Rinv_le_contravar; lra.
      - apply Rmult_le_reg_r with cc; [lra|]. rewrite Rinv_l by lra. lra. }
    unfold Rdiv. set (ic := / cc) in *.
    assert (0.9999 <= a * bb <= 1.0004) by (split; nra). split; nra. }
  pose proof (cas2mach_sq v H) as Hsq. rewrite Hx, Hk in Hsq.
  set (M := c2tR v H 0 / aR H 0) in *.
  assert (HM : 0 <= M).
  { unfold M. apply Rmult_le_pos; [apply c2tR_nonneg|]. left; apply Rinv_0_lt_compat, aR_pos. }
  assert (Hub : M ^ 2 <= 1.001 * m ^ 2).
  { rewrite Hsq. pose proof (root_chord_hi 1.001 (0.2 * m ^ 2) ltac:(lra) ltac:(lra)) as Hh. fold N in Hh.
    assert (Rpower (1 + k * N) (2.0 / 7.0) <= Rpower (1 + 1.001 * N) (2.0 / 7.0)) by (apply Rpower_le_base; nra).
    lra. }
  assert (Hlb : 0.9999 * m ^ 2 <= M ^ 2).
  { rewrite Hsq. pose proof (root_chord_lo 0.9999 (0.2 * m ^ 2) ltac:(lra) ltac:(lra)) as Hh. fold N in Hh.
    assert (Rpower (1 + 0.9999 * N) (2.0 / 7.0) <= Rpower (1 + k * N) (2.0 / 7.0)) by (apply Rpower_le_base; nra).
    lra. }
  apply Rabs_le. simpl in Hub, Hlb. split.
  - destruct (Rle_dec (-(0.002 * m)) (M - m)) as [|Hn]; auto. exfalso.
    assert (M < 0.998 * m) by lra. nra.
  - destruct (Rle_dec (M - m) (0.002 * m)) as [|Hn]; auto. exfalso.
    assert (1.002 * m < M) by lra. nra.
Qed.
