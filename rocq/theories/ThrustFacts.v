(** Lemmas about the model of openap/thrust.py. *)
From Coq Require Import Reals List Bool Lra Lia Psatz.
From Interval Require Import Tactic.
From Verif Require Import Num NumFacts Aero AeroFacts AeroFacts2 Thrust Cts.
Open Scope R_scope.

(** ** Take-off *)
Definition polyA (p : R) : R := -0.4327 * p ^ 2 + 1.3855 * p + 0.0472.
Definition polyZ (p : R) : R := 0.9106 * p ^ 3 - 1.7736 * p ^ 2 + 1.8697 * p.
Definition polyX (p : R) : R := 0.1377 * p ^ 3 - 0.4374 * p ^ 2 + 1.3003 * p.
Definition coefa (bpr : R) : R := 0.377 * (1 + bpr) / sqrt ((1 + 0.82 * bpr) * (0.0606 * bpr + 0.6337)).
Definition coefb (bpr : R) : R := 0.23 + 0.19 * sqrt bpr.
Definition dpR (alt dT : R) : R := pR (alt * ft) dT / p0.
Definition toR (e : thrust_par) (tas alt dT : R) : R :=
  (polyA (dpR alt dT) - coefa (eng_bpr e) * polyZ (dpR alt dT) * (tas * kts / aR 0 dT)
   + coefb (eng_bpr e) * polyX (dpR alt dT) * (tas * kts / aR 0 dT) ^ 2)
  * eng_max_thrust e * eng_number e.

Lemma coefa_sqrt_pos : forall bpr, 0 <= bpr -> 0 < sqrt ((1 + 0.82 * bpr) * (0.0606 * bpr + 0.6337)).
Proof. intros. apply sqrt_lt_R0. apply Rmult_lt_0_compat; lra. Qed.

Lemma takeoff_NP : forall e tas alt dT, 0 <= eng_bpr e ->
  takeoff_thrust NP e (Fin tas) (Fin alt) (Fin dT) = Fin (toR e tas alt dT).
Proof.
  intros e tas alt dT Hb. unfold takeoff_thrust. cbn [mul NP cst emul].
  rewrite tas2mach_NP, pressure_NP. cbn [div NP add eadd emul bsqrt].
  rewrite ediv_fin by (pose proof p0_pos; lra). fold (dpR alt dT).
  pose proof (coefa_sqrt_pos _ Hb) as Hs.
  rewrite (esqrt_fin ((1 + _) * _)) by (apply Rmult_le_pos; lra).
  rewrite (esqrt_fin (eng_bpr e)) by auto.
  rewrite ediv_fin by lra. reflexivity.
Qed.

(** ** Climb *)
Definition vrefR (e : thrust_par) (dT : R) : R :=
  t2cR (cruise_mach e * aR (cruise_alt e * ft) dT) (cruise_alt e * ft) dT.
Definition prR (e : thrust_par) (h dT : R) : R := pR h dT / pR (cruise_alt e * ft) dT.
Definition xrR (e : thrust_par) (v h dT : R) : R := t2cR v h dT / vrefR e dT.
Definition mrR (e : thrust_par) (v h dT : R) : R := v / aR h dT / cruise_mach e.
Definition seg3R (e : thrust_par) (v h dT : R) : R :=
  (-0.4204 * mrR e v h dT + 1.0824) * ln (prR e h dT) + Rpower (mrR e v h dT) (-0.11).
Definition expo (e : thrust_par) (v h r dT : R) : R := -0.355 * xrR e v h dT + (2.667e-05 * r + 0.8633).
Definition seg2R (e : thrust_par) (v h r dT : R) : R :=
  Rpower (xrR e v h dT) (-0.1) * Rpower (prR e h dT) (expo e v h r dT).
Definition mR (e : thrust_par) (v h r dT : R) : R :=
  -1.2043e-1 * xrR e v h dT - 8.8889e-9 * r ^ 2 + 2.4444e-5 * r + 4.7379e-1.
Definition FcrR (e : thrust_par) : R := eng_cruise_thrust e * eng_number e.
Definition seg1R (e : thrust_par) (v h r dT : R) : R :=
  mR e v h r dT * prR e h dT +
  (FcrR e * Rpower (xrR e v h dT) (-0.1) * Rpower (prR e (10000 * ft) dT) (expo e v h r dT) / FcrR e
   - mR e v h r dT * prR e (10000 * ft) dT).
Definition climbR (e : thrust_par) (tas alt roc dT : R) : R :=
  let v := Rmax 10 tas * kts in
  let h := alt * ft in
  let r := Rabs roc in
  (if Rltb 30000 alt then seg3R e v h dT
   else if Rltb 10000 alt then seg2R e v h r dT else seg1R e v h r dT) * FcrR e.

Lemma vrefR_pos : forall e dT, 0 < cruise_mach e -> 0 < vrefR e dT.
Proof.
  intros. unfold vrefR. rewrite <- (t2cR_0 (cruise_alt e * ft) dT). apply t2cR_incr.
  pose proof (aR_pos (cruise_alt e * ft) dT). split; [lra|]. nra.
Qed.
Lemma floor_pos : forall tas, 5 < Rmax 10 tas * kts.
Proof. intros. pose proof (Rmax_l 10 tas). uc. nra. Qed.
Lemma xrR_pos : forall e v h dT, 0 < cruise_mach e -> 0 < v -> 0 < xrR e v h dT.
Proof.
  intros. unfold xrR. apply Rdiv_lt_0_compat; [|apply vrefR_pos; auto].
  rewrite <- (t2cR_0 h dT). apply t2cR_incr. lra.
Qed.
Lemma prR_pos : forall e h dT, 0 < prR e h dT.
Proof. intros. unfold prR. apply Rdiv_lt_0_compat; apply pR_pos. Qed.
Lemma mrR_pos : forall e v h dT, 0 < cruise_mach e -> 0 < v -> 0 < mrR e v h dT.
Proof.
  intros. unfold mrR. pose proof (aR_pos h dT). repeat apply Rdiv_lt_0_compat; auto.
Qed.

Lemma climb_NP : forall e tas alt roc dT, 0 < cruise_mach e -> eng_cruise_thrust e * eng_number e <> 0 ->
  climb_thrust NP e (Fin tas) (Fin alt) (Fin roc) (Fin dT) = Fin (climbR e tas alt roc dT).
Proof.
  intros e tas alt roc dT Hm HF. unfold climb_thrust. cbn [mul NP cst emul maximum emax babs eabs].
  rewrite tas2mach_NP, tas2cas_NP, !pressure_NP, mach2cas_NP. fold (vrefR e dT).
  pose proof (floor_pos tas) as Hv. set (v := Rmax 10 tas * kts) in *.
  pose proof (vrefR_pos e dT Hm) as Hvr. pose proof (pR_pos (cruise_alt e * ft) dT) as Hpc.
  cbn [div NP power blog gt where_].
  rewrite (ediv_fin _ (cruise_mach e)) by lra. rewrite (ediv_fin _ (vrefR e dT)) by lra.
  rewrite !(ediv_fin _ (pR (cruise_alt e * ft) dT)) by lra.
  fold (mrR e v (alt * ft) dT). fold (xrR e v (alt * ft) dT). fold (prR e (alt * ft) dT).
  fold (prR e (10000 * ft) dT).
  rewrite elog_fin by apply prR_pos.
  rewrite (epower_fin (mrR _ _ _ _)) by (apply mrR_pos; lra).
  rewrite (epower_fin (xrR _ _ _ _)) by (apply xrR_pos; lra).
  unfold dfunc, nfunc, mfunc. cbn [mul NP cst emul add eadd sub esub powi epowi].
  rewrite !(epower_fin (prR _ _ _)) by apply prR_pos. cbn [emul].
  rewrite ediv_fin by auto. cbn [esub eadd emul egt].
  unfold climbR. fold v. unfold ewhere.
  destruct (Rltb 30000 alt), (Rltb 10000 alt); reflexivity.
Qed.

Lemma seg12_10000 : forall e v r dT, FcrR e <> 0 ->
  seg1R e v (10000 * ft) r dT = seg2R e v (10000 * ft) r dT.
Proof. intros. unfold seg1R, seg2R. field. auto. Qed.

(** continuity of the three branches in altitude *)
Section Cont.
Context (e : thrust_par) (v r dT : R) (Hm : 0 < cruise_mach e) (Hv : 0 < v).
Lemma cts_h : forall alt, cts (fun y => y * ft) alt.
Proof. intros. apply cts_mult; [apply cts_id|apply cts_const]. Qed.
Lemma cts_pr : forall h, cts (fun y => prR e y dT) h.
Proof. intros. unfold prR. apply cts_div; [apply cts_pR|apply cts_const|]. pose proof (pR_pos (cruise_alt e * ft) dT). lra. Qed.
Lemma cts_xr : forall h, cts (fun y => xrR e v y dT) h.
Proof. intros. unfold xrR. apply cts_div; [apply cts_t2cR|apply cts_const|]. pose proof (vrefR_pos e dT Hm). lra. Qed.
Lemma cts_mr : forall h, cts (fun y => mrR e v y dT) h.
Proof.
  intros. unfold mrR. pose proof (aR_pos h dT). apply cts_div; [|apply cts_const|lra].
  apply cts_div; [apply cts_const|apply cts_aR|lra].
Qed.
Lemma cts_expo : forall h, cts (fun y => expo e v y r dT) h.
Proof.
  intros. unfold expo. apply cts_plus; [|apply cts_const]. apply cts_mult; [apply cts_const|apply cts_xr].
Qed.
Lemma cts_seg3 : forall h, cts (fun y => seg3R e v y dT) h.
Proof.
  intros. unfold seg3R. apply cts_plus.
  - apply cts_mult.
    + apply cts_plus; [|apply cts_const]. apply cts_mult; [apply cts_const|apply cts_mr].
    + apply cts_ln; [apply cts_pr|apply prR_pos].
  - apply cts_Rpower; [apply cts_mr|apply cts_const|apply mrR_pos; auto].
Qed.
Lemma cts_seg2 : forall h, cts (fun y => seg2R e v y r dT) h.
Proof.
  intros. unfold seg2R. apply cts_mult.
  - apply cts_Rpower; [apply cts_xr|apply cts_const|apply xrR_pos; auto].
  - apply cts_Rpower; [apply cts_pr|apply cts_expo|apply prR_pos].
Qed.
Lemma cts_mR : forall h, cts (fun y => mR e v y r dT) h.
Proof.
  intros. unfold mR. apply cts_plus; [|apply cts_const]. apply cts_plus; [|apply cts_const].
  apply cts_minus; [|apply cts_const]. apply cts_mult; [apply cts_const|apply cts_xr].
Qed.
Lemma cts_seg1 : forall h, FcrR e <> 0 -> cts (fun y => seg1R e v y r dT) h.
Proof.
  intros. unfold seg1R. apply cts_plus.
  - apply cts_mult; [apply cts_mR|apply cts_pr].
  - apply cts_minus.
    + apply cts_div; [|apply cts_const|auto]. apply cts_mult.
      * apply cts_mult; [apply cts_const|]. apply cts_Rpower; [apply cts_xr|apply cts_const|apply xrR_pos; auto].
      * apply cts_Rpower; [apply cts_const|apply cts_expo|apply prR_pos].
    + apply cts_mult; [apply cts_mR|apply cts_const].
Qed.
End Cont.

(** gluing two continuous functions at a point where they agree *)
Lemma cts_glue : forall f g x0 x, cts f x -> cts g x -> f x0 = g x0 ->
  cts (fun y => if Rltb x0 y then f y else g y) x.
Proof.
  intros f g x0 x Hf Hg E eps He.
  destruct (Rtotal_order x x0) as [L|[L|L]].
  - destruct (Hg eps He) as [d [Hd K]]. exists (Rmin d (x0 - x)).
    split; [apply Rmin_Rgt_r; split; [auto|lra]|].
    intros y [Hy1 Hy2]. cbn in *. unfold R_dist in *.
    pose proof (Rmin_l d (x0 - x)). pose proof (Rmin_r d (x0 - x)).
    assert (Rabs (y - x) < x0 - x) by lra. apply Rabs_def2 in H1.
    rewrite !Rltb_false by lra. apply K. split; [auto|]. cbn. unfold R_dist. lra.
  - subst x. destruct (Hg eps He) as [d [Hd K]], (Hf eps He) as [d' [Hd' K']].
    exists (Rmin d d'). split; [apply Rmin_Rgt_r; auto|].
    intros y [Hy1 Hy2]. cbn in *. unfold R_dist in *.
    pose proof (Rmin_l d d'). pose proof (Rmin_r d d').
    rewrite (Rltb_false x0 x0) by lra. destruct (Rltb_spec x0 y).
    + rewrite <- E. apply K'. split; [auto|]. cbn. unfold R_dist. lra.
    + apply K. split; [auto|]. cbn. unfold R_dist. lra.
  - destruct (Hf eps He) as [d [Hd K]]. exists (Rmin d (x - x0)).
    split; [apply Rmin_Rgt_r; split; [auto|lra]|].
    intros y [Hy1 Hy2]. cbn in *. unfold R_dist in *.
    pose proof (Rmin_l d (x - x0)). pose proof (Rmin_r d (x - x0)).
    assert (Rabs (y - x) < x - x0) by lra. apply Rabs_def2 in H1.
    rewrite !Rltb_true by lra. apply K. split; [auto|]. cbn. unfold R_dist. lra.
Qed.

Lemma climbR_cts : forall e tas roc dT alt, 0 < cruise_mach e -> FcrR e <> 0 -> alt <> 30000 ->
  cts (fun y => climbR e tas y roc dT) alt.
Proof.
  intros e tas roc dT alt Hm HF Ha. pose proof (floor_pos tas) as Hv.
  set (v := Rmax 10 tas * kts) in *. assert (Hv' : 0 < v) by lra.
  assert (G : cts (fun y => (if Rltb 10000 y then seg2R e v (y * ft) (Rabs roc) dT
                             else seg1R e v (y * ft) (Rabs roc) dT) * FcrR e) alt).
  { apply cts_mult; [|apply cts_const].
    apply (cts_glue (fun y => seg2R e v (y * ft) (Rabs roc) dT) (fun y => seg1R e v (y * ft) (Rabs roc) dT)).
    - apply (cts_comp (fun h => seg2R e v h (Rabs roc) dT)); [apply cts_h|apply cts_seg2; auto].
    - apply (cts_comp (fun h => seg1R e v h (Rabs roc) dT)); [apply cts_h|apply cts_seg1; auto].
    - symmetry. apply seg12_10000; auto. }
  assert (H3 : cts (fun y => seg3R e v (y * ft) dT * FcrR e) alt).
  { apply cts_mult; [|apply cts_const]. apply (cts_comp (fun h => seg3R e v h dT)); [apply cts_h|apply cts_seg3; auto]. }
  destruct (Rtotal_order alt 30000) as [L|[L|L]]; [|lra|].
  - intros eps He. destruct (G eps He) as [d [Hd K]]. exists (Rmin d (30000 - alt)).
    split; [apply Rmin_Rgt_r; split; [auto|lra]|].
    intros y [Hy1 Hy2]. cbn in Hy2. unfold R_dist in Hy2.
    pose proof (Rmin_l d (30000 - alt)). pose proof (Rmin_r d (30000 - alt)).
    assert (Hyy : Rabs (y - alt) < 30000 - alt) by lra. apply Rabs_def2 in Hyy.
    unfold climbR. rewrite !(Rltb_false 30000) by lra. apply K. split; [auto|]. cbn. unfold R_dist. lra.
  - intros eps He. destruct (H3 eps He) as [d [Hd K]]. exists (Rmin d (alt - 30000)).
    split; [apply Rmin_Rgt_r; split; [auto|lra]|].
    intros y [Hy1 Hy2]. cbn in Hy2. unfold R_dist in Hy2.
    pose proof (Rmin_l d (alt - 30000)). pose proof (Rmin_r d (alt - 30000)).
    assert (Hyy : Rabs (y - alt) < alt - 30000) by lra. apply Rabs_def2 in Hyy.
    unfold climbR. rewrite !(Rltb_true 30000) by lra. apply K. split; [auto|]. cbn. unfold R_dist. lra.
Qed.

(** ** Numbers *)
Lemma dpR_0 : dpR 0 0 = cc.
Proof.
  unfold dpR, cc, pR. f_equal. rewrite Rmult_0_l. unfold rhoR. rewrite tR_low by lra. rewrite clipT_0.
  replace ((T0 + 0 + beta * 0) / (T0 + 0)) with 1 by (uc; qr; field).
  rewrite Rpower_one, (Rmax_left 0.0) by lra.
  replace (- 0.0 / 6341.552161) with 0 by (qr; field). rewrite exp_0. ring.
Qed.

Lemma dpR_pos : forall alt dT, 0 < dpR alt dT.
Proof. intros. unfold dpR. apply Rdiv_lt_0_compat; [apply pR_pos|apply p0_pos]. Qed.

Lemma dpR_decr : forall a1 a2 dT, a1 < a2 -> dpR a2 dT < dpR a1 dT.
Proof.
  intros. unfold dpR. apply Rmult_lt_compat_r; [apply Rinv_0_lt_compat, p0_pos|].
  apply pR_decr. uc. lra.
Qed.

(** upper bound of the pressure ratio down to 2000 ft below sea level *)
Lemma dpR_ub : forall alt dT, -2000 <= alt -> dpR alt dT <= 1.5.
Proof.
  intros alt dT H.
  assert (L : dpR (-2000) dT <= 1.5).
  { unfold dpR, pR, rhoR. rewrite tR_low by (uc; lra). pose proof (clipT_range dT) as C.
    set (c := clipT dT) in *. clearbody c. rewrite (Rmax_left 0.0) by (uc; lra).
    unfold Rpower. uc. interval with (i_bisect c). }
  destruct H as [H|H]; [|subst; auto]. pose proof (dpR_decr (-2000) alt dT H). lra.
Qed.

Lemma polyA_incr : forall p q, 0 < p < q -> q <= 1.5 -> polyA p < polyA q.
Proof. intros. unfold polyA. nra. Qed.
Lemma polyZ_pos : forall p, 0 < p -> 0 < polyZ p.
Proof. intros. unfold polyZ. replace (0.9106 * p ^ 3 - 1.7736 * p ^ 2 + 1.8697 * p) with (p * (0.9106 * p ^ 2 - 1.7736 * p + 1.8697)) by ring.
  apply Rmult_lt_0_compat; auto. pose proof (Rle_0_sqr (p - 0.97)). unfold Rsqr in *. nra. Qed.
Lemma polyX_pos : forall p, 0 < p -> 0 < polyX p.
Proof. intros. unfold polyX. replace (0.1377 * p ^ 3 - 0.4374 * p ^ 2 + 1.3003 * p) with (p * (0.1377 * p ^ 2 - 0.4374 * p + 1.3003)) by ring.
  apply Rmult_lt_0_compat; auto. pose proof (Rle_0_sqr (p - 1.59)). unfold Rsqr in *. nra. Qed.
Lemma polyZ_ge_X : forall p, 0 < p -> 0.9 * polyX p <= polyZ p.
Proof.
  intros. unfold polyX, polyZ.
  assert (0 <= p * (0.9106 * p ^ 2 - 1.7736 * p + 1.8697 - 0.9 * (0.1377 * p ^ 2 - 0.4374 * p + 1.3003))); [|lra].
  apply Rmult_le_pos; [lra|]. pose proof (Rle_0_sqr (p - 0.88)). unfold Rsqr in *. nra.
Qed.
