(** Lemmas about the descent and cruise loops of openap/gen.py. *)
From Coq Require Import Reals List Bool ZArith Lra Lia Psatz.
From Interval Require Import Tactic.
From Verif Require Import Num NumFacts Aero AeroFacts AeroFacts2 AeroFacts3 AeroFacts4 Fuel Phase Gen GenFacts.
Import ListNotations.
Open Scope R_scope.

(** ** Sign of the crossover altitude *)
Lemma hexp_neg : hexp < 0. Proof. unfold hexp, beta, Rgas, g0. lra. Qed.
Lemma xR_nonneg : forall v m, 0 < v -> v <= m * a0 -> 0 <= xR v m 0.
Proof.
  intros v m Hv Hm. unfold xR.
  assert (A : 0 < a0) by (unfold a0; lra).
  assert (V : 0 < v / a0) by (apply Rdiv_lt_0_compat; lra).
  assert (Hm' : v / a0 <= Rmax m 1e-4).
  { apply Rle_trans with m; [|apply Rmax_l]. apply Rmult_le_reg_r with a0; auto.
    replace (v / a0 * a0) with v by (field; lra). auto. }
  assert (I1 : 0 < im (0.2 * (v / a0) ^ 2)).
  { unfold im. pose proof (Rpower_gt_1 (1 + 0.2 * (v / a0) ^ 2) 3.5 ltac:(nra) ltac:(lra)). lra. }
  assert (I2 : im (0.2 * (v / a0) ^ 2) <= im (0.2 * (Rmax m 1e-4) ^ 2)).
  { unfold im. apply Rplus_le_compat_r. apply Rpower_le_base; nra. }
  assert (D : 0 < xd v m <= 1).
  { unfold xd. split; [apply Rdiv_lt_0_compat; lra|]. apply Rmult_le_reg_r with (im (0.2 * (Rmax m 1e-4) ^ 2)); [lra|].
    unfold Rdiv. rewrite Rmult_assoc, Rinv_l by lra. lra. }
  assert (P : Rpower (xd v m) (- hexp) <= 1) by (apply Rpower_le_1; [auto|pose proof hexp_neg; lra]).
  assert (B : (T0 + 0) / beta < 0) by (unfold T0, beta; lra). nra.
Qed.
Lemma xR_negative : forall v m, 0.0001 <= m -> m * a0 < v -> xR v m 0 < 0.
Proof.
  intros v m Hm0 Hm. unfold xR.
  assert (A : 0 < a0) by (unfold a0; lra).
  assert (V : m < v / a0).
  { apply Rmult_lt_reg_r with a0; auto. replace (v / a0 * a0) with v by (field; lra). auto. }
  assert (I0 : 0 < im (0.2 * (Rmax m 1e-4) ^ 2)).
  { unfold im. rewrite Rmax_left by lra. pose proof (Rpower_gt_1 (1 + 0.2 * m ^ 2) 3.5 ltac:(nra) ltac:(lra)). lra. }
  assert (I2 : im (0.2 * (Rmax m 1e-4) ^ 2) < im (0.2 * (v / a0) ^ 2)).
  { unfold im. rewrite Rmax_left by lra. apply Rplus_lt_compat_r. apply Rpower_lt_base; nra. }
  assert (D : 1 < xd v m).
  { unfold xd. apply Rmult_lt_reg_r with (im (0.2 * (Rmax m 1e-4) ^ 2)); [lra|].
    unfold Rdiv. rewrite Rmult_assoc, Rinv_l by lra. lra. }
  assert (P : 1 < Rpower (xd v m) (- hexp)) by (apply Rpower_gt_1; [auto|pose proof hexp_neg; lra]).
  assert (B : (T0 + 0) / beta < 0) by (unfold T0, beta; lra). nra.
Qed.
Lemma aR_ge : forall h, 295 <= aR h 0.
Proof.
  intros h. unfold aR. pose proof (tR_lb h 0). rewrite clipT_0 in H.
  apply Rle_trans with (sqrt (295 * 295)); [rewrite sqrt_square; lra|]. apply sqrt_le_1_alt.
  unfold gamma, Rgas. nra.
Qed.
Lemma cas_le_c2t : forall v h, 1 <= h -> 0 <= v -> v <= c2tR v h 0.
Proof.
  intros v h Hh Hv. pose proof (cas_le_tas (c2tR v h 0) h Hh (c2tR_nonneg _ _ _)) as H.
  rewrite t2cR_c2tR, Rabs_right in H by lra. auto.
Qed.
Lemma t2cR_abs : forall v h, t2cR (Rabs v) h 0 = t2cR v h 0.
Proof. intros. unfold t2cR. apply conv_abs. Qed.

Record rds : Type := mkRds { y_t : R; y_h : R; y_s : R; y_v : R; y_vs : R; y_seg : option seg }.
Definition finD (x : rds) : dstate :=
  mkDs (Fin (y_t x)) (Fin (y_h x)) (Fin (y_s x)) (Fin (y_v x)) (Fin (y_vs x)) (y_seg x).

Section DescentR.
Context (p : dparams).
Notation dt := (e_dt p).
Definition evcasR : R := e_cas p * kts.
Definition ehcrR : R := e_alt p * ft.
Definition ehmachR : R := xR evcasR (e_mach p) 0.
Definition decelR (v h : R) : R :=
  if Rltb (t2cR (v + -0.2 * dt) h 0) (e_vapp p) then c2tR (e_vapp p) h 0 else v + -0.2 * dt.
Definition descent_stepR (x : rds) : rds * bool :=
  let t := y_t x + dt in
  let s := y_s x + y_v x * dt in
  let h := y_h x + y_vs x * dt in
  let v := y_v x in
  if Rltb t 60 && e_withcr p then (mkRds t h s (e_mach p * aR h 0) 0 (Some sCR), false)
  else if Rltb ehmachR h then (mkRds t h s (e_mach p * aR h 0) (e_vsmach p) (Some sMACH), false)
  else if Rltb (e_hcas p) h then (mkRds t h s (c2tR evcasR h 0) (e_vscas p) (Some sCAS), false)
  else if Rltb (1000 * ft) h then (mkRds t h s (decelR v h) (e_vspost p) (Some sPOST), false)
  else if Rltb 0 h then (mkRds t h s (e_vapp p) (e_vsfa p) (Some sFA), false)
  else (mkRds t 0 s (v + e_alnd p * dt) 0 (Some sLD), Rleb (v + e_alnd p * dt) 0).

Hypothesis Hcas : 0 < e_cas p.
Lemma evcas_pos : 0 < evcasR. Proof. apply Rmult_lt_0_compat; auto. apply kts_pos. Qed.
Lemma e_vcas_fin : e_vcas p = Fin evcasR. Proof. reflexivity. Qed.
Lemma e_hmach_fin : e_hmach p = Fin ehmachR.
Proof. unfold e_hmach. rewrite e_vcas_fin. apply crossover_NP, evcas_pos. Qed.
Lemma decel_fin : forall v h, decel_to_app p (Fin v) (Fin h) = Fin (decelR v h).
Proof.
  intros. unfold decel_to_app. cbn [eadd emul]. rewrite tas2cas_NP, eltb_fin, cas2tas_NP.
  unfold decelR. destruct (Rltb _ _); auto.
Qed.
Lemma descent_step_fin : forall x, descent_step p (finD x) = (finD (fst (descent_stepR x)), snd (descent_stepR x)).
Proof.
  intros x. unfold descent_step, descent_stepR, finD, egtb. cbn [ds_t ds_h ds_s ds_v ds_vs ds_seg eadd emul].
  rewrite e_hmach_fin, !mach2tas_NP, !decel_fin, e_vcas_fin, !cas2tas_NP, !eltb_fin, !eleb_fin.
  destruct (Rltb (y_t x + dt) 60 && e_withcr p); [reflexivity|].
  destruct (Rltb ehmachR (y_h x + y_vs x * dt)); [reflexivity|].
  destruct (Rltb (e_hcas p) (y_h x + y_vs x * dt)); [reflexivity|].
  destruct (Rltb (1000 * ft) (y_h x + y_vs x * dt)); [reflexivity|].
  destruct (Rltb 0 (y_h x + y_vs x * dt)); reflexivity.
Qed.
Definition y0 : rds := mkRds 0 ehcrR 0 (e_mach p * aR ehcrR 0) 0 None.
Lemma descent_runR : forall n, descent p n = run (fun x => descent_row (finD x)) descent_stepR n y0.
Proof.
  intros. unfold descent. replace (descent_init p) with (finD y0).
  - apply run_map. apply descent_step_fin.
  - unfold descent_init, finD, y0. cbn [y_t y_h y_s y_v y_vs y_seg]. change (e_hcr p) with (Fin ehcrR).
    rewrite mach2tas_NP. reflexivity.
Qed.

Definition deff (x : rds) : R := y_h x + y_vs x * dt.
Hypothesis Hdt : 0 < dt.
Hypothesis Hal : e_alnd p < 0.
Hypothesis Hm : 0 <= e_mach p.
Hypothesis Hvs : e_vsmach p < 0 /\ e_vscas p < 0 /\ e_vspost p < 0 /\ e_vsfa p < 0.
Hypothesis Hhm : 0 <= ehmachR.
Hypothesis Hhc : 0 <= e_hcas p.
Hypothesis Hcr : 0 <= ehcrR.
Definition dmin : R := Rmin (Rmin (- e_vsmach p) (- e_vscas p)) (Rmin (- e_vspost p) (- e_vsfa p)).
Lemma dmin_pos : 0 < dmin.
Proof. unfold dmin. repeat apply Rmin_glb_lt; lra. Qed.
Lemma dmin_bounds : e_vsmach p <= - dmin /\ e_vscas p <= - dmin /\ e_vspost p <= - dmin /\ e_vsfa p <= - dmin.
Proof.
  unfold dmin.
  pose proof (Rmin_l (- e_vsmach p) (- e_vscas p)). pose proof (Rmin_r (- e_vsmach p) (- e_vscas p)).
  pose proof (Rmin_l (- e_vspost p) (- e_vsfa p)). pose proof (Rmin_r (- e_vspost p) (- e_vsfa p)).
  pose proof (Rmin_l (Rmin (- e_vsmach p) (- e_vscas p)) (Rmin (- e_vspost p) (- e_vsfa p))).
  pose proof (Rmin_r (Rmin (- e_vsmach p) (- e_vscas p)) (Rmin (- e_vspost p) (- e_vsfa p))). lra.
Qed.

Lemma dstep_cases : forall x, let x' := fst (descent_stepR x) in let stop := snd (descent_stepR x) in
  y_t x' = y_t x + dt /\ y_s x' = y_s x + y_v x * dt /\
  ((y_t x' < 60 /\ e_withcr p = true /\ y_seg x' = Some sCR /\ y_h x' = deff x /\ y_vs x' = 0 /\ y_v x' = e_mach p * aR (deff x) 0 /\ stop = false) \/
   ((60 <= y_t x' \/ e_withcr p = false) /\ 0 < deff x /\ y_h x' = deff x /\ y_vs x' <= - dmin /\ stop = false /\
     ((y_seg x' = Some sMACH /\ ehmachR < deff x /\ y_vs x' = e_vsmach p /\ y_v x' = e_mach p * aR (deff x) 0) \/
      (y_seg x' = Some sCAS /\ e_hcas p < deff x <= ehmachR /\ y_vs x' = e_vscas p /\ y_v x' = c2tR evcasR (deff x) 0) \/
      (y_seg x' = Some sPOST /\ 1000 * ft < deff x /\ deff x <= e_hcas p /\ deff x <= ehmachR /\ y_vs x' = e_vspost p /\ y_v x' = decelR (y_v x) (deff x)) \/
      (y_seg x' = Some sFA /\ 0 < deff x <= 1000 * ft /\ deff x <= e_hcas p /\ deff x <= ehmachR /\ y_vs x' = e_vsfa p /\ y_v x' = e_vapp p))) \/
   ((60 <= y_t x' \/ e_withcr p = false) /\ deff x <= 0 /\ y_seg x' = Some sLD /\ y_h x' = 0 /\ y_vs x' = 0 /\
     y_v x' = y_v x + e_alnd p * dt /\ stop = Rleb (y_v x') 0)).
Proof.
  intros x. unfold descent_stepR. fold (deff x). pose proof dmin_bounds as V. pose proof ft_pos as F.
  destruct (Rltb (y_t x + dt) 60 && e_withcr p) eqn:E; cbn -[ft].
  { apply andb_prop in E. destruct E as [E1 E2]. destruct (Rltb_spec (y_t x + dt) 60); [|discriminate].
    repeat (split; [reflexivity|]). left. repeat split; auto. }
  assert (E' : 60 <= y_t x + dt \/ e_withcr p = false).
  { destruct (Rltb_spec (y_t x + dt) 60); [|left; lra]. right. cbn in E. auto. }
  destruct (Rltb_spec ehmachR (deff x)) as [L|L]; cbn -[ft].
  { repeat (split; [reflexivity|]). right; left. split; [auto|]. split; [lra|]. split; [auto|]. split; [lra|]. split; [auto|].
    left. repeat split; auto. }
  destruct (Rltb_spec (e_hcas p) (deff x)) as [L1|L1]; cbn -[ft].
  { repeat (split; [reflexivity|]). right; left. split; [auto|]. split; [lra|]. split; [auto|]. split; [lra|]. split; [auto|].
    right; left. repeat split; auto; lra. }
  destruct (Rltb_spec (1000 * ft) (deff x)) as [L2|L2]; cbn -[ft].
  { repeat (split; [reflexivity|]). right; left. split; [auto|]. split; [nra|]. split; [auto|]. split; [lra|]. split; [auto|].
    right; right; left. repeat split; auto; lra. }
  destruct (Rltb_spec 0 (deff x)) as [L3|L3]; cbn -[ft].
  { repeat (split; [reflexivity|]). right; left. split; [auto|]. split; [lra|]. split; [auto|]. split; [lra|]. split; [auto|].
    right; right; right. repeat split; auto; lra. }
  repeat (split; [reflexivity|]). right; right. repeat split; auto; lra.
Qed.

Definition dinv (x : rds) : Prop :=
  0 <= y_h x /\ y_vs x <= 0 /\ 0 <= y_t x /\ (e_withcr p = true -> y_t x < 60 -> y_vs x = 0).
Lemma dinv_y0 : dinv y0. Proof. unfold dinv, y0; cbn; repeat split; auto; lra. Qed.
Lemma dinv_step : forall x, dinv x -> dinv (fst (descent_stepR x)).
Proof.
  intros x (I1 & I2 & I3 & I4). destruct (dstep_cases x) as (T & Ss & C). pose proof dmin_pos.
  unfold dinv.
  destruct C as [(C1 & C2 & _ & C3 & C4 & _)|[(C1 & C2 & C3 & C4 & _)|(C1 & C2 & _ & C3 & C4 & _)]].
  - rewrite C3, C4, T. rewrite T in C1. unfold deff. rewrite I4 by (auto; lra). repeat split; auto; lra.
  - rewrite C3, T. rewrite T in C1. repeat split; auto; try lra. intros W Ht. destruct C1; [lra|congruence].
  - rewrite C3, C4, T. repeat split; auto; lra.
Qed.
Lemma dinv_it : forall n, dinv (it descent_stepR n y0).
Proof. induction n; [apply dinv_y0|]. cbn. apply dinv_step; auto. Qed.
Lemma dheight : forall x, dinv x -> y_h (fst (descent_stepR x)) = Rmax 0 (y_h x + y_vs x * dt).
Proof.
  intros x (I1 & I2 & I3 & I4). destruct (dstep_cases x) as (T & Ss & C). fold (deff x).
  destruct C as [(C1 & C2 & _ & C3 & C4 & _)|[(C1 & C2 & C3 & C4 & _)|(C1 & C2 & _ & C3 & C4 & _)]].
  - rewrite C3, Rmax_right; auto. unfold deff. rewrite I4 by (auto; lra). lra.
  - rewrite C3, Rmax_right; auto. lra.
  - rewrite C3, Rmax_left; auto.
Qed.

Notation term := (terminates (fun x => descent_row (finD x)) descent_stepR).
(** on the ground: decelerate to a stop *)
Lemma term_ld : forall x, (60 <= y_t x \/ e_withcr p = false) -> deff x <= 0 -> term x.
Proof.
  assert (K : forall k x, (60 <= y_t x \/ e_withcr p = false) -> deff x <= 0 -> y_v x <= INR k * (- e_alnd p * dt) -> term x).
  { induction k as [|k IH]; intros x W D V; destruct (dstep_cases x) as (T & Ss & C);
    (destruct C as [(C1 & C2 & _)|[(_ & F & _)|(_ & _ & _ & C3 & C4 & C5 & C6)]]; [destruct W as [W|W]; [lra|congruence]|lra|]).
    - apply term_stop. rewrite C6. apply Rleb_true. rewrite C5. cbn in V. nra.
    - apply term_step. apply IH.
      + rewrite T. destruct W; auto. left; lra.
      + unfold deff. rewrite C3, C4. lra.
      + rewrite C5. rewrite S_INR in V. lra. }
  intros x W D. assert (Hp : 0 < - e_alnd p * dt) by (apply Rmult_lt_0_compat; lra).
  destruct (INR_unbounded (y_v x / (- e_alnd p * dt))) as [k Hk]. apply (K k); auto.
  apply (Rmult_lt_compat_r (- e_alnd p * dt)) in Hk; auto.
  replace (y_v x / (- e_alnd p * dt) * (- e_alnd p * dt)) with (y_v x) in Hk by (field; split; lra). lra.
Qed.
Lemma term_air : forall x, (60 <= y_t x \/ e_withcr p = false) -> term x.
Proof.
  pose proof dmin_pos as Dm.
  assert (K : forall k x, (60 <= y_t x \/ e_withcr p = false) -> deff x <= INR k * (dmin * dt) -> term x).
  { induction k as [|k IH]; intros x W D; [cbn in D; apply term_ld; auto; lra|].
    destruct (Rle_lt_dec (deff x) 0) as [L|L]; [apply term_ld; auto|].
    destruct (dstep_cases x) as (T & Ss & C).
    destruct C as [(C1 & C2 & _)|[(_ & F & C3 & C4 & _)|(_ & C2 & _)]]; [destruct W as [W|W]; [lra|congruence]| |lra].
    apply term_step. apply IH.
    - rewrite T. destruct W; auto. left; lra.
    - unfold deff at 1. rewrite C3. rewrite S_INR in D.
      assert (y_vs (fst (descent_stepR x)) * dt <= - dmin * dt) by (apply Rmult_le_compat_r; lra). lra. }
  intros x W. assert (Hp : 0 < dmin * dt) by (apply Rmult_lt_0_compat; lra).
  destruct (INR_unbounded (deff x / (dmin * dt))) as [k Hk]. apply (K k); auto.
  apply (Rmult_lt_compat_r (dmin * dt)) in Hk; auto.
  replace (deff x / (dmin * dt) * (dmin * dt)) with (deff x) in Hk by (field; split; lra). lra.
Qed.
Lemma descent_terminates : forall x, term x.
Proof.
  assert (K : forall k x, 60 - y_t x <= INR k * dt -> term x).
  { induction k as [|k IH]; intros x D; [apply term_air; cbn in D; left; lra|].
    apply term_step. apply IH. destruct (dstep_cases x) as (T & _). rewrite T. rewrite S_INR in D. lra. }
  intros x. destruct (INR_unbounded ((60 - y_t x) / dt)) as [k Hk]. apply (K k).
  apply (Rmult_lt_compat_r dt) in Hk; auto.
  replace ((60 - y_t x) / dt * dt) with (60 - y_t x) in Hk by (field; lra). lra.
Qed.

(** speeds *)
Hypothesis Hva : 0.2 * dt < e_vapp p.
Lemma decelR_ge : forall v h, 0 <= v -> 1 <= h -> e_vapp p <= decelR v h.
Proof.
  intros v h Hv Hh. assert (VA : 0 < e_vapp p) by lra. unfold decelR.
  destruct (Rltb_spec (t2cR (v + -0.2 * dt) h 0) (e_vapp p)) as [L|L].
  - apply cas_le_c2t; lra.
  - assert (v + -0.2 * dt < 0 \/ 0 <= v + -0.2 * dt) as [N|N] by lra.
    + exfalso. apply L. rewrite <- t2cR_abs. apply Rle_lt_trans with (Rabs (v + -0.2 * dt)).
      * apply cas_le_tas; auto. apply Rabs_pos.
      * rewrite Rabs_left by auto. lra.
    + pose proof (cas_le_tas _ h Hh N). lra.
Qed.
Lemma ehm1 : 1000 * ft = 304.8. Proof. unfold ft; lra. Qed.
Lemma dspeed_step : forall x, dinv x -> 0 <= y_v x -> snd (descent_stepR x) = false -> 0 <= y_v (fst (descent_stepR x)).
Proof.
  intros x I Hv Hs. destruct (dstep_cases x) as (T & Ss & C). pose proof ehm1.
  destruct C as [(_ & _ & _ & _ & _ & C & _)|[(_ & _ & _ & _ & _ & C)|(_ & _ & _ & _ & _ & _ & C)]].
  - rewrite C. apply Rmult_le_pos; auto. pose proof (aR_pos (deff x) 0). lra.
  - destruct C as [(_ & _ & _ & C)|[(_ & _ & _ & C)|[(_ & C1 & _ & _ & _ & C)|(_ & _ & _ & _ & _ & C)]]]; rewrite C.
    + apply Rmult_le_pos; auto. pose proof (aR_pos (deff x) 0). lra.
    + apply c2tR_nonneg.
    + pose proof (decelR_ge (y_v x) (deff x) Hv ltac:(lra)). lra.
    + lra.
  - rewrite Hs in C. destruct (Rleb_spec (y_v (fst (descent_stepR x))) 0); [discriminate|]. lra.
Qed.
(** entry speed of the landing roll *)
Hypothesis Hhc1 : 1 <= e_hcas p.
Definition Blow : R := Rmin (e_vapp p) (Rmin evcasR (295 * e_mach p)).
Lemma Blow_le : Blow <= e_vapp p /\ Blow <= evcasR /\ Blow <= 295 * e_mach p.
Proof.
  unfold Blow. pose proof (Rmin_l (e_vapp p) (Rmin evcasR (295 * e_mach p))).
  pose proof (Rmin_r (e_vapp p) (Rmin evcasR (295 * e_mach p))).
  pose proof (Rmin_l evcasR (295 * e_mach p)). pose proof (Rmin_r evcasR (295 * e_mach p)). lra.
Qed.
Lemma machv_ge : forall h, 295 * e_mach p <= e_mach p * aR h 0.
Proof. intros. pose proof (aR_ge h). nra. Qed.
Definition ginv (x : rds) : Prop := (y_seg x = Some sLD /\ y_h x = 0) \/ (y_seg x <> Some sLD /\ Blow <= y_v x).
Lemma ginv_step : forall x, 0 <= y_v x -> ginv (fst (descent_stepR x)).
Proof.
  intros x Hv. destruct (dstep_cases x) as (T & Ss & C). pose proof ehm1. pose proof Blow_le as B. pose proof (machv_ge (deff x)).
  destruct C as [(_ & _ & S1 & _ & _ & C & _)|[(_ & _ & _ & _ & _ & C)|(_ & _ & S1 & S2 & _)]].
  - right. rewrite S1, C. split; [discriminate|lra].
  - right. destruct C as [(S1 & _ & _ & C)|[(S1 & C1 & _ & C)|[(S1 & C1 & _ & _ & _ & C)|(S1 & _ & _ & _ & _ & C)]]];
    rewrite S1, C; (split; [discriminate|]); try lra.
    + pose proof (cas_le_c2t evcasR (deff x) ltac:(lra) (Rlt_le _ _ evcas_pos)). lra.
    + pose proof (decelR_ge (y_v x) (deff x) Hv ltac:(lra)). lra.
  - left. auto.
Qed.
Lemma gstop : forall x, ginv x -> - e_alnd p * dt < Blow -> snd (descent_stepR x) = true -> y_seg x = Some sLD /\ y_h x = 0.
Proof.
  intros x [G|[G1 G2]] HB St; auto. exfalso. destruct (dstep_cases x) as (T & Ss & C).
  destruct C as [(_ & _ & _ & _ & _ & _ & C)|[(_ & _ & _ & _ & C & _)|(_ & _ & _ & _ & _ & C1 & C)]]; try congruence.
  rewrite C in St. destruct (Rleb_spec (y_v (fst (descent_stepR x))) 0); [|discriminate]. lra.
Qed.
End DescentR.

(** ** A negative crossover altitude: the descent never ends *)
Section DescentForever.
Context (p : dparams).
Hypothesis Hcas : 0 < e_cas p.
Hypothesis Hm : 0.0001 <= e_mach p.
Hypothesis Hx : e_mach p * a0 < e_cas p * kts.
Hypothesis Hv : 0 < 295 * e_mach p + e_alnd p * e_dt p.
Hypothesis Hhc : 0 <= e_hcas p.
Hypothesis Hh : 0 <= e_alt p.
Definition finv (x : rds) : Prop :=
  (295 * e_mach p <= y_v x /\ y_seg x <> Some sLD) \/ (y_h x = 0 /\ y_vs x = 0 /\ y_seg x = Some sLD).
Lemma forever_step : forall x, finv x -> snd (descent_stepR p x) = false /\ finv (fst (descent_stepR p x)).
Proof.
  intros x F. assert (Hxm : ehmachR p < 0) by (apply xR_negative; auto).
  assert (MV : forall h, 295 * e_mach p <= e_mach p * aR h 0) by (intros h; pose proof (aR_ge h); nra).
  pose proof (ft_pos) as FT. unfold descent_stepR.
  set (h := y_h x + y_vs x * e_dt p).
  destruct (Rltb (y_t x + e_dt p) 60 && e_withcr p); cbn -[ft].
  { split; auto. left. cbn. split; [apply MV|discriminate]. }
  destruct (Rltb_spec (ehmachR p) h) as [L|L]; cbn -[ft].
  { split; auto. left. cbn. split; [apply MV|discriminate]. }
  rewrite (Rltb_false (e_hcas p) h) by lra. rewrite (Rltb_false (1000 * ft) h) by nra. rewrite (Rltb_false 0 h) by lra.
  cbn -[ft]. destruct F as [[F1 F2]|(F1 & F2 & F3)].
  - split; [apply Rleb_false; lra|]. right. cbn. auto.
  - exfalso. apply L. unfold h. rewrite F1, F2. lra.
Qed.
Lemma descent_forever : forall n, descent p n = None.
Proof.
  intros n. rewrite descent_runR by auto. apply (run_never _ _ finv); [apply forever_step|].
  left. cbn. split; [|discriminate]. pose proof (aR_ge (ehcrR p)). nra.
Qed.
End DescentForever.

(** ** Cruise *)
Section CruiseR.
Context (p : rparams).
Definition xvR : R := x_mach p * aR (x_alt p * ft) 0.
Lemma x_v_fin : x_v p = Fin xvR.
Proof. unfold x_v, x_hcr. cbn [emul]. rewrite mach2tas_NP. reflexivity. Qed.
Definition cr_stepR (x : R * R) : R * R * bool :=
  (fst x + x_dt p, snd x + xvR * x_dt p, Rltb (x_distance p) (snd x + xvR * x_dt p)).
Definition finX (x : R * R) : ext * ext := (Fin (fst x), Fin (snd x)).
Lemma cruise_step_fin : forall x, cruise_step p (finX x) = (finX (fst (cr_stepR x)), snd (cr_stepR x)).
Proof.
  intros x. unfold cruise_step, cr_stepR, finX, egtb. cbn [fst snd]. rewrite x_v_fin. cbn [eadd emul]. rewrite eltb_fin. reflexivity.
Qed.
Lemma cruise_runR : forall n, cruise p n = run (fun x => cruise_row p (finX x)) cr_stepR n (0, 0).
Proof. intros. unfold cruise. change (Fin 0, Fin 0) with (finX (0, 0)). apply run_map, cruise_step_fin. Qed.
Lemma cr_it : forall n, it cr_stepR n (0, 0) = (INR n * x_dt p, INR n * (xvR * x_dt p)).
Proof.
  induction n as [|n IH]; [cbn; f_equal; ring|]. cbn [it]. rewrite IH. unfold cr_stepR. cbn [fst snd].
  rewrite S_INR. f_equal; ring.
Qed.
Lemma cruise_terminates : 0 < xvR * x_dt p -> terminates (fun x => cruise_row p (finX x)) cr_stepR (0, 0).
Proof.
  intros Hp.
  assert (K : forall k x, x_distance p - snd x < INR k * (xvR * x_dt p) -> terminates (fun x => cruise_row p (finX x)) cr_stepR x).
  { induction k as [|k IH]; intros x D.
    - apply term_stop. cbn. apply Rltb_true. cbn in D. lra.
    - apply term_step. apply IH. cbn. rewrite S_INR in D. lra. }
  destruct (INR_unbounded (x_distance p / (xvR * x_dt p))) as [k Hk]. apply (K k). cbn.
  apply (Rmult_lt_compat_r (xvR * x_dt p)) in Hk; auto.
  assert (Hn : xvR * x_dt p <> 0) by lra. unfold Rdiv in Hk. rewrite Rmult_assoc, Rinv_l in Hk by auto. lra.
Qed.
End CruiseR.
