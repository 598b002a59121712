(** * Property C123: emissions in binary64 *)
From Coq Require Import String List Bool ZArith QArith Qreals Reals Lra Lia Psatz.
From Coquelicot Require Import Coquelicot.
From Interval Require Import Tactic.
From Verif Require Import Py Str StrFacts PropPy DataAc DataEng DataPolar DataWrap Build Params PropFacts P_Prop P_Data
  Num NumFacts SpecNum Aero AeroFacts AeroFacts2 Emission P_Emission Fl SpecFl FlFacts P_Fl P_FlCas P_FlSun FlAtmFacts P_FlThrust P_FlFuel.
Import ListNotations.
Open Scope string_scope.
Open Scope R_scope.

(** neighbouring abscissae differ by at least a twelfth of the larger one *)
Fixpoint spaced (x0 : R) (l : list (R * R)) : Prop :=
  match l with [] => True | (x1, _) :: l' => 0 < x1 /\ x1 <= 12 * (x1 - x0) /\ spaced x1 l' end.

Section Fl.
Context (rd : rounding) (Hrd : accurate rd).
Local Notation cs := (cst (FL rd)).
Lemma na_sub' : forall x a X y c Y, na x a X -> na y c Y -> na (x - y) (1.001 * (a + c) + 1.02 * Rabs (x - y)) (sub (FL rd) X Y).
Proof.
  intros x a X y c Y (x' & -> & H) (y' & -> & S). apply na_rnd'; auto. eexists. split; [reflexivity|].
  replace (x' - y' - (x - y)) with ((x' - x) + - (y' - y)) by ring. eapply Rle_trans; [apply Rabs_triang|]. rewrite Rabs_Ropp. lra.
Qed.
Section Interp.
Context (Y : R) (x k x' : R) (Nx : nr x k (Fin x')) (Hk : 0 <= k <= 1000).
Lemma cst_na : forall y, 0 <= y <= Y -> na y (1.02 * Y) (Fin (rd Ocst [] y)).
Proof. intros y H. apply nr_na with 1; [apply (nr_cst rd Hrd y)|lra|]. rewrite Rabs_pos_eq; lra. Qed.
(** the chord through two neighbouring points, evaluated in rounded arithmetic *)
Lemma chord_fl : forall x0 y0 x1 y1, 0 < x0 -> 0 < x1 -> x1 <= 12 * (x1 - x0) -> 0 <= y0 <= Y -> 0 <= y1 <= Y -> 0.999 * x0 <= x <= 1.001 * x1 ->
  na (y0 + (y1 - y0) / (x1 - x0) * (x - x0)) ((12.6 * k + 90) * Y)
    (fadd rd (fmul rd (fdiv rd (fsub rd (Fin (rd Ocst [] y1)) (Fin (rd Ocst [] y0))) (fsub rd (Fin (rd Ocst [] x1)) (Fin (rd Ocst [] x0)))) (fsub rd (Fin x') (Fin (rd Ocst [] x0)))) (Fin (rd Ocst [] y0))).
Proof.
  intros x0 y0 x1 y1 P0 P1 Hs B0 B1 Bx. pose proof v_pos. pose proof v_small. assert (0 <= Y) by lra.
  assert (Ad : Rabs (y1 - y0) <= Y) by (apply Rabs_le; lra).
  assert (Ae : Rabs (x - x0) <= 1.02 * (x1 - x0)) by (apply Rabs_le; lra).
  assert (Nd : na (y1 - y0) (3.1 * Y) (fsub rd (Fin (rd Ocst [] y1)) (Fin (rd Ocst [] y0)))).
  { eapply na_w; [apply (na_sub' y1 (1.02 * Y) _ y0 (1.02 * Y) _); apply cst_na; auto|lra]. }
  assert (Ne : na (x - x0) ((1.03 * k + 4) * x1) (fsub rd (Fin x') (Fin (rd Ocst [] x0)))).
  { eapply na_w; [apply (na_sub' x (1.025 * k * x1) _ x0 (1.02 * x1) _)|].
    - apply nr_na with k; [auto|lra|]. rewrite Rabs_pos_eq by lra. nra.
    - apply nr_na with 1; [apply (nr_cst rd Hrd x0)|lra|]. rewrite Rabs_pos_eq; lra.
    - nra. }
  assert (Nq : nr (x1 - x0) 25.2 (fsub rd (Fin (rd Ocst [] x1)) (Fin (rd Ocst [] x0)))).
  { eapply nr_w; [apply (nr_sub rd Hrd x1 1 _ x0 1 _ 23); try lra; [apply (nr_cst rd Hrd x1)|apply (nr_cst rd Hrd x0)|]|lra]. rewrite !Rabs_pos_eq; lra. }
  destruct Nd as (d & -> & Hd). destruct Ne as (e & -> & He). set (q := fsub rd _ _) in *. clearbody q.
  assert (M : nr (d * e / (x1 - x0)) 27.2 (fmul rd (fdiv rd (Fin d) q) (Fin e))).
  { eapply nr_w; [eapply nr_x; [apply (nr_mul rd Hrd (d / (x1 - x0)) 26.2 _ e 0 _); [eapply nr_w; [apply (nr_div rd Hrd d 0 _ (x1 - x0) 25.2 _); [apply nr_exact|auto|lra]|lra]|apply nr_exact]|field; lra]|lra]. }
  set (w := (y1 - y0) * (x - x0) / (x1 - x0)).
  assert (Aw : Rabs w <= 1.02 * Y).
  { unfold w, Rdiv. rewrite !Rabs_mult, Rabs_inv, (Rabs_pos_eq (x1 - x0)) by lra. apply Rmult_le_reg_r with (x1 - x0); [lra|]. rewrite Rmult_assoc, Rinv_l by lra.
    pose proof (Rabs_pos (y1 - y0)). pose proof (Rabs_pos (x - x0)). nra. }
  assert (E1' : Rabs e <= 1.03 * (x1 - x0)).
  { replace e with ((e - (x - x0)) + (x - x0)) by ring. eapply Rle_trans; [apply Rabs_triang|].
    assert ((1.03 * k + 4) * x1 * v <= 1e-9 * x1). { rewrite (Rmult_comm _ x1), Rmult_assoc, (Rmult_comm 1e-9). apply Rmult_le_compat_l; [lra|]. nra. } lra. }
  assert (D : Rabs (d * e / (x1 - x0) - w) <= ((12.36 * k + 52) * Y) * v).
  { unfold w. replace (d * e / (x1 - x0) - (y1 - y0) * (x - x0) / (x1 - x0)) with (((d - (y1 - y0)) * e + (y1 - y0) * (e - (x - x0))) / (x1 - x0)) by (field; lra).
    unfold Rdiv. rewrite Rabs_mult, Rabs_inv, (Rabs_pos_eq (x1 - x0)) by lra. apply Rmult_le_reg_r with (x1 - x0); [lra|]. rewrite Rmult_assoc, Rinv_l, Rmult_1_r by lra.
    eapply Rle_trans; [apply Rabs_triang|]. rewrite !Rabs_mult.
    assert (T1 : Rabs (d - (y1 - y0)) * Rabs e <= 3.1 * Y * v * (1.03 * (x1 - x0))) by (apply Rmult_le_compat; auto; apply Rabs_pos).
    assert (T2 : Rabs (y1 - y0) * Rabs (e - (x - x0)) <= Y * ((1.03 * k + 4) * x1 * v)) by (apply Rmult_le_compat; auto; apply Rabs_pos).
    assert (T3 : Y * ((1.03 * k + 4) * x1 * v) <= Y * ((1.03 * k + 4) * (12 * (x1 - x0)) * v)) by (apply Rmult_le_compat_l; [lra|apply Rmult_le_compat_r; [lra|apply Rmult_le_compat_l; lra]]).
    assert (0 <= Y * v * (x1 - x0)) by (apply Rmult_le_pos; [apply Rmult_le_pos|]; lra). nra. }
  set (m := d * e / (x1 - x0)) in *.
  assert (Nm : na w ((12.5 * k + 82) * Y) (fmul rd (fdiv rd (Fin d) q) (Fin e))).
  { assert (N0 : na w ((12.36 * k + 52) * Y) (Fin m)) by (eexists; split; [reflexivity|exact D]).
    rewrite <- (Rmult_1_r w). rewrite <- (Rmult_1_r m) in M. eapply na_w; [apply (na_scale w _ m 1 27.2 _ (1.02 * Y) N0 M Aw); lra|]. rewrite Rabs_R1. assert (0 <= k * Y) by nra. lra. }
  replace (y0 + (y1 - y0) / (x1 - x0) * (x - x0)) with (w + y0) by (unfold w; field; lra).
  eapply na_w; [apply (na_add' rd Hrd w _ _ y0 (1.02 * Y) _ Nm); apply cst_na; auto|].
  assert (Rabs (w + y0) <= 2.02 * Y) by (eapply Rle_trans; [apply Rabs_triang|]; rewrite (Rabs_pos_eq y0); lra). assert (0 <= k * Y) by nra. lra.
Qed.
Lemma k_v : (k + 1) * v <= 1e-12.
Proof. pose proof v_pos. pose proof v_small. nra. Qed.
(** where rounded and exact comparison disagree, the point is close *)
Lemma cmp_ge : forall x0, 0 < x0 -> rd Ocst [] x0 <= x' -> x0 - 1.03 * (k + 1) * v * x0 <= x.
Proof.
  intros x0 P H. destruct Nx as (t & E & Ht). injection E as E. destruct (rd_exp rd Hrd Ocst [] x0) as (s & Es & Hs). rewrite E, Es in H. pose proof v_pos. pose proof k_v.
  pose proof (exp_pos t). pose proof (exp_pos s).
  assert (L : x0 * exp (s - t) <= x). { unfold Rminus. rewrite exp_plus, exp_Ropp. apply Rmult_le_reg_r with (exp t); auto. rewrite !Rmult_assoc, Rinv_l, Rmult_1_r by lra. exact H. }
  assert (B : Rabs (exp (s - t) - 1) <= 1.02 * ((k + 1) * v)).
  { apply exp_m1; [|lra]. replace (s - t) with (s + - t) by ring. eapply Rle_trans; [apply Rabs_triang|]. rewrite Rabs_Ropp. lra. }
  apply Rabs_le_inv in B. nra.
Qed.
Lemma cmp_lt : forall x0, 0 < x0 -> x' < rd Ocst [] x0 -> x <= x0 + 1.03 * (k + 1) * v * x0.
Proof.
  intros x0 P H. destruct Nx as (t & E & Ht). injection E as E. destruct (rd_exp rd Hrd Ocst [] x0) as (s & Es & Hs). rewrite E, Es in H. pose proof v_pos. pose proof k_v.
  pose proof (exp_pos t). pose proof (exp_pos s).
  assert (L : x <= x0 * exp (s - t)). { unfold Rminus. rewrite exp_plus, exp_Ropp. apply Rmult_le_reg_r with (exp t); auto. rewrite !Rmult_assoc, Rinv_l, Rmult_1_r by lra. lra. }
  assert (B : Rabs (exp (s - t) - 1) <= 1.02 * ((k + 1) * v)).
  { apply exp_m1; [|lra]. replace (s - t) with (s + - t) by ring. eapply Rle_trans; [apply Rabs_triang|]. rewrite Rabs_Ropp. lra. }
  apply Rabs_le_inv in B. nra.
Qed.
Lemma chord_end : forall x0 y0 x1 y1 z yz, 0 < z -> z <= 12 * (x1 - x0) -> 0 <= y0 <= Y -> 0 <= y1 <= Y -> Rabs (x - z) <= 1.03 * (k + 1) * v * z ->
  y0 + (y1 - y0) / (x1 - x0) * (z - x0) = yz -> Rabs (y0 + (y1 - y0) / (x1 - x0) * (x - x0) - yz) <= 12.4 * (k + 1) * Y * v.
Proof.
  intros x0 y0 x1 y1 z yz P Hz B0 B1 D <-. pose proof v_pos. assert (0 < x1 - x0) by lra.
  replace (y0 + (y1 - y0) / (x1 - x0) * (x - x0) - (y0 + (y1 - y0) / (x1 - x0) * (z - x0))) with ((y1 - y0) * (x - z) / (x1 - x0)) by (field; lra).
  unfold Rdiv. rewrite !Rabs_mult, Rabs_inv, (Rabs_pos_eq (x1 - x0)) by lra. apply Rmult_le_reg_r with (x1 - x0); [lra|]. rewrite Rmult_assoc, Rinv_l, Rmult_1_r by lra.
  assert (Ad : Rabs (y1 - y0) <= Y) by (apply Rabs_le; lra).
  apply Rle_trans with (Y * (1.03 * (k + 1) * v * z)); [apply Rmult_le_compat; auto; apply Rabs_pos|].
  assert (0 <= Y * (k + 1) * v) by (apply Rmult_le_pos; [apply Rmult_le_pos|]; lra). nra.
Qed.
Lemma near_start : forall x0 y0 tl, 0 < x0 -> 0 <= y0 <= Y -> spaced x0 tl -> List.Forall (fun p => 0 <= snd p <= Y) tl -> Rabs (x - x0) <= 1.03 * (k + 1) * v * x0 ->
  Rabs (interp_from x x0 y0 tl - y0) <= 12.4 * (k + 1) * Y * v.
Proof.
  intros x0 y0 tl P B0 Hs HF D. pose proof v_pos. pose proof k_v. assert (0 <= Y * ((k + 1) * v)) by (apply Rmult_le_pos; nra).
  destruct tl as [|[x1 y1] tl]; cbn [interp_from].
  - replace (y0 - y0) with 0 by ring. rewrite Rabs_R0. lra.
  - destruct Hs as (P1 & Hs & _). inversion HF as [|? ? By HF']; subst. cbn in By. pose proof (Rabs_le_inv _ _ D).
    destruct (Rlt_dec x x1) as [L|L]; [|exfalso; apply L; nra].
    apply (chord_end x0 y0 x1 y1 x0); auto; [lra|]. field. lra.
Qed.
Fixpoint steps (l : list (R * R)) : R := match l with [] => 0 | _ :: l' => 1 + steps l' end.
Lemma steps_pos : forall l, 0 <= steps l.
Proof. induction l; cbn; lra. Qed.
Lemma interp_from_fl : forall tl x0 y0, 0 < x0 -> 0 <= y0 <= Y -> spaced x0 tl -> List.Forall (fun p => 0 <= snd p <= Y) tl -> x0 - 1.03 * (k + 1) * v * x0 <= x ->
  na (interp_from x x0 y0 tl) ((12.6 * k + 90 + steps tl * (24.8 * (k + 1))) * Y) (finterp_from rd x' (rd Ocst [] x0) (rd Ocst [] y0) (map (fun p => (rd Ocst [] (fst p), rd Ocst [] (snd p))) tl)).
Proof.
  induction tl as [|[x1 y1] tl IH]; intros x0 y0 P0 B0 Hs HF Hx; pose proof v_pos as Pv; pose proof k_v as Kv; assert (PY : 0 <= Y) by lra; cbn [interp_from finterp_from map fst snd steps].
  - eapply na_w; [apply cst_na; auto|]. assert (0 <= k * Y) by nra. lra.
  - destruct Hs as (P1 & H1 & Hs). inversion HF as [|? ? By HF']; subst. cbn in By. specialize (IH x1 y1 P1 By Hs HF'). pose proof (steps_pos tl) as Ps.
    assert (0 <= k * Y) by nra. assert (PK : 0 <= (k + 1) * Y) by nra. assert (PS : 0 <= steps tl * ((k + 1) * Y)) by nra.
    destruct (Rlt_dec x' (rd Ocst [] x1)) as [L'|L']; destruct (Rlt_dec x x1) as [L|L].
    + eapply na_w; [apply chord_fl; auto; nra|]. nra.
    + pose proof (cmp_lt x1 P1 L') as Hc.
      assert (D : Rabs (x - x1) <= 1.03 * (k + 1) * v * x1) by (apply Rabs_le; split; nra).
      pose proof (near_start x1 y1 tl P1 By Hs HF' D) as N1.
      pose proof (chord_end x0 y0 x1 y1 x1 y1 P1 ltac:(lra) B0 By D ltac:(field; lra)) as N2.
      destruct (chord_fl x0 y0 x1 y1 P0 P1 H1 B0 By ltac:(nra)) as (z & -> & Hz). eexists. split; [reflexivity|].
      set (c := y0 + _) in *. set (f := interp_from _ _ _ _) in *.
      replace (z - f) with ((z - c) + (c - y1) + - (f - y1)) by ring. eapply Rle_trans; [apply Rabs_triang|]. rewrite Rabs_Ropp.
      eapply Rle_trans; [apply Rplus_le_compat_r, Rabs_triang|].
      apply Rle_trans with (((12.6 * k + 90) * Y + 24.8 * (k + 1) * Y) * v); [lra|]. apply Rmult_le_compat_r; [lra|]. lra.
    + pose proof (cmp_ge x1 P1 ltac:(lra)) as Hc.
      assert (D : Rabs (x - x1) <= 1.03 * (k + 1) * v * x1) by (apply Rabs_le; split; nra).
      pose proof (near_start x1 y1 tl P1 By Hs HF' D) as N1.
      pose proof (chord_end x0 y0 x1 y1 x1 y1 P1 ltac:(lra) B0 By D ltac:(field; lra)) as N2.
      destruct (IH Hc) as (z & -> & Hz). eexists. split; [reflexivity|].
      set (c := y0 + _) in *. set (f := interp_from _ _ _ _) in *.
      replace (z - c) with ((z - f) + (f - y1) + - (c - y1)) by ring. eapply Rle_trans; [apply Rabs_triang|]. rewrite Rabs_Ropp.
      eapply Rle_trans; [apply Rplus_le_compat_r, Rabs_triang|].
      apply Rle_trans with (((12.6 * k + 90 + steps tl * (24.8 * (k + 1))) * Y + 24.8 * (k + 1) * Y) * v); [lra|]. apply Rmult_le_compat_r; [lra|]. lra.
    + assert (PX : 0 <= 1.03 * (k + 1) * v * x1) by (assert (0 <= (k + 1) * v) by nra; nra). eapply na_w; [apply IH; lra|]. lra.
Qed.
Lemma interp_fl : forall x0 y0 tl, 0 < x0 -> 0 <= y0 <= Y -> spaced x0 tl -> List.Forall (fun p => 0 <= snd p <= Y) tl ->
  exists y, np_interp x ((x0, y0) :: tl) = Some y /\ na y ((12.6 * k + 90 + (1 + steps tl) * (24.8 * (k + 1))) * Y) (finterp rd (Fin x') ((x0, y0) :: tl)).
Proof.
  intros x0 y0 tl P0 B0 Hs HF. pose proof v_pos as Pv; pose proof k_v as Kv; assert (PY : 0 <= Y) by lra. pose proof (steps_pos tl) as Ps.
  assert (0 <= k * Y) by nra. assert (PK : 0 <= (k + 1) * Y) by nra. assert (PS : 0 <= steps tl * ((k + 1) * Y)) by nra.
  unfold np_interp, finterp. cbn [map fst snd]. eexists. split; [reflexivity|].
  destruct (Rlt_dec x' (rd Ocst [] x0)) as [L'|L']; destruct (Rlt_dec x x0) as [L|L].
  - eapply na_w; [apply cst_na; auto|lra].
  - pose proof (cmp_lt x0 P0 L') as Hc. assert (D : Rabs (x - x0) <= 1.03 * (k + 1) * v * x0) by (apply Rabs_le; split; nra).
    pose proof (near_start x0 y0 tl P0 B0 Hs HF D) as N1. destruct (cst_na y0 B0) as (z & E & Hz). injection E as <-. eexists. split; [reflexivity|].
    set (f := interp_from _ _ _ _) in *. set (z := rd Ocst [] y0) in *. replace (z - f) with ((z - y0) + - (f - y0)) by ring. eapply Rle_trans; [apply Rabs_triang|]. rewrite Rabs_Ropp.
    apply Rle_trans with ((1.02 * Y + 12.4 * (k + 1) * Y) * v); [lra|]. apply Rmult_le_compat_r; [lra|]. lra.
  - pose proof (cmp_ge x0 P0 ltac:(lra)) as Hc. assert (D : Rabs (x - x0) <= 1.03 * (k + 1) * v * x0) by (apply Rabs_le; split; nra).
    pose proof (near_start x0 y0 tl P0 B0 Hs HF D) as N1. destruct (interp_from_fl tl x0 y0 P0 B0 Hs HF Hc) as (z & -> & Hz). eexists. split; [reflexivity|].
    set (f := interp_from _ _ _ _) in *. replace (z - y0) with ((z - f) + (f - y0)) by ring. eapply Rle_trans; [apply Rabs_triang|].
    apply Rle_trans with (((12.6 * k + 90 + steps tl * (24.8 * (k + 1))) * Y + 12.4 * (k + 1) * Y) * v); [lra|]. apply Rmult_le_compat_r; [lra|]. lra.
  - assert (PX : 0 <= 1.03 * (k + 1) * v * x0) by (assert (0 <= (k + 1) * v) by nra; nra). eapply na_w; [apply interp_from_fl; auto; lra|]. lra.
Qed.
End Interp.

(** ** the correction to sea level *)
Lemma temperature_alt : forall alt dT, -3000 <= alt <= 60000 -> nr (tR (alt * ft) dT) 12 (temperature (FL rd) (mul (FL rd) (Fin alt) (cs ft)) (Fin dT)).
Proof.
  intros alt dT H. destruct (alt_fl rd Hrd alt H) as [N B]. destruct (alt_nr _ 2 _ N ltac:(lra) B) as (h' & -> & D & B').
  eapply nr_w; [eapply nr_trans; [apply (tR_alt _ _ _ _ D); lra|apply temperature_fl; auto; lra]|lra].
Qed.
Section Corr.
Context (n ffac tas alt dT : R) (Hn : 0 < n) (Ht : Rabs tas <= 1000) (Ha : -3000 <= alt <= 60000).
Lemma mach_range : 0 <= 0.2 * machR tas alt dT ^ 2 <= 0.7.
Proof.
  unfold machR. pose proof (aR_lb (alt * ft) dT). pose proof (pow2_ge_0 (tas * kts / aR (alt * ft) dT)).
  assert (Hm : Rabs (tas * kts / aR (alt * ft) dT) <= 1.86).
  { unfold Rdiv. rewrite !Rabs_mult, Rabs_inv, (Rabs_pos_eq kts) by (uc; lra). rewrite (Rabs_pos_eq (aR _ _)) by lra. apply (Rmult_le_reg_r (aR (alt * ft) dT)); [lra|].
    rewrite Rmult_assoc, Rinv_l by lra. uc. pose proof (Rabs_pos tas). nra. }
  rewrite <- (pow2_abs (tas * kts / _)) in *. pose proof (Rabs_pos (tas * kts / aR (alt * ft) dT)). nra.
Qed.
Lemma beta_range : 1 <= betaR tas alt dT <= 2.02.
Proof. unfold betaR. pose proof mach_range. set (m := 0.2 * _) in *. clearbody m. split; interval. Qed.
Lemma theta_range : 0.32 <= thetaR tas alt dT <= 1.1.
Proof.
  unfold thetaR. pose proof beta_range. set (b := betaR _ _ _) in *. clearbody b.
  assert (T : 191.65 <= tR (alt * ft) dT <= 311). { split; [apply tR_pos|]. unfold tR. pose proof (clipT_range dT). apply Rmax_lub; uc; lra. }
  set (t := tR _ _) in *. clearbody t. split; interval.
Qed.
Lemma base_range : 0.58 <= 1 - 0.0019812 * alt / 288.15 <= 1.03.
Proof. lra. Qed.
Lemma delta_range : -5.4 <= ln (deltaR tas alt dT) <= 0.2.
Proof.
  unfold deltaR. pose proof beta_range. set (b := betaR _ _ _) in *. clearbody b. pose proof base_range. set (c := 1 - _) in *. clearbody c.
  unfold Rdiv. rewrite ln_mult; [|apply Rpower_pos|apply Rinv_0_lt_compat, Rpower_pos]. rewrite ln_Rinv by apply Rpower_pos. unfold Rpower. rewrite !ln_exp.
  split; interval.
Qed.
Lemma fl2sl_fl : exists X Z, fl2sl (FL rd) n (Fin ffac) (Fin tas) (Fin alt) (Fin dT) = (X, Z) /\
  nr (ffac / n * Rpower (thetaR tas alt dT) 3.8 / deltaR tas alt dT * betaR tas alt dT) 310 X /\ nr (ratioR tas alt dT) 280 Z.
Proof.
  unfold fl2sl. pose proof beta_range as RB. pose proof theta_range as RT. pose proof base_range as RC. pose proof delta_range as RD.
  assert (NB : nr (betaR tas alt dT) 22 (bexp (FL rd) (mul (FL rd) (cs 0.2) (powi (FL rd) (tas2mach (FL rd) (mul (FL rd) (Fin tas) (cs kts)) (mul (FL rd) (Fin alt) (cs ft)) (Fin dT)) 2)))).
  { assert (NM : nr (machR tas alt dT) 12 (tas2mach (FL rd) (mul (FL rd) (Fin tas) (cs kts)) (mul (FL rd) (Fin alt) (cs ft)) (Fin dT))).
    { eapply nr_w; [apply (mach_alt rd Hrd (tas * kts) 2); auto; eapply nr_w; [apply nr_mul; auto; [apply nr_exact|apply nr_cst; auto]|lra]|lra]. }
    set (M := tas2mach _ _ _ _) in *. clearbody M.
    assert (N2 : nr (0.2 * machR tas alt dT ^ 2) 27 (mul (FL rd) (cs 0.2) (powi (FL rd) M 2))).
    { eapply nr_w; [apply (nr_mul rd Hrd _ 1 _ _ 25 _); [apply nr_cst; auto|eapply nr_w; [apply nr_powi; auto; exact NM|cbn [INR]; lra]]|lra]. }
    unfold betaR. pose proof mach_range. eapply nr_w; [apply nr_exp; auto; [exact N2|lra|lra]|]. rewrite Rabs_pos_eq; lra. }
  set (B := bexp _ _) in *. clearbody B.
  assert (NT : nr (thetaR tas alt dT) 37 (div (FL rd) (div (FL rd) (temperature (FL rd) (mul (FL rd) (Fin alt) (cs ft)) (Fin dT)) (cs 288.15)) B)).
  { unfold thetaR. eapply nr_w; [apply (nr_div rd Hrd _ 14 _ _ 22 _); [eapply nr_w; [apply (nr_div rd Hrd _ 12 _ _ 1 _); [apply temperature_alt; auto|apply nr_cst; auto|lra]|lra]|exact NB|lra]|lra]. }
  set (Th := div _ _ B) in *. clearbody Th.
  assert (NC : nr (1 - 0.0019812 * alt / 288.15) 7 (sub (FL rd) (cs 1) (div (FL rd) (mul (FL rd) (cs 0.0019812) (Fin alt)) (cs 288.15)))).
  { eapply nr_w; [apply (nr_sub rd Hrd 1 1 _ (0.0019812 * alt / 288.15) 4 _ 5); try lra; [apply nr_cst; auto| |]|lra].
    - eapply nr_w; [apply (nr_div rd Hrd _ 2 _ _ 1 _); [eapply nr_w; [apply (nr_mul rd Hrd _ 1 _ _ 0 _); [apply nr_cst; auto|apply nr_exact]|lra]|apply nr_cst; auto|lra]|lra].
    - rewrite (Rabs_pos_eq 1), (Rabs_pos_eq (1 - _)) by lra. assert (Rabs (0.0019812 * alt / 288.15) <= 0.42) by (apply Rabs_le; lra). lra. }
  assert (ND : nr (deltaR tas alt dT) 130 (div (FL rd) (power (FL rd) (sub (FL rd) (cs 1) (div (FL rd) (mul (FL rd) (cs 0.0019812) (Fin alt)) (cs 288.15))) (cs 5.255876)) (power (FL rd) B (cs 3.5)))).
  { unfold deltaR. eapply nr_w; [apply (nr_div rd Hrd _ 43 _ _ 86 _)|lra].
    - eapply nr_w; [apply nr_power; auto; [exact NC|apply nr_cst; auto|lra|lra]|]. set (c := 1 - _) in *. clearbody c. rewrite (Rabs_pos_eq 5.255876) by lra. assert (Rabs (5.255876 * ln c) <= 3) by interval. lra.
    - eapply nr_w; [apply nr_power; auto; [exact NB|apply nr_cst; auto|lra|lra]|]. set (c := betaR _ _ _) in *. clearbody c. rewrite (Rabs_pos_eq 3.5) by lra. assert (Rabs (3.5 * ln c) <= 3) by interval. lra.
    - pose proof (Rpower_pos (betaR tas alt dT) 3.5). lra. }
  set (De := div _ (power _ _ (cs 5.255876)) _) in *. clearbody De.
  pose proof (deltaR_pos tas alt dT) as PD. pose proof (thetaR_pos tas alt dT) as PT.
  do 2 eexists. split; [reflexivity|]. split.
  - eapply nr_w; [apply (nr_mul rd Hrd _ 287 _ _ 22 _); [|exact NB]|lra].
    eapply nr_w; [apply (nr_div rd Hrd _ 156 _ _ 130 _); [|exact ND|lra]|lra].
    eapply nr_w; [apply (nr_mul rd Hrd _ 2 _ _ 153 _)|lra].
    + eapply nr_w; [apply (nr_div rd Hrd _ 0 _ _ 1 _); [apply nr_exact|apply nr_cst; auto|lra]|lra].
    + eapply nr_w; [apply nr_power; auto; [exact NT|apply nr_cst; auto|lra]|]. set (c := thetaR _ _ _) in *. clearbody c. rewrite (Rabs_pos_eq 3.8) by lra. assert (Rabs (3.8 * ln c) <= 5) by interval. lra.
  - unfold ratioR. eapply nr_w; [apply (nr_div rd Hrd _ 135 _ _ 144 _)|lra].
    + eapply nr_w; [apply nr_power; auto; [exact NT|apply nr_cst; auto|lra]|]. set (c := thetaR _ _ _) in *. clearbody c. rewrite (Rabs_pos_eq 3.3) by lra. assert (Rabs (3.3 * ln c) <= 5) by interval. lra.
    + eapply nr_w; [apply nr_power; auto; [exact ND|apply nr_cst; auto|lra]|]. rewrite (Rabs_pos_eq 1.02) by lra. assert (Rabs (1.02 * ln (deltaR tas alt dT)) <= 6) by (apply Rabs_le; lra). lra.
    + pose proof (Rpower_pos (deltaR tas alt dT) 1.02). lra.
Qed.
End Corr.

(** ** C123: emission rates *)
Theorem C123_proportional : forall ffac,
  within 2e-15 (co2 NP (Fin ffac)) (co2 (FL rd) (Fin ffac)) /\ within 2e-15 (h2o NP (Fin ffac)) (h2o (FL rd) (Fin ffac)) /\
  within 2e-15 (soot NP (Fin ffac)) (soot (FL rd) (Fin ffac)) /\ within 2e-15 (sox NP (Fin ffac)) (sox (FL rd) (Fin ffac)).
Proof.
  intros ffac. assert (G : forall c, within 2e-15 (mul NP (Fin ffac) (cst NP c)) (mul (FL rd) (Fin ffac) (cs c))).
  { intros c. apply (nr_within (ffac * c) 2); [|lra|lra]. eapply nr_w; [apply nr_mul; auto; [apply nr_exact|apply nr_cst; auto]|lra]. }
  repeat apply conj; apply G.
Qed.
(** emission indices at most [Y], fuel flows increasing by at least a twelfth *)
Definition ordinary_table (t : ei_table) (Y : R) : Prop :=
  0 < ff_idl t /\ 12 * ff_idl t <= 11 * ff_app t /\ 12 * ff_app t <= 11 * ff_co t /\ 12 * ff_co t <= 11 * ff_to t /\
  0 <= ei_idl t <= Y /\ 0 <= ei_app t <= Y /\ 0 <= ei_co t <= Y /\ 0 <= ei_to t <= Y.
(** the same engine with the emission index [Y] at every thrust setting *)
Definition flat (t : ei_table) (Y : R) : ei_table := mkEI (ff_idl t) (ff_app t) (ff_co t) (ff_to t) Y Y Y Y.
Definition noxk (tas alt dT : R) : R := sqrt (1 / ratioR tas alt dT) * exp (-19 * (0.001 * exp (-0.0001426 * (alt - 12900)) - 0.00634)).
Section Rates.
Context (n ffac tas alt dT : R) (Hn : 0 < n) (Ht : Rabs tas <= 1000) (Ha : -3000 <= alt <= 60000).
Let x := ffac / n * Rpower (thetaR tas alt dT) 3.8 / deltaR tas alt dT * betaR tas alt dT.
Lemma rates_NP : forall t i, np_interp x (ei_points t) = Some i ->
  nox NP n t (Fin ffac) (Fin tas) (Fin alt) (Fin dT) = Fin (i * noxk tas alt dT * ffac) /\ co_hc NP n t (Fin ffac) (Fin tas) (Fin alt) (Fin dT) = Fin (i * ratioR tas alt dT * ffac).
Proof.
  intros t i Hi. pose proof (ratioR_pos tas alt dT) as Hr.
  assert (I : einterp (Fin x) (ei_points t) = Fin i) by (unfold einterp; rewrite Hi; reflexivity).
  unfold nox, co_hc. rewrite fl2sl_NP by lra. fold x. cbn [interp NP]. rewrite I. cbn [mul NP cst emul sub esub bexp div bsqrt].
  rewrite ediv_fin by lra. rewrite esqrt_fin by (apply Rlt_le, Rdiv_lt_0_compat; lra).
  rewrite (eexp_fin (-0.0001426 * (alt - 12900))) by (unfold exp_max; lra).
  cbn [emul esub]. set (om := 0.001 * exp (-0.0001426 * (alt - 12900))). rewrite eexp_fin.
  2:{ assert (0 < om) by (unfold om; pose proof (exp_pos (-0.0001426 * (alt - 12900))); lra). unfold exp_max. lra. }
  cbn [emul]. split; [|reflexivity]. f_equal. unfold noxk. fold om. ring.
Qed.
Lemma flat_interp : forall t Y, ordinary_table t Y -> np_interp x (ei_points (flat t Y)) = Some Y.
Proof.
  intros t Y (P & H1 & H2 & H3 & _). unfold np_interp, ei_points, flat. cbn [interp_from ff_idl ff_app ff_co ff_to ei_idl ei_app ei_co ei_to]. f_equal.
  repeat (destruct (Rlt_dec _ _); [try reflexivity; field; lra|]). reflexivity.
Qed.
Lemma index_fl : forall t Y X, ordinary_table t Y -> nr x 310 X -> exists i, np_interp x (ei_points t) = Some i /\ 0 <= i <= Y /\ na i (34900 * Y) (interp (FL rd) X (ei_points t)).
Proof.
  intros t Y X (P & H1 & H2 & H3 & B1 & B2 & B3 & B4) NX. pose proof NX as (s & E & _). set (x' := x * exp s) in *. clearbody x'. subst X.
  destruct (interp_fl Y x 310 x' NX ltac:(lra) (ff_idl t) (ei_idl t) [(ff_app t, ei_app t); (ff_co t, ei_co t); (ff_to t, ei_to t)] P B1) as (i & Ei & N).
  - cbn [spaced]. repeat apply conj; auto; lra.
  - apply List.Forall_cons; [cbn; lra|]. apply List.Forall_cons; [cbn; lra|]. apply List.Forall_cons; [cbn; lra|]. apply List.Forall_nil.
  - exists i. split; [exact Ei|]. split.
    + destruct (ei_interp_bounds t x 0 Y) as (i' & Ei' & Bi); auto; try lra. unfold einterp in Ei'. unfold ei_points in Ei'. rewrite Ei in Ei'. injection Ei' as <-. exact Bi.
    + cbn [steps] in N. eapply na_w; [exact N|]. lra.
Qed.
Lemma hum_fl : nr (exp (-19 * (0.001 * exp (-0.0001426 * (alt - 12900)) - 0.00634))) 12
  (bexp (FL rd) (mul (FL rd) (cs (-19)) (sub (FL rd) (mul (FL rd) (cs 0.001) (bexp (FL rd) (mul (FL rd) (cs (-0.0001426)) (sub (FL rd) (Fin alt) (cs 12900))))) (cs 0.00634)))).
Proof.
  assert (N1 : na (alt - 12900) 63000 (sub (FL rd) (Fin alt) (cs 12900))).
  { eapply na_w; [apply (na_sub' alt 0 _ 12900 13200 _); [apply na_exact|apply nr_na with 1; [apply nr_cst; auto|lra|rewrite Rabs_pos_eq; lra]]|]. assert (Rabs (alt - 12900) <= 47100) by (apply Rabs_le; lra). lra. }
  destruct N1 as (d & -> & Hd).
  assert (N2 : na (-0.0001426 * (alt - 12900)) 25 (mul (FL rd) (cs (-0.0001426)) (Fin d))).
  { rewrite Rmult_comm. eapply na_w; [apply (na_scale (alt - 12900) 63000 d (-0.0001426) 2 _ 47100)|].
    - eexists. split; [reflexivity|exact Hd].
    - rewrite Rmult_comm. eapply nr_w; [apply (nr_mul rd Hrd _ 1 _ _ 0 _); [apply nr_cst; auto|apply nr_exact]|lra].
    - apply Rabs_le; lra.
    - lra.
    - rewrite Rabs_left; lra. }
  assert (N3 : nr (0.001 * exp (-0.0001426 * (alt - 12900))) 28 (mul (FL rd) (cs 0.001) (bexp (FL rd) (mul (FL rd) (cs (-0.0001426)) (Fin d))))).
  { eapply nr_w; [apply (nr_mul rd Hrd _ 1 _ _ 26 _); [apply nr_cst; auto|eapply nr_w; [apply nr_exp_na; auto; [exact N2|lra|lra]|lra]]|lra]. }
  set (om := 0.001 * exp _) in *. assert (Bo : 0 <= om <= 0.0098) by (unfold om; split; interval). clearbody om. set (O := mul _ (cs 0.001) _) in *. clearbody O.
  assert (N4 : na (om - 0.00634) 0.31 (sub (FL rd) O (cs 0.00634))).
  { eapply na_w; [apply (na_sub' om 0.281 _ 0.00634 0.0065 _); [apply nr_na with 28; [auto|lra|rewrite Rabs_pos_eq; lra]|apply nr_na with 1; [apply nr_cst; auto|lra|rewrite Rabs_pos_eq; lra]]|]. assert (Rabs (om - 0.00634) <= 0.00634) by (apply Rabs_le; lra). lra. }
  destruct N4 as (e & -> & He).
  eapply nr_w; [apply nr_exp_na; auto; [rewrite Rmult_comm; apply (na_scale (om - 0.00634) 0.31 e (-19) 2 _ 0.0064)| |]|].
  - eexists. split; [reflexivity|exact He].
  - rewrite Rmult_comm. eapply nr_w; [apply (nr_mul rd Hrd _ 1 _ _ 0 _); [apply nr_cst; auto|apply nr_exact]|lra].
  - apply Rabs_le; lra.
  - lra.
  - lra.
  - rewrite Rabs_left; lra.
  - rewrite Rabs_left; lra.
Qed.
Lemma rate_close : forall i y Y g K Z, na i (34900 * Y) (Fin y) -> 0 <= i <= Y -> nr (y * g) K Z -> K <= 300 -> na (i * g) (35700 * (Y * Rabs g)) Z.
Proof.
  intros i y Y g K Z N B M HK. pose proof (nr_k _ _ _ M). pose proof (Rabs_pos g). assert (Rabs i <= Y) by (rewrite Rabs_pos_eq; lra).
  eapply na_w; [apply (na_scale i _ y g K Z Y N M); auto; lra|].
  replace (35700 * (Y * Rabs g)) with (Rabs g * (35700 * Y)) by ring. apply Rmult_le_compat_l; auto. nra.
Qed.
Lemma rates_fl : forall t Y, ordinary_table t Y -> exists i, np_interp x (ei_points t) = Some i /\
  na (i * noxk tas alt dT * ffac) (35700 * Rabs (Y * noxk tas alt dT * ffac)) (nox (FL rd) n t (Fin ffac) (Fin tas) (Fin alt) (Fin dT)) /\
  na (i * ratioR tas alt dT * ffac) (35700 * Rabs (Y * ratioR tas alt dT * ffac)) (co_hc (FL rd) n t (Fin ffac) (Fin tas) (Fin alt) (Fin dT)).
Proof.
  intros t Y Hto. destruct (fl2sl_fl n ffac tas alt dT Hn Ht Ha) as (X & Z & E & NX & NZ). fold x in NX.
  destruct (index_fl t Y X Hto NX) as (i & Ei & Bi & Ni). exists i. split; [exact Ei|]. unfold nox, co_hc. rewrite E. destruct Ni as (y & -> & Hy).
  assert (Ni : na i (34900 * Y) (Fin y)) by (eexists; split; [reflexivity|exact Hy]). pose proof (ratioR_pos tas alt dT) as Pr.
  assert (PY : 0 <= Y) by lra.
  split.
  - replace (i * noxk tas alt dT * ffac) with (i * (noxk tas alt dT * ffac)) by ring. eapply na_w; [apply (rate_close i y Y (noxk tas alt dT * ffac) 160 _ Ni Bi); [|lra]|].
    + apply (nr_x (y * sqrt (1 / ratioR tas alt dT) * exp (-19 * (0.001 * exp (-0.0001426 * (alt - 12900)) - 0.00634)) * ffac)); [eapply nr_w; [apply (nr_mul rd Hrd _ 156 _ _ 0 _); [|apply nr_exact]|lra]|].
      * eapply nr_w; [apply (nr_mul rd Hrd _ 143 _ _ 12 _); [|apply hum_fl]|lra].
        eapply nr_w; [apply (nr_mul rd Hrd _ 0 _ _ 142 _); [apply nr_exact|]|lra].
        eapply nr_w; [apply nr_sqrt; auto; [apply (nr_div rd Hrd 1 1 _ _ 280 _); [apply nr_cst; auto|exact NZ|lra]|]|lra]. apply Rlt_le, Rdiv_lt_0_compat; lra.
      * unfold noxk. ring.
    + right. rewrite Rmult_assoc, (Rabs_mult Y), (Rabs_pos_eq Y) by lra. reflexivity.
  - replace (i * ratioR tas alt dT * ffac) with (i * (ratioR tas alt dT * ffac)) by ring. eapply na_w; [apply (rate_close i y Y (ratioR tas alt dT * ffac) 290 _ Ni Bi); [|lra]|].
    + apply (nr_x (y * ratioR tas alt dT * ffac)); [eapply nr_w; [apply (nr_mul rd Hrd _ 281 _ _ 0 _); [eapply nr_w; [apply (nr_mul rd Hrd _ 0 _ _ 280 _); [apply nr_exact|exact NZ]|lra]|apply nr_exact]|lra]|ring].
    + right. rewrite Rmult_assoc, (Rabs_mult Y), (Rabs_pos_eq Y) by lra. reflexivity.
Qed.
Lemma na_fclose : forall z M Z, na z (35700 * Rabs M) Z -> fclose (3.3e-11 * Rabs M) (Fin z) Z.
Proof.
  intros z M Z (y & -> & H). cbn. rewrite Rabs_minus_sym. eapply Rle_trans; [exact H|]. pose proof v_small. pose proof (Rabs_pos M). nra.
Qed.
(** relative to the emission rate with the largest emission index *)
Theorem C123_rates : forall t Y, ordinary_table t Y ->
  exists M N, nox NP n (flat t Y) (Fin ffac) (Fin tas) (Fin alt) (Fin dT) = Fin M /\ co_hc NP n (flat t Y) (Fin ffac) (Fin tas) (Fin alt) (Fin dT) = Fin N /\
  fclose (3.3e-11 * Rabs M) (nox NP n t (Fin ffac) (Fin tas) (Fin alt) (Fin dT)) (nox (FL rd) n t (Fin ffac) (Fin tas) (Fin alt) (Fin dT)) /\
  fclose (3.3e-11 * Rabs N) (co_hc NP n t (Fin ffac) (Fin tas) (Fin alt) (Fin dT)) (co_hc (FL rd) n t (Fin ffac) (Fin tas) (Fin alt) (Fin dT)).
Proof.
  intros t Y Hto. destruct (rates_fl t Y Hto) as (i & Ei & A & B). destruct (rates_NP t i Ei) as [-> ->]. destruct (rates_NP _ Y (flat_interp t Y Hto)) as [-> ->].
  do 2 eexists. split; [reflexivity|]. split; [reflexivity|]. split; apply na_fclose; auto.
Qed.
(** relative to the emission rate itself, when the emission indices differ by a factor of at most 16 *)
Theorem C123_relative : forall t Y, ordinary_table t Y -> Y <= 16 * ei_idl t -> Y <= 16 * ei_app t -> Y <= 16 * ei_co t -> Y <= 16 * ei_to t ->
  within 6e-10 (nox NP n t (Fin ffac) (Fin tas) (Fin alt) (Fin dT)) (nox (FL rd) n t (Fin ffac) (Fin tas) (Fin alt) (Fin dT)) /\
  within 6e-10 (co_hc NP n t (Fin ffac) (Fin tas) (Fin alt) (Fin dT)) (co_hc (FL rd) n t (Fin ffac) (Fin tas) (Fin alt) (Fin dT)).
Proof.
  intros t Y Hto R1 R2 R3 R4. destruct (rates_fl t Y Hto) as (i & Ei & A & B). destruct (rates_NP t i Ei) as [-> ->]. pose proof v_small. pose proof v_pos.
  pose proof Hto as (P & H1 & H2 & H3 & B1 & B2 & B3 & B4).
  assert (Bi : Y / 16 <= i <= Y).
  { destruct (ei_interp_bounds t x (Y / 16) Y) as (i' & Ei' & Bi); auto; try lra. unfold einterp in Ei'. rewrite Ei in Ei'. injection Ei' as <-. exact Bi. }
  assert (G : forall g Z, na (i * g * ffac) (35700 * Rabs (Y * g * ffac)) Z -> within 6e-10 (Fin (i * g * ffac)) Z).
  { intros g Z (y & -> & H'). cbn. eapply Rle_trans; [exact H'|]. rewrite !Rmult_assoc, (Rabs_mult Y), (Rabs_mult i), (Rabs_pos_eq Y), (Rabs_pos_eq i) by lra.
    pose proof (Rabs_pos (g * ffac)) as PG. set (G := Rabs (g * ffac)) in *. clearbody G.
    apply Rle_trans with (35700 * (16 * i * G) * 9e-16); [|nra]. rewrite <- Rmult_assoc. assert (0 <= i * G) by nra. assert (Y * G <= 16 * i * G) by nra. nra. }
  split; apply G; auto.
Qed.
End Rates.
End Fl.

(** ** every Emission object of the package *)
Definition q4_le (c : Q) (y : Q) (p : Q * Q * Q * Q) : bool := let '(a, b, c', d) := p in Qle_bool y (c * a) && Qle_bool y (c * b) && Qle_bool y (c * c') && Qle_bool y (c * d).
Definition ff_check (e : engrec) : bool :=
  let '(f1, f2, f3, f4) := en_ff e in qlt 0 f4 && Qle_bool (12 * f4) (11 * f3) && Qle_bool (12 * f3) (11 * f2) && Qle_bool (12 * f2) (11 * f1) &&
  let '(s1, s2, s3, s4) := en_nox e in q4_le 16 s1 (en_nox e) && q4_le 16 s2 (en_nox e) && q4_le 16 s3 (en_nox e) && q4_le 16 s4 (en_nox e).
Lemma ff_checked : forallb ff_check shipped_engines = true.
Proof. vm_compute. reflexivity. Qed.
(** the largest of the four emission indices *)
Definition largest (t : ei_table) (Y : R) : Prop := ei_idl t <= Y /\ ei_app t <= Y /\ ei_co t <= Y /\ ei_to t <= Y /\ (Y = ei_idl t \/ Y = ei_app t \/ Y = ei_co t \/ Y = ei_to t).
Lemma largest_ex : forall t, exists Y, largest t Y.
Proof.
  intros t. unfold largest. set (a := ei_idl t). set (b := ei_app t). set (c := ei_co t). set (e := ei_to t).
  exists (Rmax (Rmax a b) (Rmax c e)). unfold Rmax. repeat destruct (Rle_dec _ _); repeat split; try lra; auto.
Qed.
Section Shipped.
Context (d : db) (SH : ships d).
Theorem C123_shipped : forall rd ac eng k o, accurate rd -> emission_new d ac eng k = inr o ->
  let n := Q2R (ac_number (eo_ac o)) in
  let e := er_row (eo_eng o) in
  forall ffac tas alt dT, Rabs tas <= 1000 -> -3000 <= alt <= 60000 ->
  (let t := ei_of e (en_nox e) in within 6e-10 (nox NP n t (Fin ffac) (Fin tas) (Fin alt) (Fin dT)) (nox (FL rd) n t (Fin ffac) (Fin tas) (Fin alt) (Fin dT))) /\
  forall species, species = en_co e \/ species = en_hc e ->
  let t := ei_of e species in
  exists Y N, largest t Y /\ co_hc NP n (flat t Y) (Fin ffac) (Fin tas) (Fin alt) (Fin dT) = Fin N /\
  fclose (3.3e-11 * Rabs N) (co_hc NP n t (Fin ffac) (Fin tas) (Fin alt) (Fin dT)) (co_hc (FL rd) n t (Fin ffac) (Fin tas) (Fin alt) (Fin dT)).
Proof.
  intros rd ac eng k o Hrd H n e ffac tas alt dT Ht Ha. unfold emission_new in H. binds H. injection H as <-.
  cbn in n, e. apply (ship_ac_ok d SH) in E. destruct E as [E _]. apply (ship_eng_ok d SH) in E0. destruct E0 as [E0 Ie].
  assert (Hn : 0 < n) by (unfold ac_check in E; bools; auto).
  pose proof ff_checked as C. rewrite forallb_forall in C. specialize (C _ Ie). fold e in E0, C. unfold eng_check in E0. unfold ff_check in C.
  assert (Q11 : Q2R 11 = 11) by (unfold Q2R; cbn; lra). assert (Q12 : Q2R 12 = 12) by (unfold Q2R; cbn; lra). assert (Q16 : Q2R 16 = 16) by (unfold Q2R; cbn; lra).
  assert (G : forall sp Y, nn4 sp = true -> largest (ei_of e sp) Y -> ordinary_table (ei_of e sp) Y).
  { intros [[[s1 s2] s3] s4] Y Hs (L1 & L2 & L3 & L4 & _). unfold nn4 in Hs. unfold ei_of, ordinary_table in *. clear E0. destruct (en_ff e) as [[[f1 f2] f3] f4]. destruct (en_nox e) as [[[? ?] ?] ?].
    bools. rewrite !Q2R_mult, Q11, Q12 in *. cbn in *. repeat apply conj; lra. }
  split.
  - intros t. destruct (largest_ex t) as (Y & HY). assert (O : ordinary_table t Y) by (apply G; auto; bools; auto).
    destruct HY as (_ & _ & _ & _ & HY). clear E0. unfold t, ei_of in *. destruct (en_ff e) as [[[f1 f2] f3] f4]. destruct (en_nox e) as [[[s1 s2] s3] s4]. unfold q4_le in C.
    bools. rewrite !Q2R_mult, Q16 in *. cbn in HY.
    apply (C123_relative rd Hrd n ffac tas alt dT Hn Ht Ha _ Y O); cbn; destruct HY as [HY|[HY|[HY|HY]]]; rewrite HY; lra.
  - intros sp Hsp t. destruct (largest_ex t) as (Y & HY).
    assert (O : ordinary_table t Y) by (apply G; auto; bools; destruct Hsp; subst sp; auto).
    destruct (C123_rates rd Hrd n ffac tas alt dT Hn Ht Ha t Y O) as (M & N & _ & EN & _ & F). exists Y, N. auto.
Qed.
End Shipped.
(** A320 with its default engine, 1 kg/s of fuel at FL350 and 450 kt *)
Example C123_ex : exists o, emission_new shipped0 "A320" None (mkKwc None None) = inr o /\
  (let t := ei_of (er_row (eo_eng o)) (en_nox (er_row (eo_eng o))) in
   within 6e-10 (nox NP 2 t (Fin 1) (Fin 450) (Fin 35000) (Fin 0)) (nox (FL binary64) 2 t (Fin 1) (Fin 450) (Fin 35000) (Fin 0))) /\
  ordinary_table (mkEI 0.107 0.326 0.961 1.166 4.3 10.0 23.3 28.7) 28.7.
Proof.
  destruct (emission_new shipped0 "A320" None (mkKwc None None)) as [e|o] eqn:E. { vm_compute in E. discriminate. }
  exists o. split; auto.
  destruct (C123_shipped shipped0 shipped0_ships binary64 "A320" None (mkKwc None None) o (proj1 C112_binary64) E 1 450 35000 0 ltac:(rewrite Rabs_pos_eq; lra) ltac:(lra)) as [C _].
  assert (N : Q2R (ac_number (eo_ac o)) = 2) by (vm_compute in E; injection E as <-; cbn; unfold Q2R; cbn; lra). rewrite N in C. split; [exact C|].
  unfold ordinary_table; cbn. lra.
Qed.
