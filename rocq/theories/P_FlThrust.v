(** * Property C121: engine thrust in binary64 *)
From Coq Require Import String List Bool ZArith QArith Qreals Reals Lra Lia Psatz.
From Coquelicot Require Import Coquelicot.
From Interval Require Import Tactic.
From Verif Require Import Py Str PropPy DataAc DataEng DataWrap Build Params PropFacts P_Prop P_Data
  Num NumFacts SpecNum Aero AeroFacts Thrust ThrustFacts P_Thrust Fl SpecFl FlFacts P_Fl P_FlCas P_FlSun FlAtmFacts.
Import ListNotations.
Open Scope R_scope.

Section Takeoff.
Context (rd : rounding) (Hrd : accurate rd) (e : thrust_par).
Local Notation cs := (cst (FL rd)).
Lemma ci1 : cs 1 = Fin 1.
Proof. apply (c_int rd Hrd 1). cbn; lia. Qed.
Lemma ci0 : cs 0 = Fin 0.
Proof. apply (c_int rd Hrd 0). cbn; lia. Qed.
Lemma nb_cs' : forall r, r <= 0 -> -1e8 <= r -> nb r (- r) (1.02 * - r) (cs r).
Proof. intros r H L. apply (nb_cst rd Hrd); [rewrite Rabs_left1; lra|lra]. Qed.
Ltac step :=
  first [ eassumption
        | simple eapply (nb_add rd Hrd); [step|step|]
        | simple eapply (nb_sub rd Hrd); [step|step|]
        | simple eapply (nb_mul rd Hrd); [step|step|]
        | simple eapply nb_cs'; [lra|]
        | simple eapply (nb_cs rd Hrd); [lra|] ].
Lemma coefa_fl : 0 <= eng_bpr e ->
  nr (coefa (eng_bpr e)) 11 (div (FL rd) (mul (FL rd) (cs 0.377) (add (FL rd) (cs 1) (cs (eng_bpr e)))) (bsqrt (FL rd) (mul (FL rd) (add (FL rd) (cs 1) (mul (FL rd) (cs 0.82) (cs (eng_bpr e)))) (add (FL rd) (mul (FL rd) (cs 0.0606) (cs (eng_bpr e))) (cs 0.6337))))) /\
  0 <= coefa (eng_bpr e) <= 1.7.
Proof.
  intros Hb. rewrite ci1. pose proof (coefa_sqrt_pos _ Hb) as Hs. split.
  - unfold coefa. eapply nr_w; [apply (nr_div rd Hrd _ 4.05 _ _ 5.65 _); [| |lra]|lra].
    + eapply nr_w; [apply (nr_mul rd Hrd _ 1 _ _ 2.05 _); [apply nr_cst; auto|]|lra].
      eapply nr_w; [apply (nr_addp rd Hrd _ 0 _ _ 1 _ 1); try lra; [apply nr_exact|apply nr_cst; auto]|lra].
    + eapply nr_w; [apply (nr_sqrt rd Hrd _ 9.3 _)|lra]; [|apply Rmult_le_pos; lra].
      eapply nr_w; [apply (nr_mul rd Hrd _ 4.15 _ _ 4.15 _)|lra].
      * eapply nr_w; [apply (nr_addp rd Hrd _ 0 _ _ 3 _ 3); try lra; [apply nr_exact|]|lra]. eapply nr_w; [apply nr_mul; auto; apply nr_cst; auto|lra].
      * eapply nr_w; [apply (nr_addp rd Hrd _ 3 _ _ 1 _ 3); try lra; [|apply nr_cst; auto]|lra]. eapply nr_w; [apply nr_mul; auto; apply nr_cst; auto|lra].
  - unfold coefa. set (b := eng_bpr e) in *. set (s := sqrt _) in *. split; [apply Rmult_le_pos; [lra|left; apply Rinv_0_lt_compat; auto]|].
    apply Rmult_le_reg_r with s; auto. unfold Rdiv. rewrite Rmult_assoc, Rinv_l, Rmult_1_r by lra.
    assert (S2 : s * s = (1 + 0.82 * b) * (0.0606 * b + 0.6337)) by (unfold s; apply sqrt_sqrt; apply Rmult_le_pos; lra).
    destruct (Rle_dec (0.377 * (1 + b)) (1.7 * s)); auto. exfalso.
    assert (1.7 * s * (1.7 * s) < 0.377 * (1 + b) * (0.377 * (1 + b))) by (apply Rmult_le_0_lt_compat; lra). nra.
Qed.
Lemma coefb_fl : 0 <= eng_bpr e <= 40 -> nb (coefb (eng_bpr e)) 1.44 9 (add (FL rd) (cs 0.23) (mul (FL rd) (cs 0.19) (bsqrt (FL rd) (cs (eng_bpr e))))).
Proof.
  intros Hb. assert (Bs : 0 <= sqrt (eng_bpr e) <= 6.33). { split; [apply sqrt_pos|]. rewrite <- (sqrt_square 6.33) by lra. apply sqrt_le_1_alt. lra. }
  unfold coefb. apply (nb_of_nr _ 5); try lra; [|rewrite Rabs_pos_eq; lra].
  eapply nr_w; [apply (nr_addp rd Hrd _ 1 _ _ 3.5 _ 3.5); try lra; [apply nr_cst; auto|]|lra].
  eapply nr_w; [apply (nr_mul rd Hrd _ 1 _ _ 1.5 _); [apply nr_cst; auto|]|lra]. eapply nr_w; [apply (nr_sqrt rd Hrd); [apply nr_cst; auto|lra]|lra].
Qed.
Context (tas alt dT : R) (Halt : -3000 <= alt <= 60000) (Ht : 0 <= tas <= 600).
Lemma takeoff_ratio_fl : 0 <= eng_bpr e <= 40 -> exists Y, takeoff_thrust (FL rd) e (Fin tas) (Fin alt) (Fin dT) = mul (FL rd) (mul (FL rd) Y (cs (eng_max_thrust e))) (cs (eng_number e)) /\
  nb (polyA (dpR alt dT) - coefa (eng_bpr e) * polyZ (dpR alt dT) * (tas * kts / aR 0 dT) + coefb (eng_bpr e) * polyX (dpR alt dT) * (tas * kts / aR 0 dT) ^ 2) 20 9000 Y.
Proof.
  intros Hb. unfold takeoff_thrust. eexists. split; [reflexivity|]. rewrite ci0.
  assert (NP' : nr (dpR alt dT) 123 (div (FL rd) (pressure (FL rd) (mul (FL rd) (Fin alt) (cs ft)) (Fin dT)) (cs p0))).
  { unfold dpR. eapply nr_w; [apply nr_div; auto; [apply pressure_alt; auto|apply nr_cst; auto|pose proof p0_pos; lra]|lra]. }
  assert (Bp : 0 <= dpR alt dT <= 1.2). { destruct (alt_fl rd Hrd alt Halt) as [_ B]. pose proof (p_bounds (alt * ft) dT ltac:(lra)). unfold dpR. split; [apply Rmult_le_pos; [lra|left; apply Rinv_0_lt_compat; apply p0_pos]|]. uc. lra. }
  set (P := div _ _ _) in *. clearbody P. set (p := dpR alt dT) in *. clearbody p.
  assert (D1 : nb p 1.2 151 P) by (apply (nb_of_nr _ 123); try lra; [exact NP'|rewrite Rabs_pos_eq; lra]).
  assert (D2 : nb (p ^ 2) 1.44 364 (powi (FL rd) P 2)).
  { apply (nb_of_nr _ 247); try lra; [eapply nr_w; [apply nr_powi; auto; exact NP'|cbn [INR]; lra]|]. rewrite Rabs_pos_eq by (apply pow2_ge_0). cbn. nra. }
  assert (D3 : nb (p ^ 3) 1.728 654 (powi (FL rd) P 3)).
  { apply (nb_of_nr _ 370); try lra; [eapply nr_w; [apply nr_powi; auto; exact NP'|cbn [INR]; lra]|]. rewrite Rabs_pos_eq by (apply pow_le; lra). replace 1.728 with (1.2 ^ 3) by lra. apply pow_incr; lra. }
  destruct (coefa_fl ltac:(lra)) as [CA BA]. set (CAt := div (FL rd) (mul (FL rd) (cs 0.377) _) _) in *. clearbody CAt.
  assert (CA' : nb (coefa (eng_bpr e)) 1.7 20 CAt) by (apply (nb_of_nr _ 11); try lra; [exact CA|rewrite Rabs_pos_eq; lra]).
  pose proof (coefb_fl Hb) as CB. set (CBt := add (FL rd) (cs 0.23) _) in *. clearbody CBt.
  assert (BM : 0 <= tas * kts / aR 0 dT <= 1).
  { assert (325 <= aR 0 dT). { unfold aR. rewrite tR_low by lra. pose proof (clipT_range dT). rewrite <- (sqrt_square 325) by lra. apply sqrt_le_1_alt. uc. lra. }
    split; [apply Rmult_le_pos; [uc; lra|left; apply Rinv_0_lt_compat; lra]|]. apply Rmult_le_reg_r with (aR 0 dT); [lra|]. unfold Rdiv. rewrite Rmult_assoc, Rinv_l by lra. uc; lra. }
  assert (NM : nr (tas * kts / aR 0 dT) 11 (tas2mach (FL rd) (mul (FL rd) (Fin tas) (cs kts)) (Fin 0) (Fin dT))).
  { unfold tas2mach. pose proof (aR_pos 0 dT). eapply nr_w; [apply nr_div; auto; [apply nr_mul; auto; [apply nr_exact|apply nr_cst; auto]|apply vsound_fl; auto; lra|lra]|lra]. }
  set (M := tas2mach _ _ _ _) in *. clearbody M. set (m := tas * kts / aR 0 dT) in *. clearbody m.
  assert (M1 : nb m 1 12 M) by (apply (nb_of_nr _ 11); try lra; [exact NM|rewrite Rabs_pos_eq; lra]).
  assert (M2 : nb (m ^ 2) 1 24 (powi (FL rd) M 2)).
  { apply (nb_of_nr _ 23); try lra; [eapply nr_w; [apply nr_powi; auto; exact NM|cbn [INR]; lra]|]. rewrite Rabs_pos_eq by (apply pow2_ge_0). cbn. nra. }
  unfold polyA, polyZ, polyX. eapply nb_w; [step|..]; lra.
Qed.
End Takeoff.

(** ** Calibrated airspeed of a rounded speed at a rounded altitude *)
Lemma vq_scale : forall p r q k, 0 < p -> 0 < r -> 0 < q -> 1 <= k -> vq p r q <= vq p r (k * q) <= sqrt k * vq p r q.
Proof.
  intros p r q k Pp Pr Pq Hk. unfold vq. replace 7.0 with 7 by lra. replace 1.0 with 1 by lra. replace 2.0 with 2 by lra.
  assert (F : 0 < 7 * p / r) by (apply Rdiv_lt_0_compat; lra). set (s := q / p). assert (Ps : 0 < s) by (unfold s; apply Rdiv_lt_0_compat; lra).
  replace (k * q / p) with (k * s) by (unfold s; field; lra).
  pose proof (pow27_scale s k ltac:(lra) Hk) as B.
  assert (Z : 0 <= Rpower (1 + s) (2 / 7) - 1) by (pose proof (Rpower_ge_1 (1 + s) (2 / 7) ltac:(lra) ltac:(lra)); lra).
  assert (M : Rpower (1 + s) (2 / 7) <= Rpower (1 + k * s) (2 / 7)) by (apply Rpower_le_base; nra).
  split.
  - apply sqrt_le_1_alt. apply Rmult_le_compat_l; lra.
  - rewrite <- sqrt_mult; [|lra|apply Rmult_le_pos; lra]. apply sqrt_le_1_alt.
    replace (k * (7 * p / r * (Rpower (1 + s) (2 / 7) - 1))) with (7 * p / r * (k * (Rpower (1 + s) (2 / 7) - 1))) by ring. apply Rmult_le_compat_l; lra.
Qed.
Lemma vq_pos : forall p r q, 0 < p -> 0 < r -> 0 < q -> 0 < vq p r q.
Proof.
  intros p r q Pp Pr Pq. unfold vq. replace 7.0 with 7 by lra. replace 1.0 with 1 by lra. replace 2.0 with 2 by lra. apply sqrt_lt_R0.
  assert (F : 0 < 7 * p / r) by (apply Rdiv_lt_0_compat; lra). assert (Ps : 0 < q / p) by (apply Rdiv_lt_0_compat; lra).
  apply Rmult_lt_0_compat; auto. assert (1 < Rpower (1 + q / p) (2 / 7)); [|lra]. rewrite <- (Rpower_O (1 + q / p)) at 1 by lra. apply Rpower_lt; lra.
Qed.
Lemma vq_nr : forall p r q t, 0 < p -> 0 < r -> 0 < q -> exists t', vq p r (q * exp t) = vq p r q * exp t' /\ Rabs t' <= Rabs t / 2.
Proof.
  assert (Up : forall p r q t, 0 < p -> 0 < r -> 0 < q -> 0 <= t -> exists t', vq p r (q * exp t) = vq p r q * exp t' /\ 0 <= t' <= t / 2).
  { intros p r q t Pp Pr Pq Pt. assert (He : 1 <= exp t) by (pose proof (exp_ineq1_le t); lra).
    pose proof (vq_scale p r q (exp t) Pp Pr Pq He) as [L U]. rewrite (Rmult_comm (exp t) q) in *. pose proof (vq_pos p r q Pp Pr Pq) as C.
    assert (Es : sqrt (exp t) = exp (t / 2)). { replace t with (t / 2 + t / 2) at 1 by lra. rewrite exp_plus. apply sqrt_square. left. apply exp_pos. }
    rewrite Es in U. set (A := vq p r (q * exp t)) in *. set (B := vq p r q) in *. exists (ln (A / B)).
    assert (Q1 : 1 <= A / B). { apply Rmult_le_reg_r with B; auto. replace (A / B * B) with A by (field; lra). lra. }
    assert (Q2 : A / B <= exp (t / 2)). { apply Rmult_le_reg_r with B; auto. replace (A / B * B) with A by (field; lra). lra. }
    split; [rewrite exp_ln by lra; field; lra|]. split.
    - rewrite <- ln_1. destruct Q1 as [Q1| <-]; [left; apply ln_increasing; lra|lra].
    - rewrite <- (ln_exp (t / 2)). destruct Q2 as [Q2| ->]; [left; apply ln_increasing; lra|lra]. }
  intros p r q t Pp Pr Pq. destruct (Rle_dec 0 t) as [Pt|Nt].
  - destruct (Up p r q t Pp Pr Pq Pt) as (t' & E & B). exists t'. split; auto. rewrite !Rabs_pos_eq; lra.
  - pose proof (exp_pos t). destruct (Up p r (q * exp t) (- t) Pp Pr ltac:(nra) ltac:(lra)) as (t' & E & B).
    replace (q * exp t * exp (- t)) with q in E by (rewrite Rmult_assoc, <- exp_plus; replace (t + - t) with 0 by ring; rewrite exp_0; ring).
    exists (- t'). split; [|rewrite Rabs_Ropp, Rabs_pos_eq, Rabs_left; lra]. rewrite E, Rmult_assoc, <- exp_plus. replace (t' + - t') with 0 by ring. rewrite exp_0. ring.
Qed.
Lemma qd_pos : forall p r s, 0 < p -> 0 < r -> 0 < s -> 0 < qd p r s.
Proof.
  intros p r s Pp Pr Ps. unfold qd. replace 7.0 with 7 by lra. replace 1.0 with 1 by lra. apply Rmult_lt_0_compat; auto.
  assert (0 < r * s * s / (7 * p)) by (apply Rdiv_lt_0_compat; [|lra]; apply Rmult_lt_0_compat; [nra|auto]).
  pose proof (pow35_lb (r * s * s / (7 * p)) ltac:(lra)). lra.
Qed.
(** the altitude enters through pressure and density only *)
Lemma t2cR_alt : forall s h h' dT E, 0 < s -> Rabs (h' - h) <= E * v -> 0 <= E <= 1e6 -> nr (t2cR s h dT) (2.4e-4 * E) (Fin (t2cR s h' dT)).
Proof.
  intros s h h' dT E Ps HE B. destruct (rhoR_alt h h' dT E HE B) as (b & Eb & Bb). injection Eb as Eb. destruct (tR_alt h h' dT E HE B) as (t & Et & Bt). injection Et as Et.
  pose proof (pR_pos h dT) as Pp. pose proof (rhoR_pos h dT) as Pr. pose proof v_pos. assert (PE : 0 <= E * v) by nra.
  assert (Ep : pR h' dT = pR h dT * exp (b + t)) by (unfold pR; rewrite Eb, Et, exp_plus; ring).
  unfold t2cR, conv. rewrite Ep, Eb.
  assert (Q : qd (pR h dT * exp (b + t)) (rhoR h dT * exp b) s = qd (pR h dT) (rhoR h dT) (s * exp (- t / 2)) * exp (b + t)).
  { unfold qd. replace 7.0 with 7 by lra. pose proof (exp_pos (b + t)). 
    replace (rhoR h dT * exp b * s * s / (7 * (pR h dT * exp (b + t)))) with (rhoR h dT * (s * exp (- t / 2)) * (s * exp (- t / 2)) / (7 * pR h dT)); [ring|].
    replace (exp b) with (exp (- t / 2) * exp (- t / 2) * exp (b + t)) by (rewrite <- !exp_plus; f_equal; lra). field. split; lra. }
  rewrite Q. pose proof (exp_pos (- t / 2)).
  destruct (vq_nr p0 rho0 (qd (pR h dT) (rhoR h dT) (s * exp (- t / 2))) (b + t) p0_pos rho0_pos) as (t1 & -> & B1); [apply qd_pos; nra|].
  destruct (conv_nr (pR h dT) (rhoR h dT) p0 rho0 s (- t / 2) Pp Pr p0_pos rho0_pos Ps) as (t2 & E2' & B2). unfold conv in E2'. rewrite E2'.
  exists (t2 + t1). split; [rewrite exp_plus; f_equal; ring|].
  assert (Rabs (b + t) <= 3.4e-4 * E * v) by (eapply Rle_trans; [apply Rabs_triang|]; lra).
  assert (Rabs (- t / 2) <= 1.74e-5 * E * v) by (unfold Rdiv; rewrite Rabs_mult, Rabs_Ropp, (Rabs_pos_eq (/ 2)) by lra; lra).
  eapply Rle_trans; [apply Rabs_triang|]. lra.
Qed.
Section Cas.
Context (rd : rounding) (Hrd : accurate rd).
Lemma tas2cas_nr : forall s k S x kx X dT, nr s k S -> nr x kx X -> kx <= 3 -> -920 <= x <= 18290 -> 10.1 <= s <= 690 -> k <= 20 ->
  nr (t2cR s x dT) 300100 (tas2cas (FL rd) S X (Fin dT)).
Proof.
  intros s k S x kx X dT (t & -> & Bt) HX Kx Bx Bs Bk. destruct (alt_nr x kx X HX Kx Bx) as (h' & -> & D & Bh). pose proof v_pos. pose proof v_small.
  assert (St : Rabs t <= 0.001) by (assert (0 <= k) by (pose proof (Rabs_pos t); nra); nra). pose proof (exp_m1 t 0.001 St ltac:(lra)) as Q. apply Rabs_le_inv in Q.
  pose proof (tas2cas_fl rd Hrd h' dT Bh (s * exp t) ltac:(nra)) as N.
  pose proof (t2cR_alt (s * exp t) x h' dT 57000 ltac:(nra) D ltac:(lra)) as A.
  destruct (conv_nr (pR x dT) (rhoR x dT) p0 rho0 s t (pR_pos x dT) (rhoR_pos x dT) p0_pos rho0_pos ltac:(lra)) as (t2 & E2' & B2).
  assert (C : nr (t2cR s x dT) 70 (Fin (t2cR (s * exp t) x dT))) by (exists t2; split; [f_equal; exact E2'|nra]).
  eapply nr_w; [eapply nr_trans; [exact C|eapply nr_trans; [exact A|exact N]]|lra].
Qed.
End Cas.
Lemma t2cR_closed : forall s h dT, t2cR s h dT = sqrt (7 * p0 / rho0 * (Rpower (1 + pR h dT * (Rpower (1 + s * s / (7 * Rgas * tR h dT)) 3.5 - 1) / p0) (2 / 7) - 1)).
Proof.
  intros s h dT. unfold t2cR, conv, vq, qd. replace 7.0 with 7 by lra. replace 1.0 with 1 by lra. replace 2.0 with 2 by lra.
  pose proof (rhoR_pos h dT). pose proof (tR_pos h dT). replace (rhoR h dT * s * s / (7 * pR h dT)) with (s * s / (7 * Rgas * tR h dT)); [reflexivity|]. unfold pR. field. repeat split; uc; lra.
Qed.
Lemma vcas_bounds : forall s h dT, 10.1 <= s <= 309 -> -1000 <= h <= 20000 -> 1 <= t2cR s h dT <= 415.
Proof.
  intros s h dT Hs Hh. rewrite t2cR_closed. pose proof (p_bounds h dT Hh). pose proof (tR_pos h dT). pose proof (tR_ub h dT ltac:(lra)).
  assert (BX : 385000 <= 7 * Rgas * tR h dT <= 622300) by (uc; lra). set (X := 7 * Rgas * tR h dT) in *. clearbody X.
  assert (He : 1.6e-4 <= s * s / X <= 0.249). { split; apply Rmult_le_reg_r with X; try lra; replace (s * s / X * X) with (s * s) by (field; lra); nra. }
  set (e := s * s / X) in *. clearbody e. set (p := pR h dT) in *. clearbody p. unfold p0, rho0, Rpower. split; interval.
Qed.
Lemma rho_lb45 : forall h dT, h <= 13716 -> 0.2063 <= rhoR h dT.
Proof.
  intros h dT H. pose proof (T0s_pos dT). pose proof (tR_lb h dT). pose proof (clipT_range dT). unfold rhoR.
  assert (L : 0.728 <= tR h dT / (T0 + clipT dT)). { apply Rmult_le_reg_r with (T0 + clipT dT); try lra; unfold Rdiv; rewrite Rmult_assoc, Rinv_l by lra; uc; lra. }
  assert (A : 0.2586 <= Rpower (tR h dT / (T0 + clipT dT)) 4.256848030018761).
  { apply Rle_trans with (Rpower 0.728 4.256848030018761); [clear; unfold Rpower; interval|apply Rpower_le_base; lra]. }
  assert (B : 0.6515 <= exp (- Rmax 0.0 (h - 11000.0) / 6341.552161)).
  { apply Rle_trans with (exp (- 2716 / 6341.552161)); [clear; interval|]. assert (E : - 2716 / 6341.552161 <= - Rmax 0.0 (h - 11000.0) / 6341.552161).
    { apply Rmult_le_compat_r; [left; apply Rinv_0_lt_compat; lra|]. assert (Rmax 0.0 (h - 11000.0) <= 2716) by (apply Rmax_lub; lra). lra. }
    destruct E as [E| ->]; [left; apply exp_increasing; auto|lra]. }
  uc. nra.
Qed.
Lemma pcr_lb : forall h dT, h <= 13716 -> 11340 <= pR h dT.
Proof. intros h dT H. pose proof (rho_lb45 h dT H). pose proof (tR_pos h dT). unfold pR. uc. nra. Qed.
Lemma vref_bounds : forall m h dT, 0.5 <= m <= 0.95 -> -1000 <= h <= 13716 -> 57 <= t2cR (m * aR h dT) h dT <= 360.
Proof.
  intros m h dT Hm Hh. rewrite t2cR_closed. pose proof (p_bounds h dT ltac:(lra)). pose proof (pcr_lb h dT ltac:(lra)). pose proof (tR_pos h dT).
  assert (Ee : m * aR h dT * (m * aR h dT) / (7 * Rgas * tR h dT) = m * m / 5).
  { assert (S : aR h dT * aR h dT = gamma * Rgas * tR h dT) by (unfold aR; apply sqrt_sqrt; uc; lra).
    replace (m * aR h dT * (m * aR h dT)) with (m * m * (aR h dT * aR h dT)) by ring. rewrite S. replace gamma with (7 / 5) by (uc; lra). field. split; [lra|uc; lra]. }
  rewrite Ee. set (p := pR h dT) in *. clearbody p. unfold p0, rho0, Rpower. split; interval.
Qed.

(** powers with an exponent known up to an absolute error, logarithms *)
Section Calc2.
Context (rd : rounding) (Hrd : accurate rd).
Lemma nr_power_na : forall x k X y c Y L, nr x k X -> na y c Y -> 0 < x -> Rabs (ln x) <= L -> c <= 1e9 -> nr (Rpower x y) ((Rabs y + 0.01) * k + L * c + 1) (power (FL rd) X Y).
Proof.
  intros x k X y c Y L (t & -> & H) (y' & -> & S) P HL Lc. apply nr_rnd; auto. pose proof v_pos. pose proof v_small. pose proof (exp_pos t).
  assert (0 <= k) by (pose proof (Rabs_pos t); nra). assert (0 <= c) by (pose proof (Rabs_pos (y' - y)); nra).
  exists (y' * t + (y' - y) * ln x). split.
  - cbn [epower]. destruct (Rlt_dec 0 (x * exp t)) as [_|Q]; [|exfalso; apply Q; nra]. f_equal. unfold Rpower. rewrite ln_mult, ln_exp by lra. rewrite <- exp_plus. f_equal. ring.
  - eapply Rle_trans; [apply Rabs_triang|]. rewrite !Rabs_mult.
    assert (Rabs y' <= Rabs y + 0.01). { replace y' with (y + (y' - y)) by ring. eapply Rle_trans; [apply Rabs_triang|]. nra. }
    pose proof (Rabs_pos y'). pose proof (Rabs_pos t). pose proof (Rabs_pos (y' - y)). pose proof (Rabs_pos (ln x)).
    assert (Rabs y' * Rabs t <= (Rabs y + 0.01) * (k * v)) by (apply Rmult_le_compat; lra).
    assert (Rabs (y' - y) * Rabs (ln x) <= c * v * L) by (apply Rmult_le_compat; lra). lra.
Qed.
Lemma na_log : forall x k X, nr x k X -> 0 < x -> k <= 1e9 -> na (ln x) (1.02 * (k + Rabs (ln x))) (blog (FL rd) X).
Proof.
  intros x k X H P K. pose proof (nr_k _ _ _ H). destruct H as (t & -> & H). pose proof v_pos. pose proof v_small. pose proof (exp_pos t).
  assert (N : na (ln x) k (elog (Fin (x * exp t)))). { cbn [elog]. destruct (Rlt_dec 0 (x * exp t)) as [_|Q]; [|exfalso; apply Q; nra]. eexists. split; [reflexivity|]. rewrite ln_mult, ln_exp by lra. replace (ln x + t - ln x) with t by ring. exact H. }
  pose proof (na_rnd rd Hrd Olog [Fin (x * exp t)] _ _ _ N ltac:(lra)) as M. eapply na_w; [exact M|lra].
Qed.
End Calc2.
(** a ratio with an absolute error times a thrust *)
Lemma fclose_scale : forall r p a y F K Z d, nb r p a (Fin y) -> nr (y * F) K Z -> 0 <= F -> K <= 1000 -> (a + 1.02 * K * (p + 1)) * 9e-16 <= d -> fclose (d * F) (Fin (r * F)) Z.
Proof.
  intros r p a y F K Z d H N PF LK L. pose proof (nb_k _ _ _ _ H) as [Pp Pa]. destruct H as (Pr & La & (y' & E & D)). injection E as <-.
  pose proof v_pos. pose proof v_small. pose proof (nr_k _ _ _ N).
  assert (By : Rabs y <= p + 1). { replace y with (r + (y - r)) by ring. eapply Rle_trans; [apply Rabs_triang|]. nra. }
  destruct (nr_na _ _ _ _ N ltac:(lra) (Rle_refl _)) as (z & -> & Dz). cbn [fclose].
  rewrite Rabs_mult, (Rabs_pos_eq F) in Dz by lra.
  replace (r * F - z) with (- ((z - y * F) + (y - r) * F)) by ring. rewrite Rabs_Ropp. eapply Rle_trans; [apply Rabs_triang|]. rewrite (Rabs_mult (y - r)), (Rabs_pos_eq F) by lra.
  pose proof (Rabs_pos y).
  assert (A1 : 1.02 * K * (Rabs y * F) * v <= 1.02 * K * (p + 1) * v * F).
  { replace (1.02 * K * (Rabs y * F) * v) with (1.02 * K * Rabs y * (v * F)) by ring. replace (1.02 * K * (p + 1) * v * F) with (1.02 * K * (p + 1) * (v * F)) by ring.
    apply Rmult_le_compat_r; [nra|]. apply Rmult_le_compat_l; lra. }
  assert (A2 : Rabs (y - r) * F <= a * v * F) by (apply Rmult_le_compat_r; lra).
  assert (A3 : (a + 1.02 * K * (p + 1)) * v <= d). { eapply Rle_trans; [|exact L]. apply Rmult_le_compat_l; [|lra]. assert (0 <= K * (p + 1)) by (apply Rmult_le_pos; lra). lra. }
  assert ((a + 1.02 * K * (p + 1)) * v * F <= d * F) by (apply Rmult_le_compat_r; lra). lra.
Qed.

(** ** C121: thrust at take-off and idle *)
Theorem C121_takeoff : forall rd e tas alt dT, accurate rd -> 0 <= eng_bpr e <= 40 -> 0 < eng_max_thrust e -> 0 < eng_number e -> -3000 <= alt <= 60000 -> 0 <= tas <= 600 ->
  fclose (1e-11 * (eng_max_thrust e * eng_number e)) (takeoff_thrust NP e (Fin tas) (Fin alt) (Fin dT)) (takeoff_thrust (FL rd) e (Fin tas) (Fin alt) (Fin dT)) /\
  fclose (1e-12 * (eng_max_thrust e * eng_number e)) (descent_idle NP e (Fin tas) (Fin alt) (Fin dT)) (descent_idle (FL rd) e (Fin tas) (Fin alt) (Fin dT)).
Proof.
  intros rd e tas alt dT Hrd Hb HF Hn Halt Ht. destruct (takeoff_ratio_fl rd Hrd e tas alt dT Halt Ht Hb) as (Y & E & N).
  assert (PF : 0 <= eng_max_thrust e * eng_number e) by nra.
  unfold descent_idle. rewrite E, takeoff_NP by lra. unfold toR.
  set (r := polyA _ - _ + _) in *. clearbody r.
  pose proof N as (_ & _ & (y & -> & _)).
  assert (M : nr (y * eng_max_thrust e * eng_number e) 4 (mul (FL rd) (mul (FL rd) (Fin y) (cst (FL rd) (eng_max_thrust e))) (cst (FL rd) (eng_number e)))).
  { eapply nr_w; [apply nr_mul; auto; [apply nr_mul; auto; [apply nr_exact|apply nr_cst; auto]|apply nr_cst; auto]|lra]. }
  split.
  - rewrite Rmult_assoc. rewrite Rmult_assoc in M. apply (fclose_scale r 20 9000 y _ 4); auto; lra.
  - cbn [mul NP cst emul].
    replace (0.07 * (r * eng_max_thrust e * eng_number e)) with (r * (0.07 * (eng_max_thrust e * eng_number e))) by ring.
    replace (1e-12 * (eng_max_thrust e * eng_number e)) with ((1e-12 / 0.07) * (0.07 * (eng_max_thrust e * eng_number e))) by (rewrite <- Rmult_assoc; f_equal; lra).
    apply (fclose_scale r 20 9000 y _ 6); auto; try lra.
    eapply nr_w; [eapply nr_x; [apply nr_mul; auto; [apply nr_cst; auto|exact M]|ring]|lra].
Qed.

(** ** Climb and cruise *)
Definition ordinary_engine (e : thrust_par) : Prop :=
  30000 <= cruise_alt e <= 45000 /\ 0.5 <= cruise_mach e <= 0.95 /\ 0 < eng_cruise_thrust e /\ 0 < eng_number e.
Section Climb.
Context (rd : rounding) (Hrd : accurate rd) (e : thrust_par) (He : ordinary_engine e).
Context (tas alt roc dT : R) (Halt : -3000 <= alt <= 60000) (Ht : 20 <= tas <= 600) (Hr : Rabs roc <= 10000).
Local Notation cs := (cst (FL rd)).
Local Notation s := (Rmax 10 tas * kts).
Local Notation h := (alt * ft).
Lemma s_range : 10.2 <= s <= 308.7.
Proof. rewrite Rmax_right by lra. uc. lra. Qed.
Lemma h_range : -920 <= h <= 18290.
Proof. apply (alt_fl rd Hrd alt Halt). Qed.
Lemma hcr_range : 9143 <= cruise_alt e * ft <= 13716.
Proof. destruct He as (H & _). uc. lra. Qed.
Lemma h_nr : nr h 2 (mul (FL rd) (Fin alt) (cs ft)).
Proof. apply (alt_fl rd Hrd alt Halt). Qed.
Lemma hcr_nr : nr (cruise_alt e * ft) 3 (mul (FL rd) (cs (cruise_alt e)) (cs ft)).
Proof. eapply nr_w; [apply nr_mul; auto; apply nr_cst; auto|lra]. Qed.
Lemma h10_nr : nr (10000 * ft) 2 (mul (FL rd) (cs 10000) (cs ft)).
Proof. rewrite (c_int rd Hrd 10000) by (cbn; lia). eapply nr_w; [apply nr_mul; auto; [apply nr_exact|apply nr_cst; auto]|lra]. Qed.
Lemma s_nr : nr s 2 (mul (FL rd) (maximum (FL rd) (cs 10) (Fin tas)) (cs kts)).
Proof. rewrite (c_int rd Hrd 10) by (cbn; lia). eapply nr_w; [apply nr_mul; auto; [apply nr_exact|apply nr_cst; auto]|lra]. Qed.
Lemma mr_nr : nr (mrR e s h dT) 14 (div (FL rd) (tas2mach (FL rd) (mul (FL rd) (maximum (FL rd) (cs 10) (Fin tas)) (cs kts)) (mul (FL rd) (Fin alt) (cs ft)) (Fin dT)) (cs (cruise_mach e))).
Proof.
  destruct He as (_ & Hm & _). unfold mrR. eapply nr_w; [apply (nr_div rd Hrd _ 12 _ _ 1 _); [eapply nr_w; [apply (mach_alt rd Hrd _ 2); auto; apply s_nr|lra]|apply nr_cst; auto|lra]|lra].
Qed.
Lemma mr_range : 0.03 <= mrR e s h dT <= 2.24.
Proof.
  destruct He as (_ & Hm & _). pose proof s_range. pose proof h_range. pose proof (tR_pos h dT). pose proof (tR_ub h dT ltac:(lra)).
  assert (Ba : 277 <= aR h dT <= 353).
  { unfold aR. split; [rewrite <- (sqrt_square 277) by lra|rewrite <- (sqrt_square 353) by lra]; apply sqrt_le_1_alt; uc; lra. }
  unfold mrR. set (a := aR h dT) in *. set (sp := Rmax 10 tas * kts) in *. clearbody a sp.
  replace (sp / a / cruise_mach e) with (sp / (a * cruise_mach e)) by (field; lra).
  assert (138.5 <= a * cruise_mach e <= 335.4) by nra.
  split; apply Rmult_le_reg_r with (a * cruise_mach e); try lra; unfold Rdiv; rewrite Rmult_assoc, Rinv_l by lra; lra.
Qed.
Lemma xr_nr : nr (xrR e s h dT) 600201 (div (FL rd) (tas2cas (FL rd) (mul (FL rd) (maximum (FL rd) (cs 10) (Fin tas)) (cs kts)) (mul (FL rd) (Fin alt) (cs ft)) (Fin dT))
  (mach2cas (FL rd) (cs (cruise_mach e)) (mul (FL rd) (cs (cruise_alt e)) (cs ft)) (Fin dT))).
Proof.
  destruct He as (_ & Hm & _). pose proof (vrefR_pos e dT ltac:(lra)). pose proof s_range. pose proof h_range. pose proof hcr_range.
  unfold xrR. eapply nr_w; [apply (nr_div rd Hrd _ 300100 _ _ 300100 _); [| |lra]|lra].
  - apply (tas2cas_nr rd Hrd _ 2 _ _ 2 _); try lra; [apply s_nr|apply h_nr].
  - unfold mach2cas, vrefR, mach2tas. set (ac := aR (cruise_alt e * ft) dT).
    assert (Ba : 277 <= ac <= 353).
    { pose proof (tR_pos (cruise_alt e * ft) dT). pose proof (tR_ub (cruise_alt e * ft) dT ltac:(lra)). unfold ac, aR. split; [rewrite <- (sqrt_square 277) by lra|rewrite <- (sqrt_square 353) by lra]; apply sqrt_le_1_alt; uc; lra. }
    apply (tas2cas_nr rd Hrd _ 11 _ _ 3 _); try lra; [|apply hcr_nr|nra].
    eapply nr_w; [apply (nr_mul rd Hrd _ 1 _ _ 9 _); [apply nr_cst; auto|apply (vsound_nr rd Hrd _ 3 _); [apply hcr_nr|lra|lra]]|lra].
Qed.
Lemma xr_range : 0.0027 <= xrR e s h dT <= 7.3.
Proof.
  destruct He as (_ & Hm & _). pose proof s_range. pose proof h_range. pose proof hcr_range.
  pose proof (vcas_bounds s h dT ltac:(lra) ltac:(lra)). pose proof (vref_bounds (cruise_mach e) (cruise_alt e * ft) dT ltac:(lra) ltac:(lra)) as V. fold (vrefR e dT) in V.
  unfold xrR. split; apply Rmult_le_reg_r with (vrefR e dT); try lra; unfold Rdiv; rewrite Rmult_assoc, Rinv_l by lra; lra.
Qed.
Lemma pcr_nr : nr (pR (cruise_alt e * ft) dT) 121 (pressure (FL rd) (mul (FL rd) (cs (cruise_alt e)) (cs ft)) (Fin dT)).
Proof. pose proof hcr_range. apply (pressure_nr rd Hrd _ 3); [apply hcr_nr|lra|lra]. Qed.
Lemma pr_nr : nr (prR e h dT) 243 (div (FL rd) (pressure (FL rd) (mul (FL rd) (Fin alt) (cs ft)) (Fin dT)) (pressure (FL rd) (mul (FL rd) (cs (cruise_alt e)) (cs ft)) (Fin dT))).
Proof. pose proof (pR_pos (cruise_alt e * ft) dT). unfold prR. eapply nr_w; [apply (nr_div rd Hrd _ 121 _ _ 121 _); [apply pressure_alt; auto|apply pcr_nr|lra]|lra]. Qed.
Lemma pr10_nr : nr (prR e (10000 * ft) dT) 243 (div (FL rd) (pressure (FL rd) (mul (FL rd) (cs 10000) (cs ft)) (Fin dT)) (pressure (FL rd) (mul (FL rd) (cs (cruise_alt e)) (cs ft)) (Fin dT))).
Proof. pose proof (pR_pos (cruise_alt e * ft) dT). unfold prR. eapply nr_w; [apply (nr_div rd Hrd _ 121 _ _ 121 _); [apply (pressure_nr rd Hrd _ 2); [apply h10_nr|lra|uc; lra]|apply pcr_nr|lra]|lra]. Qed.
Lemma pr_range : forall x, -920 <= x <= 18290 -> 0.0345 <= prR e x dT <= 10.68.
Proof.
  intros x Hx. pose proof hcr_range. pose proof (p_bounds x dT ltac:(lra)). pose proof (p_bounds (cruise_alt e * ft) dT ltac:(lra)). pose proof (pcr_lb (cruise_alt e * ft) dT ltac:(lra)).
  unfold prR. split; apply Rmult_le_reg_r with (pR (cruise_alt e * ft) dT); try lra; unfold Rdiv; rewrite Rmult_assoc, Rinv_l by lra; lra.
Qed.
Lemma pr10_lb : 1 <= prR e (10000 * ft) dT.
Proof.
  pose proof hcr_range. pose proof (pR_pos (cruise_alt e * ft) dT). pose proof (pR_decr (10000 * ft) (cruise_alt e * ft) dT ltac:(uc; lra)).
  unfold prR. apply Rmult_le_reg_r with (pR (cruise_alt e * ft) dT); try lra; unfold Rdiv; rewrite Rmult_assoc, Rinv_l by lra; lra.
Qed.
Lemma lnpr : forall x, -920 <= x <= 18290 -> Rabs (ln (prR e x dT)) <= 3.37.
Proof. intros x Hx. pose proof (pr_range x Hx). set (p := prR e x dT) in *. clearbody p. apply Rabs_le. split; interval. Qed.
Ltac step :=
  first [ eassumption
        | simple eapply (nb_add rd Hrd); [step|step|]
        | simple eapply (nb_sub rd Hrd); [step|step|]
        | simple eapply (nb_mul rd Hrd); [step|step|]
        | simple eapply (nb_cs' rd Hrd); [lra|]
        | simple eapply (nb_cs rd Hrd); [lra|] ].
Lemma seg3_fl : forall M P, nr (mrR e s h dT) 14 M -> nr (prR e h dT) 243 P ->
  nb (seg3R e s h dT) 9 720 (add (FL rd) (mul (FL rd) (dfunc (FL rd) M) (blog (FL rd) P)) (power (FL rd) M (cs (-0.11)))).
Proof.
  intros M P HM HP. pose proof mr_range as Rm. pose proof h_range as Rh. pose proof (pr_range h Rh) as Rp. pose proof (lnpr h Rh) as Lp.
  unfold seg3R, dfunc. set (m := mrR e s h dT) in *. set (p := prR e h dT) in *. clearbody m p.
  assert (Nm : nb m 2.24 32 M) by (apply (nb_of_nr _ 14); try lra; [exact HM|rewrite Rabs_pos_eq; lra]).
  assert (Np : nb (ln p) 3.37 252 (blog (FL rd) P)). { split; auto. split; [lra|]. eapply na_w; [apply (na_log rd Hrd _ 243 _ HP); lra|lra]. }
  assert (Nb : nb (Rpower m (-0.11)) 1.48 5 (power (FL rd) M (cs (-0.11)))).
  { apply (nb_of_nr _ 3.1); try lra.
    - eapply nr_w; [apply (nr_power rd Hrd _ 14 _ _ 1 _ HM (nr_cst rd Hrd _)); lra|].
      assert (Rabs (-0.11 * ln m) <= 0.39) by (apply Rabs_le; split; interval). rewrite (Rabs_left (-0.11)) by lra. lra.
    - rewrite Rabs_pos_eq by (left; apply exp_pos). unfold Rpower. interval. }
  eapply nb_w; [step|..]; lra.
Qed.
Lemma expo_fl : forall X, nr (xrR e s h dT) 600201 X -> nb (expo e s h (Rabs roc) dT) 3.8 1.8e6 (add (FL rd) (mul (FL rd) (cs (-0.355)) X) (nfunc (FL rd) (Fin (Rabs roc)))).
Proof.
  intros X HX. pose proof xr_range as Rx. unfold expo, nfunc. set (x := xrR e s h dT) in *. clearbody x.
  assert (Nx : nb x 7.3 4.47e6 X) by (apply (nb_of_nr _ 600201); try lra; [exact HX|rewrite Rabs_pos_eq; lra]).
  assert (Nr : nb (Rabs roc) 10000 0 (Fin (Rabs roc))) by (apply nb_exact; rewrite Rabs_Rabsolu; lra).
  eapply nb_w; [step|..]; lra.
Qed.
Lemma a_fl : forall X, nr (xrR e s h dT) 600201 X -> nr (Rpower (xrR e s h dT) (-0.1)) 61830 (power (FL rd) X (cs (-0.1))).
Proof.
  intros X HX. pose proof xr_range as Rx. set (x := xrR e s h dT) in *. clearbody x.
  eapply nr_w; [apply (nr_power rd Hrd _ 600201 _ _ 1 _ HX (nr_cst rd Hrd _)); lra|].
  assert (Rabs (-0.1 * ln x) <= 0.6) by (apply Rabs_le; split; interval). rewrite (Rabs_left (-0.1)) by lra. lra.
Qed.
Lemma pow_fl : forall X P x, nr (xrR e s h dT) 600201 X -> -920 <= x <= 18290 -> nr (prR e x dT) 243 P ->
  nr (Rpower (prR e x dT) (expo e s h (Rabs roc) dT)) 6.08e6 (power (FL rd) P (add (FL rd) (mul (FL rd) (cs (-0.355)) X) (nfunc (FL rd) (Fin (Rabs roc))))).
Proof.
  intros X P x HX Hx HP. destruct (expo_fl X HX) as (By & _ & Ny). pose proof (pr_range x Hx) as Rp. pose proof (lnpr x Hx) as Lp.
  eapply nr_w; [apply (nr_power_na rd Hrd _ 243 _ _ 1.8e6 _ 3.37 HP Ny); try lra|]. pose proof (Rabs_pos (expo e s h (Rabs roc) dT)). lra.
Qed.
Lemma F_nr : nr (FcrR e) 3 (mul (FL rd) (cs (eng_cruise_thrust e)) (cs (eng_number e))).
Proof. eapply nr_w; [apply nr_mul; auto; apply nr_cst; auto|lra]. Qed.
Lemma F_pos : 0 < FcrR e.
Proof. destruct He as (_ & _ & H1 & H2). unfold FcrR. nra. Qed.
Lemma seg1_fl : forall X P P10 F, nr (xrR e s h dT) 600201 X -> nr (prR e h dT) 243 P -> nr (prR e (10000 * ft) dT) 243 P10 -> nr (FcrR e) 3 F ->
  nb (seg1R e s h (Rabs roc) dT) 90 2.1e8 (add (FL rd) (mul (FL rd) (mfunc (FL rd) X (Fin (Rabs roc))) P)
    (sub (FL rd) (div (FL rd) (mul (FL rd) (mul (FL rd) F (power (FL rd) X (cs (-0.1)))) (power (FL rd) P10 (add (FL rd) (mul (FL rd) (cs (-0.355)) X) (nfunc (FL rd) (Fin (Rabs roc)))))) F)
       (mul (FL rd) (mfunc (FL rd) X (Fin (Rabs roc))) P10))).
Proof.
  intros X P P10 F HX HP H10 HF. pose proof xr_range as Rx. pose proof h_range as Rh. pose proof (pr_range h Rh) as Rp. assert (R10 : -920 <= 10000 * ft <= 18290) by (uc; lra).
  pose proof (pr_range _ R10) as Rp10. pose proof pr10_lb as Lb. pose proof F_pos as PF.
  pose proof (a_fl X HX) as Na. pose proof (pow_fl X P10 _ HX R10 H10) as Nw.
  assert (Nx : nb (xrR e s h dT) 7.3 4.47e6 X) by (apply (nb_of_nr _ 600201); try lra; [exact HX|rewrite Rabs_pos_eq; lra]).
  assert (Np : nb (prR e h dT) 10.68 2650 P) by (apply (nb_of_nr _ 243); try lra; [exact HP|rewrite Rabs_pos_eq; lra]).
  assert (N10 : nb (prR e (10000 * ft) dT) 10.68 2650 P10) by (apply (nb_of_nr _ 243); try lra; [exact H10|rewrite Rabs_pos_eq; lra]).
  assert (Nr : nb (Rabs roc) 10000 0 (Fin (Rabs roc))) by (apply nb_exact; rewrite Rabs_Rabsolu; lra).
  assert (Nr2 : nb (Rabs roc ^ 2) 1e8 1.1e8 (powi (FL rd) (Fin (Rabs roc)) 2)).
  { pose proof (Rabs_pos roc). apply (nb_of_nr _ 1); try lra.
    - eapply nr_w; [apply nr_powi; auto; apply nr_exact|cbn [INR]; lra].
    - rewrite Rabs_pos_eq by apply pow2_ge_0. replace 1e8 with (10000 ^ 2) by lra. apply pow_incr. lra. }
  assert (NM : nb (mR e s h (Rabs roc) dT) 2.6 6.5e5 (mfunc (FL rd) X (Fin (Rabs roc)))). { unfold mR, mfunc. eapply nb_w; [step|..]; lra. }
  set (M := mfunc _ _ _) in *. clearbody M.
  assert (Ba : 0.5 <= Rpower (xrR e s h dT) (-0.1) <= 1.81). { set (x := xrR e s h dT) in *. clearbody x. unfold Rpower. split; interval. }
  assert (Bw : 0 < Rpower (prR e (10000 * ft) dT) (expo e s h (Rabs roc) dT) <= 14.6).
  { split; [apply exp_pos|]. apply Rle_trans with (Rpower (prR e (10000 * ft) dT) 1.13).
    - apply Rle_Rpower; [lra|]. unfold expo. pose proof (Rabs_pos roc). lra.
    - set (p := prR e (10000 * ft) dT) in *. clearbody p. unfold Rpower. interval. }
  assert (NQ : nb (FcrR e * Rpower (xrR e s h dT) (-0.1) * Rpower (prR e (10000 * ft) dT) (expo e s h (Rabs roc) dT) / FcrR e) 26.5 1.67e8
    (div (FL rd) (mul (FL rd) (mul (FL rd) F (power (FL rd) X (cs (-0.1)))) (power (FL rd) P10 (add (FL rd) (mul (FL rd) (cs (-0.355)) X) (nfunc (FL rd) (Fin (Rabs roc)))))) F)).
  { set (a := Rpower (xrR e s h dT) (-0.1)) in *. set (w := Rpower (prR e (10000 * ft) dT) _) in *.
    assert (E : FcrR e * a * w / FcrR e = a * w) by (field; lra). assert (B : 0 <= a * w <= 26.5) by nra.
    assert (N : nr (FcrR e * a * w / FcrR e) 6.15e6 (div (FL rd) (mul (FL rd) (mul (FL rd) F (power (FL rd) X (cs (-0.1)))) (power (FL rd) P10 (add (FL rd) (mul (FL rd) (cs (-0.355)) X) (nfunc (FL rd) (Fin (Rabs roc)))))) F)).
    { eapply nr_w; [apply (nr_div rd Hrd _ 6.1419e6 _ _ 3 _); [|exact HF|lra]|lra]. eapply nr_w; [apply (nr_mul rd Hrd _ 61840 _ _ 6.08e6 _); [|exact Nw]|lra]. eapply nr_w; [apply (nr_mul rd Hrd _ 3 _ _ 61830 _); [exact HF|exact Na]|lra]. }
    rewrite E in *. split; [rewrite Rabs_pos_eq; lra|]. split; [lra|]. eapply nr_na; [exact N|lra|]. rewrite Rabs_pos_eq; lra. }
  set (Q := div _ _ _) in *. clearbody Q. unfold seg1R.
  eapply nb_w; [step|..]; lra.
Qed.
Lemma climb_close :
  let N := climb_thrust NP e (Fin tas) (Fin alt) (Fin roc) (Fin dT) in
  let Z := climb_thrust (FL rd) e (Fin tas) (Fin alt) (Fin roc) (Fin dT) in
  let F := eng_cruise_thrust e * eng_number e in
  (30000 < alt -> fclose (1e-12 * F) N Z) /\ (10000 < alt <= 30000 -> within 1e-8 N Z) /\ (alt <= 10000 -> fclose (2e-7 * F) N Z).
Proof.
  pose proof F_pos as PF. destruct He as (_ & Hm & H1 & H2). cbv zeta. rewrite climb_NP; [|lra|unfold FcrR in PF; lra].
  unfold climb_thrust. cbn [babs FL eabs]. rewrite (c_int rd Hrd 30000) by (cbn; lia).
  pose proof mr_nr as HM. pose proof xr_nr as HX. pose proof pr_nr as HP. pose proof pr10_nr as H10. pose proof F_nr as HF.
  pose proof h_range as Rh. fold (FcrR e).
  set (M := div (FL rd) (tas2mach _ _ _ _) _) in *. set (X := div (FL rd) (tas2cas _ _ _ _) _) in *. set (P := div (FL rd) (pressure (FL rd) (mul (FL rd) (Fin alt) (cs ft)) _) _) in *.
  set (P10 := div (FL rd) (pressure (FL rd) (mul (FL rd) (cs 10000) (cs ft)) _) _) in *. set (F := mul (FL rd) (cs (eng_cruise_thrust e)) (cs (eng_number e))) in *.
  rewrite (c_int rd Hrd 10000) by (cbn; lia). clearbody M X P P10 F. cbn [gt where_ FL egt ewhere]. unfold climbR.
  repeat apply conj; intros Ha.
  - rewrite (Rltb_true 30000 alt) by lra. pose proof (seg3_fl M P HM HP) as S. pose proof S as (_ & _ & (y & Ey & _)). rewrite Ey in *.
    apply (fclose_scale _ 9 720 y _ 4 _ _ S); try lra. eapply nr_w; [apply nr_mul; auto; [apply nr_exact|exact HF]|lra].
  - rewrite (Rltb_false 30000 alt), (Rltb_true 10000 alt) by lra. pose proof (a_fl X HX) as Na. pose proof (pow_fl X P _ HX Rh HP) as Nw.
    apply nr_within with 6.142e6; [|lra|lra]. unfold seg2R. eapply nr_w; [apply (nr_mul rd Hrd _ 6.1419e6 _ _ 3 _); [|exact HF]|lra].
    eapply nr_w; [apply (nr_mul rd Hrd _ 61830 _ _ 6.08e6 _); [exact Na|exact Nw]|lra].
  - rewrite (Rltb_false 30000 alt), (Rltb_false 10000 alt) by lra. pose proof (seg1_fl X P P10 F HX HP H10 HF) as S. pose proof S as (_ & _ & (y & Ey & _)). rewrite Ey in *.
    apply (fclose_scale _ 90 2.1e8 y _ 4 _ _ S); try lra. eapply nr_w; [apply nr_mul; auto; [apply nr_exact|exact HF]|lra].
Qed.
End Climb.

(** ** C121: climb and cruise thrust *)
Theorem C121_climb : forall rd e tas alt roc dT, accurate rd -> ordinary_engine e -> -3000 <= alt <= 60000 -> 20 <= tas <= 600 -> Rabs roc <= 10000 ->
  let N := climb_thrust NP e (Fin tas) (Fin alt) (Fin roc) (Fin dT) in
  let Z := climb_thrust (FL rd) e (Fin tas) (Fin alt) (Fin roc) (Fin dT) in
  let F := eng_cruise_thrust e * eng_number e in
  (30000 < alt -> fclose (1e-12 * F) N Z) /\ (10000 < alt <= 30000 -> within 1e-8 N Z) /\ (alt <= 10000 -> fclose (2e-7 * F) N Z).
Proof. intros rd e tas alt roc dT Hrd He Ha Ht Hr. exact (climb_close rd Hrd e He tas alt roc dT Ha Ht Hr). Qed.
Theorem C121_cruise : forall rd e tas alt dT, accurate rd -> ordinary_engine e -> -3000 <= alt <= 60000 -> 20 <= tas <= 600 ->
  let N := cruise_thrust NP e (Fin tas) (Fin alt) (Fin dT) in
  let Z := cruise_thrust (FL rd) e (Fin tas) (Fin alt) (Fin dT) in
  let F := eng_cruise_thrust e * eng_number e in
  (30000 < alt -> fclose (1e-12 * F) N Z) /\ (10000 < alt <= 30000 -> within 1e-8 N Z) /\ (alt <= 10000 -> fclose (2e-7 * F) N Z).
Proof.
  intros rd e tas alt dT Hrd He Ha Ht. unfold cruise_thrust. rewrite (ci0 rd Hrd). apply (climb_close rd Hrd e He tas alt 0 dT Ha Ht). rewrite Rabs_R0. lra.
Qed.
(** every Thrust object of the package *)
Definition cruise_check (a : acrec) : bool := Qle_bool (ac_height a) 13716 && Qle_bool 0.5 (ac_mach a) && Qle_bool (ac_mach a) 0.95.
Lemma cruise_checked : forallb cruise_check shipped_aircraft = true.
Proof. vm_compute. reflexivity. Qed.
Definition mach_check (e : engrec) : bool := match en_cr_mach e with Some m => Qle_bool 0.5 m && Qle_bool m 0.95 | None => true end.
Lemma mach_checked : forallb mach_check shipped_engines = true.
Proof. vm_compute. reflexivity. Qed.
Section Shipped.
Context (d : db) (SH : ships d).
Lemma shipped_engine_ordinary : forall ac eng k o, kw_force k <> Some true -> thrust_new d ac eng k = inr o ->
  exists p, thrust_par_of (to_ac o) (er_row (to_eng o)) = Some p /\ ordinary_engine p /\ 0 <= eng_bpr p <= 40 /\ 0 < eng_max_thrust p /\ 0 < eng_number p.
Proof.
  intros ac eng k o Hk H. pose proof (accepted_has_thrust d SH _ _ _ _ Hk H) as Hn.
  destruct (thrust_new_row d SH _ _ _ _ H) as (Ha & Ia & He & Ie).
  destruct (thrust_par_ok _ _ Ha He Hn) as (p & Ep & Hb & Hm & Hnum & Hcm & Hct & Halt).
  exists p. repeat apply conj; auto; try lra.
  - pose proof cruise_checked as C. rewrite forallb_forall in C. specialize (C _ Ia). unfold cruise_check in C.
    unfold thrust_par_of in Ep. destruct (en_bpr _); [|discriminate]. destruct (en_max_thrust _); [|discriminate]. injection Ep as <-. bools.
    assert (Q2R 13716 = 13716) by (unfold Q2R; cbn; lra).
    assert (G : Q2R (ac_height (to_ac o)) / ft <= 45000) by (uc; lra).
    unfold thrust_init. destruct (option_map _ _); [destruct (option_map _ _); [destruct (Rltb _ _)|]|]; exact G.
  - pose proof cruise_checked as C. rewrite forallb_forall in C. specialize (C _ Ia). unfold cruise_check in C.
    pose proof mach_checked as C'. rewrite forallb_forall in C'. specialize (C' _ Ie). unfold mach_check in C'.
    unfold thrust_par_of in Ep. destruct (en_bpr _); [|discriminate]. destruct (en_max_thrust _); [|discriminate]. injection Ep as <-. bools.
    unfold thrust_init. destruct (en_cr_mach _); clear - C' H1 H2; cbn [option_map] in *;
    [bools; destruct (option_map _ _); [destruct (Rltb _ _)|]; cbn; lra|cbn; lra].
  - pose proof cruise_checked as C. rewrite forallb_forall in C. specialize (C _ Ia). unfold cruise_check in C.
    pose proof mach_checked as C'. rewrite forallb_forall in C'. specialize (C' _ Ie). unfold mach_check in C'.
    unfold thrust_par_of in Ep. destruct (en_bpr _); [|discriminate]. destruct (en_max_thrust _); [|discriminate]. injection Ep as <-. bools.
    unfold thrust_init. destruct (en_cr_mach _); clear - C' H1 H2; cbn [option_map] in *;
    [bools; destruct (option_map _ _); [destruct (Rltb _ _)|]; cbn; lra|cbn; lra].
Qed.
Theorem C121_shipped : forall rd ac eng k o, accurate rd -> kw_force k <> Some true -> thrust_new d ac eng k = inr o ->
  exists p, thrust_par_of (to_ac o) (er_row (to_eng o)) = Some p /\
  forall tas alt roc dT, -3000 <= alt <= 60000 -> 0 <= tas <= 600 -> Rabs roc <= 10000 ->
  fclose (1e-11 * (eng_max_thrust p * eng_number p)) (takeoff_thrust NP p (Fin tas) (Fin alt) (Fin dT)) (takeoff_thrust (FL rd) p (Fin tas) (Fin alt) (Fin dT)) /\
  fclose (1e-12 * (eng_max_thrust p * eng_number p)) (descent_idle NP p (Fin tas) (Fin alt) (Fin dT)) (descent_idle (FL rd) p (Fin tas) (Fin alt) (Fin dT)) /\
  (20 <= tas -> forall N Z,
    (N = climb_thrust NP p (Fin tas) (Fin alt) (Fin roc) (Fin dT) /\ Z = climb_thrust (FL rd) p (Fin tas) (Fin alt) (Fin roc) (Fin dT)) \/
    (N = cruise_thrust NP p (Fin tas) (Fin alt) (Fin dT) /\ Z = cruise_thrust (FL rd) p (Fin tas) (Fin alt) (Fin dT)) ->
    let F := eng_cruise_thrust p * eng_number p in
    (30000 < alt -> fclose (1e-12 * F) N Z) /\ (10000 < alt <= 30000 -> within 1e-8 N Z) /\ (alt <= 10000 -> fclose (2e-7 * F) N Z)).
Proof.
  intros rd ac eng k o Hrd Hk H. destruct (shipped_engine_ordinary _ _ _ _ Hk H) as (p & Ep & Ho & Hb & Hm & Hn). exists p. split; auto.
  intros tas alt roc dT Ha Ht Hr. destruct (C121_takeoff rd p tas alt dT Hrd Hb Hm Hn Ha ltac:(lra)) as [A B]. split; auto. split; auto.
  intros Ht' N Z [[-> ->]|[-> ->]]; [apply (C121_climb rd p tas alt roc dT Hrd Ho Ha ltac:(lra) Hr)|apply (C121_cruise rd p tas alt dT Hrd Ho Ha ltac:(lra))].
Qed.
End Shipped.
(** A320 with its default engine, climbing through FL200 at 350 kt with 2000 ft/min *)
Example C121_ex : exists o p, thrust_new shipped0 "A320" None (mkKwc None None) = inr o /\ thrust_par_of (to_ac o) (er_row (to_eng o)) = Some p /\
  within 1e-8 (climb_thrust NP p (Fin 350) (Fin 20000) (Fin 2000) (Fin 0)) (climb_thrust (FL binary64) p (Fin 350) (Fin 20000) (Fin 2000) (Fin 0)).
Proof.
  destruct (thrust_new shipped0 "A320" None (mkKwc None None)) as [e|o] eqn:E. { vm_compute in E. discriminate. }
  destruct (C121_shipped shipped0 shipped0_ships binary64 "A320" None (mkKwc None None) o (proj1 C112_binary64) ltac:(cbn; discriminate) E) as (p & Ep & C).
  exists o, p. split; auto. split; auto. destruct (C 350 20000 2000 0) as (_ & _ & Q); try lra. { rewrite Rabs_pos_eq; lra. } apply (Q ltac:(lra) _ _ (or_introl (conj eq_refl eq_refl))). lra.
Qed.
