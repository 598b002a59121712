(** * Property C122: fuel flow in binary64 *)
From Coq Require Import String List Bool ZArith QArith Qreals Reals Lra Lia Psatz.
From Coquelicot Require Import Coquelicot.
From Interval Require Import Tactic.
From Verif Require Import Py Str StrFacts PropPy DataAc DataEng DataPolar DataWrap Build Params PropFacts P_Prop P_Data P_FuelModel
  Num NumFacts SpecNum Aero AeroFacts AeroFacts2 Thrust ThrustFacts Drag DragFacts P_Drag Fuel FuelFacts P_Fuel Fl SpecFl FlFacts P_Fl P_FlCas P_FlSun FlAtmFacts P_FlDrag P_FlThrust.
Import ListNotations.
Open Scope string_scope.
Open Scope R_scope.

(** coefficients like those of the shipped table *)
Definition ordinary_fuel (f : fuel_par) : Prop :=
  0.5 <= fc1 f <= 4 /\ 1 <= fc2 f <= 3 /\ 0.4 <= fc3 f <= 4 /\ 0 < fscale f /\ 0 < f_max_thrust f /\ 0 < f_n_eng f.
Lemma ordinary_fuel_ok : forall f, ordinary_fuel f -> fuel_ok f.
Proof. intros f (H1 & H2 & H3 & H4 & H5 & H6). constructor; lra. Qed.

Section Fl.
Context (rd : rounding) (Hrd : accurate rd).
Local Notation cs := (cst (FL rd)).
Lemma nr_exp_na : forall x a X, na x a X -> x <= 700 -> a <= 1e12 -> nr (exp x) (a + 1) (bexp (FL rd) X).
Proof.
  intros x a X (x' & -> & H) B A. apply nr_rnd; auto. pose proof v_pos. pose proof v_small. assert (0 <= a) by (pose proof (Rabs_pos (x' - x)); nra). exists (x' - x). split; auto.
  cbn [eexp]. destruct (Rle_dec x' exp_max) as [_|Q]; [f_equal; rewrite <- exp_plus; f_equal; ring|]. exfalso. apply Q. unfold exp_max. apply Rabs_le_inv in H. nra.
Qed.
(** a number with an absolute error, then operations with relative errors *)
Lemma na_scale : forall x a x' g K Y p, na x a (Fin x') -> nr (x' * g) K Y -> Rabs x <= p -> K <= 1e6 -> na (x * g) (Rabs g * (1.01 * a + 1.02 * K * p)) Y.
Proof.
  intros x a x' g K Y p (z & E & H) N P LK. injection E as <-. pose proof v_pos. pose proof v_small. pose proof (nr_k _ _ _ N).
  assert (0 <= a) by (pose proof (Rabs_pos (x' - x)); nra).
  destruct (nr_na _ _ _ _ N ltac:(lra) (Rle_refl _)) as (y & -> & D). exists y. split; auto.
  rewrite Rabs_mult in D. pose proof (Rabs_pos g). pose proof (Rabs_pos x').
  assert (Bx : Rabs x' <= p + a * v) by (replace x' with (x + (x' - x)) by ring; eapply Rle_trans; [apply Rabs_triang|]; lra).
  replace (y - x * g) with ((y - x' * g) + (x' - x) * g) by ring. eapply Rle_trans; [apply Rabs_triang|]. rewrite (Rabs_mult (x' - x)).
  assert (A1 : Rabs (x' - x) * Rabs g <= Rabs g * (a * v)) by (rewrite Rmult_comm; apply Rmult_le_compat_l; lra).
  assert (A2 : 1.02 * K * (Rabs x' * Rabs g) * v <= Rabs g * (1.02 * K * (p + a * v) * v)).
  { replace (1.02 * K * (Rabs x' * Rabs g) * v) with (Rabs g * (1.02 * K * Rabs x' * v)) by ring. apply Rmult_le_compat_l; auto. apply Rmult_le_compat_r; [lra|]. apply Rmult_le_compat_l; lra. }
  assert (A3 : 1.02 * K * (a * v) <= 0.01 * a). { assert (K * v <= 1e-8) by nra. nra. }
  assert (A4 : a * v + 1.02 * K * (p + a * v) * v <= (1.01 * a + 1.02 * K * p) * v) by nra.
  assert (Rabs g * (a * v + 1.02 * K * (p + a * v) * v) <= Rabs g * ((1.01 * a + 1.02 * K * p) * v)) by (apply Rmult_le_compat_l; auto). lra.
Qed.
Lemma sp_fl : forall z a Z, na z a Z -> Rabs z <= 200 -> 0 <= a <= 1e8 -> nb (sp z) 201 (1.08 * a + 215) (blog (FL rd) (add (FL rd) (Fin 1) (bexp (FL rd) Z))).
Proof.
  intros z a Z H B A. pose proof (Rabs_le_inv _ _ B). pose proof (exp_pos z).
  assert (S : 0 <= sp z <= 201). { split; [left; apply sp_pos|]. apply Rle_trans with (sp 200); [apply sp_le; lra|unfold sp; interval]. }
  split; [rewrite Rabs_pos_eq; lra|]. split; [lra|].
  pose proof (nr_exp_na z a Z H ltac:(lra) ltac:(lra)) as N.
  pose proof (nr_addp rd Hrd 1 0 (Fin 1) (exp z) (a + 1) _ (a + 1) (nr_exact 1) N ltac:(lra) ltac:(lra) ltac:(lra) ltac:(lra) ltac:(lra) ltac:(lra)) as M.
  eapply na_w; [apply (na_log rd Hrd _ _ _ M); lra|]. fold (sp z). rewrite (Rabs_pos_eq (sp z)) by lra. lra.
Qed.
Ltac step :=
  first [ eassumption
        | simple eapply (nb_add rd Hrd); [step|step|]
        | simple eapply (nb_sub rd Hrd); [step|step|]
        | simple eapply (nb_mul rd Hrd); [step|step|]
        | simple eapply (nb_cs' rd Hrd); [lra|]
        | simple eapply (nb_cs rd Hrd); [lra|] ].
Lemma lim_range : forall r, Rabs r <= 3 -> 0.0299 <= limR r <= 1.42.
Proof.
  intros r H. apply Rabs_le_inv in H. split; [apply limR_pos|]. apply Rle_trans with (limR 3); [destruct (proj2 H) as [L| ->]; [left; apply limR_incr; lra|lra]|]. unfold limR, sp. interval.
Qed.
Lemma lim_fl : forall r a X, na r a X -> Rabs r <= 3 -> 0 <= a <= 1e5 ->
  na (limR r) (2.5 * a + 75) (add (FL rd) (div (FL rd) (sub (FL rd) (blog (FL rd) (add (FL rd) (cs 1) (bexp (FL rd) (mul (FL rd) (cs 50) (sub (FL rd) X (cs 0.03))))))
    (blog (FL rd) (add (FL rd) (cs 1) (bexp (FL rd) (mul (FL rd) (cs 45) (sub (FL rd) X (cs 1.2))))))) (blog (FL rd) (add (FL rd) (cs 1) (bexp (FL rd) (cs 50))))) (cs 0.03)).
Proof.
  intros r a X H B A. rewrite (c_int rd Hrd 1), (c_int rd Hrd 50), (c_int rd Hrd 45) by (cbn; lia).
  assert (NX : nb r 3 a X) by (split; auto; split; [lra|auto]).
  assert (N50 : nb 50 50 0 (Fin 50)) by (apply nb_ex; lra). assert (N45 : nb 45 45 0 (Fin 45)) by (apply nb_ex; lra).
  assert (N1 : nb (50 * (r - 0.03)) 152 (54.1 * a + 330) (mul (FL rd) (Fin 50) (sub (FL rd) X (cs 0.03)))) by (eapply nb_w; [step|..]; lra).
  assert (N2 : nb (45 * (r - 1.2)) 190 (48.7 * a + 465) (mul (FL rd) (Fin 45) (sub (FL rd) X (cs 1.2)))) by (eapply nb_w; [step|..]; lra).
  set (Z1 := mul (FL rd) (Fin 50) _) in *. set (Z2 := mul (FL rd) (Fin 45) _) in *. clearbody Z1 Z2.
  destruct N1 as (B1 & _ & N1). destruct N2 as (B2 & _ & N2).
  pose proof (sp_fl _ _ _ N1 ltac:(lra) ltac:(lra)) as S1. pose proof (sp_fl _ _ _ N2 ltac:(lra) ltac:(lra)) as S2.
  set (Y1 := blog (FL rd) (add (FL rd) (Fin 1) (bexp (FL rd) Z1))) in *. set (Y2 := blog (FL rd) (add (FL rd) (Fin 1) (bexp (FL rd) Z2))) in *. clearbody Y1 Y2.
  set (x1 := sp (50 * (r - 0.03))) in *. set (x2 := sp (45 * (r - 1.2))) in *.
  assert (S : nb (x1 - x2) 402 (116 * a + 1770) (sub (FL rd) Y1 Y2)) by (eapply nb_w; [step|..]; lra).
  assert (C50 : nr (sp 50) 2 (blog (FL rd) (add (FL rd) (Fin 1) (bexp (FL rd) (Fin 50))))).
  { pose proof (nr_exp_na 50 0 (Fin 50) (na_exact 50) ltac:(lra) ltac:(lra)) as N.
    pose proof (nr_addp rd Hrd 1 0 (Fin 1) (exp 50) (0 + 1) _ 1 (nr_exact 1) N ltac:(lra) ltac:(left; apply exp_pos) ltac:(pose proof (exp_pos 50); lra) ltac:(lra) ltac:(lra) ltac:(lra)) as M.
    assert (L : 49 <= ln (1 + exp 50) <= 51) by (clear; split; interval). unfold sp. assert (La : Rabs (ln (1 + exp 50)) = ln (1 + exp 50)) by (apply Rabs_pos_eq; lra). pose proof (exp_pos 50). eapply nr_w; [apply (nr_log rd Hrd _ _ _ 0.1 M); rewrite ?La; lra|lra]. }
  set (W := blog (FL rd) (add (FL rd) (Fin 1) (bexp (FL rd) (Fin 50)))) in *. clearbody W.
  assert (L50 : 49.99 <= sp 50 <= 51) by (clear; unfold sp; split; interval).
  destruct S as (SP & SA & (d & -> & SD)). assert (SN : na (x1 - x2) (116 * a + 1770) (Fin d)) by (exists d; auto).
  assert (Q : nr (d * / sp 50) 3 (div (FL rd) (Fin d) W)) by (eapply nr_w; [apply (nr_div rd Hrd d 0 _ (sp 50) 2 W); [apply nr_exact|exact C50|lra]|lra]).
  pose proof (na_scale _ _ d (/ sp 50) 3 _ 402 SN Q SP ltac:(lra)) as T.
  assert (I : 0 < / sp 50 <= 0.02001) by (split; [apply Rinv_0_lt_compat; lra|apply Rmult_le_reg_r with (sp 50); [lra|rewrite Rinv_l; lra]]).
  rewrite (Rabs_pos_eq (/ sp 50)) in T by lra. set (V := div _ _ _) in *. clearbody V.
  assert (T' : na ((x1 - x2) * / sp 50) (2.345 * a + 61) V). { eapply na_w; [exact T|]. apply Rle_trans with (0.02001 * (1.01 * (116 * a + 1770) + 1.02 * 3 * 402)); [apply Rmult_le_compat_r; lra|lra]. }
  assert (C3 : na 0.03 0.04 (cs 0.03)). { apply nr_na with 1; [apply nr_cst; auto|lra|rewrite Rabs_pos_eq; lra]. }
  pose proof (na_add rd Hrd _ _ _ _ _ _ T' C3 ltac:(lra)) as F.
  assert (E : (x1 - x2) * / sp 50 + 0.03 = limR r) by reflexivity. rewrite E in F. pose proof (lim_range r B).
  eapply na_w; [exact F|]. rewrite Rabs_pos_eq by lra. lra.
Qed.
Lemma ymey : forall y, 0 <= y -> y * exp (- y) <= 1 - exp (- y).
Proof. intros y H. pose proof (exp_ineq1_le y). assert (E : exp y * exp (- y) = 1) by (rewrite <- exp_plus; replace (y + - y) with 0 by ring; apply exp_0). pose proof (exp_pos (- y)). nra. Qed.
Lemma law_fl : forall f x a X, ordinary_fuel f -> na x a X -> 0.0299 <= x <= 1.42 -> 0 <= a <= 3e5 -> nr (lawR f x) (42.5 * a + 1300) (func_fuel (FL rd) f X).
Proof.
  intros f x a X (H1 & H2 & H3 & H4 & H5 & H6) HX Bx A. unfold func_fuel. pose proof v_pos. pose proof v_small.
  set (c1 := fc1 f) in *. set (c2 := fc2 f) in *. set (c3 := fc3 f) in *.
  assert (NX : nb x 1.42 a X) by (split; [rewrite Rabs_pos_eq; lra|split; [lra|auto]]).
  assert (Nx : nr x (34.2 * a) X). { eapply nr_w; [apply (na_nr _ _ _ (33.45 * a) HX); try lra; rewrite Rabs_pos_eq by lra; nra|lra]. }
  assert (Nc3 : nb c3 4 4.1 (cs c3)). { eapply nb_w; [apply (nb_cst rd Hrd c3 4); [rewrite Rabs_pos_eq; lra|lra]|lra|lra|lra]. }
  assert (P3 : nb (c3 * x) 5.68 (4.16 * a + 12) (mul (FL rd) (cs c3) X)) by (eapply nb_w; [step|..]; lra).
  destruct P3 as (B3 & _ & P3). pose proof (nr_exp_na _ _ _ P3 ltac:(nra) ltac:(lra)) as Ne.
  set (e := exp (c3 * x)) in *. assert (Be : 1 <= e <= 293). { unfold e. rewrite <- exp_0 at 1. split; [apply exp_le_mono; nra|]. apply Rle_trans with (exp 5.68); [apply exp_le_mono; nra|interval]. }
  pose proof (nr_mul rd Hrd _ _ _ _ _ _ Nx Ne) as Nu. set (U := mul (FL rd) X _) in *. clearbody U. set (K := 38.4 * a + 14). apply (nr_w _ _ K) in Nu; [|unfold K; lra].
  set (u := x * e) in *. assert (Bu : 0.0299 <= u <= 417) by (unfold u; nra). assert (BK : 14 <= K <= 1.2e7) by (unfold K; lra).
  assert (Bl : -0.7 <= ln c1 <= 1.39) by (split; interval).
  assert (Nl : na (ln c1) 2.5 (blog (FL rd) (cs c1))). { eapply na_w; [apply (na_log rd Hrd _ _ _ (nr_cst rd Hrd c1)); lra|]. assert (Rabs (ln c1) <= 1.39) by (apply Rabs_le; lra). lra. }
  assert (I2 : 0 < / c2 <= 1) by (split; [apply Rinv_0_lt_compat; lra|rewrite <- Rinv_1; apply Rinv_le_contravar; lra]).
  assert (Bq : Rabs (ln c1 * / c2) <= 1.39). { rewrite Rabs_mult, (Rabs_pos_eq (/ c2)) by lra. assert (Rabs (ln c1) <= 1.39) by (apply Rabs_le; lra). pose proof (Rabs_pos (ln c1)). nra. }
  assert (Nq : na (ln c1 * / c2) 6 (div (FL rd) (blog (FL rd) (cs c1)) (cs c2))).
  { destruct Nl as (l & El & Dl). rewrite El. assert (Nl : na (ln c1) 2.5 (Fin l)) by (exists l; auto).
    assert (Q : nr (l * / c2) 2 (div (FL rd) (Fin l) (cs c2))) by (eapply nr_w; [apply (nr_div rd Hrd l 0 _ c2 1 _); [apply nr_exact|apply nr_cst; auto|lra]|lra]).
    eapply na_w; [apply (na_scale _ _ l (/ c2) 2 _ 1.39 Nl Q); try lra; apply Rabs_le; lra|]. rewrite (Rabs_pos_eq (/ c2)) by lra. nra. }
  set (L := div (FL rd) (blog (FL rd) (cs c1)) (cs c2)) in *. clearbody L.
  assert (Nu' : na u (1.02 * K * u) U) by (apply nr_na with K; [exact Nu|lra|rewrite Rabs_pos_eq by lra; lra]).
  assert (Ku : 0 <= K * u <= 5.1e9) by nra.
  pose proof (na_sub rd Hrd _ _ _ _ _ _ Nu' Nq ltac:(lra)) as Nd. set (q := ln c1 * / c2) in *.
  assert (Bd : Rabs (u - q) <= u + 1.39). { apply Rabs_le_inv in Bq. apply Rabs_le. lra. }
  apply (na_w _ _ (1.031 * (K * u) + 1.02 * u + 8)) in Nd; [|lra].
  set (Dd := sub (FL rd) U L) in *. clearbody Dd. pose proof Nd as (d & -> & _).
  assert (Q : nr (d * - c2) 2 (mul (FL rd) (neg (FL rd) (cs c2)) (Fin d))).
  { eapply nr_w; [eapply nr_x; [apply nr_mul; auto; [apply nr_neg; apply nr_cst; auto|apply nr_exact]|ring]|lra]. }
  set (W := mul (FL rd) (neg (FL rd) (cs c2)) (Fin d)) in *. clearbody W.
  pose proof (na_scale _ _ d (- c2) 2 W (u + 1.39) Nd Q Bd ltac:(lra)) as Nw. rewrite Rabs_Ropp, (Rabs_pos_eq c2) in Nw by lra.
  set (y := c2 * u) in *. assert (By : 0.0299 <= y) by (unfold y; nra). assert (By2 : y <= 1251) by (unfold y; nra).
  assert (Ew : (u - q) * - c2 = - y + ln c1) by (unfold q, y; field; lra). rewrite Ew in Nw.
  assert (Ky : 0 <= K * y <= 1.6e10) by nra.
  apply (na_w _ _ (1.0414 * (K * y) + 3.1 * y + 33)) in Nw.
  2:{ assert (E1' : c2 * (K * u) = K * y) by (unfold y; ring). assert (E2' : c2 * u = y) by reflexivity.
      replace (c2 * (1.01 * (1.031 * (K * u) + 1.02 * u + 8) + 1.02 * 2 * (u + 1.39))) with (1.01 * (1.031 * (c2 * (K * u)) + 1.02 * (c2 * u) + 8 * c2) + 1.02 * 2 * (c2 * u + 1.39 * c2)) by ring. rewrite E1', E2'. lra. }
  pose proof (nr_exp_na _ _ _ Nw ltac:(lra) ltac:(lra)) as Nx'. assert (Ee : exp (- y + ln c1) = c1 * exp (- y)) by (rewrite exp_plus, exp_ln by lra; ring). rewrite Ee in Nx'.
  assert (M1 : 0 < exp (- y) <= 0.9706). { split; [apply exp_pos|]. apply Rle_trans with (exp (- 0.0299)); [apply exp_le_mono; lra|interval]. }
  pose proof (ymey y ltac:(lra)) as M2. set (z := exp (- y)) in *.
  assert (Nf : nr (c1 - c1 * z) (1.05 * (1.0414 * K + 1195) + 1) (sub (FL rd) (cs c1) (bexp (FL rd) W))).
  { apply (nr_sub rd Hrd _ 1 _ _ (1.0414 * (K * y) + 3.1 * y + 33 + 1) _); auto; try lra; [apply nr_cst; auto|nra|].
    replace (c1 - c1 * z) with (c1 * (1 - z)) by ring. rewrite !Rabs_pos_eq by nra.
    assert (F1 : z * (K * y) <= K * (1 - z)). { replace (z * (K * y)) with (K * (y * z)) by ring. apply Rmult_le_compat_l; lra. }
    replace (c1 * 1 + c1 * z * (1.0414 * (K * y) + 3.1 * y + 33 + 1)) with (c1 * (1 + 1.0414 * (z * (K * y)) + 3.1 * (y * z) + 34 * z)) by ring.
    replace ((1.0414 * K + 1195) * (c1 * (1 - z))) with (c1 * (1.0414 * (K * (1 - z)) + 1195 * (1 - z))) by ring. apply Rmult_le_compat_l; lra. }
  eapply nr_x; [eapply nr_w; [apply nr_mul; auto; [apply nr_cst; auto|exact Nf]|unfold K; lra]|].
  unfold lawR. fold c1 c2 c3. replace (- c2 * x * exp (c3 * x)) with (- y) by (unfold y, u, e; ring). fold z. ring.
Qed.
(** thrust with an absolute error of [A] v times the rated thrust *)
Lemma at_thrust_fl : forall f t A Z, ordinary_fuel f -> na t (A * rated f) Z -> Rabs t <= 3 * rated f -> 0 <= A <= 4e4 -> nr (atR f t) (108 * A + 6100) (at_thrust (FL rd) f Z).
Proof.
  intros f t A Z Hf HZ Bt HA. pose proof Hf as (_ & _ & _ & _ & PF & Pn). unfold rated in *. unfold at_thrust, thrust_ratio.
  assert (P : 0 < f_n_eng f * f_max_thrust f) by nra. set (g := / (f_n_eng f * f_max_thrust f)).
  assert (Pg : 0 < g) by (apply Rinv_0_lt_compat; auto). assert (Eg : f_n_eng f * f_max_thrust f * g = 1) by (unfold g; field; lra).
  assert (Er : ratR f t = t * g) by (unfold ratR, g; field; lra).
  assert (Br : Rabs (ratR f t) <= 3). { rewrite Er, Rabs_mult, (Rabs_pos_eq g) by lra. apply Rle_trans with (3 * (f_n_eng f * f_max_thrust f) * g); [apply Rmult_le_compat_r; lra|]. rewrite Rmult_assoc, Eg. lra. }
  assert (Nr : na (ratR f t) (1.01 * A + 12.5) (div (FL rd) (div (FL rd) Z (cs (f_n_eng f))) (cs (f_max_thrust f)))).
  { destruct HZ as (z & -> & Dz). 
    assert (Q : nr (z * g) 4 (div (FL rd) (div (FL rd) (Fin z) (cs (f_n_eng f))) (cs (f_max_thrust f)))).
    { eapply nr_w; [eapply nr_x; [apply (nr_div rd Hrd (z / f_n_eng f) 2 _ (f_max_thrust f) 1 _); [eapply nr_w; [apply (nr_div rd Hrd z 0 _ (f_n_eng f) 1 _); [apply nr_exact|apply nr_cst; auto|lra]|lra]|apply nr_cst; auto|lra]|unfold g; field; lra]|lra]. }
    assert (N0 : na (t * g) A (Fin (z * g))). { eexists. split; [reflexivity|]. replace (z * g - t * g) with ((z - t) * g) by ring. rewrite Rabs_mult, (Rabs_pos_eq g) by lra.
      apply Rle_trans with (A * (f_n_eng f * f_max_thrust f) * v * g); [apply Rmult_le_compat_r; lra|]. right. replace (A * (f_n_eng f * f_max_thrust f) * v * g) with (A * v * (f_n_eng f * f_max_thrust f * g)) by ring. rewrite Eg. ring. }
    rewrite Er in *. assert (Q1 : nr (z * g * 1) 4 (div (FL rd) (div (FL rd) (Fin z) (cs (f_n_eng f))) (cs (f_max_thrust f)))) by (eapply nr_x; [exact Q|ring]).
    pose proof (na_scale _ _ _ 1 4 _ 3 N0 Q1 Br ltac:(lra)) as F. rewrite Rabs_R1, !Rmult_1_r, Rmult_1_l in F. eapply na_w; [exact F|lra]. }
  set (Rr := div (FL rd) (div (FL rd) Z _) _) in *. clearbody Rr.
  pose proof (lim_fl _ _ _ Nr Br ltac:(lra)) as Nx. pose proof (lim_range _ Br) as Rx.
  pose proof (law_fl f _ _ _ Hf Nx Rx ltac:(lra)) as Nl. unfold atR. eapply nr_w; [apply nr_mul; auto; [exact Nl|apply nr_cst; auto]|lra].
Qed.

Lemma v_lb : 8.88e-16 <= v.
Proof. unfold v. rewrite <- (Rinv_inv 8.88e-16). apply Rinv_le_contravar; lra. Qed.

(** ** C122: fuel flow *)
Theorem C122_at_thrust : forall f t, ordinary_fuel f -> Rabs t <= 3 * rated f -> within 6e-12 (at_thrust NP f (Fin t)) (at_thrust (FL rd) f (Fin t)).
Proof.
  intros f t Hf Bt. pose proof Hf as (_ & _ & _ & _ & PF & Pn). assert (P : 0 < rated f) by (unfold rated; nra). pose proof (Rabs_le_inv _ _ Bt).
  rewrite at_thrust_NP; [|apply ordinary_fuel_ok; auto|fold (rated f); lra].
  apply nr_within with 6100; [|lra|lra]. eapply nr_w; [apply (at_thrust_fl f t 0); auto; [rewrite Rmult_0_l; apply na_exact|lra]|lra].
Qed.
Lemma to_bound : forall e tas alt dT, 0 <= eng_bpr e <= 40 -> 0 < eng_max_thrust e -> 0 < eng_number e -> -3000 <= alt <= 60000 -> 0 <= tas <= 600 -> Rabs (toR e tas alt dT) <= 3 * (eng_number e * eng_max_thrust e).
Proof.
  intros e tas alt dT Hb HF Hn Halt Ht. destruct (coefa_fl rd Hrd e ltac:(lra)) as [_ CA].
  assert (Bp : 0 <= dpR alt dT <= 1.2). { destruct (alt_fl rd Hrd alt Halt) as [_ B]. pose proof (p_bounds (alt * ft) dT ltac:(lra)). unfold dpR. split; [apply Rmult_le_pos; [lra|left; apply Rinv_0_lt_compat; apply p0_pos]|]. uc. lra. }
  assert (BM : 0 <= tas * kts / aR 0 dT <= 1).
  { assert (325 <= aR 0 dT). { unfold aR. rewrite tR_low by lra. pose proof (clipT_range dT). rewrite <- (sqrt_square 325) by lra. apply sqrt_le_1_alt. uc. lra. }
    split; [apply Rmult_le_pos; [uc; lra|left; apply Rinv_0_lt_compat; lra]|]. apply Rmult_le_reg_r with (aR 0 dT); [lra|]. unfold Rdiv. rewrite Rmult_assoc, Rinv_l by lra. uc; lra. }
  assert (CB : 0 <= coefb (eng_bpr e) <= 1.44). { pose proof (sqrt_pos (eng_bpr e)). assert (sqrt (eng_bpr e) <= 6.33) by (rewrite <- (sqrt_square 6.33) by lra; apply sqrt_le_1_alt; lra). unfold coefb. lra. }
  unfold toR. set (m := tas * kts / aR 0 dT) in *. set (p := dpR alt dT) in *. set (ca := coefa _) in *. set (cb := coefb _) in *. clearbody m p ca cb.
  assert (B1 : 0 <= polyA p <= 1.1) by (unfold polyA; nra).
  assert (B2 : 0 <= polyZ p <= 1.3). { destruct (Rle_lt_or_eq_dec 0 p ltac:(lra)) as [L|<-]; [split; [left; apply polyZ_pos; auto|]|unfold polyZ; lra]. unfold polyZ. interval with (i_bisect p, i_taylor p). }
  assert (B3 : 0 <= polyX p <= 1.2). { destruct (Rle_lt_or_eq_dec 0 p ltac:(lra)) as [L|<-]; [split; [left; apply polyX_pos; auto|]|unfold polyX; lra]. unfold polyX. interval with (i_bisect p, i_taylor p). }
  set (A := polyA p) in *. set (Z := polyZ p) in *. set (X := polyX p) in *. clearbody A Z X.
  assert (T1 : 0 <= ca * Z * m <= 2.21). { assert (0 <= ca * Z <= 2.21) by nra. nra. }
  assert (T2 : 0 <= cb * X * m ^ 2 <= 1.73). { assert (0 <= cb * X <= 1.73) by nra. assert (0 <= m ^ 2 <= 1) by (cbn; nra). nra. }
  rewrite Rmult_assoc, Rabs_mult, (Rabs_pos_eq (eng_max_thrust e * eng_number e)) by nra. rewrite (Rmult_comm (eng_number e)). apply Rmult_le_compat_r; [nra|]. apply Rabs_le. lra.
Qed.
Theorem C122_takeoff : forall e f tas alt th, ordinary_fuel f -> 0 <= eng_bpr e <= 40 -> f_max_thrust f = eng_max_thrust e -> f_n_eng f = eng_number e -> -3000 <= alt <= 60000 -> 0 <= tas <= 600 ->
  exists q q', takeoff_fuel NP e f (Fin tas) (Some (Fin alt)) (Fin th) = inr q /\ takeoff_fuel (FL rd) e f (Fin tas) (Some (Fin alt)) (Fin th) = inr q' /\ within 1.2e-9 q q'.
Proof.
  intros e f tas alt th Hf Hb EF En Ha Ht. pose proof Hf as (_ & _ & _ & _ & PF & Pn). assert (P : 0 < rated f) by (unfold rated; nra).
  do 2 eexists. split; [reflexivity|]. split; [reflexivity|]. rewrite (ci0 rd Hrd). cbn [cst NP].
  destruct (C121_takeoff rd e tas alt 0 Hrd Hb ltac:(lra) ltac:(lra) Ha Ht) as [C _].
  pose proof (to_bound e tas alt 0 Hb ltac:(lra) ltac:(lra) Ha Ht) as B. rewrite <- EF, <- En in B. fold (rated f) in B.
  rewrite takeoff_NP in * by lra. set (t := toR e tas alt 0) in *. pose proof (Rabs_le_inv _ _ B).
  destruct (takeoff_thrust (FL rd) e (Fin tas) (Fin alt) (Fin 0)) as [t'| | |] eqn:Et; try contradiction C. cbn [fclose] in C.
  rewrite at_thrust_NP; [|apply ordinary_fuel_ok; auto|fold (rated f); lra]. cbn [mul NP emul].
  assert (N : na t (11300 * rated f) (Fin t')). { eexists. split; [reflexivity|]. rewrite Rabs_minus_sym. eapply Rle_trans; [exact C|]. rewrite <- EF, <- En, (Rmult_comm (f_max_thrust f)). fold (rated f). pose proof v_lb. nra. }
  pose proof (at_thrust_fl f t 11300 _ Hf N B ltac:(lra)) as M.
  apply nr_within with (1.2266e6); [|lra|lra]. eapply nr_w; [apply nr_mul; auto; [apply nr_exact|exact M]|lra].
Qed.
(** weight at most ten times the rated thrust, acceleration at most 1 g, drag and required thrust at most three times the rated thrust *)
Definition moderate (a : drag_par) (wave : bool) (f : fuel_par) (mass tas alt vs acc dT : R) : Prop :=
  0 <= mass /\ mass * 9.81 <= 10 * rated f /\ Rabs acc <= 9.81 /\
  exists D s, clean NP a wave (Fin mass) (Fin tas) (Fin alt) (Fin vs) (Fin dT) = Fin D /\ path_sine (si_kt tas) (si_fpm vs) s /\
    Rabs D <= 3 * rated f /\ Rabs (D + mass * 9.81 * s + mass * acc) <= 3 * rated f.
Lemma na_rnd' : forall o l x a Y, na x a Y -> na x (1.001 * a + 1.02 * Rabs x) (rnd rd o l Y).
Proof.
  intros o l x a Y (y & -> & H). pose proof v_pos. pose proof v_small. assert (0 <= a) by (pose proof (Rabs_pos (y - x)); nra).
  pose proof (nr_rnd rd Hrd o l y 0 (Fin y) (nr_exact y)) as N. destruct (nr_na y _ _ (1.02 * Rabs y) N ltac:(lra) ltac:(lra)) as (z & E' & Z). exists z. split; [exact E'|].
  assert (Rabs y <= Rabs x + a * v) by (replace y with (x + (y - x)) by ring; eapply Rle_trans; [apply Rabs_triang|]; lra).
  replace (z - x) with ((z - y) + (y - x)) by ring. eapply Rle_trans; [apply Rabs_triang|].
  assert (1.02 * Rabs y * v <= 1.02 * (Rabs x + a * v) * v) by (apply Rmult_le_compat_r; lra).
  assert (0 <= a * v) by (apply Rmult_le_pos; lra). assert (a * v * v <= a * v * 1e-15) by (apply Rmult_le_compat_l; lra). lra.
Qed.
Lemma na_add' : forall x a X y c Y, na x a X -> na y c Y -> na (x + y) (1.001 * (a + c) + 1.02 * Rabs (x + y)) (add (FL rd) X Y).
Proof.
  intros x a X y c Y (x' & -> & H) (y' & -> & S). apply na_rnd'. eexists. split; [reflexivity|].
  replace (x' + y' - (x + y)) with ((x' - x) + (y' - y)) by ring. eapply Rle_trans; [apply Rabs_triang|]. lra.
Qed.
Lemma enroute_fl : forall a wave f mass tas alt vs acc dT limit eps kD, ordinary_fuel f -> shallow tas vs -> moderate a wave f mass tas alt vs acc dT ->
  within eps (clean NP a wave (Fin mass) (Fin tas) (Fin alt) (Fin vs) (Fin dT)) (clean (FL rd) a wave (Fin mass) (Fin tas) (Fin alt) (Fin vs) (Fin dT)) ->
  0 <= kD <= 6000 -> eps <= kD * v ->
  exists q, enroute NP a wave f (Fin mass) (Fin tas) (Fin alt) (Fin vs) (Fin acc) (Fin dT) limit = Fin q /\
  nr q (108 * (3.1 * kD + 300) + 6100) (enroute (FL rd) a wave f (Fin mass) (Fin tas) (Fin alt) (Fin vs) (Fin acc) (Fin dT) limit).
Proof.
  intros a wave f mass tas alt vs acc dT limit eps kD Hf [Pt Hsh] (Pm & Bm & Bacc & D & s & ED & Hs & BD & BT) HD BkD Leps.
  pose proof Hf as (_ & _ & _ & _ & PF & Pn). assert (P : 0 < rated f) by (unfold rated; nra). pose proof v_pos. pose proof v_small.
  rewrite (C27_point_mass_balance a wave f mass tas alt vs acc dT limit D s ED Hs). apply path_sine_spec in Hs.
  pose proof (Rabs_le_inv _ _ BT). rewrite at_thrust_NP; [|apply ordinary_fuel_ok; auto|fold (rated f); lra]. eexists. split; [reflexivity|].
  unfold enroute. apply at_thrust_fl; auto; [|lra].
  set (Rt := rated f) in *. clearbody Rt. rewrite ED in HD. destruct (clean (FL rd) a wave _ _ _ _ _) as [D'| | |]; try contradiction HD. cbn [within] in HD.
  assert (ND : na D (3 * kD * Rt) (Fin D')). { eexists. split; [reflexivity|]. eapply Rle_trans; [exact HD|]. pose proof (Rabs_pos D). apply Rle_trans with (kD * v * Rabs D); [apply Rmult_le_compat_r; lra|]. assert (0 <= kD * v) by nra. apply Rle_trans with (kD * v * (3 * Rt)); [apply Rmult_le_compat_l; lra|lra]. }
  assert (Ns : na s 6.2 (bsin (FL rd) (barctan2 (FL rd) (mul (FL rd) (Fin vs) (cs fpm)) (mul (FL rd) (Fin tas) (cs kts))))).
  { subst s. apply (sin_gamma_fl rd Hrd _ 2 _ _ 2 _); try lra.
    - eapply nr_w; [apply nr_mul; auto; [apply nr_exact|apply nr_cst; auto]|lra].
    - eapply nr_w; [apply nr_mul; auto; [apply nr_exact|apply nr_cst; auto]|lra].
    - uc; lra.
    - rewrite Rabs_mult, (Rabs_pos_eq fpm) by (uc; lra). uc; lra. }
  assert (Bs : Rabs s <= 1) by (subst s; apply Rabs_le; pose proof (SIN_bound (Ratan2 (vs * fpm) (tas * kts))); lra). clear Hs.
  set (S := bsin _ _) in *. clearbody S.
  assert (Nw : na (mass * 9.81 * s) (94 * Rt) (mul (FL rd) (mul (FL rd) (Fin mass) (cs 9.81)) S)).
  { pose proof Ns as (s' & -> & _). rewrite (Rmult_comm (mass * 9.81)).
    assert (Q : nr (s' * (mass * 9.81)) 3 (mul (FL rd) (mul (FL rd) (Fin mass) (cs 9.81)) (Fin s'))).
    { eapply nr_w; [eapply nr_x; [apply nr_mul; auto; [apply nr_mul; auto; [apply nr_exact|apply nr_cst; auto]|apply nr_exact]|ring]|lra]. }
    eapply na_w; [apply (na_scale _ _ s' (mass * 9.81) 3 _ 1 Ns Q); lra|]. rewrite (Rabs_pos_eq (mass * 9.81)) by lra. lra. }
  assert (Na : na (mass * acc) (10.3 * Rt) (mul (FL rd) (Fin mass) (Fin acc))).
  { apply nr_na with 1; [eapply nr_w; [apply nr_mul; auto; apply nr_exact|lra]|lra|]. rewrite Rabs_mult, (Rabs_pos_eq mass) by lra. pose proof (Rabs_pos acc). nra. }
  assert (Bw : Rabs (mass * 9.81 * s) <= 10 * Rt). { rewrite Rabs_mult, (Rabs_pos_eq (mass * 9.81)) by lra. pose proof (Rabs_pos s). nra. }
  eapply na_w; [apply na_add'; [apply na_add'; [exact ND|exact Nw]|exact Na]|].
  assert (B2 : Rabs (D + mass * 9.81 * s) <= 13 * Rt) by (eapply Rle_trans; [apply Rabs_triang|]; lra). nra.
Qed.
Theorem C122_enroute : forall a f mass tas alt vs acc dT limit, ordinary_fuel f -> 0 < wing_area a -> 0 < cd0_clean a -> 0 <= k_clean a ->
  -3000 <= alt <= 60000 -> shallow tas vs -> moderate a false f mass tas alt vs acc dT ->
  within 3e-10 (enroute NP a false f (Fin mass) (Fin tas) (Fin alt) (Fin vs) (Fin acc) (Fin dT) limit) (enroute (FL rd) a false f (Fin mass) (Fin tas) (Fin alt) (Fin vs) (Fin acc) (Fin dT) limit).
Proof.
  intros a f mass tas alt vs acc dT limit Hf PS Pc Pk Ha Hs Hm. pose proof v_lb.
  destruct (enroute_fl a false f mass tas alt vs acc dT limit 5e-13 564 Hf Hs Hm) as (q & -> & N); [apply C120_clean; auto|lra|lra|].
  eapply nr_within; [exact N|lra|lra].
Qed.
Theorem C122_enroute_wave : forall a f mass tas alt vs acc dT limit, ordinary_fuel f -> 0 < wing_area a -> ordinary_wing a -> tas <= 1000 -> flyable a mass tas alt dT ->
  -3000 <= alt <= 60000 -> shallow tas vs -> moderate a true f mass tas alt vs acc dT ->
  within 2e-9 (enroute NP a true f (Fin mass) (Fin tas) (Fin alt) (Fin vs) (Fin acc) (Fin dT) limit) (enroute (FL rd) a true f (Fin mass) (Fin tas) (Fin alt) (Fin vs) (Fin acc) (Fin dT) limit).
Proof.
  intros a f mass tas alt vs acc dT limit Hf PS Hw Ht Hfl Ha Hs Hm. pose proof v_lb. pose proof Hm as (Pm & _).
  destruct (enroute_fl a true f mass tas alt vs acc dT limit 5e-12 5640 Hf Hs Hm) as (q & -> & N); [apply C120_wave; auto|lra|lra|].
  eapply nr_within; [exact N|lra|lra].
Qed.
End Fl.

(** ** every FuelFlow object of the package *)
Definition fuel_check (m : fmrec) : bool :=
  Qle_bool 0.5 (fm_c1 m) && Qle_bool (fm_c1 m) 4 && Qle_bool 1 (fm_c2 m) && Qle_bool (fm_c2 m) 3 && Qle_bool 0.4 (fm_c3 m) && Qle_bool (fm_c3 m) 4.
Lemma fuel_checked : forallb fuel_check shipped_fuel = true.
Proof. vm_compute. reflexivity. Qed.
Section Shipped.
Context (d : db) (SH : ships d).
Lemma shipped_fuel_ordinary : forall ac eng k o, kw_force k <> Some true -> fuel_new d ac eng k = inr o -> exists f, fuel_par_of o = Some f /\ ordinary_fuel f.
Proof.
  intros ac eng k o Hk H. destruct (fuel_new_ok d SH ac eng k o Hk H) as (f & Ef & Hok & _). exists f. split; auto.
  destruct (C84_model_selection d SH ac eng k o H) as (m & sc & base & Em & Hm & _). rewrite (sh_fuel d SH) in Hm.
  pose proof fuel_checked as C. rewrite forallb_forall in C. specialize (C _ Hm). clear Hm.
  unfold fuel_par_of in Ef. rewrite Em in Ef. destruct (en_max_thrust _) as [mt|]; [|discriminate]. injection Ef as <-. destruct Hok. cbn in *.
  unfold fuel_check in C. bools.
  assert (Q2R 4 = 4) by (unfold Q2R; cbn; lra). assert (Q2R 1 = 1) by (unfold Q2R; cbn; lra). assert (Q2R 3 = 3) by (unfold Q2R; cbn; lra).
  repeat apply conj; cbn; lra.
Qed.
Lemma fuel_thrust_same : forall ac eng k o, fuel_new d ac eng k = inr o ->
  er_row (to_eng (fo_thrust o)) = er_row (fo_eng o) /\ to_ac (fo_thrust o) = fo_ac o.
Proof.
  intros ac eng k o H. unfold fuel_new in H. binds H. injection H as <-. cbn [fo_thrust fo_eng fo_ac].
  unfold thrust_new in E1. binds E1. destruct (_ && _); [discriminate|]. injection E1 as <-. cbn.
  rewrite aircraft_lower in E. assert (x5 = x) by congruence. subst x5. split; auto.
  unfold get in E6. cbn in E6. rewrite !engine_find in *.
  assert (U : forall s, upper (strip (upper s)) = upper (strip s)). { intros. rewrite strip_upper, upper_idem. reflexivity. }
  rewrite U in E6. destruct (find _ _); [|discriminate]. injection E6 as <-. injection E0 as <-. reflexivity.
Qed.
Theorem C122_shipped : forall rd ac eng k o, accurate rd -> kw_force k <> Some true -> fuel_new d ac eng k = inr o ->
  exists f p, fuel_par_of o = Some f /\ thrust_par_of (to_ac (fo_thrust o)) (er_row (to_eng (fo_thrust o))) = Some p /\
  let a := drag_par_of (fo_drag o) in
  (forall t, Rabs t <= 3 * rated f -> within 6e-12 (at_thrust NP f (Fin t)) (at_thrust (FL rd) f (Fin t))) /\
  (forall tas alt th, -3000 <= alt <= 60000 -> 0 <= tas <= 600 ->
   exists q q', takeoff_fuel NP p f (Fin tas) (Some (Fin alt)) (Fin th) = inr q /\ takeoff_fuel (FL rd) p f (Fin tas) (Some (Fin alt)) (Fin th) = inr q' /\ within 1.2e-9 q q') /\
  (forall mass tas alt vs acc dT limit, -3000 <= alt <= 60000 -> shallow tas vs ->
   (moderate a false f mass tas alt vs acc dT ->
    within 3e-10 (enroute NP a false f (Fin mass) (Fin tas) (Fin alt) (Fin vs) (Fin acc) (Fin dT) limit) (enroute (FL rd) a false f (Fin mass) (Fin tas) (Fin alt) (Fin vs) (Fin acc) (Fin dT) limit)) /\
   (moderate a true f mass tas alt vs acc dT -> tas <= 1000 -> flyable a mass tas alt dT ->
    within 2e-9 (enroute NP a true f (Fin mass) (Fin tas) (Fin alt) (Fin vs) (Fin acc) (Fin dT) limit) (enroute (FL rd) a true f (Fin mass) (Fin tas) (Fin alt) (Fin vs) (Fin acc) (Fin dT) limit))).
Proof.
  intros rd ac eng k o Hrd Hk H. destruct (shipped_fuel_ordinary _ _ _ _ Hk H) as (f & Ef & Hf).
  destruct (fuel_new_ok d SH ac eng k o Hk H) as (f' & Ef' & _ & Ht & Hd).
  destruct (shipped_engine_ordinary d SH _ _ _ _ Hk Ht) as (p & Ep & _ & Hb & _).
  exists f, p. split; auto. split; auto. destruct (shipped_ordinary d SH _ _ _ Hd) as [W F].
  pose proof F as (P1 & P2 & P3 & _). pose proof W as (_ & _ & W3 & _).
  assert (Es : f_max_thrust f = eng_max_thrust p /\ f_n_eng f = eng_number p).
  { destruct (fuel_thrust_same _ _ _ _ H) as [E1' E2']. rewrite E1', E2' in Ep. unfold fuel_par_of in Ef. destruct (fo_model o). unfold thrust_par_of in Ep.
    destruct (en_bpr _); [|discriminate]. destruct (en_max_thrust _); [|discriminate]. injection Ef as <-. injection Ep as <-.
    unfold thrust_init. destruct (option_map _ _); [destruct (option_map _ _); [destruct (Rltb _ _)|]|]; cbn; auto. }
  destruct Es as [Es1 Es2]. cbv zeta. split; [|split].
  - intros. apply C122_at_thrust; auto.
  - intros. apply C122_takeoff; auto.
  - intros. split; intros.
    + apply C122_enroute; auto; lra.
    + apply C122_enroute_wave; auto; apply F.
Qed.
End Shipped.

(** A320 with its default engine: 60 t, 280 kt at 10000 ft, climbing with 1500 ft/min and accelerating: enroute fuel flow *)
Example C122_ex : exists o f p, fuel_new shipped0 "A320" None (mkKwc None None) = inr o /\ fuel_par_of o = Some f /\ thrust_par_of (to_ac (fo_thrust o)) (er_row (to_eng (fo_thrust o))) = Some p /\
  within 6e-12 (at_thrust NP f (Fin 50000)) (at_thrust (FL binary64) f (Fin 50000)) /\
  moderate (drag_par_of (fo_drag o)) false f 60000 280 10000 1500 0.5 0 /\
  within 3e-10 (enroute NP (drag_par_of (fo_drag o)) false f (Fin 60000) (Fin 280) (Fin 10000) (Fin 1500) (Fin 0.5) (Fin 0) true)
    (enroute (FL binary64) (drag_par_of (fo_drag o)) false f (Fin 60000) (Fin 280) (Fin 10000) (Fin 1500) (Fin 0.5) (Fin 0) true).
Proof.
  destruct (fuel_new shipped0 "A320" None (mkKwc None None)) as [e|o] eqn:E. { vm_compute in E. discriminate. }
  destruct (C122_shipped shipped0 shipped0_ships binary64 "A320" None (mkKwc None None) o (proj1 C112_binary64) ltac:(cbn; discriminate) E) as (f & p & Ef & Ep & H1 & _ & H3).
  assert (R : rated f = 2 * 117900). { vm_compute in E. injection E as <-. vm_compute in Ef. injection Ef as <-. unfold rated. cbn. unfold Q2R. cbn. lra. }
  exists o, f, p. split; auto. split; auto. split; auto. split; [apply H1; rewrite R, Rabs_pos_eq; lra|].
  assert (M : moderate (drag_par_of (fo_drag o)) false f 60000 280 10000 1500 0.5 0).
  { unfold moderate. rewrite R. split; [lra|]. split; [lra|]. split; [rewrite Rabs_pos_eq; lra|]. 
    assert (PA : wing_area (drag_par_of (fo_drag o)) = 124 /\ cd0_clean (drag_par_of (fo_drag o)) = 0.018 /\ k_clean (drag_par_of (fo_drag o)) = 0.039).
    { vm_compute in E. injection E as <-. cbn. unfold Q2R. cbn. lra. }
    destruct PA as (PA1 & PA2 & PA3). rewrite clean_NP, PA1, PA2, PA3. do 2 eexists. split; [reflexivity|].
    split; [right; split; [left; unfold si_kt; lra|reflexivity]|].
    assert (Q : 100000 <= qSR 124 280 10000 0 <= 1.6e6).
    { assert (RH : 0.5 <= rhoR (10000 * ft) 0 <= 1.2). { rewrite rhoR0. unfold tau. rewrite tR_low by (uc; lra). rewrite (Rmax_left 0.0) by (uc; lra). rewrite clipT_0. unfold Rpower. uc. split; interval. }
      unfold qSR. set (r := rhoR _ _) in *. clearbody r. rewrite Rmax_left; uc; lra. }
    unfold dragR. set (q := qSR _ _ _ _) in *. clearbody q.
    assert (L : Rabs (liftR 60000 280 1500) <= 590000). { unfold liftR. rewrite Rabs_mult, (Rabs_pos_eq (60000 * g0)) by (uc; lra). pose proof (COS_bound (Ratan2 (1500 * fpm) (280 * kts))). assert (Rabs (cos (Ratan2 (1500 * fpm) (280 * kts))) <= 1) by (apply Rabs_le; lra). uc; lra. }
    set (l := liftR _ _ _) in *. clearbody l.
    assert (B : 0 <= (0.018 + 0.039 * (l / q) ^ 2) * q <= 170000).
    { replace ((0.018 + 0.039 * (l / q) ^ 2) * q) with (0.018 * q + 0.039 * (l ^ 2 / q)) by (field; lra).
      assert (0 <= l ^ 2 <= 590000 ^ 2). { rewrite <- (pow2_abs l). pose proof (Rabs_pos l). split; [apply pow2_ge_0|apply pow_incr; lra]. }
      assert (0 <= l ^ 2 / q <= 3.49e6). { split; [apply Rmult_le_pos; [lra|left; apply Rinv_0_lt_compat; lra]|]. apply Rmult_le_reg_r with q; [lra|]. unfold Rdiv. rewrite Rmult_assoc, Rinv_l by lra. lra. }
      lra. }
    set (D := (_ + _) * q) in *. clearbody D. split; [rewrite Rabs_pos_eq; lra|].
    assert (S : 0 <= si_fpm 1500 / sqrt (si_kt 280 * si_kt 280 + si_fpm 1500 * si_fpm 1500) <= 0.06). { unfold si_fpm, si_kt. split; interval. }
    set (S0 := si_fpm 1500 / _) in *. clearbody S0. rewrite Rabs_pos_eq; lra. }
  split; [exact M|]. refine (proj1 (H3 60000 280 10000 1500 0.5 0 true _ _) M); [lra|]. split; [lra|]. rewrite Rabs_pos_eq; lra.
Qed.
