(** Real-number forms of the contrail functions and their monotonicity. *)
From Coq Require Import Reals Ranalysis5 List Bool Lra Lia Psatz.
From Coquelicot Require Import Coquelicot.
From Interval Require Import Tactic.
From Verif Require Import Num NumFacts Contrail.
Import ListNotations.
Open Scope R_scope.

(** positive derivative on [a,b] means increasing *)
Lemma deriv_incr : forall f f' a c, a < c ->
  (forall x, a <= x <= c -> is_derive f x (f' x)) -> (forall x, a <= x <= c -> 0 < f' x) -> f a < f c.
Proof.
  intros f f' a c Hac Hd Hp.
  destruct (MVT_cor2 f f' a c Hac) as [x [E Hx]].
  - intros y Hy. apply is_derive_Reals. auto.
  - specialize (Hp x ltac:(lra)). nra.
Qed.

Lemma deriv_nondecr : forall f f' a c, a <= c ->
  (forall x, a <= x <= c -> is_derive f x (f' x)) -> (forall x, a <= x <= c -> 0 <= f' x) -> f a <= f c.
Proof.
  intros f f' a c [Hac| ->] Hd Hp; [|lra].
  destruct (MVT_cor2 f f' a c Hac) as [x [E Hx]].
  - intros y Hy. apply is_derive_Reals. auto.
  - specialize (Hp x ltac:(lra)). nra.
Qed.

(** ** tanh by one exponential *)
Lemma tanh_exp : forall x, tanh x = 1 - 2 / (exp (2 * x) + 1).
Proof.
  intros. unfold tanh, sinh, cosh. replace (2 * x) with (x + x) by ring. rewrite exp_plus, exp_Ropp.
  pose proof (exp_pos x). field. split; [|lra]. nra.
Qed.
Lemma tanh_bounds : forall x, -1 < tanh x < 1.
Proof.
  intros. rewrite tanh_exp. pose proof (exp_pos (2 * x)).
  assert (0 < 2 / (exp (2 * x) + 1)) by (apply Rdiv_lt_0_compat; lra).
  assert (2 / (exp (2 * x) + 1) < 2).
  { apply (Rmult_lt_reg_r (exp (2 * x) + 1)); [lra|]. unfold Rdiv. rewrite Rmult_assoc, Rinv_l; lra. }
  lra.
Qed.

(** ** Logarithms of the saturation pressures *)
Definition liR (t : R) : R := 9.550426 - 5723.265 / t + 3.53068 * ln t - 0.00728332 * t.
Definition lwR (t : R) : R :=
  54.842763 - 6763.22 / t - 4.210 * ln t + 0.000367 * t
  + tanh (0.0415 * (t - 218.8)) * (53.878 - 1331.22 / t - 9.44523 * ln t + 0.014025 * t).
Definition lwE (t : R) : R :=
  54.842763 - 6763.22 / t - 4.210 * ln t + 0.000367 * t
  + (1 - 2 / (exp (2 * (0.0415 * (t - 218.8))) + 1)) * (53.878 - 1331.22 / t - 9.44523 * ln t + 0.014025 * t).
Lemma lwR_E : forall t, lwR t = lwE t.
Proof. intros; unfold lwR, lwE. rewrite tanh_exp. reflexivity. Qed.

Lemma ln_abs : forall t, 0 < t <= 10000 -> Rabs (ln t) <= 10 + / t.
Proof.
  intros t Ht. assert (0 < / t) by (apply Rinv_0_lt_compat; lra).
  assert (Hu : forall x, 0 < x -> ln x <= x - 1).
  { intros x Hx. pose proof (exp_ineq1_le (ln x)) as E. rewrite exp_ln in E; lra. }
  apply Rabs_le. split.
  - pose proof (Hu (/ t) H) as E. rewrite ln_Rinv in E by lra. lra.
  - assert (ln t <= ln 10000) by (destruct (proj2 Ht) as [K| ->]; [left; apply ln_increasing; lra|lra]).
    assert (ln 10000 <= 10) by interval. lra.
Qed.

Lemma liR_max : forall t, 0 < t <= 10000 -> liR t <= exp_max.
Proof.
  intros t Ht. unfold liR, exp_max. pose proof (ln_abs t Ht) as L. apply Rcomplements.Rabs_le_between in L.
  assert (0 < / t) by (apply Rinv_0_lt_compat; lra). unfold Rdiv. lra.
Qed.
Lemma lwR_max : forall t, 0 < t <= 10000 -> lwR t <= exp_max.
Proof.
  intros t Ht. unfold lwR, exp_max. pose proof (ln_abs t Ht) as L. apply Rcomplements.Rabs_le_between in L.
  assert (0 < / t) by (apply Rinv_0_lt_compat; lra).
  pose proof (tanh_bounds (0.0415 * (t - 218.8))) as B.
  set (th := tanh _) in *. clearbody th.
  set (q := 53.878 - 1331.22 / t - 9.44523 * ln t + 0.014025 * t).
  assert (Hq : Rabs q <= 300 + 1341 * / t).
  { unfold q. unfold Rdiv. apply Rabs_le. lra. }
  clearbody q. apply Rcomplements.Rabs_le_between in Hq.
  assert (th * q <= 300 + 1341 * / t) by nra. unfold Rdiv. lra.
Qed.

Lemma ice_NP : forall t, 0 < t <= 10000 -> saturation_pressure_over_ice NP (Fin t) = Fin (exp (liR t)).
Proof.
  intros t Ht. unfold saturation_pressure_over_ice. cbn [cst NP div mul blog].
  rewrite ediv_fin, elog_fin by lra. cbn [emul add sub NP esub eadd bexp].
  rewrite eexp_fin by (apply liR_max; auto). reflexivity.
Qed.
Lemma water_NP : forall t, 0 < t <= 10000 -> saturation_pressure_over_water NP (Fin t) = Fin (exp (lwR t)).
Proof.
  intros t Ht. unfold saturation_pressure_over_water. cbn [cst NP div mul blog].
  rewrite !ediv_fin, elog_fin by lra. cbn [emul add sub NP esub eadd bexp btanh elift_lim mul].
  rewrite eexp_fin by (apply lwR_max; auto). reflexivity.
Qed.

(** ** Monotonicity *)
Definition liD (t : R) : R := 5723.265 / (t * t) + 3.53068 / t - 0.00728332.
Lemma liR_derive : forall t, 0 < t -> is_derive liR t (liD t).
Proof.
  intros t Ht. unfold liR, liD. auto_derive; [lra|]. field. lra.
Qed.
Lemma liD_pos : forall t, 0 < t <= 1000 -> 0 < liD t.
Proof.
  intros t Ht. unfold liD.
  assert (1 / 1000 <= / t) by (apply (Rmult_le_reg_l t); [lra|]; rewrite Rinv_r; lra).
  unfold Rdiv in *. rewrite Rinv_mult. nra.
Qed.
Lemma liR_incr : forall t u, 0 < t < u -> u <= 1000 -> liR t < liR u.
Proof.
  intros. apply (deriv_incr _ liD); [lra| |]; intros.
  - apply liR_derive; lra.
  - apply liD_pos; lra.
Qed.

Definition lwD (t : R) : R :=
  6763.22 / (t * t) - 4.210 / t + 0.000367
  + 2 * (2 * 0.0415) * exp (2 * (0.0415 * (t - 218.8))) / (exp (2 * (0.0415 * (t - 218.8))) + 1)^2
     * (53.878 - 1331.22 / t - 9.44523 * ln t + 0.014025 * t)
  + (1 - 2 / (exp (2 * (0.0415 * (t - 218.8))) + 1)) * (1331.22 / (t * t) - 9.44523 / t + 0.014025).
Lemma lwE_derive : forall t, 0 < t -> is_derive lwE t (lwD t).
Proof.
  intros t Ht. unfold lwE, lwD. pose proof (exp_pos (2 * (0.0415 * (t - 218.8)))).
  auto_derive.
  - change (t + - (218.8)) with (t - 218.8). repeat split; try lra.
  - change (t + - (218.8)) with (t - 218.8).
    set (e := exp _) in *. clearbody e. set (l := ln t).
    match goal with |- ?a = ?b => change (@eq R a b) end. field. lra.
Qed.
Lemma lwD_pos : forall t, 123 <= t <= 332 -> 0 < lwD t.
Proof.
  intros t Ht. unfold lwD. interval with (i_bisect t, i_depth 18).
Qed.
Lemma lwR_incr : forall t u, 123 <= t -> t < u -> u <= 332 -> lwR t < lwR u.
Proof.
  intros. rewrite !lwR_E. apply (deriv_incr _ lwD); [lra| |]; intros.
  - apply lwE_derive; lra.
  - apply lwD_pos; lra.
Qed.

(** ice below water up to the ice point, above it afterwards *)
Lemma ice_below_water : forall t, 110 <= t <= 273.15 -> liR t < lwR t.
Proof.
  intros t Ht. rewrite lwR_E. apply Rminus_lt. unfold liR, lwE.
  interval with (i_bisect t, i_depth 20).
Qed.
Lemma water_below_ice : forall t, 273.17 <= t <= 332 -> lwR t < liR t.
Proof.
  intros t Ht. rewrite lwR_E. apply Rminus_lt. unfold liR, lwE.
  interval with (i_bisect t, i_depth 20).
Qed.

(** ** Critical temperature *)
Definition gR (p eta : R) : R := 1.2232 * 1004 * p / (0.622 * 43000000 * (1 - eta)).
Definition twR (g : R) : R := -46.46 + 9.43 * ln (g - 0.053) + 0.72 * ln (g - 0.053) ^ 2 + 273.15.

Lemma slope_NP : forall p eta, eta <> 1 -> isobaric_mixing_slope NP (Fin p) (Fin eta) = Fin (gR p eta).
Proof.
  intros p eta H. unfold isobaric_mixing_slope. cbn [cst NP mul emul sub esub div].
  rewrite ediv_fin. reflexivity. unfold ratio_mass_water_vapor_air, spec_combustion_heat. lra.
Qed.
Lemma crit_NP : forall p eta, eta <> 1 -> 0.053 < gR p eta ->
  critical_temperature_water NP (Fin p) (Fin eta) = Fin (twR (gR p eta)).
Proof.
  intros p eta H Hg. unfold critical_temperature_water. rewrite slope_NP by auto.
  cbn [cst NP sub esub blog]. rewrite elog_fin by lra.
  cbn [cst NP powi epowi mul emul add eadd]. reflexivity.
Qed.
Lemma crit_NaN : forall p eta, eta <> 1 -> gR p eta <= 0.053 ->
  critical_temperature_water NP (Fin p) (Fin eta) = NaN.
Proof.
  intros p eta H Hg. unfold critical_temperature_water. rewrite slope_NP by auto.
  cbn [cst NP sub esub blog]. unfold elog. destruct (Rlt_dec 0 (gR p eta - 0.053)); [lra|].
  destruct (Rlt_dec (gR p eta - 0.053) 0).
  - cbn [cst NP powi epowi mul emul add eadd]. reflexivity.
  - cbn [cst NP powi epowi mul emul add eadd Nat.even]. unfold einf_mul.
    destruct (Rlt_dec 0 9.43); [|lra]. destruct (Rlt_dec 0 0.72); [|lra]. reflexivity.
Qed.
Lemma gR_mono : forall p q e f, 0 < p <= q -> e <= f < 1 -> p < q \/ e < f -> gR p e < gR q f.
Proof.
  intros p q e f Hp He H. unfold gR, Rdiv.
  assert (Hi : / (0.622 * 43000000 * (1 - e)) <= / (0.622 * 43000000 * (1 - f))) by (apply Rinv_le_contravar; lra).
  assert (0 < / (0.622 * 43000000 * (1 - e))) by (apply Rinv_0_lt_compat; lra).
  destruct H as [H|H].
  - apply Rlt_le_trans with (1.2232 * 1004 * q * / (0.622 * 43000000 * (1 - e))); [nra|].
    apply Rmult_le_compat_l; lra.
  - apply Rlt_le_trans with (1.2232 * 1004 * p * / (0.622 * 43000000 * (1 - f))).
    + apply Rmult_lt_compat_l; [lra|]. apply Rinv_lt_contravar; [|lra]. apply Rmult_lt_0_compat; lra.
    + apply Rmult_le_compat_r; [|lra]. lra.
Qed.
Lemma gR_lb : forall p e, 1200 <= p -> 0 <= e < 1 -> 0.055 < gR p e.
Proof.
  intros. apply Rlt_le_trans with (gR 1200 0).
  - unfold gR. interval.
  - destruct (Req_dec p 1200) as [->|]; [destruct (Req_dec e 0) as [->|]; [lra|]|]; left; apply gR_mono; lra.
Qed.
Lemma twR_incr : forall g h, 0.0545 <= g -> g < h -> twR g < twR h.
Proof.
  intros g h Hg Hh. unfold twR.
  assert (L : ln (g - 0.053) < ln (h - 0.053)) by (apply ln_increasing; lra).
  assert (M : -6.55 <= ln (g - 0.053)).
  { apply Rle_trans with (ln 0.0015); [interval|].
    destruct (Req_dec g 0.0545) as [->|]; [right; f_equal; lra|left; apply ln_increasing; lra]. }
  assert (M' : -6.5 < ln (g - 0.053) \/ ln (g - 0.053) <= -6.5) by lra.
  assert (N : -6.503 <= ln (g - 0.053)).
  { apply Rle_trans with (ln 0.0015); [interval|].
    destruct (Req_dec g 0.0545) as [->|]; [right; f_equal; lra|left; apply ln_increasing; lra]. }
  set (l := ln (g - 0.053)) in *. set (k := ln (h - 0.053)) in *. clearbody l k. nra.
Qed.

(** ** The ice root *)
Definition ceR (t tw g : R) : R := exp (lwR tw) - exp (liR t) - (tw - t) * g.
Lemma crit_func_NP : forall t tw g, 0 < t <= 10000 -> 0 < tw <= 10000 ->
  crit_func NP (Fin t) (Fin tw) (Fin g) = Fin (ceR t tw g).
Proof.
  intros. unfold crit_func. rewrite ice_NP, water_NP by auto. reflexivity.
Qed.

Definition eiD (t : R) : R := exp (liR t) * liD t.
Definition eiDD (t : R) : R := exp (liR t) * (liD t ^ 2 - 2 * 5723.265 / (t * t * t) - 3.53068 / (t * t)).
Lemma eiD_derive : forall t, 0 < t -> is_derive (fun t => exp (liR t)) t (eiD t).
Proof.
  intros t Ht. unfold eiD. rewrite Rmult_comm. apply (is_derive_comp exp liR).
  - apply is_derive_Reals, derivable_pt_lim_exp.
  - apply liR_derive; auto.
Qed.
Lemma liD_derive : forall t, 0 < t -> is_derive liD t (- 2 * 5723.265 / (t * t * t) - 3.53068 / (t * t)).
Proof. intros t Ht. unfold liD. auto_derive; [split; [nra|split; [lra|auto]]|]. field. lra. Qed.
Lemma eiDD_derive : forall t, 0 < t -> is_derive eiD t (eiDD t).
Proof.
  intros t Ht. unfold eiD, eiDD.
  evar_last. apply (is_derive_mult (fun t => exp (liR t)) liD t _ _ (eiD_derive t Ht) (liD_derive t Ht)).
  intros; apply Rmult_comm. unfold eiD. unfold plus, mult; cbn. set (e := exp _). field. lra.
Qed.
Lemma eiDD_pos : forall t, 100 <= t <= 290 -> 0 < eiDD t.
Proof.
  intros t Ht. unfold eiDD. apply Rmult_lt_0_compat; [apply exp_pos|]. unfold liD.
  interval with (i_bisect t, i_depth 18).
Qed.
Lemma eiD_incr : forall t u, 100 <= t -> t < u -> u <= 290 -> eiD t < eiD u.
Proof.
  intros. apply (deriv_incr _ eiDD); [lra| |]; intros.
  - apply eiDD_derive; lra.
  - apply eiDD_pos; lra.
Qed.

Lemma ceR_derive : forall tw g t, 0 < t -> is_derive (fun t => ceR t tw g) t (g - eiD t).
Proof.
  intros. unfold ceR.
  evar_last. apply (is_derive_minus (fun t => exp (lwR tw) - exp (liR t)) (fun t => (tw - t) * g)).
  apply (is_derive_minus (fun _ => exp (lwR tw)) (fun t => exp (liR t))).
  apply is_derive_const. apply eiD_derive; auto.
  apply (is_derive_ext (fun t => tw * g - t * g)); [intros; cbn; ring|].
  auto_derive. auto. reflexivity. unfold minus, plus, opp, zero; cbn. ring.
Qed.

(** one root in the bracket *)
Lemma ceR_unique : forall tw g r s, 100 < tw <= 290 -> 0 < ceR tw tw g ->
  100 <= r -> r < s -> s <= tw -> ceR r tw g = 0 -> ceR s tw g = 0 -> False.
Proof.
  intros tw g r s Htw Hp Hr Hrs Hs E1 E2.
  assert (s < tw) by (destruct Hs as [|Hs]; auto; subst; lra).
  destruct (MVT_cor2 (fun t => ceR t tw g) (fun t => g - eiD t) r s Hrs) as [c [Ec Hc]].
  { intros; apply is_derive_Reals, ceR_derive; lra. }
  destruct (MVT_cor2 (fun t => ceR t tw g) (fun t => g - eiD t) s tw ltac:(lra)) as [d [Ed Hd]].
  { intros; apply is_derive_Reals, ceR_derive; lra. }
  cbv beta in *. pose proof (eiD_incr c d ltac:(lra) ltac:(lra) ltac:(lra)).
  rewrite E1, E2 in Ec. assert (g - eiD c = 0) by nra. nra.
Qed.
Lemma ceR_exists : forall tw g, 100 < tw <= 290 -> ceR 100 tw g < 0 -> 0 < ceR tw tw g ->
  exists r, 100 < r < tw /\ ceR r tw g = 0.
Proof.
  intros tw g Htw Ha Hb.
  destruct (Ranalysis5.IVT_interv (fun t => ceR t tw g) 100 tw) as [r [Hr E]]; auto; [|lra|].
  - intros a Ha'. apply derivable_continuous_pt. exists (g - eiD a).
    apply is_derive_Reals, ceR_derive; lra.
  - exists r. split; auto. destruct Hr as [[H1|H1] [H2|H2]]; subst; lra.
Qed.

(** bracket validity, in the variable l = ln (g - 0.053) *)
Definition twL (l : R) : R := -46.46 + 9.43 * l + 0.72 * l ^ 2 + 273.15.
Lemma bracket_hi : forall l, -2 <= l <= 3.4 -> 0 < ceR (twL l) (twL l) (exp l + 0.053).
Proof.
  intros l Hl. unfold ceR. assert (B : 110 <= twL l <= 273.15) by (unfold twL; split; [interval|]; interval with (i_bisect l)).
  pose proof (exp_increasing _ _ (ice_below_water _ B)). lra.
Qed.
Lemma bracket_lo : forall l, -2 <= l <= 3.4 -> ceR 100 (twL l) (exp l + 0.053) < 0.
Proof.
  intros l Hl. unfold ceR. pose proof (exp_pos (liR 100)).
  assert (exp (lwR (twL l)) - (twL l - 100) * (exp l + 0.053) < 0); [|lra].
  rewrite lwR_E. unfold lwE, twL.
  interval with (i_bisect l, i_depth 18).
Qed.

(** ** Shortwave forcing *)
Definition FswR : R := 1 - 0.512 * (1 - exp (- (0.15) * 16)).
Lemma FswR_bounds : 0.53 < FswR < 0.54.
Proof. unfold FswR. split; interval. Qed.
Lemma Fsw_NP : Fsw NP = Fin FswR.
Proof.
  unfold Fsw. cbn [cst NP neg eneg mul emul bexp]. rewrite eexp_neg by lra. cbn [sub esub mul emul NP]. reflexivity.
Qed.

(** [x ** 1.676] for x >= 0 *)
Definition pwR (x : R) : R := if Rlt_dec 0 x then Rpower x 1.676 else 0.
Lemma pw_NP : forall x, 0 <= x -> epower (Fin x) (Fin 1.676) = Fin (pwR x).
Proof.
  intros x Hx. unfold epower, pwR. destruct (Rlt_dec 0 x); auto.
  destruct (Rlt_dec x 0); [lra|]. destruct (Rlt_dec 0 1.676); [auto|lra].
Qed.
Lemma pw_bounds : forall x, 0 <= x <= 1 -> 0 <= pwR x <= 1.
Proof.
  intros x Hx. unfold pwR. destruct (Rlt_dec 0 x); [|lra].
  split; [left; apply Rpower_pos|apply Rpower_le_1; lra].
Qed.

Definition FmuR (mu : R) : R := pwR (1 - mu) / Rpower (1 / 2) 1.676 - 1.
Lemma Fmu_bounds : forall mu, 0 <= mu <= 1 -> -1 <= FmuR mu <= 2.21.
Proof.
  intros mu H. unfold FmuR. pose proof (pw_bounds (1 - mu) ltac:(lra)) as B.
  assert (L : 0.312 <= Rpower (1 / 2) 1.676) by interval.
  assert (0 < / Rpower (1 / 2) 1.676) by (apply Rinv_0_lt_compat; lra).
  assert (/ Rpower (1 / 2) 1.676 <= / 0.312) by (apply Rinv_le_contravar; lra).
  assert (/ 0.312 <= 3.21) by interval.
  unfold Rdiv. set (i := / Rpower _ _) in *. clearbody i. nra.
Qed.

(** contrail albedo as a function of the effective depth *)
Definition alR (a x : R) : R := (1 - exp (- (0.242) * x)) * (0.709 + a * exp (- (0.323) * x)).
Definition alD (a x : R) : R :=
  0.242 * exp (- (0.242) * x) * (0.709 + a * exp (- (0.323) * x))
  - (1 - exp (- (0.242) * x)) * (a * 0.323 * exp (- (0.323) * x)).
Lemma alR_derive : forall a x, is_derive (alR a) x (alD a x).
Proof.
  intros. unfold alR, alD. auto_derive; auto. set (e := exp _). set (f := exp _). 
  match goal with |- ?a = ?b => change (@eq R a b) end. lra.
Qed.
Lemma alD_pos : forall a x, -0.361 <= a <= 0.8 -> 0 <= x -> 0 < alD a x.
Proof.
  intros a x Ha Hx. unfold alD.
  assert (E : exp (- (0.323) * x) = exp (- (0.242) * x) * exp (- (0.081) * x)) by (rewrite <- exp_plus; f_equal; lra).
  rewrite E.
  assert (B1 : 0 < exp (- (0.242) * x) <= 1).
  { split; [apply exp_pos|]. rewrite <- exp_0. destruct Hx as [Hx| <-]; [left; apply exp_increasing; lra|right; f_equal; lra]. }
  assert (B3 : 0 < exp (- (0.081) * x) <= 1).
  { split; [apply exp_pos|]. rewrite <- exp_0. destruct Hx as [Hx| <-]; [left; apply exp_increasing; lra|right; f_equal; lra]. }
  assert (D : exp (- (0.242) * x) <= 0.2 -> exp (- (0.081) * x) <= 0.6).
  { intros H. destruct (Rle_dec 6.6 x) as [L|L].
    - apply Rle_trans with (exp (- (0.081) * 6.6)); [|interval].
      destruct L as [L| <-]; [left; apply exp_increasing; lra|lra].
    - exfalso. assert (exp (- (0.242) * 6.6) < exp (- (0.242) * x)) by (apply exp_increasing; lra).
      assert (0.2 < exp (- (0.242) * 6.6)) by interval. lra. }
  set (e := exp (- (0.242) * x)) in *. set (f := exp (- (0.081) * x)) in *. clearbody e f. clear E.
  replace (0.242 * e * (0.709 + a * (e * f)) - (1 - e) * (a * 0.323 * (e * f)))
    with (e * (0.171578 + a * (f * (0.565 * e - 0.323)))) by lra.
  apply Rmult_lt_0_compat; [lra|].
  set (q := 0.565 * e - 0.323).
  destruct (Rle_dec 0 q) as [Hq|Hq].
  - assert (0 <= f * q <= 0.242) by (unfold q in *; nra). nra.
  - destruct (Rle_dec e 0.2) as [He|He].
    + specialize (D He). assert (-0.2 <= f * q <= 0) by (unfold q in *; nra). nra.
    + assert (-0.21 <= f * q <= 0) by (unfold q in *; nra). nra.
Qed.
Lemma alR_incr : forall a x y, -0.361 <= a <= 0.8 -> 0 <= x < y -> alR a x < alR a y.
Proof.
  intros. apply (deriv_incr _ (alD a)); [lra| |]; intros.
  - apply alR_derive. - apply alD_pos; lra.
Qed.
Lemma alR_0 : forall a, alR a 0 = 0.
Proof. intros. unfold alR. rewrite !Rmult_0_r, exp_0. lra. Qed.

Definition muR (z : R) : R := cos (z * (PI / 180)).
Definition EswR (mu tau_c : R) : R := exp (0.157 * tau_c - 0.23 * (tau_c * FswR / mu)).
Definition swR (z tau tau_c : R) : R :=
  - (muR z * 1361) * (0.879 - 0.2) ^ 2 * alR (0.361 * FmuR (muR z)) (tau * FswR / muR z) * EswR (muR z) tau_c.

Lemma muR_range : forall z, 0 <= z < 90 -> 0 < muR z <= 1.
Proof.
  intros z Hz. unfold muR. pose proof PI_RGT_0. split; [|apply COS_bound].
  apply cos_gt_0; nra.
Qed.

Lemma sw_NP : forall z tau tau_c, 0 <= z < 90 -> 0 <= tau -> 0 <= tau_c <= 4000 ->
  rf_shortwave NP (Fin z) (Fin tau) (Fin tau_c) = Fin (swR z tau tau_c).
Proof.
  intros z tau tau_c Hz Ht Hc. unfold rf_shortwave. rewrite Fsw_NP. pose proof FswR_bounds as HF.
  pose proof (muR_range z Hz) as Hm.
  cbn [cst NP bpi div gt egt]. rewrite (Rltb_false 90 z) by lra. cbn [where_ NP ewhere].
  rewrite (ediv_fin PI 180) by lra. cbn [mul NP emul bcos elift]. fold (muR z).
  rewrite !(ediv_fin (_ * FswR)) by lra. cbn [sub NP esub power].
  rewrite pw_NP by lra. rewrite (ediv_fin 1 2) by lra. rewrite epower_fin by lra.
  rewrite ediv_fin by (pose proof (Rpower_pos (1/2) 1.676); lra).
  cbn [sub esub NP neg eneg mul emul bexp add eadd powi epowi].
  assert (Hx : 0 <= tau * FswR / muR z).
  { apply Rmult_le_pos; [nra|]. left; apply Rinv_0_lt_compat; lra. }
  assert (Hy : 0 <= tau_c * FswR / muR z).
  { apply Rmult_le_pos; [nra|]. left; apply Rinv_0_lt_compat; lra. }
  rewrite (eexp_neg (- (0.242) * _)), (eexp_neg (- (0.323) * _)) by lra.
  rewrite eexp_fin by (unfold exp_max; lra).
  cbn [sub esub NP neg eneg mul emul bexp add eadd powi epowi]. f_equal.
  fold (FmuR (muR z)). unfold swR, alR, EswR. f_equal. f_equal. f_equal. ring.
Qed.

Lemma sw_night : forall z tau tau_c, 90 < z -> rf_shortwave NP (Fin z) tau tau_c = Fin 0.
Proof.
  intros. unfold rf_shortwave. cbn [cst NP gt egt where_]. rewrite Rltb_true by auto. reflexivity.
Qed.

Lemma a_range : forall z, 0 <= z < 90 -> -0.361 <= 0.361 * FmuR (muR z) <= 0.8.
Proof. intros z Hz. pose proof (muR_range z Hz). pose proof (Fmu_bounds (muR z) ltac:(lra)). lra. Qed.

Lemma swR_mono : forall z t u tau_c, 0 <= z < 90 -> 0 <= t < u -> swR z u tau_c < swR z t tau_c.
Proof.
  intros z t u tc Hz Ht. unfold swR. pose proof (muR_range z Hz) as Hm. pose proof FswR_bounds as HF.
  pose proof (a_range z Hz) as Ha.
  assert (Hi : 0 < / muR z) by (apply Rinv_0_lt_compat; lra).
  assert (H : alR (0.361 * FmuR (muR z)) (t * FswR / muR z) < alR (0.361 * FmuR (muR z)) (u * FswR / muR z)).
  { apply alR_incr; auto. unfold Rdiv. split; [repeat apply Rmult_le_pos; lra|]. apply Rmult_lt_compat_r; auto. nra. }
  pose proof (exp_pos (0.157 * tc - 0.23 * (tc * FswR / muR z))) as HE. fold (EswR (muR z) tc) in HE.
  set (A := alR _ _) in *. set (B := alR _ _) in *. clearbody A B.
  assert (0 < muR z * 1361 * (0.879 - 0.2) ^ 2 * EswR (muR z) tc).
  { repeat apply Rmult_lt_0_compat; lra. }
  set (k := EswR _ _) in *. set (m := muR z) in *. set (q := (0.879 - 0.2) ^ 2) in *. clearbody k m q. nra.
Qed.
Lemma swR_0 : forall z tau_c, swR z 0 tau_c = 0.
Proof. intros. unfold swR. replace (0 * FswR / muR z) with 0 by (unfold Rdiv; ring). rewrite alR_0. ring. Qed.
