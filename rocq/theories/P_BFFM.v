(** * Property C76: the sea-level correction in closed form *)
From Coq Require Import Reals List Bool Lra Lia Psatz.
From Interval Require Import Tactic.
From Verif Require Import Num NumFacts SpecNum Aero AeroFacts Fuel Emission Mass P_Emission.
Import ListNotations.
Open Scope R_scope.

(** Specification of reading an emission index off the four-point databank table at fuel flow
    [x]: on the straight line between neighbouring points, the end value outside. *)
Definition between_points (x0 y0 x1 y1 x y : R) : Prop :=
  x0 <= x <= x1 /\ (y - y0) * (x1 - x0) = (y1 - y0) * (x - x0).
Definition on_table (t : ei_table) (x y : R) : Prop :=
  (x <= ff_idl t /\ y = ei_idl t) \/ (ff_to t <= x /\ y = ei_to t) \/
  between_points (ff_idl t) (ei_idl t) (ff_app t) (ei_app t) x y \/
  between_points (ff_app t) (ei_app t) (ff_co t) (ei_co t) x y \/
  between_points (ff_co t) (ei_co t) (ff_to t) (ei_to t) x y.

(** Ambient pressure ratio of the standard troposphere, altitude in feet. *)
Definition isa_delta (alt : R) : R := Rpower (1 - 0.0019812 * alt / 288.15) 5.255876.
(** Specific humidity of the method's standard day, altitude in feet. *)
Definition omega_std (alt : R) : R := 0.001 * exp (- (0.0001426) * (alt - 12900)).

Lemma on_table_interp : forall t x,
  ff_idl t < ff_app t < ff_co t -> ff_co t < ff_to t ->
  exists y, einterp (Fin x) (ei_points t) = Fin y /\ on_table t x y.
Proof.
  intros t x [H1 H2] H3. unfold einterp, ei_points, np_interp. eexists; split; [reflexivity|].
  unfold on_table, between_points. cbn [interp_from].
  destruct (Rlt_dec x (ff_idl t)); [left; split; auto; lra|].
  destruct (Rlt_dec x (ff_app t)).
  { right; right; left. split; [lra|]. field. lra. }
  destruct (Rlt_dec x (ff_co t)).
  { right; right; right; left. split; [lra|]. field. lra. }
  destruct (Rlt_dec x (ff_to t)).
  { right; right; right; right. split; [lra|]. field. lra. }
  right; left. split; auto; lra.
Qed.

(** The relation names one value. *)
Lemma on_table_fun : forall t x y y',
  ff_idl t < ff_app t < ff_co t -> ff_co t < ff_to t ->
  on_table t x y -> on_table t x y' -> y = y'.
Proof.
  intros t x y y' [H1 H2] H3. unfold on_table, between_points.
  assert (K : forall x0 y0 x1 y1 a b, x0 < x1 -> (a - y0) * (x1 - x0) = (y1 - y0) * (x - x0) ->
            (b - y0) * (x1 - x0) = (y1 - y0) * (x - x0) -> a = b).
  { intros. apply (Rmult_eq_reg_r (x1 - x0)); lra. }
  assert (L : forall x0 y0 x1 y1 a, x0 < x1 -> (a - y0) * (x1 - x0) = (y1 - y0) * (x - x0) ->
            (x = x0 -> a = y0) /\ (x = x1 -> a = y1)).
  { intros. split; intros; subst x; apply (Rmult_eq_reg_r (x1 - x0)); lra. }
  intros [[A ->]|[[A ->]|[[A E]|[[A E]|[A E]]]]] [[B ->]|[[B ->]|[[B F]|[[B F]|[B F]]]]]; try lra;
  repeat match goal with
  | E : (?a - ?y0) * (?x1 - ?x0) = (?y1 - ?y0) * (x - ?x0) |- _ =>
      let P := fresh in let Q := fresh in
      destruct (L x0 y0 x1 y1 a) as [P Q]; [lra|exact E|];
      first [ assert (x = x0) by lra; rewrite P by lra
            | assert (x = x1) by lra; rewrite Q by lra | idtac ]; revert E
  end; intros; try (eapply K; [|eassumption|eassumption]; lra); try reflexivity.
Qed.

Lemma Rpower_div : forall a b c, 0 < a -> 0 < b -> Rpower (a / b) c = Rpower a c / Rpower b c.
Proof.
  intros. unfold Rdiv at 1. rewrite <- Rpower_mult_distr; auto using Rinv_0_lt_compat.
  unfold Rdiv. f_equal. unfold Rpower. rewrite ln_Rinv by auto. rewrite <- exp_Ropp. f_equal. ring.
Qed.

Lemma Rpower_exp : forall a c, Rpower (exp a) c = exp (c * a).
Proof. intros. unfold Rpower. rewrite ln_exp. auto. Qed.

(** The method exactly: with [T] and [M] the ambient temperature and the Mach number the
    aeronautical functions give for this flight condition, the index is read at the fuel flow
    [x] and scaled, and the rate is index times scaled fuel flow.  All constants appear here
    as numbers. *)
Theorem C76_fuel_flow_method : forall t n ffac tas alt dT,
  ff_idl t < ff_app t < ff_co t -> ff_co t < ff_to t ->
  0 < n -> Rabs tas <= 30000 -> -4000000 <= alt < 288.15 / 0.0019812 ->
  exists Tk M i,
    temperature NP (Fin (alt * 0.3048)) (Fin dT) = Fin Tk /\ 0 < Tk /\
    tas2mach NP (Fin (tas * 0.514444)) (Fin (alt * 0.3048)) (Fin dT) = Fin M /\
    let theta := Tk / 288.15 in
    let delta := isa_delta alt in
    on_table t (ffac / n * Rpower theta 3.8 / delta * exp (0.14 * M ^ 2)) i /\
    co_hc NP n t (Fin ffac) (Fin tas) (Fin alt) (Fin dT)
      = Fin (i * (Rpower theta 3.3 / Rpower delta 1.02 * exp (0.054 * M ^ 2)) * ffac) /\
    nox NP n t (Fin ffac) (Fin tas) (Fin alt) (Fin dT)
      = Fin (i * (sqrt (Rpower delta 1.02 / Rpower theta 3.3) * exp (- (0.027) * M ^ 2)
                  * exp (-19 * (omega_std alt - 0.00634))) * ffac).
Proof.
  intros t n ffac tas alt dT H1 H2 Hn Ht Ha.
  assert (Hal : 0.0019812 * alt < 288.15).
  { destruct Ha as [_ Ha]. apply (Rmult_lt_compat_l 0.0019812) in Ha; [|lra].
    replace (0.0019812 * (288.15 / 0.0019812)) with 288.15 in Ha by (qr; field). auto. }
  set (Tk := tR (alt * ft) dT). set (M := machR tas alt dT).
  assert (HT : 0 < Tk) by (unfold Tk; pose proof (tR_pos (alt * ft) dT); lra).
  set (th := Tk / 288.15). set (de := isa_delta alt).
  assert (Hth : 0 < th) by (unfold th; lra).
  assert (Hde : 0 < de) by apply Rpower_pos.
  assert (Eth : thetaR tas alt dT = th / exp (0.2 * M ^ 2)) by reflexivity.
  assert (Ede : deltaR tas alt dT = de / exp (0.7 * M ^ 2)).
  { unfold deltaR, betaR. rewrite Rpower_exp. fold M. unfold de, isa_delta. do 2 f_equal. lra. }
  pose proof (exp_pos (0.2 * M ^ 2)) as P1. pose proof (exp_pos (0.7 * M ^ 2)) as P2.
  assert (Er : ratioR tas alt dT = Rpower th 3.3 / Rpower de 1.02 * exp (0.054 * M ^ 2)).
  { unfold ratioR. rewrite Eth, Ede, !Rpower_div, !Rpower_exp by auto.
    replace (0.054 * M ^ 2) with (1.02 * (0.7 * M ^ 2) - 3.3 * (0.2 * M ^ 2)) by lra.
    unfold Rminus. rewrite exp_plus, exp_Ropp.
    pose proof (exp_pos (1.02 * (0.7 * M ^ 2))). pose proof (exp_pos (3.3 * (0.2 * M ^ 2))).
    pose proof (Rpower_pos de 1.02). field. repeat split; lra. }
  assert (Ex : ffac / n * Rpower (thetaR tas alt dT) 3.8 / deltaR tas alt dT * betaR tas alt dT
               = ffac / n * Rpower th 3.8 / de * exp (0.14 * M ^ 2)).
  { rewrite Eth, Ede, Rpower_div, Rpower_exp by auto. unfold betaR. fold M.
    replace (0.14 * M ^ 2) with (0.7 * M ^ 2 + (0.2 * M ^ 2 - 3.8 * (0.2 * M ^ 2))) by lra.
    unfold Rminus. rewrite !exp_plus, exp_Ropp. pose proof (exp_pos (3.8 * (0.2 * M ^ 2))).
    field. repeat split; lra. }
  destruct (on_table_interp t (ffac / n * Rpower th 3.8 / de * exp (0.14 * M ^ 2)) H1 H2) as [i [Hi Hon]].
  exists Tk, M, i.
  refine (conj _ (conj HT (conj _ (conj Hon _)))).
  { rewrite temperature_NP. unfold Tk. do 2 f_equal. }
  { rewrite tas2mach_NP. reflexivity. }
  pose proof (ratioR_pos tas alt dT) as Hr.
  unfold nox, co_hc. rewrite fl2sl_NP by (auto; lra). rewrite Ex. cbn [interp NP]. rewrite Hi.
  cbn [mul NP cst emul sub esub bexp div bsqrt].
  rewrite ediv_fin by lra. rewrite esqrt_fin by (apply Rlt_le, Rdiv_lt_0_compat; lra).
  rewrite (eexp_fin (-0.0001426 * (alt - 12900))) by (unfold exp_max; lra).
  cbn [emul esub].
  assert (Eo : 0.001 * exp (-0.0001426 * (alt - 12900)) = omega_std alt).
  { unfold omega_std. do 2 f_equal. lra. }
  rewrite Eo.
  rewrite eexp_fin.
  2:{ assert (0 < omega_std alt) by (unfold omega_std; pose proof (exp_pos (- (0.0001426) * (alt - 12900))); lra). unfold exp_max. lra. }
  cbn [emul]. rewrite Er. split; [reflexivity|]. f_equal. f_equal. rewrite <- Rmult_assoc. f_equal. f_equal.
  assert (Es : 1 / (Rpower th 3.3 / Rpower de 1.02 * exp (0.054 * M ^ 2))
             = Rpower de 1.02 / Rpower th 3.3 * (exp (- (0.027) * M ^ 2) * exp (- (0.027) * M ^ 2))).
  { rewrite <- exp_plus. replace (- (0.027) * M ^ 2 + - (0.027) * M ^ 2) with (- (0.054 * M ^ 2)) by lra.
    rewrite exp_Ropp. pose proof (exp_pos (0.054 * M ^ 2)). pose proof (Rpower_pos de 1.02).
    pose proof (Rpower_pos th 3.3). field. repeat split; lra. }
  rewrite Es. rewrite sqrt_mult.
  - rewrite sqrt_square by (apply Rlt_le, exp_pos). reflexivity.
  - apply Rlt_le, Rdiv_lt_0_compat; apply Rpower_pos.
  - apply Rlt_le, Rmult_lt_0_compat; apply exp_pos.
Qed.

(** NOx table of the CFM56-5B4 (openap/data/engine/engines.csv:53): at sea level and rest on a
    standard day one kg/s through two engines is read at half a kilogram per second each, between approach
    and climb-out. *)
Definition cfm56_nox : ei_table := mkEI 0.107 0.326 0.961 1.166 4.3 10.0 23.3 28.7.

Example C76_ex_method : exists i,
  on_table cfm56_nox (1 / 2 * Rpower 1 3.8 / isa_delta 0 * exp (0.14 * 0 ^ 2)) i /\ 13.6 < i < 13.7.
Proof.
  assert (E : 1 / 2 * Rpower 1 3.8 / isa_delta 0 * exp (0.14 * 0 ^ 2) = 1 / 2).
  { unfold isa_delta. rewrite pow_i by lia. rewrite !Rmult_0_r, exp_0.
    replace (1 - 0 / 288.15) with 1 by lra. unfold Rpower. rewrite ln_1, !Rmult_0_r, exp_0. lra. }
  rewrite E. exists (10.0 + (23.3 - 10.0) * (1 / 2 - 0.326) / (0.961 - 0.326)).
  split; [|split; interval].
  right; right; right; left. unfold between_points, cfm56_nox. cbn. split; [lra|]. qr. field.
Qed.

(** openap/emission.py:55 names Boeing Fuel Flow Method 2.  The published method corrects with
    ambient temperature and pressure ratios: fuel flow x theta^3.8 / delta x exp(0.2 M^2), and
    CO/HC index x theta^3.3 / delta^1.02 without a Mach term. *)
Definition published_flow (ffac n theta delta M : R) : R :=
  ffac / n * Rpower theta 3.8 / delta * exp (0.2 * M ^ 2).
Definition published_co_factor (theta delta : R) : R := Rpower theta 3.3 / Rpower delta 1.02.

(** A table with a constant index, so that the reading point does not matter: the CO rate
    exceeds that of the published method at every speed, and agrees with it at rest. *)
Lemma flat_table : forall a b c d i x y, a < b < c -> c < d -> on_table (mkEI a b c d i i i i) x y -> y = i.
Proof.
  intros a b c d i x y H1 H2. unfold on_table, between_points. cbn.
  intros [[_ ->]|[[_ ->]|[[_ E]|[[_ E]|[_ E]]]]]; auto;
  match goal with E : (y - i) * (?q - ?p) = _ |- _ => apply (Rmult_eq_reg_r (q - p)); lra end.
Qed.

Theorem C76_published_method_refuted : forall tas, 0 < tas <= 600 ->
  exists Tk s, temperature NP (Fin (36000 * 0.3048)) (Fin 0) = Fin Tk /\
    co_hc NP 2 (mkEI 0.1 0.3 0.9 1.2 5 5 5 5) (Fin 1) (Fin tas) (Fin 36000) (Fin 0) = Fin s /\
    5 * published_co_factor (Tk / 288.15) (isa_delta 36000) * 1 < s.
Proof.
  intros tas Ht.
  destruct (C76_fuel_flow_method (mkEI 0.1 0.3 0.9 1.2 5 5 5 5) 2 1 tas 36000 0)
    as (Tk & M & i & HT & HP & HM & Hon & Hc & _); cbn [ff_idl ff_app ff_co ff_to];
    [split; lra | lra | lra | rewrite Rabs_pos_eq; lra | split; [lra|interval] |].
  apply flat_table in Hon; try lra. subst i.
  exists Tk. eexists. refine (conj HT (conj Hc _)). unfold published_co_factor.
  assert (HMp : 0 < M).
  { rewrite tas2mach_NP in HM. injection HM as <-. apply Rdiv_lt_0_compat; [lra|]. apply aR_pos. }
  assert (1 < exp (0.054 * M ^ 2)).
  { rewrite <- exp_0. apply exp_increasing. pose proof (pow_lt M 2 HMp). lra. }
  assert (0 < Rpower (Tk / 288.15) 3.3 / Rpower (isa_delta 36000) 1.02) by (apply Rdiv_lt_0_compat; apply Rpower_pos).
  nra.
Qed.

(** In cruise (Mach 0.7 to 0.9) the reading point lies below the published one, by 2 to 5 percent. *)
Lemma cruise_reading_point : forall ffac n theta delta M, 0 < ffac -> 0 < n -> 0 < delta -> 0.7 <= M <= 0.9 ->
  let x := ffac / n * Rpower theta 3.8 / delta * exp (0.14 * M ^ 2) in
  0.95 * published_flow ffac n theta delta M < x < 0.98 * published_flow ffac n theta delta M.
Proof.
  intros ffac n theta delta M Hf Hn Hd HM x.
  assert (E : x = published_flow ffac n theta delta M * exp (- (0.06) * M ^ 2)).
  { unfold x, published_flow. rewrite Rmult_assoc, <- exp_plus. do 2 f_equal. lra. }
  assert (HP : 0 < published_flow ffac n theta delta M).
  { unfold published_flow. apply Rmult_lt_0_compat; [|apply exp_pos]. apply Rdiv_lt_0_compat; auto.
    apply Rmult_lt_0_compat; [|apply Rpower_pos]. apply Rdiv_lt_0_compat; auto. }
  assert (0.95 < exp (- (0.06) * M ^ 2) < 0.98) by (split; interval with (i_bisect M)).
  rewrite E. nra.
Qed.
