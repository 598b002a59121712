(** * Properties C24-C27: fuel flow *)
From Coq Require Import Reals List Bool Lra Lia Psatz.
From Interval Require Import Tactic.
From Verif Require Import Num NumFacts SpecNum Aero AeroFacts GeoFacts Thrust ThrustFacts Drag DragFacts Fuel FuelFacts
  P_Drag P_Thrust.
Open Scope R_scope.

(** Specification: the fuel law.  [flow f x] is the total fuel flow at (limited) thrust ratio [x]:
    number of engines x scale x c1 x (1 - exp(-c2 x exp(c3 x))). *)
Definition flow (f : fuel_par) (x : R) : R :=
  f_n_eng f * (fscale f * fc1 f * (1 - exp (- (fc2 f * x * exp (fc3 f * x))))).
(** total rated thrust *)
Definition rated (f : fuel_par) : R := f_n_eng f * f_max_thrust f.

Lemma flow_law : forall f x, flow f x = lawR f x * f_n_eng f.
Proof. intros. unfold flow, lawR. rewrite !Ropp_mult_distr_l. ring. Qed.

(** A320 with CFM56-5B4 (openap/data/fuel/fuel_models.csv:4, scale 1.166/1.166) *)
Definition a320_fuel : fuel_par :=
  mkFuel 1.0453208160586924 2.3633720747416573 1.2378127479131922 1 117900 2.
Lemma a320_fuel_ok : fuel_ok a320_fuel.
Proof. constructor; cbn; lra. Qed.

(** ** C24 *)
Theorem C24_flow_positive_increasing_bounded : forall f, fuel_ok f ->
  forall t, t <= 14.2 * rated f ->
  exists q, at_thrust NP f (Fin t) = Fin q /\ 0 < q < f_n_eng f * fscale f * fc1 f /\
    (-10.5 * rated f <= t -> flow f 0.03 <= q) /\
    (forall t' q', -10.5 * rated f <= t < t' -> t' <= 14.2 * rated f ->
       at_thrust NP f (Fin t') = Fin q' -> q < q').
Proof.
  intros f Hok t Ht. rewrite at_thrust_NP by auto. eexists; split; [reflexivity|].
  pose proof (ok_thr f Hok) as Hthr. pose proof (ok_n f Hok) as Hn.
  split; [|split].
  - unfold atR. pose proof (limR_pos (ratR f t)) as L.
    pose proof (lawR_incr f 0 (limR (ratR f t)) Hok ltac:(lra)) as A. rewrite lawR_0 in A.
    pose proof (lawR_ub f (limR (ratR f t)) Hok). nra.
  - intros Hl. rewrite flow_law. unfold atR. apply Rmult_le_compat_r; [lra|].
    assert (0.03 <= limR (ratR f t)) as [L|L] by (apply limR_ge, ratR_ge; auto).
    + left. apply lawR_incr; auto. lra.
    + rewrite <- L. lra.
  - intros t' q' H1 H2 E. rewrite at_thrust_NP in E by auto. apply Fin_inj in E. subst q'.
    apply atR_incr; auto.
Qed.
Example C24_ex : fuel_ok a320_fuel /\ 50000 <= 14.2 * rated a320_fuel /\ -10.5 * rated a320_fuel <= 50000.
Proof. split; [apply a320_fuel_ok|]. unfold rated. cbn [f_n_eng f_max_thrust a320_fuel]. lra. Qed.

(** ** C25 *)
(** "The highest ratio is limited to 1" would mean the flow never exceeds [flow f 1]. *)
Theorem C25_upper_limit_refuted : forall f, fuel_ok f -> forall t,
  1.05 * rated f <= t <= 14.2 * rated f ->
  exists q, at_thrust NP f (Fin t) = Fin q /\ flow f 1 < q /\ (14 * rated f <= t -> flow f 2 < q).
Proof.
  intros f Hok t [H1 H2]. rewrite at_thrust_NP by auto. eexists; split; [reflexivity|].
  pose proof (ok_thr f Hok) as Hthr. pose proof (ok_n f Hok) as Hn.
  assert (K : forall x y, -10.5 <= y -> 0 <= x -> x < limR y -> y <= ratR f t -> flow f x < atR f t).
  { intros x y Hy Hx Hl Hr. rewrite flow_law. unfold atR. apply Rmult_lt_compat_r; auto.
    apply lawR_incr; auto. split; auto. destruct Hr as [Hr|Hr]; [|rewrite <- Hr; auto].
    pose proof (limR_incr y (ratR f t)). lra. }
  split.
  - apply (K 1 1.05); try lra. unfold limR, sp. interval. apply ratR_ge; auto.
  - intros H3. apply (K 2 14); try lra. unfold limR, sp. interval. apply ratR_ge; auto.
Qed.
(** Between about 14.3 and 16.9 times rated thrust one exponential overflows: the flow is the asymptote
    itself; from 17 times rated thrust both overflow and the result is NaN. *)
Theorem C25_overflow : forall f, fuel_ok f -> forall t,
  (14.3 * rated f <= t <= 16.9 * rated f -> at_thrust NP f (Fin t) = Fin (f_n_eng f * fscale f * fc1 f)) /\
  (17 * rated f <= t -> at_thrust NP f (Fin t) = NaN).
Proof.
  intros f Hok t. pose proof (ok_thr f Hok) as Hthr. pose proof (ok_n f Hok) as Hn.
  pose proof (ok_c1 f Hok) as H1. pose proof (ok_c2 f Hok) as H2. pose proof (ok_scale f Hok) as Hs.
  unfold at_thrust, thrust_ratio. cbn [div NP cst].
  rewrite (ediv_fin t) by lra. rewrite (ediv_fin (t / _)) by lra. fold (ratR f t).
  set (r := ratR f t). cbn [sub NP esub mul emul add bexp blog].
  rewrite (eexp_fin 50) by (unfold exp_max; lra). cbn [eadd].
  pose proof (exp_pos 50). rewrite (elog_fin (1 + exp 50)) by lra.
  pose proof (sp_pos 50) as S. unfold sp in S.
  pose proof (ok_c3 f Hok) as H3. unfold rated in *.
  split; intros Ht.
  - assert (14.3 <= r) by (apply ratR_ge; auto; lra). assert (r <= 16.9) by (apply ratR_le; auto; lra).
    rewrite (eexp_inf (50 * _)) by (unfold exp_max; lra).
    rewrite (eexp_fin (45 * _)) by (unfold exp_max; lra). cbn [eadd].
    pose proof (exp_pos (45 * (r - 1.2))). rewrite (elog_fin (1 + exp (45 * _))) by lra. cbn [elog esub eadd eneg].
    unfold ediv, einf_mul. destruct (Rlt_dec 0 (ln (1 + exp 50))); [|lra]. cbn [eadd].
    unfold func_fuel. cbn [mul NP cst neg emul eneg bexp blog div sub].
    rewrite elog_fin by lra. rewrite ediv_fin by lra.
    unfold einf_mul. destruct (Rlt_dec 0 (fc3 f)); [|lra]. cbn [eexp emul esub eadd eneg].
    unfold einf_mul. destruct (Rlt_dec 0 (- fc2 f)); [lra|]. destruct (Rlt_dec (- fc2 f) 0); [|lra].
    cbn [eexp esub emul]. f_equal. ring.
  - assert (17 <= r) by (apply ratR_ge; auto; lra).
    rewrite (eexp_inf (50 * _)), (eexp_inf (45 * _)) by (unfold exp_max; lra). reflexivity.
Qed.
Example C25_ex : fuel_ok a320_fuel /\ 1.05 * rated a320_fuel <= 250000 <= 14.2 * rated a320_fuel /\
  14.3 * rated a320_fuel <= 3500000 <= 16.9 * rated a320_fuel.
Proof. split; [apply a320_fuel_ok|]. unfold rated. cbn [f_n_eng f_max_thrust a320_fuel]. lra. Qed.

(** ** C26 *)
Theorem C26_linear_in_throttle : forall e f tas alt th F, 0 <= eng_bpr e -> fuel_ok f ->
  takeoff_thrust NP e (Fin tas) (Fin alt) (Fin 0) = Fin F -> F <= 14.2 * rated f ->
  exists q, takeoff_fuel NP e f (Fin tas) (Some (Fin alt)) (Fin 1) = inr (Fin q) /\
    at_thrust NP f (Fin F) = Fin q /\
    takeoff_fuel NP e f (Fin tas) (Some (Fin alt)) (Fin th) = inr (Fin (th * q)).
Proof.
  intros e f tas alt th F Hb Hok HF Hl. unfold takeoff_fuel. change (cst NP 0) with (Fin 0). rewrite HF.
  rewrite at_thrust_NP by auto. eexists. split; [|split; [reflexivity|reflexivity]].
  cbn. do 2 f_equal. ring.
Qed.
(** The documented default altitude (sea level) fails for every speed, throttle, engine and backend. *)
Theorem C26_default_altitude_refuted : forall b e f tas th,
  takeoff_fuel b e f tas None th = inl TypeError.
Proof. reflexivity. Qed.
Example C26_ex : exists F, takeoff_thrust NP a320_thrust (Fin 0) (Fin 0) (Fin 0) = Fin F /\ F <= 14.2 * rated a320_fuel.
Proof.
  destruct (C19_static_rated_thrust a320_thrust) as [F [E B]]; try (rewrite a320_thrust_eq; cbn; lra).
  exists F; split; auto. apply Rabs_def2' in B || (apply Rcomplements.Rabs_le_between in B).
  rewrite a320_thrust_eq in B. cbn [eng_number eng_max_thrust] in B. unfold rated. cbn [f_n_eng f_max_thrust a320_fuel]. lra.
Qed.

(** ** C27 *)
(** Specification: sine of the flight-path angle *)
Definition path_sine (v w s : R) : Prop :=
  (v = 0 /\ w = 0 /\ s = 0) \/ ((v <> 0 \/ w <> 0) /\ s = w / sqrt (v * v + w * w)).
Lemma path_sine_spec : forall tas vs s, path_sine (si_kt tas) (si_fpm vs) s ->
  s = sin (Ratan2 (vs * fpm) (tas * kts)).
Proof.
  intros tas vs s [[Hv [Hw Hs]]|[H Hs]]; subst s.
  - unfold si_kt, si_fpm in *. unfold kts, fpm. rewrite Hv, Hw, atan2_00, sin_0. auto.
  - change (vs * fpm) with (si_fpm vs). change (tas * kts) with (si_kt tas).
    set (w := si_fpm vs) in *. set (v := si_kt tas) in *.
    destruct (Ratan2_polar w v) as [_ E]. unfold hyp in E.
    assert (0 < sqrt (v * v + w * w)).
    { apply sqrt_lt_R0. destruct H as [H|H]; apply Rsqr_pos_lt in H; unfold Rsqr in H;
        pose proof (Rle_0_sqr v); pose proof (Rle_0_sqr w); unfold Rsqr in *; lra. }
    rewrite <- E at 1. field. lra.
Qed.

Theorem C27_point_mass_balance : forall a wave f mass tas alt vs acc dT limit D s,
  clean NP a wave (Fin mass) (Fin tas) (Fin alt) (Fin vs) (Fin dT) = Fin D ->
  path_sine (si_kt tas) (si_fpm vs) s ->
  enroute NP a wave f (Fin mass) (Fin tas) (Fin alt) (Fin vs) (Fin acc) (Fin dT) limit
    = at_thrust NP f (Fin (D + mass * 9.81 * s + mass * acc)).
Proof.
  intros a wave f mass tas alt vs acc dT limit D s HD Hs. apply path_sine_spec in Hs. subst s.
  unfold enroute. rewrite HD. reflexivity.
Qed.
Theorem C27_level_flight_and_limit : forall a wave f mass tas alt vs acc dT,
  (forall limit limit',
    enroute NP a wave f (Fin mass) (Fin tas) (Fin alt) (Fin vs) (Fin acc) (Fin dT) limit
    = enroute NP a wave f (Fin mass) (Fin tas) (Fin alt) (Fin vs) (Fin acc) (Fin dT) limit') /\
  (forall D limit, 0 <= tas -> clean NP a wave (Fin mass) (Fin tas) (Fin alt) (Fin 0) (Fin dT) = Fin D ->
    enroute NP a wave f (Fin mass) (Fin tas) (Fin alt) (Fin 0) (Fin 0) (Fin dT) limit
    = at_thrust NP f (clean NP a wave (Fin mass) (Fin tas) (Fin alt) (Fin 0) (Fin dT))).
Proof.
  intros. split; [reflexivity|]. intros D limit Ht HD.
  rewrite (C27_point_mass_balance a wave f mass tas alt 0 0 dT limit D 0 HD).
  - rewrite HD. f_equal. f_equal. ring.
  - unfold path_sine, si_kt, si_fpm. destruct (Req_dec (tas * 0.514444) 0) as [E|E].
    + left. split; [auto|]. split; ring.
    + right. split; [auto|]. unfold Rdiv. ring.
Qed.
(** Monotone in acceleration while the required thrust stays inside the range of C24. *)
Theorem C27_monotone_in_acceleration : forall a wave f mass tas alt vs acc acc' dT l D s,
  fuel_ok f -> 0 <= mass -> acc <= acc' ->
  clean NP a wave (Fin mass) (Fin tas) (Fin alt) (Fin vs) (Fin dT) = Fin D ->
  path_sine (si_kt tas) (si_fpm vs) s ->
  -10.5 * rated f <= D + mass * 9.81 * s + mass * acc ->
  D + mass * 9.81 * s + mass * acc' <= 14.2 * rated f ->
  fle (enroute NP a wave f (Fin mass) (Fin tas) (Fin alt) (Fin vs) (Fin acc) (Fin dT) l)
      (enroute NP a wave f (Fin mass) (Fin tas) (Fin alt) (Fin vs) (Fin acc') (Fin dT) l).
Proof.
  intros a wave f mass tas alt vs acc acc' dT l D s Hok Hm Hacc HD Hs Hlo Hhi.
  assert (mass * acc <= mass * acc') by nra.
  rewrite !(C27_point_mass_balance _ _ _ _ _ _ _ _ _ _ D s HD Hs).
  rewrite !at_thrust_NP by (auto; unfold rated in *; lra). cbn [fle].
  set (T := D + mass * 9.81 * s + mass * acc) in *. set (T' := D + mass * 9.81 * s + mass * acc') in *.
  assert (T <= T') as [L|L] by (unfold T, T'; lra); [left; apply atR_incr; auto|rewrite L; lra].
Qed.
(** Strictly monotone in mass when neither descending nor decelerating. *)
Theorem C27_monotone_in_mass : forall a f m1 m2 tas alt vs acc dT l D2 s,
  fuel_ok f -> 0 < cd0_clean a -> 0 < k_clean a -> 0 <= m1 < m2 -> 0 < tas -> 0 <= vs -> 0 <= acc ->
  clean NP a false (Fin m2) (Fin tas) (Fin alt) (Fin vs) (Fin dT) = Fin D2 ->
  path_sine (si_kt tas) (si_fpm vs) s ->
  D2 + m2 * 9.81 * s + m2 * acc <= 14.2 * rated f ->
  flt (enroute NP a false f (Fin m1) (Fin tas) (Fin alt) (Fin vs) (Fin acc) (Fin dT) l)
      (enroute NP a false f (Fin m2) (Fin tas) (Fin alt) (Fin vs) (Fin acc) (Fin dT) l).
Proof.
  intros a f m1 m2 tas alt vs acc dT l D2 s Hok Hc Hk Hm Ht Hv Ha HD2 Hs Hhi.
  destruct (C28_clean_drag_bounds a m1 tas alt vs dT Hc Hk) as [D1 [HD1 [Hp _]]].
  destruct (C29_symmetric_and_increasing_in_mass a m1 tas alt vs dT) as [_ HI].
  specialize (HI Hk ltac:(left; lra) m2 Hm). rewrite HD1, HD2 in HI. cbn [flt] in HI.
  rewrite (C27_point_mass_balance _ _ _ _ _ _ _ _ _ _ D1 s HD1 Hs).
  rewrite (C27_point_mass_balance _ _ _ _ _ _ _ _ _ _ D2 s HD2 Hs).
  assert (S0 : 0 <= s).
  { destruct Hs as [[_ [_ E]]|[N E]]; [lra|]. rewrite E. unfold si_fpm, si_kt in *.
    apply Rmult_le_pos; [lra|]. apply Rlt_le, Rinv_0_lt_compat. apply sqrt_lt_R0.
    assert (0 < tas * 0.514444) by lra. nra. }
  assert (m1 * 9.81 * s <= m2 * 9.81 * s) by nra. assert (m1 * acc <= m2 * acc) by nra.
  assert (0 <= m1 * 9.81 * s) by (apply Rmult_le_pos; lra). assert (0 <= m1 * acc) by (apply Rmult_le_pos; lra).
  pose proof (ok_thr f Hok). pose proof (ok_n f Hok). unfold rated in *.
  rewrite !at_thrust_NP by (auto; lra). cbn [flt]. apply atR_incr; auto. split; [|lra].
  assert (0 < f_n_eng f * f_max_thrust f) by nra. lra.
Qed.
(** level flight at 250 kt *)
Example C27_ex : path_sine (si_kt 250) (si_fpm 0) 0 /\ fuel_ok a320_fuel /\
  (exists D, clean NP a320_drag false (Fin 60000) (Fin 250) (Fin 0) (Fin 0) (Fin 0) = Fin D /\
    D + 60000 * 9.81 * 0 + 60000 * 0 <= 14.2 * rated a320_fuel /\ -10.5 * rated a320_fuel <= D + 60000 * 9.81 * 0 + 60000 * 0).
Proof.
  split; [|split; [apply a320_fuel_ok|]].
  - right. unfold si_kt, si_fpm. split; [left; lra|]. unfold Rdiv. ring.
  - rewrite clean_NP. eexists; split; [reflexivity|].
    assert (Hq : qSR (wing_area a320_drag) 250 0 0 = 0.5 * 1.225 * (250 * 0.514444) ^ 2 * 124).
    { unfold qSR. rewrite Rmult_0_l. unfold rhoR. rewrite tR_low by lra. rewrite clipT_0.
      replace ((T0 + 0 + beta * 0) / (T0 + 0)) with 1 by (uc; qr; field).
      rewrite Rpower_one, (Rmax_left 0.0) by lra.
      replace (- 0.0 / 6341.552161) with 0 by (qr; field). rewrite exp_0. cbn [wing_area a320_drag].
      rewrite Rmax_left; uc; qr; lra. }
    rewrite dragR_eq, Hq, liftR_level by lra. unfold rated.
    cbn [f_n_eng f_max_thrust a320_fuel cd0_clean k_clean a320_drag]. uc. split; interval.
Qed.
