(** * Properties C32-C35: emissions and mass estimate *)
From Coq Require Import Reals List Bool Lra Lia Psatz.
From Interval Require Import Tactic.
From Verif Require Import Num NumFacts SpecNum Aero AeroFacts Fuel Emission Mass.
Import ListNotations.
Open Scope R_scope.

(** ** C32 *)
Theorem C32_proportional_to_fuel : forall f g,
  co2 NP (Fin f) = Fin (3160 * f) /\ h2o NP (Fin f) = Fin (1230 * f) /\
  soot NP (Fin f) = Fin (3 / 100 * f) /\ sox NP (Fin f) = Fin (12 / 10 * f) /\
  (forall e, e = co2 NP \/ e = h2o NP \/ e = soot NP \/ e = sox NP ->
     e (Fin (f + g)) = add NP (e (Fin f)) (e (Fin g)) /\ e (Fin 0) = Fin 0 /\
     (0 < f -> flt (Fin 0) (e (Fin f)))).
Proof.
  intros f g. unfold co2, h2o, soot, sox. cbn [mul NP cst emul].
  repeat split; try (f_equal; lra).
  all: destruct H as [H|[H|[H|H]]]; subst e; cbn [mul NP cst emul add eadd flt]; try (intros; lra);
    f_equal; ring.
Qed.
(** 2.5 kg/s of fuel is 7.9 kg/s of CO2 *)
Example C32_ex : co2 NP (Fin 2.5) = Fin 7900.
Proof. unfold co2. cbn. f_equal. lra. Qed.

(** ** Interpolation stays between the tabulated extremes *)
Lemma interp_from_bounds : forall x tl x0 y0 lo hi,
  x0 <= x -> lo <= y0 <= hi ->
  (fix incr (x0 : R) (l : list (R * R)) : Prop :=
     match l with [] => True | (x1, _) :: l' => x0 < x1 /\ incr x1 l' end) x0 tl ->
  Forall (fun p => lo <= snd p <= hi) tl -> lo <= interp_from x x0 y0 tl <= hi.
Proof.
  intros x tl; induction tl as [|[x1 y1] tl IH]; intros x0 y0 lo hi Hx Hy Hi Hf; cbn [interp_from].
  - auto.
  - destruct Hi as [H01 Hi]. inversion Hf; subst. cbn in H1.
    destruct (Rlt_dec x x1).
    + set (t := (x - x0) / (x1 - x0)).
      replace (y0 + (y1 - y0) / (x1 - x0) * (x - x0)) with (y0 + (y1 - y0) * t) by (unfold t; field; lra).
      assert (0 <= t <= 1).
      { unfold t; split. apply Rmult_le_pos; [lra|]. apply Rlt_le, Rinv_0_lt_compat; lra.
        apply (Rmult_le_reg_r (x1 - x0)); [lra|]. unfold Rdiv. rewrite Rmult_assoc, Rinv_l by lra. lra. }
      split; nra.
    + apply IH; auto; lra.
Qed.

Lemma ei_interp_bounds : forall t x lo hi,
  ff_idl t < ff_app t < ff_co t -> ff_co t < ff_to t ->
  lo <= ei_idl t <= hi -> lo <= ei_app t <= hi -> lo <= ei_co t <= hi -> lo <= ei_to t <= hi ->
  exists v, einterp (Fin x) (ei_points t) = Fin v /\ lo <= v <= hi.
Proof.
  intros. unfold einterp, ei_points, np_interp. eexists; split; [reflexivity|].
  destruct (Rlt_dec x (ff_idl t)); auto.
  apply interp_from_bounds; auto; try lra.
Qed.

(** closed forms of the sea-level correction *)
Definition machR (tas alt dT : R) : R := tas * kts / aR (alt * ft) dT.
Definition betaR (tas alt dT : R) : R := exp (0.2 * machR tas alt dT ^ 2).
Definition thetaR (tas alt dT : R) : R := tR (alt * ft) dT / 288.15 / betaR tas alt dT.
Definition deltaR (tas alt dT : R) : R :=
  Rpower (1 - 0.0019812 * alt / 288.15) 5.255876 / Rpower (betaR tas alt dT) 3.5.
Definition ratioR (tas alt dT : R) : R :=
  Rpower (thetaR tas alt dT) 3.3 / Rpower (deltaR tas alt dT) 1.02.

Lemma aR_lb : forall h dT, 277 <= aR h dT.
Proof.
  intros. unfold aR. replace 277 with (sqrt (277 * 277)) by (apply sqrt_square; lra).
  apply sqrt_le_1_alt. pose proof (tR_pos h dT). uc. nra.
Qed.

Lemma mach_small : forall tas alt dT, Rabs tas <= 30000 -> 0.2 * machR tas alt dT ^ 2 <= exp_max.
Proof.
  intros. unfold machR. pose proof (aR_lb (alt * ft) dT).
  assert (Hm : Rabs (tas * kts / aR (alt * ft) dT) <= 56).
  { unfold Rdiv. rewrite !Rabs_mult, Rabs_inv. rewrite (Rabs_pos_eq kts) by (uc; lra).
    rewrite (Rabs_pos_eq (aR _ _)) by lra. apply (Rmult_le_reg_r (aR (alt * ft) dT)); [lra|].
    rewrite Rmult_assoc, Rinv_l by lra. uc. pose proof (Rabs_pos tas). nra. }
  rewrite <- (pow2_abs (tas * kts / _)). unfold exp_max. pose proof (Rabs_pos (tas * kts / aR (alt * ft) dT)). nra.
Qed.

Lemma betaR_pos : forall tas alt dT, 0 < betaR tas alt dT.
Proof. intros; apply exp_pos. Qed.
Lemma thetaR_pos : forall tas alt dT, 0 < thetaR tas alt dT.
Proof.
  intros; unfold thetaR. apply Rdiv_lt_0_compat; [|apply betaR_pos].
  apply Rdiv_lt_0_compat; [|lra]. pose proof (tR_pos (alt * ft) dT). lra.
Qed.
Lemma deltaR_pos : forall tas alt dT, 0 < deltaR tas alt dT.
Proof. intros; unfold deltaR. apply Rdiv_lt_0_compat; apply Rpower_pos. Qed.
Lemma ratioR_pos : forall tas alt dT, 0 < ratioR tas alt dT.
Proof. intros; unfold ratioR. apply Rdiv_lt_0_compat; apply Rpower_pos. Qed.

Lemma fl2sl_NP : forall n ffac tas alt dT, n <> 0 -> Rabs tas <= 30000 -> 0.0019812 * alt < 288.15 ->
  fl2sl NP n (Fin ffac) (Fin tas) (Fin alt) (Fin dT)
  = (Fin (ffac / n * Rpower (thetaR tas alt dT) 3.8 / deltaR tas alt dT * betaR tas alt dT),
     Fin (ratioR tas alt dT)).
Proof.
  intros n ffac tas alt dT Hn Ht Ha. unfold fl2sl. cbn [mul NP cst emul].
  rewrite tas2mach_NP, temperature_NP. cbn [powi NP epowi mul emul bexp div].
  fold (machR tas alt dT). rewrite eexp_fin by (apply mach_small; auto). fold (betaR tas alt dT).
  pose proof (betaR_pos tas alt dT). pose proof (deltaR_pos tas alt dT).
  rewrite (ediv_fin ffac n) by auto. rewrite (ediv_fin (tR _ _)) by lra.
  rewrite (ediv_fin (0.0019812 * alt)) by lra. cbn [sub NP esub]. rewrite ediv_fin by lra.
  fold (thetaR tas alt dT). cbn [power NP].
  assert (0 < 1 - 0.0019812 * alt / 288.15) by lra.
  rewrite (epower_fin (1 - _)), (epower_fin (betaR _ _ _)) by auto.
  rewrite (ediv_fin (Rpower (1 - _) _)) by (pose proof (Rpower_pos (betaR tas alt dT) 3.5); lra).
  fold (deltaR tas alt dT). pose proof (thetaR_pos tas alt dT).
  rewrite !epower_fin by auto. cbn [emul mul NP]. rewrite !ediv_fin by
    (try (pose proof (Rpower_pos (deltaR tas alt dT) 1.02)); lra). reflexivity.
Qed.

(** ** C33 *)
(** Specification of a databank entry: fuel flows increase from idle to take-off, and every
    emission index lies between [lo] and [hi]. *)
Definition ei_between (t : ei_table) (lo hi : R) : Prop :=
  ff_idl t < ff_app t < ff_co t /\ ff_co t < ff_to t /\
  lo <= ei_idl t <= hi /\ lo <= ei_app t <= hi /\ lo <= ei_co t <= hi /\ lo <= ei_to t <= hi.

(** The correction factor applied to the interpolated index depends on flight condition only;
    the rate is (index) x (factor) x (fuel flow) with the index inside the table's range. *)
Theorem C33_rates_bounded_by_databank : forall t lo hi n tas alt dT,
  ei_between t lo hi -> 0 <= lo -> 0 < n -> Rabs tas <= 30000 -> -4000000 <= alt < 288.15 / 0.0019812 ->
  exists kn kc, 0 < kn /\ 0 < kc /\
  forall ffac, 0 <= ffac ->
    exists i r s,
      lo <= i <= hi /\
      nox NP n t (Fin ffac) (Fin tas) (Fin alt) (Fin dT) = Fin r /\ r = i * kn * ffac /\
      co_hc NP n t (Fin ffac) (Fin tas) (Fin alt) (Fin dT) = Fin s /\ s = i * kc * ffac /\
      0 <= r /\ 0 <= s /\ (ffac = 0 -> r = 0 /\ s = 0).
Proof.
  intros t lo hi n tas alt dT (H1 & H2 & H3 & H4 & H5 & H6) Hlo Hn Ht Ha.
  assert (Hal : 0.0019812 * alt < 288.15).
  { destruct Ha as [_ Ha]. apply (Rmult_lt_compat_l 0.0019812) in Ha; [|lra].
    replace (0.0019812 * (288.15 / 0.0019812)) with 288.15 in Ha by (qr; field). auto. }
  pose proof (ratioR_pos tas alt dT) as Hr.
  set (om := 0.001 * exp (-0.0001426 * (alt - 12900))).
  exists (sqrt (1 / ratioR tas alt dT) * exp (-19 * (om - 0.00634))), (ratioR tas alt dT).
  assert (Hs : 0 < sqrt (1 / ratioR tas alt dT)) by (apply sqrt_lt_R0, Rdiv_lt_0_compat; lra).
  assert (Hk : 0 < sqrt (1 / ratioR tas alt dT) * exp (-19 * (om - 0.00634)))
    by (apply Rmult_lt_0_compat; auto using exp_pos).
  split; [auto|]. split; [auto|]. intros ffac Hf.
  destruct (ei_interp_bounds t (ffac / n * Rpower (thetaR tas alt dT) 3.8 / deltaR tas alt dT * betaR tas alt dT)
              lo hi H1 H2 H3 H4 H5 H6) as [i [Hi Hb]].
  exists i. unfold nox, co_hc. rewrite fl2sl_NP by (auto; lra).
  cbn [interp NP]. rewrite Hi. cbn [mul NP cst emul sub esub bexp div bsqrt].
  rewrite ediv_fin by lra. rewrite esqrt_fin by (apply Rlt_le, Rdiv_lt_0_compat; lra).
  rewrite (eexp_fin (-0.0001426 * (alt - 12900))) by (unfold exp_max; lra).
  cbn [emul esub]. fold om. rewrite eexp_fin.
  2:{ assert (0 < om) by (unfold om; pose proof (exp_pos (-0.0001426 * (alt - 12900))); lra). unfold exp_max. lra. }
  cbn [emul]. do 2 eexists. split; [exact Hb|]. split; [reflexivity|]. split; [ring|].
  split; [reflexivity|]. split; [reflexivity|].
  set (k := sqrt _ * exp _) in Hk.
  split; [|split].
  - apply Rmult_le_pos; auto. rewrite Rmult_assoc. apply Rmult_le_pos; [lra|]. apply Rlt_le; exact Hk.
  - apply Rmult_le_pos; auto. apply Rmult_le_pos; lra.
  - intros ->. split; ring.
Qed.
(** NOx table of the CFM56-5B4 (openap/data/engine/engines.csv:53) *)
Example C33_ex : ei_between (mkEI 0.107 0.326 0.961 1.166 4.3 10.0 23.3 28.7) 4.3 28.7 /\
  Rabs 450 <= 30000 /\ -4000000 <= 36000 < 288.15 / 0.0019812.
Proof. unfold ei_between. cbn. rewrite Rabs_pos_eq by lra. repeat split; try lra; interval. Qed.

(** ** C34 *)
Theorem C34_undefined_above_145442_ft : forall n t ffac tas alt dT, n <> 0 -> Rabs tas <= 30000 ->
  288.15 / 0.0019812 < alt ->
  nox NP n t (Fin ffac) (Fin tas) (Fin alt) (Fin dT) = NaN /\
  co_hc NP n t (Fin ffac) (Fin tas) (Fin alt) (Fin dT) = NaN.
Proof.
  intros n t ffac tas alt dT Hn Ht Ha.
  assert (Hal : 288.15 < 0.0019812 * alt).
  { apply (Rmult_lt_compat_l 0.0019812) in Ha; [|lra].
    replace (0.0019812 * (288.15 / 0.0019812)) with 288.15 in Ha by (qr; field). auto. }
  unfold nox, co_hc, fl2sl. cbn [mul NP cst emul].
  rewrite tas2mach_NP, temperature_NP. cbn [powi NP epowi mul emul bexp div].
  fold (machR tas alt dT). rewrite eexp_fin by (apply mach_small; auto). fold (betaR tas alt dT).
  pose proof (betaR_pos tas alt dT).
  rewrite (ediv_fin ffac n) by auto. rewrite (ediv_fin (tR _ _)) by lra.
  rewrite (ediv_fin (0.0019812 * alt)) by lra. cbn [sub NP esub]. rewrite ediv_fin by lra.
  fold (thetaR tas alt dT). cbn [power NP]. pose proof (thetaR_pos tas alt dT).
  rewrite (epower_fin (betaR _ _ _)) by auto. rewrite (epower_fin (thetaR tas alt dT)) by auto.
  assert (E : epower (Fin (1 - 0.0019812 * alt / 288.15)) (Fin 5.255876) = NaN).
  { unfold epower. destruct (Rlt_dec 0 _); [lra|]. destruct (Rlt_dec _ 0); [|lra].
    destruct (Req_EM_T _ _) as [e|]; auto. exfalso.
    assert (IZR 5 < IZR (Int_part 5.255876) < IZR 6) as [L U] by (rewrite <- e; lra).
    apply lt_IZR in L, U. lia. }
  rewrite E. cbn. split; auto.
Qed.
Example C34_ex : 288.15 / 0.0019812 < 145443.
Proof. interval. Qed.

(** ** C35 *)
(** Specification of the mass build-up: fuel between 20 % and 100 % of the tank (0.8025 kg/l),
    in proportion to distance, plus payload. *)
Definition fuel_full (ac : mass_par) : R := 0.8025 * m_mfc ac.
Definition payload_room (ac : mass_par) : R := m_mtow ac - m_oew ac - fuel_full ac.

Lemma from_range_NP : forall ac rng d lf (fr : bool), m_range ac = Some rng -> rng <> 0 -> m_mtow ac <> 0 ->
  from_range NP ac (Fin d) (Fin lf) fr
  = inr (Fin ((m_oew ac + Rmin (Rmax (d / rng) 0.2) 1 * fuel_full ac + payload_room ac * lf)
              / (if fr then m_mtow ac else 1))).
Proof.
  intros ac rng d lf fr Hr Hz Hm. unfold from_range. rewrite Hr. cbn [div NP cst clip mul sub add].
  rewrite ediv_fin by auto. cbn [eclip emax emin emul esub eadd].
  unfold payload_room, fuel_full. destruct fr; [rewrite ediv_fin by auto|]; do 2 f_equal; unfold Rdiv; try rewrite Rinv_1; ring.
Qed.

Lemma Rdiv_1 : forall x, x / 1 = x.
Proof. intros; field. Qed.

Lemma rf_bounds : forall x, 0.2 <= Rmin (Rmax x 0.2) 1 <= 1.
Proof.
  intros. unfold Rmin, Rmax. destruct (Rle_dec x 0.2); destruct (Rle_dec _ 1); lra.
Qed.
Lemma rf_mono : forall x y, x <= y -> Rmin (Rmax x 0.2) 1 <= Rmin (Rmax y 0.2) 1.
Proof.
  intros. unfold Rmin, Rmax. destruct (Rle_dec x 0.2), (Rle_dec y 0.2); repeat destruct (Rle_dec _ 1); lra.
Qed.

Theorem C35_mass_within_limits : forall ac rng d lf, m_range ac = Some rng -> 0 < rng ->
  0 <= m_mfc ac -> 0 <= payload_room ac -> 0 < m_mtow ac -> 0 <= lf <= 1 ->
  exists m, from_range NP ac (Fin d) (Fin lf) false = inr (Fin m) /\
    m_oew ac + 0.2 * fuel_full ac <= m <= m_mtow ac /\
    from_range NP ac (Fin d) (Fin lf) true = inr (Fin (m / m_mtow ac)) /\
    (forall d', d <= d' -> exists m', from_range NP ac (Fin d') (Fin lf) false = inr (Fin m') /\ m <= m') /\
    (forall lf', lf <= lf' -> exists m', from_range NP ac (Fin d) (Fin lf') false = inr (Fin m') /\ m <= m') /\
    (* fuel carried: the tank fraction is the distance as a fraction of the range, kept within 20..100 % *)
    (0.2 * rng <= d <= rng -> m = m_oew ac + d / rng * fuel_full ac + lf * payload_room ac).
Proof.
  intros ac rng d lf Hr Hrng Hmfc Hroom Hmtow Hlf.
  assert (Hff : 0 <= fuel_full ac) by (unfold fuel_full; lra).
  pose proof (rf_bounds (d / rng)) as B.
  rewrite !(from_range_NP ac rng) by (auto; lra). cbv iota. rewrite !Rdiv_1.
  eexists; split; [reflexivity|].
  assert (0 <= payload_room ac * lf <= payload_room ac) by nra.
  split; [|split; [reflexivity|split; [|split]]].
  - split; [nra|]. unfold payload_room in *. nra.
  - intros d' Hd. rewrite (from_range_NP ac rng) by (auto; lra). eexists; split; [reflexivity|].
    pose proof (rf_mono (d / rng) (d' / rng)). cbv iota. rewrite !Rdiv_1.
    assert (d / rng <= d' / rng).
    { apply Rmult_le_compat_r; auto. apply Rlt_le, Rinv_0_lt_compat; auto. }
    specialize (H0 H1). nra.
  - intros lf' Hl. rewrite (from_range_NP ac rng) by (auto; lra). eexists; split; [reflexivity|].
    cbv iota. rewrite !Rdiv_1. nra.
  - intros [L U]. assert (0.2 <= d / rng <= 1).
    { split; apply (Rmult_le_reg_r rng); auto; unfold Rdiv; rewrite Rmult_assoc, Rinv_l by lra; lra. }
    rewrite Rmax_left, Rmin_left by lra. ring.
Qed.

(** openap/data/aircraft/a332.yml:4-7,39 *)
Definition a332_mass : mass_par := mkMass 230000 120200 139000 (Some 12500).
(** openap/data/aircraft/a320.yml *)
Definition a320_mass : mass_par := mkMass 78000 42600 24210 (Some 5000).

(** On the A332 entry the payload room is negative: a full-range flight with no payload is heavier
    than the maximum take-off mass, and adding payload makes it lighter. *)
Theorem C35_mass_at_most_mtow_refuted :
  exists m m', from_range NP a332_mass (Fin 12500) (Fin 0) false = inr (Fin m) /\ m_mtow a332_mass < m /\
    from_range NP a332_mass (Fin 12500) (Fin 1) false = inr (Fin m') /\ m' < m.
Proof.
  rewrite !(from_range_NP a332_mass 12500) by (cbn [m_range m_mtow a332_mass]; first [reflexivity | lra]). do 2 eexists. split; [reflexivity|].
  assert (E : Rmin (Rmax (12500 / 12500) 0.2) 1 = 1).
  { replace (12500 / 12500) with 1 by field. rewrite Rmax_left, Rmin_left by lra. auto. }
  rewrite E. unfold payload_room, fuel_full. cbv iota. cbn [m_mtow m_oew m_mfc a332_mass].
  rewrite !Rdiv_1. split; [lra|]. split; [reflexivity|]. lra.
Qed.
Example C35_ex : m_range a320_mass = Some 5000 /\ 0 <= m_mfc a320_mass /\ 0 <= payload_room a320_mass /\ 0 < m_mtow a320_mass.
Proof. unfold payload_room, fuel_full. cbn. repeat split; lra. Qed.
