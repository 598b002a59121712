(** * Properties C94 to C98: the BADA3 add-on (openap/addon/bada3.py) *)
From Coq Require Import String List Bool ZArith Lia.
From Coq Require Import Reals Lra Psatz.
From Interval Require Import Tactic.
From Verif Require Import Num NumFacts SpecNum Py Aero AeroFacts GeoFacts Vec Bada3.
Import ListNotations.
Open Scope list_scope.
Open Scope R_scope.

(** ** Specification *)
Definition jet (m : bada3) : Prop := b3_engine m = "turbofan"%string.
Definition turboprop (m : bada3) : Prop := b3_engine m = "turboprop"%string.
Definition piston_or_electric (m : bada3) : Prop := b3_engine m = "piston"%string \/ b3_engine m = "electric"%string.
Definition known_engine (m : bada3) : Prop := jet m \/ turboprop m \/ piston_or_electric m.
(** air density at an altitude in ft *)
Definition rho_at (alt rho : R) : Prop := density NP (Fin (alt * 0.3048)) (Fin 0) = Fin rho.
(** dynamic pressure times wing area; speed in kt *)
Definition press_area (m : bada3) (rho tas : R) : R := 1 / 2 * rho * (tas * 0.514444) ^ 2 * b3_S m.
(** drag with coefficients [cd0], [cd2] *)
Definition polar_drag (cd0 cd2 mass q : R) : R := cd0 * q + cd2 * (mass * 9.80665) ^ 2 / q.
(** maximum climb thrust in the standard atmosphere (BADA3 eq. 3.7-1 to 3.7-3) *)
Definition isa_thrust (m : bada3) (tas alt t : R) : Prop :=
  (jet m /\ t = b3_ct1 m * (1 - alt / b3_ct2 m + b3_ct3 m * alt ^ 2)) \/
  (turboprop m /\ t = b3_ct1 m / tas * (1 - alt / b3_ct2 m) + b3_ct3 m) \/
  (piston_or_electric m /\ t = b3_ct1 m * (1 - alt / b3_ct2 m) + b3_ct3 m / tas).
(** fraction of thrust lost to temperature *)
Definition hot_loss (m : bada3) (dT : R) : R := Rmax 0 (Rmin (Rmax (b3_ct5 m) 0 * (dT - b3_ct4 m)) 0.4).
(** no coefficient of the approach and landing configurations is given *)
Definition no_flap_data (m : bada3) : Prop := b3_cd0_ap m = 0 /\ b3_cd0_ld m = 0 /\ b3_cd0_lgear m = 0 /\ b3_cd2_ap m = 0 /\ b3_cd2_ld m = 0.

(** ** Lemmas *)
Lemma kind_jet : forall m, jet m <-> kind_of (b3_engine m) = Jet.
Proof.
  intros m. unfold jet, kind_of. split; [intros ->; reflexivity|].
  destruct (String.eqb_spec (b3_engine m) "turbofan"); auto. destruct (String.eqb (b3_engine m) "turboprop"); [discriminate|].
  destruct (String.eqb (b3_engine m) "piston" || String.eqb (b3_engine m) "electric"); discriminate.
Qed.
Lemma kind_prop : forall m, turboprop m <-> kind_of (b3_engine m) = Prop_.
Proof.
  intros m. unfold turboprop, kind_of. split; [intros ->; reflexivity|].
  destruct (String.eqb (b3_engine m) "turbofan"); [discriminate|]. destruct (String.eqb_spec (b3_engine m) "turboprop"); auto.
  destruct (String.eqb (b3_engine m) "piston" || String.eqb (b3_engine m) "electric"); discriminate.
Qed.
Lemma kind_flat : forall m, piston_or_electric m <-> kind_of (b3_engine m) = Flat.
Proof.
  intros m. unfold piston_or_electric, kind_of. split; [intros [->| ->]; reflexivity|].
  destruct (String.eqb (b3_engine m) "turbofan"); [discriminate|]. destruct (String.eqb (b3_engine m) "turboprop"); [discriminate|].
  destruct (String.eqb_spec (b3_engine m) "piston"); auto. destruct (String.eqb_spec (b3_engine m) "electric"); auto. discriminate.
Qed.
Lemma kind_known : forall m, known_engine m <-> kind_of (b3_engine m) <> Unknown.
Proof.
  intros m. unfold known_engine. rewrite kind_jet, kind_prop, kind_flat. destruct (kind_of (b3_engine m)); split; try tauto; try discriminate.
  intros [H|[H|H]]; discriminate.
Qed.

(** ** C94: the classes as shipped, where no object has the attribute [sci] *)
(** the drag methods always raise *)
Theorem C94_drag_as_shipped : forall b m mass tas alt gear phase,
  b3_clean b false m mass tas alt = inl AttributeError /\
  ((phase = Some "AP"%string \/ phase = Some "LD"%string) -> b3_nonclean b false m mass tas alt gear phase = inl AttributeError) /\
  (~ (phase = Some "AP"%string \/ phase = Some "LD"%string) -> b3_nonclean b false m mass tas alt gear phase = inl ValueError).
Proof.
  intros. split; [reflexivity|]. split.
  - intros [->| ->]; reflexivity.
  - intros N. unfold b3_nonclean. destruct phase as [s|]; auto.
    destruct (String.eqb_spec s "AP") as [->|]; [exfalso; auto|]. destruct (String.eqb_spec s "LD") as [->|]; [exfalso; auto|]. auto.
Qed.
(** so do the thrust methods *)
Theorem C94_thrust_as_shipped : forall b tr m hpdes tas alt dT config,
  (known_engine m ->
     b3_climb b false m tas alt dT = inl AttributeError /\ b3_takeoff b false m tas alt dT = inl AttributeError /\
     b3_cruise b false m tas alt dT = inl AttributeError /\ b3_thr_idle b tr false m hpdes tas alt dT config = inl AttributeError) /\
  (~ known_engine m ->
     b3_climb b false m tas alt dT = inl ValueError /\ b3_takeoff b false m tas alt dT = inl ValueError /\
     b3_cruise b false m tas alt dT = inl ValueError /\ b3_thr_idle b tr false m hpdes tas alt dT config = inl ValueError).
Proof.
  intros. rewrite kind_known. unfold b3_takeoff, b3_cruise, b3_thr_idle.
  assert (A : kind_of (b3_engine m) <> Unknown -> b3_climb b false m tas alt dT = inl AttributeError).
  { intros H. unfold b3_climb, b3_thr_isa. destruct (kind_of (b3_engine m)); auto; congruence. }
  assert (B : kind_of (b3_engine m) = Unknown -> b3_climb b false m tas alt dT = inl ValueError).
  { intros H. unfold b3_climb, b3_thr_isa. rewrite H. auto. }
  split; intros H.
  - rewrite A by auto. auto.
  - rewrite B; auto. destruct (kind_of (b3_engine m)); auto; exfalso; apply H; discriminate.
Qed.
(** and the fuel-flow methods except [idle], which needs no [sci] *)
Theorem C94_fuel_as_shipped : forall b sci m mass tas alt vs,
  b3_ff_nominal b false m mass tas alt vs = inl AttributeError /\
  b3_ff_enroute b false m mass tas alt vs = inl AttributeError /\
  (jet m \/ turboprop m -> b3_ff_approach b false m mass tas alt vs = inl AttributeError) /\
  (~ (jet m \/ turboprop m) -> b3_ff_approach b sci m mass tas alt vs = inl ValueError) /\
  (known_engine m -> exists f, b3_ff_idle b m alt = inr f).
Proof.
  intros. split; [reflexivity|]. split; [reflexivity|]. rewrite kind_jet, kind_prop, kind_known.
  unfold b3_ff_approach, b3_ff_idle. destruct (kind_of (b3_engine m)); split; try split; intros; try reflexivity; try (destruct H; discriminate);
    try (exfalso; apply H; auto; fail); try (eexists; reflexivity); try congruence.
Qed.
(** the constructors of Thrust and FuelFlow raise exactly when no approach or landing coefficient is given *)
Theorem C94_constructor_as_shipped : forall m,
  (no_flap_data m -> b3_thrust_new false m = inl AttributeError /\ b3_fuelflow_new false m = inl AttributeError) /\
  (~ no_flap_data m -> b3_thrust_new false m = inr (b3_HpDes m) /\ b3_fuelflow_new false m = inr (b3_HpDes m)).
Proof.
  intros m. unfold no_flap_data, b3_fuelflow_new, b3_thrust_new.
  destruct (Req_EM_T (b3_cd0_ap m) 0), (Req_EM_T (b3_cd0_ld m) 0), (Req_EM_T (b3_cd0_lgear m) 0), (Req_EM_T (b3_cd2_ap m) 0), (Req_EM_T (b3_cd2_ld m) 0);
    cbn [andb]; split; intros H; auto; exfalso; tauto.
Qed.
(** "A fuel flow can be computed with the shipped class."  False for every aircraft and every argument. *)
Theorem C94_usable_refuted : ~ exists b m mass tas alt vs f, b3_ff_enroute b false m mass tas alt vs = inr f.
Proof.
  intros (b & m & mass & tas & alt & vs & f & H). destruct (C94_fuel_as_shipped b false m mass tas alt vs) as (_ & E & _). rewrite E in H. discriminate H.
Qed.

(** ** C95: drag, once [sci] is NumPy *)
Lemma cl_NP : forall m mass tas alt rho, rho_at alt rho ->
  b3_cl NP true m (Fin mass) (Fin tas) (Fin alt) = inr (Fin (mass * 9.80665 / Rmax (press_area m rho tas) (1 / 1000)), Fin (press_area m rho tas)).
Proof.
  intros m mass tas alt rho H. unfold b3_cl, rho_at in *. change ft with 0.3048. 
  cbn [T mul cst NP powi maximum div emul epowi with_sci]. rewrite H. cbn [emul emax].
  change kts with 0.514444. change g0 with 9.80665.
  replace (0.5 * rho * (tas * 0.514444) ^ 2 * b3_S m) with (press_area m rho tas) by (unfold press_area; lra).
  replace 1e-3 with (1 / 1000) by lra. rewrite ediv_fin; [reflexivity|]. pose proof (Rmax_r (press_area m rho tas) (1 / 1000)). lra.
Qed.
Definition capped_drag (cd0 cd2 mass q : R) : R := (cd0 + cd2 * (mass * 9.80665 / Rmax q (1 / 1000)) ^ 2) * q.
Lemma capped_polar : forall cd0 cd2 mass q, 1 / 1000 <= q -> capped_drag cd0 cd2 mass q = polar_drag cd0 cd2 mass q.
Proof. intros. unfold capped_drag, polar_drag. rewrite Rmax_left by lra. field. lra. Qed.
Lemma clean_NP : forall m mass tas alt rho, rho_at alt rho ->
  b3_clean NP true m (Fin mass) (Fin tas) (Fin alt) = inr (Fin (capped_drag (b3_cd0_cr m) (b3_cd2_cr m) mass (press_area m rho tas))).
Proof.
  intros m mass tas alt rho H. unfold b3_clean. rewrite (cl_NP m mass tas alt rho H). cbn. unfold capped_drag. rewrite Rplus_0_r. auto.
Qed.
(** Clean drag follows the polar; below one thousandth of a newton of dynamic pressure times area the lift
    coefficient is capped. *)
Theorem C95_clean_drag : forall m mass tas alt, exists rho, 0 < rho /\ rho_at alt rho /\
  (1 / 1000 <= press_area m rho tas ->
     b3_clean NP true m (Fin mass) (Fin tas) (Fin alt) = inr (Fin (polar_drag (b3_cd0_cr m) (b3_cd2_cr m) mass (press_area m rho tas)))) /\
  (press_area m rho tas <= 1 / 1000 ->
     b3_clean NP true m (Fin mass) (Fin tas) (Fin alt) =
     inr (Fin ((b3_cd0_cr m + b3_cd2_cr m * (mass * 9.80665 * 1000) ^ 2) * press_area m rho tas))).
Proof.
  intros. exists (rhoR (alt * 0.3048) 0). split; [apply rhoR_pos|]. assert (H : rho_at alt (rhoR (alt * 0.3048) 0)) by apply density_NP.
  split; auto. rewrite (clean_NP m mass tas alt _ H). split; intros Q.
  - rewrite capped_polar by auto. auto.
  - unfold capped_drag. rewrite Rmax_right by auto. do 4 f_equal. f_equal. field.
Qed.
(** It is positive and grows with mass. *)
Theorem C95_heavier_more_drag : forall m mass1 mass2 tas alt, 0 < b3_S m -> 0 < b3_cd0_cr m -> 0 < b3_cd2_cr m -> tas <> 0 -> 0 <= mass1 < mass2 ->
  exists d1 d2, b3_clean NP true m (Fin mass1) (Fin tas) (Fin alt) = inr (Fin d1) /\
    b3_clean NP true m (Fin mass2) (Fin tas) (Fin alt) = inr (Fin d2) /\ 0 < d1 < d2.
Proof.
  intros m m1 m2 tas alt HS H0 H2 Ht Hm. assert (H : rho_at alt (rhoR (alt * 0.3048) 0)) by apply density_NP.
  rewrite !(clean_NP m _ tas alt _ H). eexists _, _. split; [reflexivity|]. split; [reflexivity|].
  assert (Q : 0 < press_area m (rhoR (alt * 0.3048) 0) tas).
  { unfold press_area. apply Rmult_lt_0_compat; auto. apply Rmult_lt_0_compat; [pose proof (rhoR_pos (alt * 0.3048) 0); lra|].
    assert (tas * 0.514444 <> 0) by (apply Rmult_integral_contrapositive_currified; lra). pose proof (Rsqr_pos_lt _ H1) as Z. rewrite Rsqr_pow2 in Z. auto. }
  unfold capped_drag. set (q := press_area m (rhoR (alt * 0.3048) 0) tas) in *. set (x := Rmax q (1 / 1000)).
  assert (X : 0 < x) by (unfold x; pose proof (Rmax_r q (1 / 1000)); lra).
  assert (A : forall z, 0 <= z -> 0 <= z * 9.80665 / x). { intros. apply Rmult_le_pos; [lra|left; apply Rinv_0_lt_compat; auto]. }
  assert (B : m1 * 9.80665 / x < m2 * 9.80665 / x). { apply Rmult_lt_compat_r; [apply Rinv_0_lt_compat; auto|lra]. }
  pose proof (A m1 ltac:(lra)). assert (P : (m1 * 9.80665 / x) ^ 2 < (m2 * 9.80665 / x) ^ 2) by nra.
  split.
  - apply Rmult_lt_0_compat; auto. pose proof (pow2_ge_0 (m1 * 9.80665 / x)). nra.
  - apply Rmult_lt_compat_r; auto. nra.
Qed.
(** Configurations: approach and landing use their own coefficients, or the clean ones when both are zero;
    the gear adds its coefficient in landing configuration. *)
Theorem C95_nonclean_drag : forall m mass tas alt gear, exists rho, 0 < rho /\ rho_at alt rho /\
  let q := press_area m rho tas in
  let drag cd0 cd2 := inr (Fin (polar_drag cd0 cd2 mass q)) in
  1 / 1000 <= q ->
  (b3_cd0_ap m = 0 /\ b3_cd2_ap m = 0 ->
     b3_nonclean NP true m (Fin mass) (Fin tas) (Fin alt) gear (Some "AP"%string) = drag (b3_cd0_cr m) (b3_cd2_cr m)) /\
  (~ (b3_cd0_ap m = 0 /\ b3_cd2_ap m = 0) ->
     b3_nonclean NP true m (Fin mass) (Fin tas) (Fin alt) gear (Some "AP"%string) = drag (b3_cd0_ap m) (b3_cd2_ap m)) /\
  (b3_cd0_ld m = 0 /\ b3_cd2_ld m = 0 ->
     b3_nonclean NP true m (Fin mass) (Fin tas) (Fin alt) gear (Some "LD"%string) = drag (b3_cd0_cr m) (b3_cd2_cr m)) /\
  (~ (b3_cd0_ld m = 0 /\ b3_cd2_ld m = 0) ->
     b3_nonclean NP true m (Fin mass) (Fin tas) (Fin alt) gear (Some "LD"%string) =
     drag (b3_cd0_ld m + if gear then b3_cd0_lgear m else 0) (b3_cd2_ld m)).
Proof.
  intros. exists (rhoR (alt * 0.3048) 0). split; [apply rhoR_pos|]. assert (H : rho_at alt (rhoR (alt * 0.3048) 0)) by apply density_NP.
  split; auto. cbv zeta. intros Q.
  assert (E : forall cd0 lg cd2, emul (b3_cd NP (Fin (mass * 9.80665 / Rmax (press_area m (rhoR (alt * 0.3048) 0) tas) (1 / 1000))) (Fin cd0) (Fin cd2) (Fin lg))
                (Fin (press_area m (rhoR (alt * 0.3048) 0) tas)) = Fin (polar_drag (cd0 + lg) cd2 mass (press_area m (rhoR (alt * 0.3048) 0) tas))).
  { intros. rewrite <- capped_polar by auto. reflexivity. }
  unfold b3_nonclean. cbn [String.eqb Ascii.eqb Bool.eqb]. rewrite (cl_NP m mass tas alt _ H). cbn [mul NP cst].
  destruct (Req_EM_T (b3_cd0_ap m) 0), (Req_EM_T (b3_cd2_ap m) 0), (Req_EM_T (b3_cd0_ld m) 0), (Req_EM_T (b3_cd2_ld m) 0);
    rewrite ?E, ?Rplus_0_r; repeat split; intros; try tauto; try (exfalso; tauto).
Qed.
Lemma rho_sea : rhoR (0 * 0.3048) 0 = 1.225.
Proof.
  replace (0 * 0.3048) with 0 by lra. unfold rhoR. pose proof (clipT_id 0 ltac:(lra)) as Z. unfold tR. rewrite Z.
  replace (Rmax (T0 + 0 + beta * 0) (216.65 + 0)) with T0 by (rewrite Rmax_left; unfold T0; lra).
  assert (E1 : T0 / (T0 + 0) = 1) by (unfold T0; field; lra). rewrite E1.
  assert (E2 : Rmax 0.0 (0 - 11000.0) = 0) by (rewrite Rmax_left; lra). rewrite E2.
  unfold Rpower. rewrite ln_1, Rmult_0_r, exp_0. assert (E3 : - 0 / 6341.552161 = 0) by lra. rewrite E3, exp_0. unfold rho0. lra.
Qed.
(** "Lowering the gear for landing adds drag."  Not when the landing coefficients are missing. *)
Theorem C95_gear_refuted : exists m mass tas alt rho, 0 < b3_cd0_lgear m /\ 0 < b3_S m /\ rho_at alt rho /\ 1 / 1000 <= press_area m rho tas /\
  b3_nonclean NP true m (Fin mass) (Fin tas) (Fin alt) true (Some "LD"%string) =
  b3_nonclean NP true m (Fin mass) (Fin tas) (Fin alt) false (Some "LD"%string).
Proof.
  set (m := mkBada3 100 0.02 0.04 0.03 0.04 0 0 0.02 "turbofan" 140000 50000 0 10 0.005 0.1 0.1 0.15 0.3 8000 0.7 1000 10 50000 1).
  destruct (C95_nonclean_drag m 60000 140 0 true) as (rho & P & H & A). 
  destruct (C95_nonclean_drag m 60000 140 0 false) as (rho' & P' & H' & A'). assert (rho' = rho) by (unfold rho_at in *; congruence). subst rho'.
  exists m, 60000, 140, 0, rho. split; [cbn; lra|]. split; [cbn; lra|]. split; auto.
  assert (Q : 1 / 1000 <= press_area m rho 140).
  { unfold rho_at in H. rewrite density_NP in H. injection H as <-. unfold press_area. cbn [b3_S m]. rewrite rho_sea. lra. }
  split; auto. cbv zeta in A, A'. destruct (A Q) as (_ & _ & L & _). destruct (A' Q) as (_ & _ & L' & _). rewrite L, L' by (cbn; auto). auto.
Qed.

(** ** Examples *)
(** an aircraft of this kind; the shipped FuelFlow object can be made, gives idle fuel flow, and fails en route *)
Definition jet1 : bada3 :=
  mkBada3 122 0.025 0.038 0.04 0.037 0.08 0.036 0.03 "turbofan" 142000 52000 0 10 0.009 0.05 0.1 0.13 0.33 8000 0.75 1000 10 100000 1.
Example C94_ex : ~ no_flap_data jet1 /\ known_engine jet1 /\ b3_fuelflow_new false jet1 = inr 8000 /\
  b3_ff_idle NP jet1 (Fin 10000) = inr (Fin (9 / 60)) /\
  b3_ff_enroute NP false jet1 (Fin 60000) (Fin 400) (Fin 10000) (Fin 0) = inl AttributeError.
Proof.
  assert (N : ~ no_flap_data jet1) by (intros (H & _); cbn in H; lra).
  split; auto. split; [left; reflexivity|]. split; [apply (C94_constructor_as_shipped jet1); auto|]. split.
  - unfold b3_ff_idle. cbn. destruct (Req_EM_T 100000 0) as [E|_]; [lra|]. cbn. destruct (Req_EM_T 60 0) as [E|_]; [lra|]. do 2 f_equal. lra.
  - apply (C94_fuel_as_shipped NP false).
Qed.
(** clean drag at sea level, 200 kt and 60 t: about 36 kN; with flaps and gear about 103 kN *)
Example C95_ex : exists d1 d2,
  b3_clean NP true jet1 (Fin 60000) (Fin 200) (Fin 0) = inr (Fin d1) /\
  b3_nonclean NP true jet1 (Fin 60000) (Fin 200) (Fin 0) true (Some "LD"%string) = inr (Fin d2) /\
  36000 < d1 < 37000 /\ 100000 < d2 < 110000.
Proof.
  destruct (C95_clean_drag jet1 60000 200 0) as (rho & P & H & A & _).
  destruct (C95_nonclean_drag jet1 60000 200 0 true) as (rho' & P' & H' & A'). assert (rho' = rho) by (unfold rho_at in *; congruence). subst rho'.
  assert (E : rho = 1.225). { unfold rho_at in H. rewrite density_NP, rho_sea in H. injection H as <-. auto. }
  assert (Q : press_area jet1 rho 200 = 1 / 2 * 1.225 * (200 * 0.514444) ^ 2 * 122) by (rewrite E; reflexivity).
  cbv zeta in A'. rewrite Q in A, A'. destruct (A' ltac:(lra)) as (_ & _ & _ & L).
  eexists _, _. split; [apply A; lra|]. split; [apply L; cbn; lra|]. cbv [polar_drag b3_cd0_cr b3_cd2_cr b3_cd0_ld b3_cd2_ld b3_cd0_lgear jet1].
  split; split; interval.
Qed.
