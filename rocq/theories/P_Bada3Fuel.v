(** * Property C97: fuel flow of the BADA3 add-on, once [sci] is NumPy (openap/addon/bada3.py) *)
From Coq Require Import String List Bool ZArith Lia.
From Coq Require Import Reals Lra Psatz.
From Interval Require Import Tactic.
From Verif Require Import Num NumFacts SpecNum Py Aero AeroFacts GeoFacts Vec Bada3 P_Bada3 P_Bada3Thr.
Import ListNotations.
Open Scope list_scope.
Open Scope R_scope.

(** ** Specification *)
(** flight path angle of a speed [tas] (kt) and a vertical rate [vs] (ft/min) *)
Definition path_angle (tas vs gamma : R) : Prop := - (PI / 2) < gamma < PI / 2 /\ tan gamma * (tas * 0.514444) = vs * 0.00508.
(** thrust that holds the path: drag plus weight component, at most climb thrust *)
Definition needed_thrust (m : bada3) (mass tas alt vs thr : R) : Prop := exists d c gamma,
  b3_clean NP true m (Fin mass) (Fin tas) (Fin alt) = inr (Fin d) /\
  b3_climb NP true m (Fin tas) (Fin alt) (Fin 0) = inr (Fin c) /\
  path_angle tas vs gamma /\ thr = Rmin (d + mass * 9.80665 * sin gamma) c.
(** specific consumption, kg/min per N *)
Definition specific (m : bada3) (tas eta : R) : Prop :=
  (jet m /\ eta = b3_cf1 m * (1 + tas / b3_cf2 m) / 1000) \/
  (turboprop m /\ eta = b3_cf1 m * (1 - tas / b3_cf2 m) * (tas / 1000) / 1000).
(** idle fuel flow, kg/min *)
Definition idle_per_min (m : bada3) (alt f : R) : Prop :=
  (~ piston_or_electric m /\ f = b3_cf3 m * (1 - alt / b3_cf4 m)) \/ (piston_or_electric m /\ f = b3_cf3 m).

(** ** Lemmas *)
Lemma angle_NP : forall tas vs, 0 < tas -> path_angle tas vs (Ratan2 (vs * fpm) (tas * kts)).
Proof.
  intros tas vs H. unfold path_angle, Ratan2. change fpm with 0.00508. change kts with 0.514444.
  destruct (Rlt_dec 0 (tas * 0.514444)) as [P|N]; [|exfalso; lra].
  destruct (atan_bound (vs * 0.00508 / (tas * 0.514444))). split; [lra|]. rewrite tan_atan. field. lra.
Qed.
Lemma angle_unique : forall tas vs g1 g2, 0 < tas -> path_angle tas vs g1 -> path_angle tas vs g2 -> g1 = g2.
Proof.
  intros tas vs g1 g2 H [B1 E1] [B2 E2]. apply tan_is_inj; [lra|lra|]. apply (Rmult_eq_reg_r (tas * 0.514444)); lra.
Qed.
Lemma thrust_NP : forall m mass tas alt vs thr, 0 < tas -> needed_thrust m mass tas alt vs thr ->
  b3_ff_thrust NP true m (Fin mass) (Fin tas) (Fin alt) (Fin vs) = inr (Fin thr).
Proof.
  intros m mass tas alt vs thr Ht (d & c & g & D & K & G & ->). unfold b3_ff_thrust.
  cbn [with_sci T mul cst NP barctan2 emul eatan2 bsin elift]. rewrite D. cbn [cst NP] in *. rewrite K.
  rewrite (angle_unique tas vs g _ Ht G (angle_NP tas vs Ht)). reflexivity.
Qed.
Lemma needed_ex : forall m mass tas alt vs, 0 < tas -> b3_ct2 m <> 0 -> known_engine m -> exists thr, needed_thrust m mass tas alt vs thr.
Proof.
  intros m mass tas alt vs Ht H2 K. destruct (C95_clean_drag m mass tas alt) as (rho & _ & H & _).
  assert (exists t, isa_thrust m tas alt t) as [t I].
  { destruct K as [K|[K|K]]; [eexists; left; eauto|eexists; right; left; eauto|eexists; right; right; eauto]. }
  eexists _, _, _, _. split; [apply (clean_NP m mass tas alt rho H)|]. split; [apply (climb_NP m tas alt 0 t H2); auto; right; lra|].
  split; [apply (angle_NP tas vs Ht)|]. reflexivity.
Qed.
Lemma idle_NP : forall m alt f, known_engine m -> (~ piston_or_electric m -> b3_cf4 m <> 0) -> idle_per_min m alt f ->
  b3_ff_idle NP m (Fin alt) = inr (Fin (f / 60)).
Proof.
  intros m alt f K H4 H. unfold b3_ff_idle. apply kind_known in K. cbn [T mul div sub cst NP].
  destruct H as [[N ->]|[P ->]].
  - specialize (H4 N). rewrite kind_flat in N. destruct (kind_of (b3_engine m)); [| |congruence|congruence];
      rewrite ediv_fin by auto; cbn [esub eadd eneg emul]; rewrite ediv_fin by lra; auto.
  - apply kind_flat in P. rewrite P. rewrite ediv_fin by lra. auto.
Qed.
Lemma specific_not_flat : forall m tas eta, specific m tas eta -> ~ piston_or_electric m /\ known_engine m.
Proof.
  intros m tas eta S. rewrite kind_flat. unfold known_engine. destruct S as [[J _]|[J _]].
  - split; auto. apply kind_jet in J. congruence.
  - split; auto. apply kind_prop in J. congruence.
Qed.

(** ** C97 *)
(** Nominal fuel flow: specific consumption times needed thrust; the floor is the idle fuel flow taken in
    kilograms per second while the product is in kilograms per minute. *)
Theorem C97_nominal : forall m mass tas alt vs thr eta i, 0 < tas -> b3_cf2 m <> 0 -> b3_cf4 m <> 0 ->
  needed_thrust m mass tas alt vs thr -> specific m tas eta -> idle_per_min m alt i ->
  b3_ff_nominal NP true m (Fin mass) (Fin tas) (Fin alt) (Fin vs) = inr (Fin (Rmax (eta * thr) (i / 60) / 60)).
Proof.
  intros m mass tas alt vs thr eta i Ht H2 H4 N S I. destruct (specific_not_flat m tas eta S) as [F K]. unfold b3_ff_nominal.
  rewrite (thrust_NP m mass tas alt vs thr Ht N), (idle_NP m alt i K (fun _ => H4) I).
  cbn [T mul div sub add cst NP with_sci maximum].
  destruct S as [[J ->]|[J ->]].
  - rewrite (proj1 (kind_jet m) J). rewrite ediv_fin by auto. cbn [eadd emul emax]. rewrite ediv_fin by lra.
    do 2 f_equal. do 2 f_equal. lra.
  - rewrite (proj1 (kind_prop m) J). rewrite !ediv_fin by (auto; lra). cbn [eadd eneg esub emul emax]. rewrite ediv_fin by lra.
    do 2 f_equal. do 2 f_equal. lra.
Qed.
(** Piston and electric aircraft: a constant, whatever the flight condition *)
Theorem C97_nominal_piston : forall m mass tas alt vs, 0 < tas -> b3_ct2 m <> 0 -> piston_or_electric m ->
  b3_ff_nominal NP true m (Fin mass) (Fin tas) (Fin alt) (Fin vs) = inr (Fin (Rmax (b3_cf1 m) (b3_cf3 m / 60) / 60)).
Proof.
  intros m mass tas alt vs Ht H2 P. destruct (needed_ex m mass tas alt vs Ht H2) as [thr N]; [right; right; auto|]. unfold b3_ff_nominal.
  rewrite (thrust_NP m mass tas alt vs thr Ht N). rewrite (idle_NP m alt (b3_cf3 m)); [|right; right; auto|intros F; exfalso; auto|right; auto].
  rewrite (proj1 (kind_flat m) P). cbn [T div cst NP with_sci maximum emax]. rewrite ediv_fin by lra. auto.
Qed.
(** En-route and approach fuel flow, from nominal and idle *)
Theorem C97_phases : forall m mass tas alt vs n i,
  b3_ff_nominal NP true m (Fin mass) (Fin tas) (Fin alt) (Fin vs) = inr (Fin n) -> b3_ff_idle NP m (Fin alt) = inr (Fin i) ->
  b3_ff_enroute NP true m (Fin mass) (Fin tas) (Fin alt) (Fin vs) = inr (Fin (b3_cfcr m * n)) /\
  (jet m \/ turboprop m -> b3_ff_approach NP true m (Fin mass) (Fin tas) (Fin alt) (Fin vs) = inr (Fin (Rmax n i))).
Proof.
  intros m mass tas alt vs n i N I. unfold b3_ff_enroute, b3_ff_approach. rewrite N, I. split; [reflexivity|].
  rewrite kind_jet, kind_prop. intros [-> | ->]; reflexivity.
Qed.
(** A heavier aircraft that does not descend never burns less. *)
Theorem C97_heavier : forall m mass1 mass2 tas alt vs i eta, 0 < tas -> 0 <= vs -> 0 < b3_S m -> 0 < b3_cd0_cr m -> 0 < b3_cd2_cr m -> b3_ct2 m <> 0 ->
  b3_cf2 m <> 0 -> b3_cf4 m <> 0 -> specific m tas eta -> 0 <= eta -> idle_per_min m alt i -> 0 <= mass1 < mass2 ->
  exists f1 f2, b3_ff_nominal NP true m (Fin mass1) (Fin tas) (Fin alt) (Fin vs) = inr (Fin f1) /\
    b3_ff_nominal NP true m (Fin mass2) (Fin tas) (Fin alt) (Fin vs) = inr (Fin f2) /\ f1 <= f2.
Proof.
  intros m mass1 mass2 tas alt vs i eta Ht Hv HS H0 H2 Hc F2 F4 S E I M. destruct (specific_not_flat m tas eta S) as [_ K].
  destruct (needed_ex m mass1 tas alt vs Ht Hc K) as [t1 N1]. destruct (needed_ex m mass2 tas alt vs Ht Hc K) as [t2 N2].
  rewrite (C97_nominal m mass1 tas alt vs t1 eta i Ht F2 F4 N1 S I), (C97_nominal m mass2 tas alt vs t2 eta i Ht F2 F4 N2 S I).
  eexists _, _. split; [reflexivity|]. split; [reflexivity|].
  destruct N1 as (d1 & c1 & g1 & D1 & C1 & G1 & ->). destruct N2 as (d2 & c2 & g2 & D2 & C2 & G2 & ->).
  rewrite (angle_unique tas vs g2 g1 Ht G2 G1). rewrite C1 in C2. injection C2 as <-.
  destruct (C95_heavier_more_drag m mass1 mass2 tas alt HS H0 H2 ltac:(lra) M) as (x & y & X & Y & L). rewrite D1 in X. rewrite D2 in Y.
  injection X as <-. injection Y as <-.
  assert (Z : 0 <= sin g1).
  { destruct G1 as [B T1]. assert (T2 : 0 <= tan g1). { apply Rnot_lt_le. intros W. assert (tan g1 * (tas * 0.514444) < 0) by nra. lra. }
    unfold tan in T2. assert (P : 0 < cos g1) by (apply cos_gt_0; lra). replace (sin g1) with (sin g1 / cos g1 * cos g1) by (field; lra). nra. }
  apply Rmult_le_compat_r; [lra|]. apply Rle_max_compat_r, Rmult_le_compat_l; auto. apply Rle_min_compat_r. nra.
Qed.
(** When no thrust is needed (a steep descent), nominal fuel flow is one sixtieth of idle fuel flow. *)
Theorem C97_descent : forall m mass tas alt vs thr eta i, 0 < tas -> b3_cf2 m <> 0 -> b3_cf4 m <> 0 ->
  needed_thrust m mass tas alt vs thr -> thr <= 0 -> specific m tas eta -> 0 <= eta -> idle_per_min m alt i -> 0 <= i ->
  exists fi fn, b3_ff_idle NP m (Fin alt) = inr (Fin fi) /\
    b3_ff_nominal NP true m (Fin mass) (Fin tas) (Fin alt) (Fin vs) = inr (Fin fn) /\ fn = fi / 60.
Proof.
  intros m mass tas alt vs thr eta i Ht H2 H4 N L S E I P. destruct (specific_not_flat m tas eta S) as [_ K].
  rewrite (C97_nominal m mass tas alt vs thr eta i Ht H2 H4 N S I), (idle_NP m alt i K (fun _ => H4) I).
  eexists _, _. split; [reflexivity|]. split; [reflexivity|]. rewrite Rmax_right; auto. nra.
Qed.
(** Approach fuel flow is never below idle; nominal fuel flow is never below a sixtieth of idle. *)
Theorem C97_floor : forall m mass tas alt vs eta i, 0 < tas -> b3_ct2 m <> 0 -> b3_cf2 m <> 0 -> b3_cf4 m <> 0 -> specific m tas eta -> idle_per_min m alt i ->
  exists fi fn fa, b3_ff_idle NP m (Fin alt) = inr (Fin fi) /\
    b3_ff_nominal NP true m (Fin mass) (Fin tas) (Fin alt) (Fin vs) = inr (Fin fn) /\
    b3_ff_approach NP true m (Fin mass) (Fin tas) (Fin alt) (Fin vs) = inr (Fin fa) /\
    fi <= fa /\ fn <= fa /\ (fa = fi \/ fa = fn) /\ fi / 60 <= fn.
Proof.
  intros m mass tas alt vs eta i Ht Hc H2 H4 S I. destruct (specific_not_flat m tas eta S) as [_ K].
  destruct (needed_ex m mass tas alt vs Ht Hc K) as [thr N].
  pose proof (C97_nominal m mass tas alt vs thr eta i Ht H2 H4 N S I) as X. pose proof (idle_NP m alt i K (fun _ => H4) I) as Y.
  destruct (C97_phases m mass tas alt vs _ _ X Y) as [_ Z]. 
  eexists _, _, _. split; [exact Y|]. split; [exact X|]. split; [apply Z; destruct S as [[J _]|[J _]]; auto|].
  split; [apply Rmax_r|]. split; [apply Rmax_l|]. split.
  - apply or_comm, Rmax_case; auto.
  - apply Rmult_le_compat_r; [lra|apply Rmax_r].
Qed.
(** "Nominal fuel flow is at least idle fuel flow" (the comment in the code).  False. *)
Theorem C97_floor_refuted : exists m mass tas alt vs fi fn, jet m /\
  b3_ff_idle NP m (Fin alt) = inr (Fin fi) /\
  b3_ff_nominal NP true m (Fin mass) (Fin tas) (Fin alt) (Fin vs) = inr (Fin fn) /\ 0 < fn < fi.
Proof.
  assert (J : jet jet1) by reflexivity.
  destruct (needed_ex jet1 60000 200 0 (-3000) ltac:(lra) ltac:(cbn; lra) (or_introl J)) as [thr N].
  assert (L : thr <= 0).
  { destruct N as (d & c & g & D & C & [B T1] & ->). destruct C95_ex as (d1 & d2 & D1 & _ & L1 & _). rewrite D in D1. injection D1 as <-.
    eapply Rle_trans; [apply Rmin_l|]. 
    assert (G : g = atan (-3000 * 0.00508 / (200 * 0.514444))).
    { apply tan_is_inj; [lra|apply atan_bound|]. rewrite tan_atan. apply (Rmult_eq_reg_r (200 * 0.514444)); [|lra]. rewrite T1. field; lra. }
    assert (S : sin g <= -0.1) by (rewrite G; interval). nra. }
  set (i := 10 * (1 - 0 / 100000)).
  assert (I : idle_per_min jet1 0 i). { left. split; [|reflexivity]. rewrite kind_flat. apply kind_jet in J. congruence. }
  destruct (C97_descent jet1 60000 200 0 (-3000) thr (0.75 * (1 + 200 / 1000) / 1000) i) as (fi & fn & A & B & E); auto; try (cbn; lra).
  - left. split; auto.
  - unfold i. lra.
  - exists jet1, 60000, 200, 0, (-3000), fi, fn. split; auto. split; auto. split; auto.
    rewrite (idle_NP jet1 0 i (or_introl J)) in A; auto; [|intros _; cbn; lra]. injection A as <-. unfold i in *. lra.
Qed.
(** level flight of the aircraft above: about 0.55 kg/s *)
Example C97_ex : exists fn, b3_ff_nominal NP true jet1 (Fin 60000) (Fin 200) (Fin 0) (Fin 0) = inr (Fin fn) /\ 0.53 < fn < 0.56 /\
  b3_ff_enroute NP true jet1 (Fin 60000) (Fin 200) (Fin 0) (Fin 0) = inr (Fin (1 * fn)).
Proof.
  assert (J : jet jet1) by reflexivity. destruct C95_ex as (d1 & d2 & D1 & _ & L1 & _).
  assert (I : isa_thrust jet1 200 0 142000) by (left; split; [auto|cbn; lra]).
  assert (L : hot_loss jet1 0 = 0). { unfold hot_loss. cbn [b3_ct4 b3_ct5 jet1]. rewrite (Rmax_left 0.009 0), Rmin_left, Rmax_left; lra. }
  assert (N : needed_thrust jet1 60000 200 0 0 d1).
  { exists d1, 142000, 0. split; auto. split; [rewrite (climb_NP jet1 200 0 0 142000); [rewrite L; do 2 f_equal; lra|cbn; lra|auto|auto]|].
    split; [split; [pose proof PI_RGT_0; lra|rewrite tan_0; lra]|]. rewrite sin_0, Rmin_left; lra. }
  assert (P : idle_per_min jet1 0 (10 * (1 - 0 / 100000))). { left. split; [|reflexivity]. rewrite kind_flat. apply kind_jet in J. congruence. }
  eexists. split; [apply (C97_nominal jet1 60000 200 0 0 d1 (0.75 * (1 + 200 / 1000) / 1000) (10 * (1 - 0 / 100000)) ltac:(lra) ltac:(cbn; lra) ltac:(cbn; lra) N); auto; left; auto|].
  split; [rewrite Rmax_left; lra|]. 
  assert (Q : specific jet1 200 (0.75 * (1 + 200 / 1000) / 1000)) by (left; auto).
  apply (C97_phases jet1 60000 200 0 0 _ (10 * (1 - 0 / 100000) / 60)).
  - apply C97_nominal; auto; try (cbn; lra); lra.
  - apply idle_NP; auto; [left; auto|intros _; cbn; lra].
Qed.
