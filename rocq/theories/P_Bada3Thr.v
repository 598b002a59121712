(** * Property C96: thrust of the BADA3 add-on, once [sci] is NumPy (openap/addon/bada3.py) *)
From Coq Require Import String List Bool ZArith Lia.
From Coq Require Import Reals Lra Psatz.
From Verif Require Import Num NumFacts SpecNum Py Aero AeroFacts Vec Bada3 P_Bada3.
Import ListNotations.
Open Scope list_scope.
Open Scope R_scope.

(** ** Lemmas *)
Lemma isa_NP : forall m tas alt t, b3_ct2 m <> 0 -> (jet m \/ tas <> 0) -> isa_thrust m tas alt t ->
  b3_thr_isa NP m (Fin tas) (Fin alt) = inr (Fin t).
Proof.
  intros m tas alt t H2 Ht H. unfold b3_thr_isa. cbn [T mul add sub div cst powi NP].
  destruct H as [[K ->]|[[K ->]|[K ->]]].
  - rewrite (proj1 (kind_jet m) K). rewrite ediv_fin by auto. reflexivity.
  - rewrite (proj1 (kind_prop m) K). assert (tas <> 0). { destruct Ht as [J|]; auto. apply kind_jet in J. apply kind_prop in K. congruence. }
    rewrite !ediv_fin by auto. reflexivity.
  - rewrite (proj1 (kind_flat m) K). assert (tas <> 0). { destruct Ht as [J|]; auto. apply kind_jet in J. apply kind_flat in K. congruence. }
    rewrite !ediv_fin by auto. reflexivity.
Qed.
Lemma climb_NP : forall m tas alt dT t, b3_ct2 m <> 0 -> (jet m \/ tas <> 0) -> isa_thrust m tas alt t ->
  b3_climb NP true m (Fin tas) (Fin alt) (Fin dT) = inr (Fin (t * (1 - hot_loss m dT))).
Proof.
  intros m tas alt dT t H2 Ht H. unfold b3_climb. rewrite (isa_NP m tas alt t H2 Ht H).
  cbn [with_sci T mul sub cst maximum minimum NP emul esub emax emin]. reflexivity.
Qed.

(** ** C96 *)
(** Climb, take-off and cruise thrust *)
Theorem C96_thrust : forall m tas alt dT t, b3_ct2 m <> 0 -> (jet m \/ tas <> 0) -> isa_thrust m tas alt t ->
  b3_climb NP true m (Fin tas) (Fin alt) (Fin dT) = inr (Fin (t * (1 - hot_loss m dT))) /\
  b3_takeoff NP true m (Fin tas) (Fin alt) (Fin dT) = inr (Fin (t * (1 - hot_loss m dT))) /\
  b3_cruise NP true m (Fin tas) (Fin alt) (Fin dT) = inr (Fin (0.95 * (t * (1 - hot_loss m dT)))).
Proof.
  intros m tas alt dT t H2 Ht H. unfold b3_takeoff, b3_cruise. rewrite (climb_NP m tas alt dT t H2 Ht H). auto.
Qed.
(** Temperature takes at most 40 % of the thrust, none at or below the threshold deviation, none if the fifth
    coefficient is not positive, and a hotter day never gives more. *)
Theorem C96_temperature : forall m tas alt dT1 dT2 t, b3_ct2 m <> 0 -> (jet m \/ tas <> 0) -> isa_thrust m tas alt t -> 0 <= t -> dT1 <= dT2 ->
  exists c1 c2, b3_climb NP true m (Fin tas) (Fin alt) (Fin dT1) = inr (Fin c1) /\
    b3_climb NP true m (Fin tas) (Fin alt) (Fin dT2) = inr (Fin c2) /\
    0.6 * t <= c2 <= c1 /\ c1 <= t /\
    (dT2 <= b3_ct4 m -> c2 = t) /\ (b3_ct5 m <= 0 -> c2 = t) /\
    (0 < b3_ct5 m -> b3_ct4 m + 0.4 / b3_ct5 m <= dT1 -> c1 = 0.6 * t).
Proof.
  intros m tas alt dT1 dT2 t H2 Ht H P D. rewrite (climb_NP m tas alt dT1 t H2 Ht H), (climb_NP m tas alt dT2 t H2 Ht H).
  eexists _, _. split; [reflexivity|]. split; [reflexivity|].
  assert (B : forall x, 0 <= hot_loss m x <= 0.4).
  { intros x. unfold hot_loss. split; [apply Rmax_l|]. apply Rmax_lub; [lra|apply Rmin_r]. }
  assert (M : hot_loss m dT1 <= hot_loss m dT2).
  { unfold hot_loss. apply Rle_max_compat_l, Rle_min_compat_r. apply Rmult_le_compat_l; [apply Rmax_r|lra]. }
  pose proof (B dT1). pose proof (B dT2). repeat apply conj; try nra.
  - intros L. assert (E : hot_loss m dT2 = 0). { unfold hot_loss. apply Rmax_left. eapply Rle_trans; [apply Rmin_l|]. pose proof (Rmax_r (b3_ct5 m) 0). nra. }
    rewrite E. lra.
  - intros L. assert (E : hot_loss m dT2 = 0). { unfold hot_loss. rewrite (Rmax_right (b3_ct5 m) 0) by auto. rewrite Rmult_0_l, Rmin_left by lra. apply Rmax_left. lra. }
    rewrite E. lra.
  - intros L G. assert (E : hot_loss m dT1 = 0.4).
    { unfold hot_loss. rewrite (Rmax_left (b3_ct5 m) 0) by lra. rewrite Rmin_right; [apply Rmax_right; lra|].
      apply (Rmult_le_compat_l (b3_ct5 m)) in G; [|lra]. rewrite Rmult_plus_distr_l in G. unfold Rdiv in G.
      replace (b3_ct5 m * (0.4 * / b3_ct5 m)) with 0.4 in G by (field; lra). lra. }
    rewrite E. lra.
Qed.
(** Idle thrust is a fraction of climb thrust; the fraction depends on the configuration only at or below the
    descent altitude. *)
Theorem C96_idle : forall m hpdes tas alt dT t cfg c, b3_ct2 m <> 0 -> (jet m \/ tas <> 0) -> isa_thrust m tas alt t ->
  (cfg = "CR"%string /\ c = b3_ctdeslow m) \/ (cfg = "AP"%string /\ c = b3_ctdesapp m) \/ (cfg = "LD"%string /\ c = b3_ctdesld m) ->
  (hpdes < alt -> b3_thr_idle NP truth_np true m hpdes (Fin tas) (Fin alt) (Fin dT) (Some cfg) = inr (Fin (b3_ctdeshigh m * (t * (1 - hot_loss m dT))))) /\
  (alt <= hpdes -> b3_thr_idle NP truth_np true m hpdes (Fin tas) (Fin alt) (Fin dT) (Some cfg) = inr (Fin (c * (t * (1 - hot_loss m dT))))).
Proof.
  intros m hpdes tas alt dT t cfg c H2 Ht H K. unfold b3_thr_idle. rewrite (climb_NP m tas alt dT t H2 Ht H).
  cbn [gt NP cst egt mul]. destruct K as [[-> ->]|[[-> ->]|[-> ->]]]; cbn [String.eqb Ascii.eqb Bool.eqb];
    unfold egt, Rltb; destruct (Rlt_dec hpdes alt); cbn [truth_np emul]; split; intros; auto; lra.
Qed.
(** Without a configuration, or with any other word, no idle thrust is given, although the argument is optional. *)
Theorem C96_idle_config : forall b tr m hpdes tas alt dT config, known_engine m ->
  ~ (config = Some "CR"%string \/ config = Some "AP"%string \/ config = Some "LD"%string) ->
  b3_thr_idle b tr true m hpdes tas alt dT config = inl ValueError.
Proof.
  intros b tr m hpdes tas alt dT config K N. unfold b3_thr_idle, b3_climb, b3_thr_isa. apply kind_known in K.
  destruct (kind_of (b3_engine m)); [| | |congruence]; cbn [with_sci]; (destruct config as [s|]; [|auto]);
    (destruct (String.eqb_spec s "CR") as [->|]; [exfalso; auto|]); (destruct (String.eqb_spec s "AP") as [->|]; [exfalso; auto|]);
    (destruct (String.eqb_spec s "LD") as [->|]; [exfalso; auto|]); auto.
Qed.
(** With two or more altitudes in one call, idle thrust raises (the truth value of the comparison is ambiguous). *)
Theorem C96_idle_arrays : forall m hpdes tas alts dT config, (2 <= length alts)%nat -> known_engine m ->
  b3_thr_idle VB truth_vec true m hpdes tas (Ar alts) dT config = inl ValueError.
Proof.
  intros m hpdes tas alts dT config L K. unfold b3_thr_idle.
  assert (E : exists x, b3_climb VB true m tas (Ar alts) dT = inr x).
  { unfold b3_climb, b3_thr_isa. apply kind_known in K. destruct (kind_of (b3_engine m)); [| | |congruence]; eexists; reflexivity. }
  destruct E as [x ->]. cbn [gt VB cst]. destruct alts as [|a [|a' l]]; cbn in L; [exfalso; lia|exfalso; lia|].
  cbn. destruct config as [s|]; [|auto]. destruct (String.eqb s "CR"); auto. destruct (String.eqb s "AP"); auto. destruct (String.eqb s "LD"); auto.
Qed.
(** The altitude kept by the constructor *)
Theorem C96_descent_altitude : forall m,
  (no_flap_data m -> b3_thrust_new true m = inr (Rmax (b3_HpDes m) 8000)) /\
  (~ no_flap_data m -> b3_thrust_new true m = inr (b3_HpDes m)).
Proof.
  intros m. unfold no_flap_data, b3_thrust_new.
  destruct (Req_EM_T (b3_cd0_ap m) 0), (Req_EM_T (b3_cd0_ld m) 0), (Req_EM_T (b3_cd0_lgear m) 0), (Req_EM_T (b3_cd2_ap m) 0), (Req_EM_T (b3_cd2_ld m) 0);
    cbn [andb]; split; intros H; auto; exfalso; tauto.
Qed.
(** "When non-clean data are available, the descent altitude is at least 8000 ft" (the rule of the BADA3 manual).
    False: the test is the wrong way round. *)
Theorem C96_descent_altitude_refuted : ~ (forall m, ~ no_flap_data m -> exists h, b3_thrust_new true m = inr h /\ 8000 <= h).
Proof.
  intros H. set (m := mkBada3 122 0.025 0.038 0.04 0.037 0.08 0.036 0.03 "turbofan" 142000 52000 0 10 0.009 0.05 0.1 0.13 0.33 3000 0.75 1000 10 100000 1).
  assert (N : ~ no_flap_data m) by (intros (Z & _); cbn in Z; lra).
  destruct (H m N) as (h & E & L). rewrite (proj2 (C96_descent_altitude m) N) in E. injection E as <-. cbn in L. lra.
Qed.
(** ISA + 20 at 10400 ft: 9 % of the thrust is lost; idle is 5 % of the rest. *)
Example C96_ex : isa_thrust jet1 300 10400 (142000 * 0.8) /\
  b3_climb NP true jet1 (Fin 300) (Fin 10400) (Fin 20) = inr (Fin (142000 * 0.8 * (1 - 0.09))) /\
  b3_thr_idle NP truth_np true jet1 8000 (Fin 300) (Fin 10400) (Fin 20) (Some "CR"%string) = inr (Fin (0.05 * (142000 * 0.8 * (1 - 0.09)))) /\
  b3_thr_idle VB truth_vec true jet1 8000 (Sc (Fin 300)) (Ar [Fin 10400; Fin 3000]) (Sc (Fin 20)) (Some "CR"%string) = inl ValueError.
Proof.
  assert (I : isa_thrust jet1 300 10400 (142000 * 0.8)) by (left; split; [reflexivity|cbn; lra]).
  assert (L : hot_loss jet1 20 = 0.09). { unfold hot_loss. cbn [b3_ct4 b3_ct5 jet1]. rewrite (Rmax_left 0.009 0), Rmin_left, Rmax_right; lra. }
  assert (J : jet jet1) by reflexivity. assert (N : b3_ct2 jet1 <> 0) by (cbn; lra).
  split; auto. split; [rewrite <- L; apply C96_thrust; auto|]. split.
  - rewrite <- L. apply (C96_idle jet1 8000 300 10400 20 (142000 * 0.8) "CR" _ N (or_introl J) I (or_introl (conj eq_refl eq_refl))). lra.
  - apply C96_idle_arrays; [cbn; lia|left; auto].
Qed.
