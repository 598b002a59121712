(** Rounded arithmetic: the atmosphere at a rounded altitude, path angles, sums of terms of equal sign. *)
From Coq Require Import Reals List ZArith Lra Lia Psatz.
From Coquelicot Require Import Coquelicot.
From Interval Require Import Tactic.
From Verif Require Import Num NumFacts Aero AeroFacts Drag DragFacts Fl SpecFl FlFacts P_Fl P_FlCas.
Import ListNotations.
Open Scope R_scope.

(** composing two errors *)
Lemma nr_trans : forall x k y l Y, nr x k (Fin y) -> nr y l Y -> nr x (k + l) Y.
Proof.
  intros x k y l Y (t & E & H) (s & -> & S). injection E as ->. exists (t + s). split; [rewrite exp_plus; f_equal; ring|].
  eapply Rle_trans; [apply Rabs_triang|]. lra.
Qed.
Lemma na_trans : forall x k y l Y, na x k (Fin y) -> na y l Y -> na x (k + l) Y.
Proof.
  intros x k y l Y (t & E & H) (s & -> & S). injection E as ->. exists s. split; auto.
  replace (s - x) with ((s - t) + (t - x)) by ring. eapply Rle_trans; [apply Rabs_triang|]. lra.
Qed.
Lemma tR_lip : forall h h' dT, Rabs (tR h' dT - tR h dT) <= 0.0065 * Rabs (h' - h).
Proof.
  intros h h' dT. unfold tR. apply Rmax_lip.
  - replace (T0 + clipT dT + beta * h' - (T0 + clipT dT + beta * h)) with (beta * (h' - h)) by ring. rewrite Rabs_mult. right. f_equal. uc. rewrite Rabs_left; lra.
  - replace (216.65 + clipT dT - (216.65 + clipT dT)) with 0 by ring. rewrite Rabs_R0. pose proof (Rabs_pos (h' - h)). lra.
Qed.
Section Alt.
Context (h h' dT E : R) (Hh : Rabs (h' - h) <= E * v) (HE : 0 <= E <= 1e6).
Lemma tR_alt : nr (tR h dT) (3.46e-5 * E) (Fin (tR h' dT)).
Proof.
  pose proof (tR_lip h h' dT). pose proof (tR_pos h dT). pose proof v_pos.
  eapply nr_w; [apply (nr_delta (tR h dT) (tR h' dT) (3.392e-5 * E))|]; try lra. rewrite (Rabs_pos_eq (tR h dT)) by lra. assert (0 <= E * v) by nra. apply Rle_trans with (3.392e-5 * E * v * 191.65); [lra|apply Rmult_le_compat_l; nra].
Qed.
Lemma rhoR_alt : nr (rhoR h dT) (3.052e-4 * E) (Fin (rhoR h' dT)).
Proof.
  destruct tR_alt as (t & Et & H). injection Et as Et. pose proof v_pos. pose proof (tR_pos h dT). pose proof (T0s_pos dT). pose proof (exp_pos t).
  exists (4.256848030018761 * t + (- Rmax 0.0 (h' - 11000.0) / 6341.552161 - - Rmax 0.0 (h - 11000.0) / 6341.552161)). split.
  - f_equal. unfold rhoR. rewrite Et. unfold Rpower.
    replace (tR h dT * exp t / (T0 + clipT dT)) with (tR h dT / (T0 + clipT dT) * exp t) by (field; lra).
    rewrite ln_mult, ln_exp; [|apply Rdiv_lt_0_compat; lra|auto].
    rewrite !Rmult_assoc. f_equal. rewrite <- !exp_plus. f_equal. lra.
  - assert (D : Rabs (- Rmax 0.0 (h' - 11000.0) / 6341.552161 - - Rmax 0.0 (h - 11000.0) / 6341.552161) <= E * v / 6341).
    { replace (- Rmax 0.0 (h' - 11000.0) / 6341.552161 - - Rmax 0.0 (h - 11000.0) / 6341.552161) with (/ 6341.552161 * - (Rmax 0.0 (h' - 11000.0) - Rmax 0.0 (h - 11000.0))) by lra.
      assert (I : 0 < / 6341.552161 <= / 6341) by (split; [apply Rinv_0_lt_compat; lra|apply Rinv_le_contravar; lra]).
      rewrite Rabs_mult, Rabs_Ropp, (Rabs_pos_eq (/ 6341.552161)) by lra. unfold Rdiv. rewrite Rmult_comm. apply Rmult_le_compat; try lra; [apply Rabs_pos|].
      apply Rmax_lip; [replace (0.0 - 0.0) with 0 by ring; rewrite Rabs_R0; nra|]. replace (h' - 11000.0 - (h - 11000.0)) with (h' - h) by ring. exact Hh. }
    eapply Rle_trans; [apply Rabs_triang|]. rewrite Rabs_mult, (Rabs_pos_eq 4.256848030018761) by lra. assert (0 <= E * v) by nra. lra.
Qed.
Lemma pR_alt : nr (pR h dT) (3.4e-4 * E) (Fin (pR h' dT)).
Proof.
  destruct tR_alt as (t & Et & H). destruct rhoR_alt as (s & E' & S). injection Et as Et. injection E' as E'. exists (s + t). split.
  - f_equal. unfold pR. rewrite Et, E', exp_plus. ring.
  - eapply Rle_trans; [apply Rabs_triang|]. pose proof v_pos; assert (0 <= E * v) by nra; lra.
Qed.
Lemma aR_alt : nr (aR h dT) (1.74e-5 * E) (Fin (aR h' dT)).
Proof.
  destruct tR_alt as (t & Et & H). injection Et as Et. exists (t / 2). pose proof (tR_pos h dT). pose proof (exp_pos t). split.
  - f_equal. unfold aR. rewrite Et. replace (gamma * Rgas * (tR h dT * exp t)) with (gamma * Rgas * tR h dT * exp t) by ring.
    rewrite sqrt_mult; [|uc; nra|lra]. f_equal. replace t with (t / 2 + t / 2) at 1 by lra. rewrite exp_plus. apply sqrt_square. left. apply exp_pos.
  - unfold Rdiv. rewrite Rabs_mult, (Rabs_pos_eq (/ 2)) by lra. pose proof v_pos. assert (0 <= E * v) by nra. lra.
Qed.
End Alt.

Section Fl.
Context (rd : rounding) (Hrd : accurate rd).
Local Notation cs := (cst (FL rd)).
(** altitude in feet, rounded when converted *)
Lemma alt_nr : forall x k X, nr x k X -> k <= 3 -> -920 <= x <= 18290 -> exists h', X = Fin h' /\ Rabs (h' - x) <= 57000 * v /\ -1000 <= h' <= 20000.
Proof.
  intros x k X N K B. pose proof v_pos. pose proof v_small. assert (A : Rabs x <= 18290) by (apply Rabs_le; lra). pose proof (nr_k _ _ _ N).
  destruct (nr_na _ _ _ 57000 N ltac:(lra)) as (h' & E & D); [pose proof (Rabs_pos x); nra|]. exists h'. pose proof (Rabs_le_inv _ _ D). repeat split; auto; nra.
Qed.
Lemma alt_fl : forall alt, -3000 <= alt <= 60000 -> nr (alt * ft) 2 (mul (FL rd) (Fin alt) (cs ft)) /\ -920 <= alt * ft <= 18290.
Proof.
  intros alt H. split; [eapply nr_w; [apply nr_mul; auto; [apply nr_exact|apply nr_cst; auto]|lra]|uc; lra].
Qed.
Lemma density_nr : forall x k X dT, nr x k X -> k <= 3 -> -920 <= x <= 18290 -> nr (rhoR x dT) 106 (density (FL rd) X (Fin dT)).
Proof.
  intros x k X dT N K B. destruct (alt_nr x k X N K B) as (h' & -> & D & B'). eapply nr_w; [eapply nr_trans; [apply (rhoR_alt _ _ _ _ D); lra|apply density_fl; auto; lra]|lra].
Qed.
Lemma pressure_nr : forall x k X dT, nr x k X -> k <= 3 -> -920 <= x <= 18290 -> nr (pR x dT) 121 (pressure (FL rd) X (Fin dT)).
Proof.
  intros x k X dT N K B. destruct (alt_nr x k X N K B) as (h' & -> & D & B'). eapply nr_w; [eapply nr_trans; [apply (pR_alt _ _ _ _ D); lra|apply pressure_fl; auto; lra]|lra].
Qed.
Lemma vsound_nr : forall x k X dT, nr x k X -> k <= 3 -> -920 <= x <= 18290 -> nr (aR x dT) 9 (vsound (FL rd) X (Fin dT)).
Proof.
  intros x k X dT N K B. destruct (alt_nr x k X N K B) as (h' & -> & D & B'). eapply nr_w; [eapply nr_trans; [apply (aR_alt _ _ _ _ D); lra|apply vsound_fl; auto; lra]|lra].
Qed.
Lemma density_alt : forall alt dT, -3000 <= alt <= 60000 -> nr (rhoR (alt * ft) dT) 106 (density (FL rd) (mul (FL rd) (Fin alt) (cs ft)) (Fin dT)).
Proof. intros alt dT H. destruct (alt_fl alt H) as [N B]. apply (density_nr _ 2); auto; lra. Qed.
Lemma pressure_alt : forall alt dT, -3000 <= alt <= 60000 -> nr (pR (alt * ft) dT) 121 (pressure (FL rd) (mul (FL rd) (Fin alt) (cs ft)) (Fin dT)).
Proof. intros alt dT H. destruct (alt_fl alt H) as [N B]. apply (pressure_nr _ 2); auto; lra. Qed.
Lemma vsound_alt : forall alt dT, -3000 <= alt <= 60000 -> nr (aR (alt * ft) dT) 9 (vsound (FL rd) (mul (FL rd) (Fin alt) (cs ft)) (Fin dT)).
Proof. intros alt dT H. destruct (alt_fl alt H) as [N B]. apply (vsound_nr _ 2); auto; lra. Qed.
Lemma mach_alt : forall x k X alt dT, nr x k X -> -3000 <= alt <= 60000 -> nr (x / aR (alt * ft) dT) (k + 10) (tas2mach (FL rd) X (mul (FL rd) (Fin alt) (cs ft)) (Fin dT)).
Proof.
  intros x k X alt dT HX H. unfold tas2mach. pose proof (aR_pos (alt * ft) dT). eapply nr_w; [apply nr_div; auto; [exact HX|apply vsound_alt; auto|lra]|lra].
Qed.
(** sums of non-negative terms *)
Lemma nr_addp : forall x k X y l Y m, nr x k X -> nr y l Y -> 0 <= x -> 0 <= y -> 0 < x + y -> k <= m -> l <= m -> m <= 8e11 -> nr (x + y) (1.05 * m + 1) (add (FL rd) X Y).
Proof.
  intros x k X y l Y m HX HY Px Py P K L M. apply (nr_add rd Hrd x k X y l Y m); auto; try lra. rewrite !Rabs_pos_eq by lra. nra.
Qed.
Lemma atan_lip : forall a b, Rabs (atan a - atan b) <= Rabs (a - b).
Proof.
  intros a b. destruct (Req_dec a b) as [->|N]; [replace (atan b - atan b) with 0 by ring; rewrite Rabs_R0; apply Rabs_pos|].
  destruct (MVT_gen atan b a (fun x => / (1 + x ^ 2))) as (c & _ & E).
  - intros x _. auto_derive; auto. field. nra.
  - intros x _. apply continuity_pt_filterlim. apply (ex_derive_continuous (V := R_NormedModule)). auto_derive. auto.
  - rewrite E, Rabs_mult. pose proof (Rabs_pos (a - b)).
    assert (0 < / (1 + c ^ 2) <= 1). { pose proof (pow2_ge_0 c). split; [apply Rinv_0_lt_compat; lra|]. rewrite <- Rinv_1. apply Rinv_le_contravar; lra. }
    rewrite (Rabs_pos_eq (/ (1 + c ^ 2))) by lra. nra.
Qed.
(** the path angle: no steeper than 45 degrees *)
Lemma gamma_fl : forall w kw W x kx X, nr w kw W -> nr x kx X -> 0 < x -> Rabs w <= x -> kw + kx <= 4 -> na (Ratan2 w x) 5.3 (barctan2 (FL rd) W X) /\ Rabs (Ratan2 w x) <= 0.79.
Proof.
  intros w kw W x kx X (t & -> & H) (s & -> & S) P B K. pose proof v_pos. pose proof (exp_pos s).
  assert (Y : Rabs (w / x) <= 1). { unfold Rdiv. rewrite Rabs_mult, Rabs_inv, (Rabs_pos_eq x) by lra. apply Rmult_le_reg_r with x; auto. rewrite Rmult_assoc, Rinv_l by lra. lra. }
  assert (A : Rabs (atan (w / x)) <= 0.79).
  { set (y := w / x) in *. apply Rabs_le_inv in Y. interval. }
  assert (E : Ratan2 w x = atan (w / x)) by (unfold Ratan2; destruct (Rlt_dec 0 x); [auto|lra]). rewrite E. split; auto.
  assert (N : na (atan (w / x)) 4.1 (eatan2 (Fin (w * exp t)) (Fin (x * exp s)))).
  { cbn [eatan2]. unfold Ratan2. destruct (Rlt_dec 0 (x * exp s)) as [_|Q]; [|exfalso; apply Q; nra].
    assert (M : nr (w / x) 4 (Fin (w * exp t / (x * exp s)))).
    { exists (t - s). split; [f_equal; unfold Rminus; rewrite exp_plus, exp_Ropp; field; split; lra|]. unfold Rminus. eapply Rle_trans; [apply Rabs_triang|]. rewrite Rabs_Ropp. nra. }
    destruct (nr_na _ _ _ 4.08 M ltac:(lra)) as (z & Ez & D); [lra|]. injection Ez as Ez. eexists. split; [reflexivity|]. rewrite Ez. eapply Rle_trans; [apply atan_lip|]. nra. }
  eapply na_w; [apply (na_rnd rd Hrd _ _ _ _ _ N); lra|]. lra.
Qed.
Lemma cos_gamma_fl : forall w kw W x kx X, nr w kw W -> nr x kx X -> 0 < x -> Rabs w <= x -> kw + kx <= 4 -> nr (cos (Ratan2 w x)) 10 (bcos (FL rd) (barctan2 (FL rd) W X)).
Proof.
  intros w kw W x kx X HW HX P B K. destruct (gamma_fl w kw W x kx X HW HX P B K) as ((g & -> & D) & R).
  set (c := Ratan2 w x) in *. assert (C : 0.7 <= cos c) by (apply Rabs_le_inv in R; interval). pose proof (COS_bound c).
  assert (N : na (cos c) 5.3 (Fin (cos g))). { eexists. split; [reflexivity|]. eapply Rle_trans; [apply cos_lip|]. exact D. }
  pose proof (na_rnd rd Hrd Ocos [Fin g] _ _ _ N ltac:(lra)) as M. eapply nr_w; [apply (na_nr _ _ _ 9.5 M); try lra; rewrite ?(Rabs_pos_eq (cos c)) by lra; lra|lra].
Qed.
Lemma sin_gamma_fl : forall w kw W x kx X, nr w kw W -> nr x kx X -> 0 < x -> Rabs w <= x -> kw + kx <= 4 -> na (sin (Ratan2 w x)) 6.2 (bsin (FL rd) (barctan2 (FL rd) W X)).
Proof.
  intros w kw W x kx X HW HX P B K. destruct (gamma_fl w kw W x kx X HW HX P B K) as ((g & -> & D) & R).
  set (c := Ratan2 w x) in *. assert (C : Rabs (sin c) <= 0.72) by (apply Rabs_le_inv in R; apply Rabs_le; split; interval).
  assert (N : na (sin c) 5.3 (Fin (sin g))). { eexists. split; [reflexivity|]. eapply Rle_trans; [apply sin_lip|]. exact D. }
  pose proof (na_rnd rd Hrd Osin [Fin g] _ _ _ N ltac:(lra)) as M. eapply na_w; [exact M|lra].
Qed.
End Fl.
