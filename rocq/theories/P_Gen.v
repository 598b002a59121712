(** * Properties C46-C48 and C67: generated climbs *)
From Coq Require Import Reals List Bool ZArith Lra Lia Psatz.
From Interval Require Import Tactic.
From Verif Require Import Num NumFacts SpecNum Aero AeroFacts AeroFacts2 AeroFacts3 AeroFacts4 Fuel Phase Gen GenFacts GenFacts2.
Import ListNotations.
Open Scope R_scope.

(** ** Vocabulary *)
(** a trajectory row whose entries are numbers *)
Record rrow : Type := mkRR { a_t : R; a_h : R; a_s : R; a_v : R; a_vs : R; a_seg : option seg }.
Definition fin_row (r : rrow) : row :=
  mkRow (Fin (a_t r)) (Fin (a_h r)) (Fin (a_s r)) (Fin (a_v r)) (Fin (a_vs r)) (a_seg r).
Definition zero_row : rrow := mkRR 0 0 0 0 0 None.
Definition at_ (l : list rrow) (i : nat) : rrow := nth i l zero_row.
Definition last_ (l : list rrow) : rrow := at_ l (length l - 1).

(** parameters for which a climb makes sense: positive time step, accelerations, speeds and climb rates *)
Definition valid_climb (p : cparams) : Prop :=
  0 < c_dt p /\ 0 < c_atof p /\ 0 < c_cas p /\ 0 <= c_mach p /\
  0 < c_vsic p /\ 0 < c_vspre p /\ 0 < c_vscas p /\ 0 < c_vsmach p.

Lemma nth_map_seq : forall (A : Type) (f : nat -> A) n i d, (i < n)%nat -> nth i (map f (seq 0 n)) d = f i.
Proof.
  intros. rewrite (nth_indep _ d (f 0%nat)) by (rewrite map_length, seq_length; auto).
  rewrite map_nth, seq_nth by auto. auto.
Qed.

Definition rr_of (x : rcs) : rrow := mkRR (z_t x) (z_h x) (z_s x) (z_v x) (z_vs x) (z_seg x).
Lemma climb_states : forall p fuel rows, valid_climb p -> climb p fuel = Some rows ->
  exists m, rows = map fin_row (map (fun i => rr_of (it (climb_stepR p) i x0)) (seq 0 (S m))) /\
    (forall i, (i < m)%nat -> snd (climb_stepR p (it (climb_stepR p) i x0)) = false) /\
    snd (climb_stepR p (it (climb_stepR p) m x0)) = true.
Proof.
  intros p fuel rows (V1 & V2 & V3 & V4 & V5 & V6 & V7 & V8) E. rewrite climb_runR in E by auto.
  destruct (run_spec _ _ _ _ _ E) as (m & L & El & H1 & H2). exists m. split; auto.
  rewrite El, map_map. reflexivity.
Qed.

(** ** C46 *)
Theorem C46_climb_terminates : forall p, valid_climb p -> exists fuel rows, climb p fuel = Some rows.
Proof.
  intros p (V1 & V2 & V3 & V4 & V5 & V6 & V7 & V8).
  destruct (climb_terminates p V1 V2 V4 (conj V5 (conj V6 (conj V7 V8))) x0 inv_x0) as (fuel & rows & E).
  exists fuel, rows. rewrite climb_runR; auto.
Qed.

Theorem C46_climb_kinematics : forall p fuel rows, valid_climb p -> climb p fuel = Some rows ->
  exists l, rows = map fin_row l /\ (0 < length l)%nat /\ at_ l 0 = zero_row /\
    (forall i, (S i < length l)%nat ->
       a_t (at_ l (S i)) = a_t (at_ l i) + c_dt p /\
       a_s (at_ l (S i)) = a_s (at_ l i) + a_v (at_ l i) * c_dt p /\
       a_h (at_ l (S i)) = a_h (at_ l i) + a_vs (at_ l i) * c_dt p /\
       a_t (at_ l i) < a_t (at_ l (S i)) /\ a_s (at_ l i) <= a_s (at_ l (S i)) /\ a_h (at_ l i) <= a_h (at_ l (S i))) /\
    (forall i, (i < length l)%nat -> 0 <= a_v (at_ l i) /\ 0 <= a_vs (at_ l i) /\ 0 <= a_h (at_ l i)).
Proof.
  intros p fuel rows V E. destruct (climb_states p fuel rows V E) as (m & -> & H1 & H2).
  destruct V as (V1 & V2 & V3 & V4 & V5 & V6 & V7 & V8).
  pose proof (inv_it p V1 V2 V4 (conj V5 (conj V6 (conj V7 V8)))) as I.
  eexists. split; [reflexivity|]. rewrite map_length, seq_length. unfold at_.
  split; [lia|]. split; [rewrite nth_map_seq by lia; reflexivity|]. split.
  - intros i Hi. rewrite !nth_map_seq by lia. cbn [it].
    destruct (step_cases p (it (climb_stepR p) i x0)) as (T & Ss & H & _). unfold rr_of, eff in *.
    cbn [a_t a_s a_h a_v a_vs]. rewrite T, Ss, H. destruct (I i) as (I1 & I2 & I3 & I4 & I5).
    assert (0 <= z_v (it (climb_stepR p) i x0) * c_dt p) by (apply Rmult_le_pos; lra).
    assert (0 <= z_vs (it (climb_stepR p) i x0) * c_dt p) by (apply Rmult_le_pos; lra).
    repeat split; lra.
  - intros i Hi. rewrite !nth_map_seq by lia. destruct (I i) as (I1 & I2 & I3 & I4 & I5). cbn. auto.
Qed.
(** the number of iterations allowed does not matter once the loop has ended *)
Theorem C46_climb_deterministic : forall p n m r1 r2, climb p n = Some r1 -> climb p m = Some r2 -> r1 = r2.
Proof.
  intros p n m r1 r2 E1 E2. destruct (Nat.le_ge_cases n m) as [L|L];
  unfold climb in *; eapply run_mono in L; eauto; congruence.
Qed.
(** with a zero time step the loop never ends *)
Theorem C46_zero_step_never_ends : forall p, c_dt p = 0 -> 0 < c_cas p -> 0 < c_vtof p -> forall fuel, climb p fuel = None.
Proof.
  intros p Hd Hc Hv fuel. rewrite climb_runR by auto.
  apply (run_never _ _ (fun x => z_v x = 0)); [|reflexivity].
  intros x Hx. unfold climb_stepR. rewrite Hx. rewrite Rltb_true by auto. cbn. rewrite Hd. split; auto. ring.
Qed.
(** A320 defaults (openap/data/wrap/a320.txt): target 35000 ft, one-second steps *)
Definition a320_climb : cparams :=
  mkCp 1 1.93 85.3 293.5 0.78 35000 12.59 10.25 8.43 5.28 3700.
Lemma a320_valid : valid_climb a320_climb.
Proof. unfold valid_climb, a320_climb; cbn. lra. Qed.
Example C46_ex : exists fuel rows, climb a320_climb fuel = Some rows.
Proof. apply C46_climb_terminates, a320_valid. Qed.

(** ** C47 *)
(** altitude reached at the end: at least every one of the four thresholds, and below the largest plus one step *)
Theorem C47_final_altitude : forall p fuel rows hx, valid_climb p -> climb p fuel = Some rows ->
  crossover_alt NP (Fin (c_cas p * kts)) (Fin (c_mach p)) (Fin 0) = Fin hx ->
  let top := Rmax (Rmax (1500 * ft) (c_hcas p)) (Rmax hx (c_alt p * ft)) in
  let climbrate := Rmax (Rmax (c_vsic p) (c_vspre p)) (Rmax (c_vscas p) (c_vsmach p)) in
  exists h, r_h (last_row rows) = Fin h /\ r_vs (last_row rows) = Fin 0 /\ top <= h < top + climbrate * c_dt p.
Proof.
  intros p fuel rows hx V E EX top rate. destruct (climb_states p fuel rows V E) as (m & -> & H1 & H2).
  destruct V as (V1 & V2 & V3 & V4 & V5 & V6 & V7 & V8).
  rewrite crossover_NP in EX by (apply vcas_pos; auto). apply Fin_inj in EX.
  assert (ET : top = Lalt p) by (unfold top, Lalt, hmachR, hcrR, vcasR; rewrite EX; auto).
  pose proof (alt_inv_it p V1 V2 V4 (conj V5 (conj V6 (conj V7 V8))) m) as A.
  destruct (stop_alt p (conj V5 (conj V6 (conj V7 V8))) (it (climb_stepR p) m x0) A H2) as [S1 S2].
  unfold last_row. rewrite seq_S, !map_app. cbn [map Nat.add]. rewrite last_last. cbn [r_h r_vs fin_row rr_of a_h a_vs].
  rewrite S1. eexists. split; [reflexivity|]. split; auto. rewrite ET. exact S2.
Qed.
(** asked for a cruise altitude below the crossover altitude, the generator climbs through it *)
Corollary C47_overshoot : forall p fuel rows hx, valid_climb p -> climb p fuel = Some rows ->
  crossover_alt NP (Fin (c_cas p * kts)) (Fin (c_mach p)) (Fin 0) = Fin hx ->
  exists h, r_h (last_row rows) = Fin h /\ hx <= h /\ c_alt p * ft <= h /\
    (1500 * ft <= c_alt p * ft -> c_hcas p <= c_alt p * ft -> hx <= c_alt p * ft ->
     h < c_alt p * ft + Rmax (Rmax (c_vsic p) (c_vspre p)) (Rmax (c_vscas p) (c_vsmach p)) * c_dt p).
Proof.
  intros p fuel rows hx V E EX. destruct (C47_final_altitude p fuel rows hx V E EX) as (h & E1 & _ & L). cbv zeta in L.
  exists h. split; auto.
  pose proof (Rmax_l hx (c_alt p * ft)). pose proof (Rmax_r hx (c_alt p * ft)).
  pose proof (Rmax_r (Rmax (1500 * ft) (c_hcas p)) (Rmax hx (c_alt p * ft))).
  split; [lra|]. split; [lra|]. intros L1 L2 L3.
  assert (Rmax (Rmax (1500 * ft) (c_hcas p)) (Rmax hx (c_alt p * ft)) <= c_alt p * ft) by (repeat apply Rmax_lub; lra). lra.
Qed.
(** A320, 20000 ft requested: the climb ends above 29000 ft *)
Definition a320_low : cparams := mkCp 1 1.93 85.3 293.5 0.78 20000 12.59 10.25 8.43 5.28 3700.
Lemma x_a320 : exists hx, crossover_alt NP (Fin (293.5 * kts)) (Fin 0.78) (Fin 0) = Fin hx /\ 8850 < hx < 9300.
Proof.
  eexists. rewrite crossover_NP by (unfold kts; lra). split; [reflexivity|].
  unfold xR, xd, im, hexp, kts. rewrite Rmax_left by lra. uc. split; interval.
Qed.
Example C47_ex : exists fuel rows h, climb a320_low fuel = Some rows /\ r_h (last_row rows) = Fin h /\
  29000 * ft < h /\ c_alt a320_low = 20000.
Proof.
  assert (V : valid_climb a320_low) by (unfold valid_climb, a320_low; cbn; lra).
  destruct (C46_climb_terminates _ V) as (fuel & rows & E). destruct x_a320 as (hx & EX & B).
  destruct (C47_overshoot a320_low fuel rows hx V E EX) as (h & E1 & L & _).
  exists fuel, rows, h. repeat split; auto. unfold ft. lra.
Qed.

(** ** C48 *)
(** what a row of a given segment looks like, in the aero module's own terms *)
Definition climb_row_ok (p : cparams) (hx : R) (r : row) : Prop :=
  let cas := tas2cas NP (r_v r) (r_h r) (Fin 0) in
  let mach := tas2mach NP (r_v r) (r_h r) (Fin 0) in
  match r_seg r with
  | None => r_v r = Fin 0 /\ r_vs r = Fin 0
  | Some sTO => r_vs r = Fin 0 /\ flt (r_v r) (Fin (c_vtof p + c_atof p * c_dt p))
  | Some sIC => r_vs r = Fin (c_vsic p) /\ flt (r_h r) (Fin (1500 * ft)) /\ fle cas (Fin (c_cas p * kts))
  | Some sPRE => r_vs r = Fin (c_vspre p) /\ fle (Fin (1500 * ft)) (r_h r) /\ flt (r_h r) (Fin (c_hcas p)) /\
                 fle cas (Fin (c_cas p * kts))
  | Some sCAS => r_vs r = Fin (c_vscas p) /\ fle (Fin (c_hcas p)) (r_h r) /\ flt (r_h r) (Fin hx) /\
                 cas = Fin (c_cas p * kts)
  | Some sMACH => r_vs r = Fin (c_vsmach p) /\ fle (Fin (c_hcas p)) (r_h r) /\ fle (Fin hx) (r_h r) /\
                  flt (r_h r) (Fin (c_alt p * ft)) /\ mach = Fin (c_mach p)
  | Some sCR => r_vs r = Fin 0 /\ fle (Fin (c_alt p * ft)) (r_h r) /\ fle (Fin hx) (r_h r) /\ mach = Fin (c_mach p)
  | Some _ => False
  end.
Lemma mach_back : forall m h, tas2mach NP (Fin (m * aR h 0)) (Fin h) (Fin 0) = Fin m.
Proof. intros. rewrite tas2mach_NP. f_equal. field. pose proof (aR_pos h 0); lra. Qed.
Lemma accel_cas : forall p v h, 0 < c_cas p -> fle (tas2cas NP (Fin (accelR p v h)) (Fin h) (Fin 0)) (Fin (c_cas p * kts)).
Proof.
  intros p v h Hc. rewrite tas2cas_NP. cbn [fle]. unfold accelR. destruct (Rleb_spec (vcasR p) (t2cR (v + 0.5 * c_dt p) h 0)) as [L|L].
  - rewrite t2cR_c2tR. rewrite Rabs_right by (left; apply vcas_pos; auto). apply Rle_refl.
  - apply Rlt_le, Rnot_le_lt, L.
Qed.
Theorem C48_rows_hold_speeds : forall p fuel rows hx, valid_climb p -> climb p fuel = Some rows ->
  crossover_alt NP (Fin (c_cas p * kts)) (Fin (c_mach p)) (Fin 0) = Fin hx ->
  forall r, In r rows -> climb_row_ok p hx r.
Proof.
  intros p fuel rows hx V E EX r Hr. destruct (climb_states p fuel rows V E) as (m & -> & H1 & H2).
  destruct V as (V1 & V2 & V3 & V4 & V5 & V6 & V7 & V8).
  rewrite crossover_NP in EX by (apply vcas_pos; auto). apply Fin_inj in EX. change (hmachR p = hx) in EX.
  rewrite map_map in Hr. apply in_map_iff in Hr. destruct Hr as (i & <- & _).
  destruct i as [|i]; [cbn; auto|]. cbn [it]. set (x := it (climb_stepR p) i x0).
  destruct (step_cases p x) as (T & Ss & H & C). set (x' := fst (climb_stepR p x)) in *.
  unfold climb_row_ok, fin_row, rr_of. cbn [r_seg r_v r_h r_vs a_seg a_v a_h a_vs]. pose proof Lalt_bounds p as B.
  destruct C as [(C1 & -> & -> & -> & _)|[(C1 & _ & _ & _ & _ & C)|(C1 & C2 & -> & -> & -> & _)]].
  - cbn [flt]. split; auto. lra.
  - rewrite H. destruct C as [(-> & C2 & -> & ->)|[(-> & C2 & -> & ->)|[(-> & C0 & C2 & -> & ->)|(-> & C0 & C2 & C3 & -> & ->)]]].
    + split; auto. split; [exact C2|apply accel_cas; auto].
    + split; auto. split; [cbn [fle]; lra|]. split; [cbn [flt]; lra|apply accel_cas; auto].
    + split; auto. cbn [fle flt]. split; [lra|]. split; [lra|]. rewrite tas2cas_NP, t2cR_c2tR.
      rewrite Rabs_right by (left; apply vcas_pos; auto). reflexivity.
    + split; auto. cbn [fle flt]. unfold hcrR in *. split; [lra|]. split; [lra|]. split; [lra|]. apply mach_back.
  - rewrite H. cbn [fle]. unfold hcrR in *. split; auto. split; [lra|]. split; [lra|]. apply mach_back.
Qed.
Example C48_ex : exists fuel rows, climb a320_climb fuel = Some rows /\ (0 < length rows)%nat.
Proof.
  destruct (C46_climb_terminates _ a320_valid) as (fuel & rows & E). exists fuel, rows. split; auto.
  destruct (C46_climb_kinematics _ _ _ a320_valid E) as (l & -> & H & _). rewrite map_length. auto.
Qed.

(** ** C67: order of the segments *)
Definition seg_rank (s : option seg) : nat :=
  match s with None => 0 | Some sTO => 1 | Some sIC => 2 | Some sPRE => 3 | Some sCAS => 4 | Some sMACH => 5 | Some sCR => 6 | Some _ => 7 end.
Lemma c2t_ge_temp : forall v h, 0 <= v -> 0 <= h -> v * sqrt (tR h 0 * rho0 * Rgas / p0) <= c2tR v h 0.
Proof.
  intros v h Hv Hh. unfold c2tR, conv. pose proof p0_pos as P0. pose proof rho0_pos as R0.
  pose proof (pR_pos h 0) as Hp. pose proof (rhoR_pos h 0) as Hr. pose proof (tR_pos h 0) as Ht.
  assert (Hple : pR h 0 <= p0).
  { apply Rle_trans with (pR 0 0); [destruct Hh as [Hh|<-]; [left; apply pR_decr; auto|lra]|].
    rewrite pR0, tau_low by lra. replace (1 - 0.0065 / 288.15 * 0) with 1 by lra. rewrite Rpower_one.
    pose proof (exp_strat_le 0) as X. pose proof (exp_pos (- Rmax 0.0 (0 - 11000.0) / 6341.552161)). pose proof cc_bound.
    assert (p0 * (cc * 1) <= p0) by nra. nra. }
  set (q := qd p0 rho0 v). assert (Hq : 0 <= q) by (apply qd_nonneg; auto).
  assert (E : v = vq p0 rho0 q) by (unfold q; rewrite vq_qd by auto; rewrite Rabs_right; lra).
  rewrite E at 1. unfold vq. rewrite <- sqrt_mult.
  - apply sqrt_le_1_alt.
    assert (F : Rpower (1.0 + q / p0) (2.0 / 7.0) <= Rpower (1.0 + q / pR h 0) (2.0 / 7.0)).
    { apply Rpower_le_base; [|apply Rplus_le_compat_l|lra].
      - assert (0 <= q / p0) by (apply Rmult_le_pos; auto; left; apply Rinv_0_lt_compat; auto). lra.
      - unfold Rdiv. apply Rmult_le_compat_l; auto. apply Rinv_le_contravar; auto. }
    replace (7.0 * p0 / rho0 * (Rpower (1.0 + q / p0) (2.0 / 7.0) - 1.0) * (tR h 0 * rho0 * Rgas / p0))
      with (7.0 * (Rgas * tR h 0) * (Rpower (1.0 + q / p0) (2.0 / 7.0) - 1.0)) by (field; lra).
    replace (7.0 * pR h 0 / rhoR h 0) with (7.0 * (Rgas * tR h 0)) by (unfold pR; field; lra).
    apply Rmult_le_compat_l; [uc; nra|lra].
  - apply vq_sqrt_arg; auto.
  - uc. apply Rmult_le_pos; [nra|lra].
Qed.
Lemma c2t_ge : forall v h, 0 <= v -> 0 <= h -> v <= 1.001 * c2tR v h 0.
Proof.
  intros v h Hv Hh. destruct (Rle_lt_dec 1 h) as [L|L].
  - pose proof (cas_le_c2t v h L Hv). lra.
  - pose proof (c2t_ge_temp v h Hv Hh) as G. rewrite tR_low, clipT_0 in G by lra.
    assert (0.9995 <= sqrt ((T0 + 0 + beta * h) * rho0 * Rgas / p0)) by (uc; interval).
    assert (v * 0.9995 <= v * sqrt ((T0 + 0 + beta * h) * rho0 * Rgas / p0)) by (apply Rmult_le_compat_l; auto). lra.
Qed.
Theorem C67_segments_in_order : forall p fuel rows, valid_climb p -> climb p fuel = Some rows ->
  0 <= c_vtof p -> 1.001 * c_vtof p <= c_cas p * kts -> c_vtof p <= 295 * c_mach p ->
  forall i, (S i < length rows)%nat -> (seg_rank (r_seg (nth i rows (last_row rows))) <= seg_rank (r_seg (nth (S i) rows (last_row rows))) <= 6)%nat.
Proof.
  intros p fuel rows V E W0 W1 W2 i Hi. destruct (climb_states p fuel rows V E) as (m & -> & H1 & H2).
  destruct V as (V1 & V2 & V3 & V4 & V5 & V6 & V7 & V8).
  pose proof (inv_it p V1 V2 V4 (conj V5 (conj V6 (conj V7 V8)))) as I.
  rewrite map_map in *. rewrite map_length, seq_length in Hi. rewrite !nth_map_seq by lia.
  cbn [r_seg fin_row rr_of a_seg]. clear H1 H2 Hi m E.
  assert (K : forall n, let x := it (climb_stepR p) n x0 in
    ((seg_rank (z_seg x) <= 1)%nat) \/
    ((2 <= seg_rank (z_seg x) <= 6)%nat /\ c_vtof p <= z_v x /\
      ((3 <= seg_rank (z_seg x))%nat -> 1500 * ft <= z_h x) /\ ((4 <= seg_rank (z_seg x))%nat -> c_hcas p <= z_h x) /\
      ((5 <= seg_rank (z_seg x))%nat -> hmachR p <= z_h x) /\ ((6 <= seg_rank (z_seg x))%nat -> hcrR p <= z_h x))).
  { induction n as [|n IH]; [left; cbn; lia|]. cbv zeta. cbn [it]. set (x := it (climb_stepR p) n x0) in *.
    destruct (I n) as (I1 & I2 & I3 & I4 & I5). fold x in I1, I2, I3, I4, I5.
    assert (He : 0 <= eff p x) by (unfold eff; nra).
    pose proof (c2t_ge (vcasR p) (eff p x) (Rlt_le _ _ (vcas_pos p V3)) He) as G.
    assert (GM : c_vtof p <= c_mach p * aR (eff p x) 0) by (pose proof (aR_ge (eff p x)); nra).
    assert (GA : c_vtof p <= z_v x -> c_vtof p <= accelR p (z_v x) (eff p x)).
    { intros. unfold accelR. destruct (Rleb _ _); [unfold vcasR in *; lra|lra]. }
    destruct (step_cases p x) as (T & Ss & H & C). set (x' := fst (climb_stepR p x)) in *. rewrite H.
    pose proof Lalt_bounds p as B.
    destruct C as [(C1 & -> & _)|[(C1 & _ & _ & _ & _ & C)|(C1 & C2 & -> & -> & _)]].
    - left; cbn; lia.
    - right. unfold vcasR in *.
      destruct C as [(-> & C2 & _ & ->)|[(-> & C2 & _ & ->)|[(-> & C0 & C2 & _ & ->)|(-> & C0 & C2 & C3 & _ & ->)]]]; cbn [seg_rank];
      (split; [lia|]); (split; [auto; lra|]); repeat split; intros; try lia; lra.
    - right. cbn [seg_rank]. split; [lia|]. split; [auto|]. repeat split; intros; lra. }
  specialize (K i). cbn [it]. set (x := it (climb_stepR p) i x0) in *. destruct (I i) as (I1 & I2 & I3 & I4 & I5).
  fold x in I1, I2, I3, I4, I5. assert (He : z_h x <= eff p x) by (unfold eff; nra).
  destruct (step_cases p x) as (T & Ss & H & C). set (x' := fst (climb_stepR p x)) in *. cbv zeta in K.
  destruct C as [(C1 & -> & _)|[(C1 & _ & _ & _ & _ & C)|(C1 & C2 & -> & _)]].
  - destruct K as [K|K]; [cbn; lia|lra].
  - destruct C as [(-> & C2 & _)|[(-> & C2 & _)|[(-> & C0 & C2 & _)|(-> & C0 & C2 & C3 & _)]]]; cbn [seg_rank];
    (split; [|lia]); destruct K as [K|(K1 & K2 & K3 & K4 & K5 & K6)]; try lia;
    destruct (Nat.le_gt_cases (seg_rank (z_seg x)) 2); try lia;
    try specialize (K3 ltac:(lia)); try lra;
    destruct (Nat.le_gt_cases (seg_rank (z_seg x)) 3); try lia; try specialize (K4 ltac:(lia)); try lra;
    destruct (Nat.le_gt_cases (seg_rank (z_seg x)) 4); try lia; try specialize (K5 ltac:(lia)); try lra;
    destruct (Nat.le_gt_cases (seg_rank (z_seg x)) 5); try lia; try specialize (K6 ltac:(lia)); try lra.
  - cbn [seg_rank]. destruct K as [K|K]; lia.
Qed.
Example C67_ex : 0 <= c_vtof a320_climb /\ 1.001 * c_vtof a320_climb <= c_cas a320_climb * kts /\ c_vtof a320_climb <= 295 * c_mach a320_climb.
Proof. unfold a320_climb, kts; cbn. lra. Qed.

(** a cruise Mach number that is slower than the take-off speed: the generated aircraft "takes off" again in cruise *)
Lemma first_flip : forall (P : nat -> bool) n, P 0%nat = false -> P n = true -> exists j, (j < n)%nat /\ P j = false /\ P (S j) = true.
Proof.
  induction n as [|n IH]; intros H0 Hn; [congruence|]. destruct (P n) eqn:E.
  - destruct (IH H0 eq_refl) as (j & L & H). exists j. split; [lia|auto].
  - exists n. auto.
Qed.
Lemma aR_le : forall h, 0 <= h -> aR h 0 <= 341.
Proof.
  intros h Hh. unfold aR. apply Rle_trans with (sqrt (341 * 341)); [|rewrite sqrt_square; lra].
  apply sqrt_le_1_alt. pose proof (tR_anti 0 h 0 Hh) as A. rewrite (tR_low 0 0), clipT_0 in A by lra. uc. nra.
Qed.
Theorem C67_slow_mach_retakeoff_refuted : forall p fuel rows, valid_climb p -> climb p fuel = Some rows ->
  341 * c_mach p < c_vtof p ->
  exists i, (S i < length rows)%nat /\ r_seg (nth i rows (last_row rows)) = Some sCR /\ r_seg (nth (S i) rows (last_row rows)) = Some sTO.
Proof.
  intros p fuel rows V E W. destruct (climb_states p fuel rows V E) as (m & -> & H1 & H2).
  destruct V as (V1 & V2 & V3 & V4 & V5 & V6 & V7 & V8).
  pose proof (inv_it p V1 V2 V4 (conj V5 (conj V6 (conj V7 V8)))) as I.
  set (st := fun i => it (climb_stepR p) i x0) in *.
  assert (Hst : forall i, st (S i) = fst (climb_stepR p (st i))) by reflexivity.
  destruct (first_flip (fun i => if Req_EM_T (z_tcr (st i)) 0 then false else true) m) as (j & Lj & J1 & J2).
  - cbn. destruct (Req_EM_T 0 0); auto. tauto.
  - destruct (step_cases p (st m)) as (T & _ & H & C). fold (st m) in H2.
    destruct C as [(_ & _ & _ & _ & F & _)|[(_ & _ & _ & F & _)|(_ & _ & _ & _ & _ & Et & Es)]]; try congruence.
    destruct (Req_EM_T (z_tcr (st m)) 0) as [E0|]; auto. exfalso. rewrite H2 in Es. rewrite Et in Es.
    rewrite Rminus_diag_eq in Es by auto. rewrite Rltb_false in Es by lra. discriminate.
  - assert (J1' : z_tcr (st j) = 0) by (destruct (Req_EM_T (z_tcr (st j)) 0); [auto|discriminate]).
    assert (J2' : z_tcr (st (S j)) <> 0) by (destruct (Req_EM_T (z_tcr (st (S j))) 0); [discriminate|auto]).
    destruct (step_cases p (st j)) as (T & _ & H & C). rewrite <- Hst in *.
    destruct C as [(_ & _ & _ & _ & _ & F)|[(_ & _ & _ & _ & F & _)|(_ & _ & Es & Ev & _)]]; try congruence.
    assert (Hv : z_v (st (S j)) < c_vtof p).
    { rewrite Ev. destruct (I j) as (_ & I2 & _ & _ & I5). fold (st j) in I2, I5.
      assert (0 <= eff p (st j)) by (unfold eff; nra). pose proof (aR_le _ H0). nra. }
    destruct (step_cases p (st (S j))) as (_ & _ & _ & C2). rewrite <- Hst in C2.
    destruct C2 as [(_ & Es2 & _ & _ & Stp & _)|[(F & _)|(F & _)]]; try lra.
    assert (Lt : (S j < m)%nat).
    { destruct (Nat.eq_dec (S j) m) as [<-|]; [|lia]. fold (st (S j)) in H2. congruence. }
    exists (S j). rewrite map_map, map_length, seq_length. split; [lia|]. rewrite !nth_map_seq by lia.
    cbn [r_seg fin_row rr_of a_seg]. fold (st (S j)). fold (st (S (S j))). split; auto.
Qed.
Example C67_ex2 : exists fuel rows i, climb (mkCp 1 1.93 85.3 293.5 0.2 35000 12.59 10.25 8.43 5.28 3700) fuel = Some rows /\
  r_seg (nth i rows (last_row rows)) = Some sCR /\ r_seg (nth (S i) rows (last_row rows)) = Some sTO.
Proof.
  match goal with |- exists _ _ _, climb ?q _ = _ /\ _ => set (p := q) end.
  assert (V : valid_climb p) by (unfold valid_climb, p; cbn; lra).
  destruct (C46_climb_terminates _ V) as (fuel & rows & E).
  destruct (C67_slow_mach_retakeoff_refuted p fuel rows V E) as (i & _ & H); [unfold p; cbn; lra|].
  exists fuel, rows, i. tauto.
Qed.
