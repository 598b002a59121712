(** * Properties C49-C51, C68 and C69: generated descents, cruises and complete flights *)
From Coq Require Import Reals List Bool ZArith Lra Lia Psatz.
From Interval Require Import Tactic.
From Verif Require Import Num NumFacts SpecNum Aero AeroFacts AeroFacts2 AeroFacts3 AeroFacts4 Fuel Phase Gen GenFacts GenFacts2 P_Gen.
Import ListNotations.
Open Scope R_scope.

(** ** C49 *)
(** positive step, descending rates, braking; constant CAS not faster than constant Mach at sea level
    (so that the crossover altitude is not negative) *)
Definition valid_descent (p : dparams) : Prop :=
  0 < e_dt p /\ e_alnd p < 0 /\ 0 < e_cas p /\ 0 <= e_mach p /\
  e_vsmach p < 0 /\ e_vscas p < 0 /\ e_vspost p < 0 /\ e_vsfa p < 0 /\
  0 <= e_hcas p /\ 0 <= e_alt p /\ e_cas p * kts <= e_mach p * a0.

Definition rd_of (x : rds) : rrow := mkRR (y_t x) (y_h x) (y_s x) (y_v x) (y_vs x) (y_seg x).
Lemma descent_states : forall p fuel rows, 0 < e_cas p -> descent p fuel = Some rows ->
  exists m, rows = map fin_row (map (fun i => rd_of (it (descent_stepR p) i (y0 p))) (seq 0 (S m))) /\
    (forall i, (i < m)%nat -> snd (descent_stepR p (it (descent_stepR p) i (y0 p))) = false) /\
    snd (descent_stepR p (it (descent_stepR p) m (y0 p))) = true.
Proof.
  intros p fuel rows V E. rewrite descent_runR in E by auto.
  destruct (run_spec _ _ _ _ _ E) as (m & L & El & H1 & H2). exists m. split; auto.
  rewrite El, map_map. reflexivity.
Qed.
Lemma valid_hm : forall p, valid_descent p -> 0 <= ehmachR p /\ 0 <= ehcrR p.
Proof.
  intros p (V1 & V2 & V3 & V4 & V5 & V6 & V7 & V8 & V9 & V10 & V11). split.
  - apply xR_nonneg; auto. apply evcas_pos; auto.
  - apply Rmult_le_pos; auto. left; apply ft_pos.
Qed.

Theorem C49_descent_terminates : forall p, valid_descent p -> exists fuel rows, descent p fuel = Some rows.
Proof.
  intros p V. destruct (valid_hm p V) as [Hm Hc].
  destruct V as (V1 & V2 & V3 & V4 & V5 & V6 & V7 & V8 & V9 & V10 & V11).
  destruct (descent_terminates p V1 V2 (conj V5 (conj V6 (conj V7 V8))) Hm V9 (y0 p)) as (fuel & rows & E).
  exists fuel, rows. rewrite descent_runR; auto.
Qed.

Theorem C49_descent_kinematics : forall p fuel rows, valid_descent p -> descent p fuel = Some rows ->
  0.2 * e_dt p < e_vapp p ->
  exists l, rows = map fin_row l /\ (0 < length l)%nat /\
    a_t (at_ l 0) = 0 /\ a_s (at_ l 0) = 0 /\ a_h (at_ l 0) = e_alt p * ft /\
    (forall i, (S i < length l)%nat ->
       a_t (at_ l (S i)) = a_t (at_ l i) + e_dt p /\
       a_s (at_ l (S i)) = a_s (at_ l i) + a_v (at_ l i) * e_dt p /\
       a_h (at_ l (S i)) = Rmax 0 (a_h (at_ l i) + a_vs (at_ l i) * e_dt p) /\
       a_t (at_ l i) < a_t (at_ l (S i)) /\ a_s (at_ l i) <= a_s (at_ l (S i)) /\ a_h (at_ l (S i)) <= a_h (at_ l i)) /\
    (forall i, (i < length l)%nat -> 0 <= a_v (at_ l i) /\ a_vs (at_ l i) <= 0 /\ 0 <= a_h (at_ l i)).
Proof.
  intros p fuel rows V E Hva. destruct (valid_hm p V) as [Hm Hc].
  destruct V as (V1 & V2 & V3 & V4 & V5 & V6 & V7 & V8 & V9 & V10 & V11).
  destruct (descent_states p fuel rows V3 E) as (m & -> & H1 & H2).
  pose proof (conj V5 (conj V6 (conj V7 V8))) as VV.
  assert (I : forall n, dinv p (it (descent_stepR p) n (y0 p))) by (intros n; apply dinv_it; auto).
  set (st := fun i => it (descent_stepR p) i (y0 p)) in *.
  assert (Hv : forall n, (n <= m)%nat -> 0 <= y_v (st n)).
  { induction n as [|n IH]; intros Hn.
    - cbn. apply Rmult_le_pos; auto. pose proof (aR_pos (ehcrR p) 0); lra.
    - unfold st. cbn [it]. fold (st n). apply dspeed_step; auto; [apply I|apply IH; lia|apply H1; lia]. }
  eexists. split; [reflexivity|]. rewrite map_length, seq_length. unfold at_.
  split; [lia|]. rewrite !nth_map_seq by lia. split; [reflexivity|]. split; [reflexivity|]. split; [reflexivity|]. split.
  - intros i Hi. rewrite !nth_map_seq by lia. fold (st i). fold (st (S i)).
    assert (Es : st (S i) = fst (descent_stepR p (st i))) by reflexivity.
    destruct (dstep_cases p Hm V9 (st i)) as (T & Ss & _). pose proof (dheight p V1 Hm V9 (st i) (I i)) as H.
    rewrite <- Es in *. unfold rd_of. cbn [a_t a_s a_h a_v a_vs]. rewrite T, Ss, H.
    destruct (I i) as (I1 & I2 & I3 & I4). fold (st i) in *. pose proof (Hv i ltac:(lia)).
    assert (0 <= y_v (st i) * e_dt p) by (apply Rmult_le_pos; lra).
    assert (y_vs (st i) * e_dt p <= 0) by nra.
    repeat split; try lra. apply Rmax_lub; lra.
  - intros i Hi. rewrite !nth_map_seq by lia. fold (st i). destruct (I i) as (I1 & I2 & I3 & I4). fold (st i) in *.
    cbn. split; [apply Hv; lia|auto].
Qed.

(** the last row is on the ground if no time step is long enough to brake from flying speed to zero *)
Theorem C49_ends_on_ground : forall p fuel rows, valid_descent p -> descent p fuel = Some rows ->
  0.2 * e_dt p < e_vapp p -> 1 <= e_hcas p ->
  - e_alnd p * e_dt p < e_vapp p -> - e_alnd p * e_dt p < e_cas p * kts -> - e_alnd p * e_dt p < 295 * e_mach p ->
  r_h (last_row rows) = Fin 0 /\ r_seg (last_row rows) = Some sLD.
Proof.
  intros p fuel rows V E Hva Hc1 B1 B2 B3. destruct (valid_hm p V) as [Hm Hc].
  destruct V as (V1 & V2 & V3 & V4 & V5 & V6 & V7 & V8 & V9 & V10 & V11).
  destruct (descent_states p fuel rows V3 E) as (m & -> & H1 & H2).
  pose proof (conj V5 (conj V6 (conj V7 V8))) as VV.
  assert (I : forall n, dinv p (it (descent_stepR p) n (y0 p))) by (intros n; apply dinv_it; auto).
  set (st := fun i => it (descent_stepR p) i (y0 p)) in *.
  assert (Hv : forall n, (n <= m)%nat -> 0 <= y_v (st n)).
  { induction n as [|n IH]; intros Hn.
    - cbn. apply Rmult_le_pos; auto. pose proof (aR_pos (ehcrR p) 0); lra.
    - unfold st. cbn [it]. fold (st n). apply dspeed_step; auto; [apply I|apply IH; lia|apply H1; lia]. }
  assert (G : ginv p (st m)).
  { destruct m as [|m].
    - right. cbn. split; [discriminate|]. pose proof (Blow_le p). pose proof (machv_ge p V4 (ehcrR p)). lra.
    - unfold st. cbn [it]. fold (st m). apply ginv_step; auto. }
  assert (HB : - e_alnd p * e_dt p < Blow p) by (unfold Blow; repeat apply Rmin_glb_lt; auto).
  destruct (gstop p Hm V9 (st m) G HB H2) as [S1 S2].
  unfold last_row. rewrite seq_S, !map_app. cbn [map Nat.add]. rewrite last_last. cbn [r_h r_seg fin_row rd_of a_h a_seg].
  fold (st m). rewrite S1, S2. auto.
Qed.
(** faster constant CAS than constant Mach at sea level: negative crossover altitude, endless loop *)
Theorem C49_negative_crossover_never_ends_refuted : forall p, 0 < e_cas p -> 0.0001 <= e_mach p ->
  e_mach p * a0 < e_cas p * kts -> 0 < 295 * e_mach p + e_alnd p * e_dt p -> 0 <= e_hcas p ->
  forall fuel, descent p fuel = None.
Proof. intros. apply descent_forever; auto. Qed.

(** A320 defaults *)
Definition a320_descent : dparams :=
  mkDp 1 true (-1.22) 72 295 0.78 36000 (-5.76) (-10.03) (-6.08) (-3.55) 3000.
Lemma a320_dvalid : valid_descent a320_descent.
Proof. unfold valid_descent, a320_descent, kts, a0; cbn. lra. Qed.
Example C49_ex : exists fuel rows, descent a320_descent fuel = Some rows /\ r_h (last_row rows) = Fin 0.
Proof.
  destruct (C49_descent_terminates _ a320_dvalid) as (fuel & rows & E). exists fuel, rows. split; auto.
  apply (C49_ends_on_ground _ _ _ a320_dvalid E); cbn; unfold kts; lra.
Qed.
(** cas_const_de=350 kt, mach_const_de=0.5 *)
Example C49_ex2 : forall fuel, descent (mkDp 1 true (-1.22) 72 350 0.5 36000 (-5.76) (-10.03) (-6.08) (-3.55) 3000) fuel = None.
Proof. apply C49_negative_crossover_never_ends_refuted; cbn; unfold kts, a0; lra. Qed.

(** ** C68: rows of a descent hold the advertised speeds *)
Definition descent_row_ok (p : dparams) (hx : R) (r : row) : Prop :=
  let cas := tas2cas NP (r_v r) (r_h r) (Fin 0) in
  let mach := tas2mach NP (r_v r) (r_h r) (Fin 0) in
  match r_seg r with
  | None => r_vs r = Fin 0 /\ r_h r = Fin (e_alt p * ft) /\ mach = Fin (e_mach p)
  | Some sCR => r_vs r = Fin 0 /\ r_h r = Fin (e_alt p * ft) /\ flt (r_t r) (Fin 60) /\ mach = Fin (e_mach p)
  | Some sMACH => r_vs r = Fin (e_vsmach p) /\ flt (Fin hx) (r_h r) /\ mach = Fin (e_mach p)
  | Some sCAS => r_vs r = Fin (e_vscas p) /\ flt (Fin (e_hcas p)) (r_h r) /\ fle (r_h r) (Fin hx) /\ cas = Fin (e_cas p * kts)
  | Some sPOST => r_vs r = Fin (e_vspost p) /\ flt (Fin (1000 * ft)) (r_h r) /\ fle (r_h r) (Fin (e_hcas p)) /\
                  fle (Fin (e_vapp p)) cas
  | Some sFA => r_vs r = Fin (e_vsfa p) /\ flt (Fin 0) (r_h r) /\ fle (r_h r) (Fin (1000 * ft)) /\ r_v r = Fin (e_vapp p)
  | Some sLD => r_vs r = Fin 0 /\ r_h r = Fin 0
  | Some _ => False
  end.
Theorem C68_rows_hold_speeds : forall p fuel rows hx, valid_descent p -> descent p fuel = Some rows ->
  0 <= e_vapp p ->
  crossover_alt NP (Fin (e_cas p * kts)) (Fin (e_mach p)) (Fin 0) = Fin hx ->
  forall r, In r rows -> descent_row_ok p hx r.
Proof.
  intros p fuel rows hx V E Hva EX r Hr. destruct (valid_hm p V) as [Hm Hc].
  destruct V as (V1 & V2 & V3 & V4 & V5 & V6 & V7 & V8 & V9 & V10 & V11).
  destruct (descent_states p fuel rows V3 E) as (m & -> & H1 & H2).
  pose proof (conj V5 (conj V6 (conj V7 V8))) as VV.
  rewrite crossover_NP in EX by (apply evcas_pos; auto). apply Fin_inj in EX. change (ehmachR p = hx) in EX.
  rewrite map_map in Hr. apply in_map_iff in Hr. destruct Hr as (i & <- & _).
  assert (I : forall n, dinv p (it (descent_stepR p) n (y0 p))) by (intros n; apply dinv_it; auto).
  assert (J : forall n, let x := it (descent_stepR p) n (y0 p) in e_withcr p = true -> y_t x < 60 -> y_h x = ehcrR p).
  { induction n as [|n IH]; intros x W L; [reflexivity|]. unfold x in *. cbn [it] in *.
    set (z := it (descent_stepR p) n (y0 p)) in *. destruct (dstep_cases p Hm V9 z) as (T & _ & C). rewrite T in L.
    destruct C as [(_ & _ & _ & -> & _)|[([F|F] & _)|([F|F] & _)]]; try (rewrite T in F; lra); try congruence.
    unfold deff. destruct (I n) as (_ & _ & _ & I4). fold z in I4. rewrite I4, IH by (auto; lra). ring. }
  destruct i as [|i].
  { cbn. split; auto. split; auto. apply mach_back. }
  pose proof (J (S i)) as J'. cbv zeta in J'. cbn [it] in *. set (x := it (descent_stepR p) i (y0 p)) in *.
  destruct (dstep_cases p Hm V9 x) as (T & Ss & C). set (x' := fst (descent_stepR p x)) in *.
  unfold descent_row_ok, fin_row, rd_of. cbn [r_seg r_v r_h r_vs r_t a_seg a_v a_h a_vs a_t].
  destruct C as [(C1 & C2 & -> & C3 & -> & -> & _)|[(C1 & C2 & -> & _ & _ & C)|(C1 & C2 & -> & -> & -> & _)]].
  - rewrite J' by auto. split; auto. split; [reflexivity|]. split; [exact C1|]. rewrite <- C3, J' by auto. apply mach_back.
  - destruct C as [(-> & C3 & -> & ->)|[(-> & C3 & -> & ->)|[(-> & C3 & C4 & C5 & -> & ->)|(-> & C3 & C4 & C5 & -> & ->)]]]; cbn [flt fle].
    + split; auto. split; [lra|apply mach_back].
    + split; auto. split; [lra|]. split; [lra|]. rewrite tas2cas_NP, t2cR_c2tR.
      rewrite Rabs_right by (left; apply evcas_pos; auto). reflexivity.
    + split; auto. split; [lra|]. split; [lra|]. rewrite tas2cas_NP. cbn [fle]. unfold decelR.
      destruct (Rltb_spec (t2cR (y_v x + -0.2 * e_dt p) (deff p x) 0) (e_vapp p)) as [L|L]; [|lra].
      rewrite t2cR_c2tR, Rabs_right by lra. lra.
    + split; auto. split; [lra|]. split; [lra|]. auto.
  - auto.
Qed.
Example C68_ex : exists fuel rows hx, descent a320_descent fuel = Some rows /\
  crossover_alt NP (Fin (e_cas a320_descent * kts)) (Fin (e_mach a320_descent)) (Fin 0) = Fin hx /\
  forall r, In r rows -> descent_row_ok a320_descent hx r.
Proof.
  destruct (C49_descent_terminates _ a320_dvalid) as (fuel & rows & E). exists fuel, rows.
  eexists. rewrite crossover_NP by (cbn; unfold kts; lra). split; auto. split; [reflexivity|].
  apply (C68_rows_hold_speeds _ _ _ _ a320_dvalid E); [cbn; lra|]. rewrite crossover_NP by (cbn; unfold kts; lra). auto.
Qed.

(** ** C50 *)
Theorem C50_cruise : forall p, 0 < x_dt p -> 0 < x_mach p -> 0 <= x_distance p ->
  exists v, mach2tas NP (Fin (x_mach p)) (Fin (x_alt p * ft)) (Fin 0) = Fin v /\ 0 < v /\
  (exists fuel rows, cruise p fuel = Some rows) /\
  forall fuel rows, cruise p fuel = Some rows ->
    exists n, length rows = S n /\
      rows = map (fun i => mkRow (Fin (INR i * x_dt p)) (Fin (x_alt p * ft)) (Fin (INR i * (v * x_dt p))) (Fin v) (Fin 0) None) (seq 0 (S n)) /\
      INR n * (v * x_dt p) <= x_distance p < INR (S n) * (v * x_dt p).
Proof.
  intros p Hd Hm Hx. exists (xvR p). rewrite mach2tas_NP. split; [reflexivity|].
  assert (Hv : 0 < xvR p) by (apply Rmult_lt_0_compat; auto; apply aR_pos). split; auto.
  assert (Hp : 0 < xvR p * x_dt p) by (apply Rmult_lt_0_compat; auto). split.
  - destruct (cruise_terminates p Hp) as (fuel & rows & E). exists fuel, rows. rewrite cruise_runR. auto.
  - intros fuel rows E. rewrite cruise_runR in E. destruct (run_spec _ _ _ _ _ E) as (m & L & El & H1 & H2).
    exists m. split; auto. split.
    + rewrite El. apply map_ext. intros i. rewrite cr_it. unfold cruise_row, finX. cbn [fst snd]. rewrite x_v_fin. reflexivity.
    + split.
      * destruct m as [|m]; [cbn; lra|]. specialize (H1 m ltac:(lia)). rewrite cr_it in H1. unfold cr_stepR in H1. cbn [fst snd] in H1.
        destruct (Rltb_spec (x_distance p) (INR m * (xvR p * x_dt p) + xvR p * x_dt p)); [discriminate|]. rewrite S_INR. lra.
      * rewrite cr_it in H2. unfold cr_stepR in H2. cbn [fst snd] in H2.
        destruct (Rltb_spec (x_distance p) (INR m * (xvR p * x_dt p) + xvR p * x_dt p)); [|discriminate]. rewrite S_INR. lra.
Qed.
(** range_cr is documented in km; a given value is used as metres, the default is converted *)
Theorem C50_range_unit : forall w k d, 0 < getkw (k_dt k) 1 -> 0 < x_mach (cruise_params w k d) ->
  (forall km fuel rows, 0 <= km -> k_range_cr k = Some km -> cruise (cruise_params w k d) fuel = Some rows ->
     fle (r_s (last_row rows)) (Fin km)) /\
  (forall fuel rows, k_range_cr k = None -> k_random k = None -> 0 <= w_def (cruise_range w) ->
     cruise (cruise_params w k d) fuel = Some rows ->
     exists v, r_v (last_row rows) = Fin v /\ flt (Fin (w_def (cruise_range w) * 1000 - v * getkw (k_dt k) 1)) (r_s (last_row rows))).
Proof.
  intros w k d Hd Hm.
  assert (LR : forall p n v, last_row (map (fun i => mkRow (Fin (INR i * x_dt p)) (Fin (x_alt p * ft)) (Fin (INR i * (v * x_dt p))) (Fin v) (Fin 0) None) (seq 0 (S n)))
    = mkRow (Fin (INR n * x_dt p)) (Fin (x_alt p * ft)) (Fin (INR n * (v * x_dt p))) (Fin v) (Fin 0) None).
  { intros. unfold last_row. rewrite seq_S, map_app. cbn [map Nat.add]. apply last_last. }
  split.
  - intros km fuel rows Hk Ek E.
    destruct (C50_cruise (cruise_params w k d) Hd Hm) as (v & _ & Hv & _ & H); [cbn; rewrite Ek; auto|].
    destruct (H _ _ E) as (n & _ & -> & B & _). rewrite LR. cbn [r_s fle]. cbn [x_distance cruise_params] in B. rewrite Ek in B. exact B.
  - intros fuel rows Ek Er Hw E.
    destruct (C50_cruise (cruise_params w k d) Hd Hm) as (v & _ & Hv & _ & H); [cbn; rewrite Ek, Er; cbn; lra|].
    destruct (H _ _ E) as (n & _ & -> & _ & B). rewrite LR. exists v. cbn [r_v r_s flt]. split; auto.
    cbn [x_distance cruise_params] in B. rewrite Ek, Er in B. cbn [getkw] in B. rewrite S_INR in B. cbn [x_dt cruise_params] in *. lra.
Qed.
(** a user asking for 2000 km gets less than 2000 m *)
Example C50_ex : exists fuel rows, cruise (mkRp 10 2000 35000 0.78) fuel = Some rows /\ (length rows <= 2)%nat.
Proof.
  set (p := mkRp 10 2000 35000 0.78).
  destruct (C50_cruise p) as (v & Ev & Hv & (fuel & rows & E) & H); [cbn; lra|cbn; lra|cbn; lra|].
  exists fuel, rows. split; auto. destruct (H _ _ E) as (n & L & _ & B & _). rewrite L. cbn [x_dt x_distance p] in B.
  assert (230 <= v).
  { rewrite mach2tas_NP in Ev. apply Fin_inj in Ev. rewrite <- Ev. cbn [x_mach p]. pose proof (aR_ge (x_alt p * ft)). lra. }
  destruct n as [|[|n]]; try lia. exfalso. rewrite !S_INR in B. pose proof (pos_INR n). nra.
Qed.

(** ** C51 *)
Theorem C51_documented_keyword_rejected : forall w k dr dc dd fuel res m,
  (k_mach_const_cl k = Some m \/ k_mach_const_de k = Some m) ->
  complete w k dr dc dd fuel = Some res -> res = inl TypeError.
Proof.
  intros w k dr dc dd fuel res m Hk E. unfold complete in E.
  destruct (cruise (cruise_params w k dr) fuel) as [cr|]; [|discriminate].
  set (k' := set_alt k (x_alt (cruise_params w k dr))) in *.
  assert (K1 : k_mach_const_cl k' = k_mach_const_cl k) by (unfold k', set_alt; destruct (k_alt_cr k); auto).
  assert (K2 : k_mach_const_de k' = k_mach_const_de k) by (unfold k', set_alt; destruct (k_alt_cr k); auto).
  unfold call_with_mach_cl, call_with_mach_de in E. rewrite K1 in E. rewrite K2 in E.
  destruct Hk as [Hk|Hk]; rewrite Hk in E.
  - congruence.
  - destruct (k_mach_const_cl k); [congruence|]. destruct (climb _ fuel); [|discriminate]. congruence.
Qed.

(** the keyword arguments that [complete] passes on *)
Definition climb_kw (w : wrapdata) (k : kwargs) (dr : rdraws) : kwargs :=
  let pr := cruise_params w k dr in
  mkKw (k_dt k) (k_random k) (k_withcr k) (k_cas_const_cl k) (Some (x_mach pr)) (Some (getkw (k_alt_cr k) (x_alt pr)))
       (k_cas_const_de k) None (k_range_cr k) (k_mach_cr k).
Definition descent_kw (w : wrapdata) (k : kwargs) (dr : rdraws) : kwargs :=
  let pr := cruise_params w k dr in
  mkKw (k_dt k) (k_random k) (k_withcr k) (k_cas_const_cl k) None (Some (getkw (k_alt_cr k) (x_alt pr)))
       (k_cas_const_de k) (Some (x_mach pr)) (k_range_cr k) (k_mach_cr k).

Lemma complete_eq : forall w k dr dc dd fuel, k_mach_const_cl k = None -> k_mach_const_de k = None ->
  complete w k dr dc dd fuel =
  match cruise (cruise_params w k dr) fuel, climb (climb_params w (climb_kw w k dr) dc) fuel,
        descent (descent_params w (descent_kw w k dr) dd) fuel with
  | Some cr, Some cl, Some de => Some (inr (join cl cr de))
  | _, _, _ => None
  end.
Proof.
  intros w k dr dc dd fuel K1 K2. unfold complete.
  destruct (cruise (cruise_params w k dr) fuel) as [cr|]; auto.
  set (k' := set_alt k (x_alt (cruise_params w k dr))).
  assert (E1 : call_with_mach_cl k' (x_mach (cruise_params w k dr)) = inr (climb_kw w k dr)).
  { unfold k', set_alt, call_with_mach_cl, climb_kw. destruct (k_alt_cr k) eqn:A; cbn; rewrite ?K1, ?K2, ?A; reflexivity. }
  assert (E2 : call_with_mach_de k' (x_mach (cruise_params w k dr)) = inr (descent_kw w k dr)).
  { unfold k', set_alt, call_with_mach_de, descent_kw. destruct (k_alt_cr k) eqn:A; cbn; rewrite ?K1, ?K2, ?A; reflexivity. }
  rewrite E1, E2. destruct (climb _ fuel); auto.
Qed.

Definition shiftR (t0 s0 : R) (r : rrow) : rrow := mkRR (t0 + a_t r) (a_h r) (s0 + a_s r) (a_v r) (a_vs r) (a_seg r).
Lemma shift_fin : forall t0 s0 l, map (shift (Fin t0) (Fin s0)) (map fin_row l) = map fin_row (map (shiftR t0 s0) l).
Proof. intros. rewrite !map_map. apply map_ext. intros; reflexivity. Qed.
Lemma last_fin : forall l, l <> [] -> last_row (map fin_row l) = fin_row (last_ l).
Proof.
  intros l Hl. unfold last_row, last_, at_. destruct (exists_last Hl) as (l' & a & ->).
  rewrite map_app. cbn [map]. rewrite last_last, app_length. cbn [length].
  rewrite app_nth2 by lia. replace (length l' + 1 - 1 - length l')%nat with 0%nat by lia. auto.
Qed.
(** a block of rows in which time and distance do not decrease *)
Definition mono (l : list rrow) : Prop := forall i, (S i < length l)%nat ->
  a_t (at_ l i) < a_t (at_ l (S i)) /\ a_s (at_ l i) <= a_s (at_ l (S i)).
Definition starts0 (l : list rrow) : Prop := (0 < length l)%nat /\ a_t (at_ l 0) = 0 /\ a_s (at_ l 0) = 0.
Lemma at_app1 : forall l1 l2 i, (i < length l1)%nat -> at_ (l1 ++ l2) i = at_ l1 i.
Proof. intros. unfold at_. apply app_nth1; auto. Qed.
Lemma at_app2 : forall l1 l2 i, (length l1 <= i)%nat -> at_ (l1 ++ l2) i = at_ l2 (i - length l1).
Proof. intros. unfold at_. apply app_nth2; auto. Qed.
Lemma at_shift : forall t0 s0 l i, (i < length l)%nat -> at_ (map (shiftR t0 s0) l) i = shiftR t0 s0 (at_ l i).
Proof.
  intros. unfold at_. rewrite (nth_indep _ zero_row (shiftR t0 s0 zero_row)) by (rewrite map_length; auto). apply map_nth.
Qed.

(** a complete flight: what comes out of the three generators, joined *)
Theorem C51_complete_flight : forall w k dr dc dd,
  k_mach_const_cl k = None -> k_mach_const_de k = None ->
  valid_climb (climb_params w (climb_kw w k dr) dc) ->
  valid_descent (descent_params w (descent_kw w k dr) dd) ->
  0.2 * e_dt (descent_params w (descent_kw w k dr) dd) < e_vapp (descent_params w (descent_kw w k dr) dd) ->
  0 < x_mach (cruise_params w k dr) -> 0 <= x_distance (cruise_params w k dr) ->
  (exists fuel rows, complete w k dr dc dd fuel = Some (inr rows)) /\
  forall fuel res, complete w k dr dc dd fuel = Some res ->
    exists rows l n1 n2, res = inr rows /\ rows = map fin_row l /\
      (0 < n1)%nat /\ (n1 < n2)%nat /\ (n2 < length l)%nat /\
      a_t (at_ l 0) = 0 /\ a_s (at_ l 0) = 0 /\
      (forall i, (S i < length l)%nat -> a_s (at_ l i) <= a_s (at_ l (S i)) /\
         (S i <> n1 -> S i <> n2 -> a_t (at_ l i) < a_t (at_ l (S i))) /\
         (S i = n1 \/ S i = n2 -> a_t (at_ l i) = a_t (at_ l (S i)) /\ a_s (at_ l i) = a_s (at_ l (S i)))).
Proof.
  intros w k dr dc dd K1 K2 Vc Vd Va Hm Hx.
  assert (Hdt : 0 < x_dt (cruise_params w k dr)) by (destruct Vc as (Hdt & _); exact Hdt).
  split.
  - destruct (C46_climb_terminates _ Vc) as (f1 & r1 & E1). destruct (C49_descent_terminates _ Vd) as (f2 & r2 & E2).
    destruct (C50_cruise _ Hdt Hm Hx) as (v & _ & _ & (f3 & r3 & E3) & _).
    set (f := Nat.max f1 (Nat.max f2 f3)). exists f.
    rewrite complete_eq by auto.
    unfold climb, descent, cruise in *. rewrite (run_mono _ _ f3 f _ _ ltac:(lia) E3), (run_mono _ _ f1 f _ _ ltac:(lia) E1), (run_mono _ _ f2 f _ _ ltac:(lia) E2). eauto.
  - intros fuel res E. rewrite complete_eq in E by auto.
    destruct (cruise _ fuel) as [cr|] eqn:Ecr; [|discriminate].
    destruct (climb _ fuel) as [cl|] eqn:Ecl; [|discriminate].
    destruct (descent _ fuel) as [de|] eqn:Ede; [|discriminate]. injection E as <-.
    destruct (C46_climb_kinematics _ _ _ Vc Ecl) as (lc & -> & Lc & Zc & Mc & _).
    destruct (C49_descent_kinematics _ _ _ Vd Ede Va) as (ld & -> & Ld & Zt & Zs & _ & Md & _).
    destruct (C50_cruise _ Hdt Hm Hx) as (v & _ & Hv & _ & HC). destruct (HC _ _ Ecr) as (n & _ & -> & _).
    set (dt := x_dt (cruise_params w k dr)) in *. set (h := x_alt (cruise_params w k dr) * ft).
    set (lr := map (fun i => mkRR (INR i * dt) h (INR i * (v * dt)) v 0 None) (seq 0 (S n))).
    assert (Er : map (fun i => mkRow (Fin (INR i * dt)) (Fin h) (Fin (INR i * (v * dt))) (Fin v) (Fin 0) None) (seq 0 (S n)) = map fin_row lr).
    { unfold lr. rewrite map_map. reflexivity. }
    fold h. rewrite Er.
    assert (Lr : (length lr = S n)%nat) by (unfold lr; rewrite map_length, seq_length; auto).
    assert (Ar : forall i, (i < S n)%nat -> at_ lr i = mkRR (INR i * dt) h (INR i * (v * dt)) v 0 None).
    { intros i Hi. unfold at_, lr. rewrite nth_map_seq by auto. auto. }
    assert (Sc : starts0 lc) by (repeat split; auto; rewrite Zc; auto).
    assert (Sr : starts0 lr) by (repeat split; [lia|rewrite Ar by lia; cbn; ring|rewrite Ar by lia; cbn; ring]).
    assert (Sd : starts0 ld) by (repeat split; auto).
    assert (MC : mono lc) by (intros i Hi; destruct (Mc i Hi) as (_ & _ & _ & H1 & H2 & _); auto).
    assert (MD : mono ld) by (intros i Hi; destruct (Md i Hi) as (_ & _ & _ & H1 & H2 & _); auto).
    assert (MR : mono lr).
    { intros i Hi. rewrite Lr in Hi. rewrite !Ar by lia. cbn [a_t a_s]. rewrite S_INR.
      assert (0 < v * dt) by (apply Rmult_lt_0_compat; auto). split; lra. }
    clearbody lr. clear Mc Md Ar HC Er Ecr Ecl Ede Zc Zt Zs Lc Ld n Lr.
    unfold join. rewrite (last_fin lc), (last_fin lr);
      [|intros ->; destruct Sr as (Sr & _); cbn in Sr; lia|intros ->; destruct Sc as (Sc & _); cbn in Sc; lia].
    cbn [fin_row r_t r_s eadd]. rewrite !shift_fin, <- !map_app.
    set (t1 := a_t (last_ lc)) in *. set (s1 := a_s (last_ lc)) in *.
    set (t2 := t1 + a_t (last_ lr)) in *. set (s2 := s1 + a_s (last_ lr)) in *.
    destruct Sc as (Lc & Tc & Dc). destruct Sr as (Lr & Tr & Dr). destruct Sd as (Ld & Td & Dd).
    eexists _, _, (length lc), (length lc + length lr)%nat. split; [reflexivity|]. split; [reflexivity|].
    rewrite !app_length, !map_length. repeat (split; [lia|]).
    rewrite !at_app1 by auto. split; auto. split; auto.
    intros i Hi.
    assert (X1 : forall j, (j < length lc)%nat -> at_ (lc ++ map (shiftR t1 s1) lr ++ map (shiftR t2 s2) ld) j = at_ lc j)
      by (intros; apply at_app1; auto).
    assert (X2 : forall j, (length lc <= j < length lc + length lr)%nat ->
       at_ (lc ++ map (shiftR t1 s1) lr ++ map (shiftR t2 s2) ld) j = shiftR t1 s1 (at_ lr (j - length lc))).
    { intros j Hj. rewrite at_app2 by lia. rewrite at_app1 by (rewrite map_length; lia). apply at_shift. lia. }
    assert (X3 : forall j, (length lc + length lr <= j < length lc + length lr + length ld)%nat ->
       at_ (lc ++ map (shiftR t1 s1) lr ++ map (shiftR t2 s2) ld) j = shiftR t2 s2 (at_ ld (j - length lc - length lr))).
    { intros j Hj. rewrite at_app2 by lia. rewrite at_app2 by (rewrite map_length; lia). rewrite map_length. apply at_shift. lia. }
    destruct (Nat.lt_ge_cases (S i) (length lc)) as [L1|L1].
    { rewrite !X1 by lia. destruct (MC i L1). split; [auto|]. split; [auto|]. intros; lia. }
    destruct (Nat.eq_dec (S i) (length lc)) as [E1|N1].
    { rewrite X1, X2 by lia. replace (S i - length lc)%nat with 0%nat by lia. cbn [shiftR a_t a_s]. rewrite Tr, Dr.
      replace i with (length lc - 1)%nat by lia. fold (last_ lc). fold t1 s1.
      split; [lra|]. split; [intros; lia|]. intros; lra. }
    destruct (Nat.lt_ge_cases (S i) (length lc + length lr)) as [L2|L2].
    { rewrite !X2 by lia. replace (S i - length lc)%nat with (S (i - length lc)) by lia.
      destruct (MR (i - length lc)%nat ltac:(lia)). cbn [shiftR a_t a_s]. split; [lra|]. split; [intros; lra|]. intros; lia. }
    destruct (Nat.eq_dec (S i) (length lc + length lr)) as [E2|N2].
    { rewrite X2, X3 by lia. replace (S i - length lc - length lr)%nat with 0%nat by lia. cbn [shiftR a_t a_s]. rewrite Td, Dd.
      replace (i - length lc)%nat with (length lr - 1)%nat by lia. fold (last_ lr). unfold t2, s2.
      split; [lra|]. split; [intros; lia|]. intros; lra. }
    rewrite !X3 by lia. replace (S i - length lc - length lr)%nat with (S (i - length lc - length lr)) by lia.
    destruct (MD (i - length lc - length lr)%nat ltac:(lia)). cbn [shiftR a_t a_s]. split; [lra|]. split; [intros; lra|]. intros; lia.
Qed.

(** A320 WRAP data (openap/data/wrap/a320.txt) *)
Definition v1 (x : R) : wvar := mkVar x x x.
Definition a320_wrap : wrapdata := mkWrap (v1 85.3) (v1 1.93) (v1 12.59) (v1 151) (v1 0.78) (v1 3.7) (v1 10.25) (v1 8.43) (v1 5.28)
  (v1 800) (v1 10.92) (v1 0.78) (v1 0.77) (v1 148) (v1 3) (v1 (-5.76)) (v1 (-10.03)) (v1 (-6.08)) (v1 72) (v1 (-3.55)) (v1 (-1.22)).
Definition no_kw : kwargs := mkKw None None None None None None None None None None.
Lemma py_round_ge0 : forall x, 0 <= x -> (0 <= py_round x)%Z.
Proof.
  intros x Hx. unfold py_round. destruct (base_Int_part x) as [_ B].
  assert (0 <= Int_part x)%Z by (apply Zlt_succ_le, lt_IZR; rewrite succ_IZR; lra).
  repeat match goal with |- context [if ?c then _ else _] => destruct c end; lia.
Qed.
Lemma round_fl_ge0 : forall x, 0 <= x -> 0 <= round_fl x.
Proof. intros x Hx. unfold round_fl. pose proof (IZR_le _ _ (py_round_ge0 (x / 100) ltac:(lra))). lra. Qed.
Example C51_ex : forall dr dc dd, exists fuel rows, complete a320_wrap no_kw dr dc dd fuel = Some (inr rows).
Proof.
  intros. assert (F : 0 < ft) by apply ft_pos.
  apply (C51_complete_flight a320_wrap no_kw dr dc dd); auto.
  - unfold valid_climb. cbn. pose proof (Rmax_l (151 / kts) (85.3 / kts)).
    assert (0 < 151 / kts) by (unfold kts; lra). repeat split; lra.
  - unfold valid_descent. cbn. repeat split; try lra; try (unfold kts, a0; lra).
    apply round_fl_ge0, round_fl_ge0. unfold ft. lra.
  - cbn. lra.
  - cbn. lra.
  - cbn. lra.
Qed.
Example C51_ex2 : forall dr dc dd, exists fuel,
  complete a320_wrap (mkKw None None None None (Some 0.78) None None None None None) dr dc dd fuel = Some (inl TypeError).
Proof.
  intros. destruct (C50_cruise (cruise_params a320_wrap (mkKw None None None None (Some 0.78) None None None None None) dr)) as (v & _ & _ & (fuel & rows & E) & _);
  [cbn; lra|cbn; lra|cbn; lra|]. exists fuel. unfold complete. rewrite E. reflexivity.
Qed.

(** ** C69: integer columns *)
(** truncation: towards zero, less than one unit away, and never of opposite sign *)
Lemma Rtrunc_spec : forall x, Rabs (IZR (Rtrunc x)) <= Rabs x < Rabs (IZR (Rtrunc x)) + 1 /\ Rabs (x - IZR (Rtrunc x)) < 1.
Proof.
  intros x. unfold Rtrunc. destruct (Rle_dec 0 x) as [P|N].
  - destruct (base_Int_part x) as [B1 B2]. assert (0 <= Int_part x)%Z by (apply Zlt_succ_le, lt_IZR; rewrite succ_IZR; lra).
    apply IZR_le in H. rewrite !Rabs_right by lra. lra.
  - destruct (base_Int_part (- x)) as [B1 B2]. assert (0 <= Int_part (- x))%Z by (apply Zlt_succ_le, lt_IZR; rewrite succ_IZR; lra).
    apply IZR_le in H. rewrite opp_IZR. rewrite Rabs_left1 by lra. rewrite (Rabs_left x) by lra.
    rewrite (Rabs_left1 (x - - IZR (Int_part (- x)))) by lra. lra.
Qed.
Theorem C69_integer_columns : forall r h vs v, r_h r = Fin h -> r_vs r = Fin vs -> r_v r = Fin v ->
  exists a w g, altitude r = Some a /\ vertical_rate r = Some w /\ groundspeed r = Some g /\
    Rabs (h / 0.3048 - IZR a) < 1 /\ Rabs (vs / 0.00508 - IZR w) < 1 /\ Rabs (v / 0.514444 - IZR g) < 1 /\
    Rabs (IZR a) <= Rabs (h / 0.3048) /\ Rabs (IZR w) <= Rabs (vs / 0.00508) /\ Rabs (IZR g) <= Rabs (v / 0.514444).
Proof.
  intros r h vs v E1 E2 E3. unfold altitude, vertical_rate, groundspeed. rewrite E1, E2, E3. cbn [to_int].
  eexists _, _, _. repeat (split; [reflexivity|]). unfold ft, fpm, kts.
  destruct (Rtrunc_spec (h / 0.3048)). destruct (Rtrunc_spec (vs / 0.00508)). destruct (Rtrunc_spec (v / 0.514444)). tauto.
Qed.
(** a slow descent is reported as level: -0.005 m/s is 0 ft/min *)
Example C69_ex : vertical_rate (mkRow (Fin 0) (Fin 0) (Fin 0) (Fin 0) (Fin (-0.005)) None) = Some 0%Z.
Proof.
  unfold vertical_rate. cbn. f_equal. unfold Rtrunc, fpm. destruct (Rle_dec 0 (-0.005 / 0.00508)); [lra|].
  replace (Int_part (- (-0.005 / 0.00508))) with 0%Z; auto. unfold Int_part.
  rewrite <- (up_tech (- (-0.005 / 0.00508)) 0); [reflexivity|lra|cbn; lra].
Qed.
