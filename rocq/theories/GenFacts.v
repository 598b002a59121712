(** Lemmas about the model of openap/gen.py. *)
From Coq Require Import Reals List Bool ZArith Lra Lia Psatz.
From Verif Require Import Num NumFacts Aero AeroFacts AeroFacts4 Fuel Phase Gen.
Import ListNotations.
Open Scope R_scope.

(** ** Comparisons on finite values *)
Lemma eltb_fin : forall a c, eltb (Fin a) (Fin c) = Rltb a c.
Proof. reflexivity. Qed.
Lemma eleb_fin : forall a c, eleb (Fin a) (Fin c) = Rleb a c.
Proof.
  intros. unfold eleb. cbn. destruct (Rltb_spec c a), (Rleb_spec a c); auto; lra.
Qed.

Lemma INR_unbounded : forall x, exists k, x < INR k.
Proof.
  intros x. exists (Z.to_nat (up (Rabs x))). pose proof (archimed (Rabs x)) as [A _]. pose proof (Rabs_pos x).
  rewrite INR_IZR_INZ, Z2Nat.id by (apply le_IZR; lra). pose proof (Rle_abs x). lra.
Qed.
(** ** Loops *)
Section Loops.
Context {S : Type} (torow : S -> row) (step : S -> S * bool).
Fixpoint it (n : nat) (st : S) : S := match n with O => st | Datatypes.S m => fst (step (it m st)) end.
Lemma it_shift : forall n st, it (Datatypes.S n) st = it n (fst (step st)).
Proof. induction n as [|n IH]; intros; cbn in *; auto. rewrite <- IH. auto. Qed.

Lemma run_spec : forall fuel st rows, run torow step fuel st = Some rows ->
  exists m, length rows = Datatypes.S m /\ rows = map (fun i => torow (it i st)) (seq 0 (Datatypes.S m)) /\
    (forall i, (i < m)%nat -> snd (step (it i st)) = false) /\ snd (step (it m st)) = true.
Proof.
  induction fuel as [|n IH]; intros st rows E; [discriminate|].
  cbn [run] in E. destruct (step st) as [st' stop] eqn:Es. destruct stop.
  - injection E as <-. exists 0%nat. cbn. rewrite Es. repeat split; auto. lia.
  - destruct (run torow step n st') as [l|] eqn:Er; [|discriminate]. cbn in E. injection E as <-.
    destruct (IH _ _ Er) as (m & L & El & H1 & H2).
    assert (Eit : forall i, it i st' = it (Datatypes.S i) st) by (intros; rewrite it_shift, Es; auto).
    exists (Datatypes.S m). cbn [length]. split; [lia|]. split.
    + change (seq 0 (Datatypes.S (Datatypes.S m))) with (0%nat :: seq 1 (Datatypes.S m)). cbn [map]. f_equal.
      rewrite El at 1. rewrite <- (seq_shift (Datatypes.S m) 0). rewrite map_map. apply map_ext. intros; rewrite Eit; auto.
    + split.
      * intros [|i] Hi; [cbn; rewrite Es; auto|]. rewrite <- Eit. apply H1. lia.
      * rewrite <- Eit. auto.
Qed.

Lemma run_complete : forall m st, (forall i, (i < m)%nat -> snd (step (it i st)) = false) ->
  snd (step (it m st)) = true -> exists rows, run torow step (Datatypes.S m) st = Some rows.
Proof.
  induction m as [|m IH]; intros st H1 H2; cbn [run].
  - cbn in H2. destruct (step st) as [st' stop]. cbn in H2. rewrite H2. eauto.
  - destruct (step st) as [st' stop] eqn:Es. pose proof (H1 0%nat ltac:(lia)) as H0. cbn in H0. rewrite Es in H0. cbn in H0.
    rewrite H0. assert (Eit : forall i, it i st' = it (Datatypes.S i) st) by (intros; rewrite it_shift, Es; auto).
    destruct (IH st') as [rows E].
    + intros i Hi. rewrite Eit. apply H1. lia.
    + rewrite Eit. auto.
    + cbn [run] in E. rewrite E. cbn. eauto.
Qed.

Definition terminates (st : S) : Prop := exists fuel rows, run torow step fuel st = Some rows.
Lemma term_stop : forall st, snd (step st) = true -> terminates st.
Proof. intros st H. exists 1%nat. cbn. destruct (step st) as [s b]; cbn in H; rewrite H. eauto. Qed.
Lemma term_step : forall st, terminates (fst (step st)) -> terminates st.
Proof.
  intros st (n & rows & E). exists (Datatypes.S n). cbn. destruct (step st) as [s b]; cbn in E. destruct b; [eauto|].
  rewrite E. cbn. eauto.
Qed.
Lemma run_mono : forall n m st rows, (n <= m)%nat -> run torow step n st = Some rows -> run torow step m st = Some rows.
Proof.
  induction n as [|n IH]; intros m st rows Hm E; [discriminate|]. destruct m as [|m]; [lia|].
  cbn in *. destruct (step st) as [st' stop]. destruct stop; auto.
  destruct (run torow step n st') as [l|] eqn:El; [|discriminate]. rewrite (IH m _ l) by (auto; lia). auto.
Qed.
Lemma run_never : forall (Inv : S -> Prop), (forall st, Inv st -> snd (step st) = false /\ Inv (fst (step st))) ->
  forall fuel st, Inv st -> run torow step fuel st = None.
Proof.
  intros Inv H. induction fuel as [|n IH]; intros st Hi; auto. cbn. destruct (H st Hi) as [H1 H2].
  destruct (step st) as [st' stop]. cbn in *. subst stop. rewrite IH; auto.
Qed.
End Loops.

Lemma run_map : forall (S1 S2 : Type) (f : S1 -> S2) (torow : S2 -> row) step1 step2,
  (forall st, step2 (f st) = (f (fst (step1 st)), snd (step1 st))) ->
  forall n st, run torow step2 n (f st) = run (fun x => torow (f x)) step1 n st.
Proof.
  intros S1 S2 f torow step1 step2 H. induction n as [|n IH]; intros st; auto.
  cbn. rewrite H. destruct (step1 st) as [st' stop]. cbn. destruct stop; auto. rewrite IH. auto.
Qed.

(** ** Climb over the reals *)
Lemma kts_pos : 0 < kts. Proof. unfold kts; lra. Qed.
Lemma ft_pos : 0 < ft. Proof. unfold ft; lra. Qed.

Record rcs : Type := mkRcs { z_t : R; z_tcr : R; z_h : R; z_s : R; z_v : R; z_vs : R; z_seg : option seg }.
Definition finC (x : rcs) : cstate :=
  mkCs (Fin (z_t x)) (Fin (z_tcr x)) (Fin (z_h x)) (Fin (z_s x)) (Fin (z_v x)) (Fin (z_vs x)) (z_seg x).

Section ClimbR.
Context (p : cparams).
Notation dt := (c_dt p).
Definition vcasR : R := c_cas p * kts.
Definition hcrR : R := c_alt p * ft.
Definition hmachR : R := xR vcasR (c_mach p) 0.
Definition accelR (v h : R) : R :=
  if Rleb vcasR (t2cR (v + 0.5 * dt) h 0) then c2tR vcasR h 0 else v + 0.5 * dt.
Definition climb_stepR (x : rcs) : rcs * bool :=
  let t := z_t x + dt in
  let s := z_s x + z_v x * dt in
  let h := z_h x + z_vs x * dt in
  let v := z_v x in
  if Rltb v (c_vtof p) then (mkRcs t (z_tcr x) h s (v + c_atof p * dt) 0 (Some sTO), false)
  else if Rltb h (1500 * ft) then (mkRcs t (z_tcr x) h s (accelR v h) (c_vsic p) (Some sIC), false)
  else if Rltb h (c_hcas p) then (mkRcs t (z_tcr x) h s (accelR v h) (c_vspre p) (Some sPRE), false)
  else if Rltb h hmachR then (mkRcs t (z_tcr x) h s (c2tR vcasR h 0) (c_vscas p) (Some sCAS), false)
  else if Rltb h hcrR then (mkRcs t (z_tcr x) h s (c_mach p * aR h 0) (c_vsmach p) (Some sMACH), false)
  else let tcr := if Req_EM_T (z_tcr x) 0 then t else z_tcr x in
       (mkRcs t tcr h s (c_mach p * aR h 0) 0 (Some sCR), Rltb 60 (t - tcr)).

Hypothesis Hcas : 0 < c_cas p.
Lemma vcas_pos : 0 < vcasR. Proof. apply Rmult_lt_0_compat; auto. apply kts_pos. Qed.
Lemma c_vcas_fin : c_vcas p = Fin vcasR. Proof. reflexivity. Qed.
Lemma c_hmach_fin : c_hmach p = Fin hmachR.
Proof. unfold c_hmach. rewrite c_vcas_fin. apply crossover_NP, vcas_pos. Qed.

Lemma accel_fin : forall v h, accel_to_cas p (Fin v) (Fin h) = Fin (accelR v h).
Proof.
  intros. unfold accel_to_cas, egeb. rewrite c_vcas_fin. cbn [eadd emul]. rewrite tas2cas_NP, eleb_fin, cas2tas_NP.
  unfold accelR. destruct (Rleb _ _); auto.
Qed.
Lemma climb_step_fin : forall x, climb_step p (finC x) = (finC (fst (climb_stepR x)), snd (climb_stepR x)).
Proof.
  intros x. unfold climb_step, climb_stepR, finC, egtb, egeb. cbn [cs_t cs_tcr cs_h cs_s cs_v cs_vs cs_seg eadd emul].
  rewrite c_hmach_fin, !mach2tas_NP, !accel_fin, c_vcas_fin, !cas2tas_NP, !eltb_fin, !eleb_fin.
  change (c_hcr p) with (Fin hcrR). rewrite eltb_fin.
  destruct (Rltb (z_v x) (c_vtof p)); [reflexivity|].
  destruct (Rltb (z_h x + z_vs x * dt) (1500 * ft)); [reflexivity|].
  destruct (Rltb (z_h x + z_vs x * dt) (c_hcas p)); [reflexivity|].
  destruct (Rltb (z_h x + z_vs x * dt) hmachR); [reflexivity|].
  destruct (Rltb (z_h x + z_vs x * dt) hcrR); [reflexivity|].
  destruct (Req_EM_T (z_tcr x) 0) as [E|N].
  - rewrite E. rewrite Rleb_true by lra. cbn. reflexivity.
  - replace (Rleb (z_tcr x) 0 && Rleb 0 (z_tcr x)) with false; [reflexivity|].
    destruct (Rleb_spec (z_tcr x) 0), (Rleb_spec 0 (z_tcr x)); auto. lra.
Qed.
Definition x0 : rcs := mkRcs 0 0 0 0 0 0 None.
Lemma climb_runR : forall n, climb p n = run (fun x => climb_row (finC x)) climb_stepR n x0.
Proof. intros. unfold climb. change climb_init with (finC x0). apply run_map. apply climb_step_fin. Qed.

(** the three kinds of step *)
Definition Lalt : R := Rmax (Rmax (1500 * ft) (c_hcas p)) (Rmax hmachR hcrR).
Hypothesis Hdt : 0 < dt.
Hypothesis Hat : 0 < c_atof p.
Hypothesis Hm : 0 <= c_mach p.
Hypothesis Hvs : 0 < c_vsic p /\ 0 < c_vspre p /\ 0 < c_vscas p /\ 0 < c_vsmach p.
Definition vmin : R := Rmin (Rmin (c_vsic p) (c_vspre p)) (Rmin (c_vscas p) (c_vsmach p)).
Definition vmax : R := Rmax (Rmax (c_vsic p) (c_vspre p)) (Rmax (c_vscas p) (c_vsmach p)).
Lemma vmin_pos : 0 < vmin.
Proof. unfold vmin. repeat apply Rmin_glb_lt; tauto. Qed.
Lemma v_bounds : vmin <= c_vsic p <= vmax /\ vmin <= c_vspre p <= vmax /\ vmin <= c_vscas p <= vmax /\ vmin <= c_vsmach p <= vmax.
Proof.
  unfold vmin, vmax.
  pose proof (Rmin_l (c_vsic p) (c_vspre p)). pose proof (Rmin_r (c_vsic p) (c_vspre p)).
  pose proof (Rmin_l (c_vscas p) (c_vsmach p)). pose proof (Rmin_r (c_vscas p) (c_vsmach p)).
  pose proof (Rmax_l (c_vsic p) (c_vspre p)). pose proof (Rmax_r (c_vsic p) (c_vspre p)).
  pose proof (Rmax_l (c_vscas p) (c_vsmach p)). pose proof (Rmax_r (c_vscas p) (c_vsmach p)).
  pose proof (Rmin_l (Rmin (c_vsic p) (c_vspre p)) (Rmin (c_vscas p) (c_vsmach p))).
  pose proof (Rmin_r (Rmin (c_vsic p) (c_vspre p)) (Rmin (c_vscas p) (c_vsmach p))).
  pose proof (Rmax_l (Rmax (c_vsic p) (c_vspre p)) (Rmax (c_vscas p) (c_vsmach p))).
  pose proof (Rmax_r (Rmax (c_vsic p) (c_vspre p)) (Rmax (c_vscas p) (c_vsmach p))).
  lra.
Qed.
Lemma Lalt_bounds : 1500 * ft <= Lalt /\ c_hcas p <= Lalt /\ hmachR <= Lalt /\ hcrR <= Lalt.
Proof.
  unfold Lalt.
  pose proof (Rmax_l (1500 * ft) (c_hcas p)). pose proof (Rmax_r (1500 * ft) (c_hcas p)).
  pose proof (Rmax_l hmachR hcrR). pose proof (Rmax_r hmachR hcrR).
  pose proof (Rmax_l (Rmax (1500 * ft) (c_hcas p)) (Rmax hmachR hcrR)).
  pose proof (Rmax_r (Rmax (1500 * ft) (c_hcas p)) (Rmax hmachR hcrR)). lra.
Qed.
Lemma Lalt_glb : forall h, 1500 * ft <= h -> c_hcas p <= h -> hmachR <= h -> hcrR <= h -> Lalt <= h.
Proof. intros. unfold Lalt. repeat apply Rmax_lub; auto. Qed.

Definition eff (x : rcs) : R := z_h x + z_vs x * dt.
Lemma step_cases : forall x, let x' := fst (climb_stepR x) in let stop := snd (climb_stepR x) in
  z_t x' = z_t x + dt /\ z_s x' = z_s x + z_v x * dt /\ z_h x' = eff x /\
  ((z_v x < c_vtof p /\ z_seg x' = Some sTO /\ z_v x' = z_v x + c_atof p * dt /\ z_vs x' = 0 /\ stop = false /\ z_tcr x' = z_tcr x) \/
   (c_vtof p <= z_v x /\ eff x < Lalt /\ vmin <= z_vs x' <= vmax /\ stop = false /\ z_tcr x' = z_tcr x /\
     ((z_seg x' = Some sIC /\ eff x < 1500 * ft /\ z_vs x' = c_vsic p /\ z_v x' = accelR (z_v x) (eff x)) \/
      (z_seg x' = Some sPRE /\ 1500 * ft <= eff x < c_hcas p /\ z_vs x' = c_vspre p /\ z_v x' = accelR (z_v x) (eff x)) \/
      (z_seg x' = Some sCAS /\ 1500 * ft <= eff x /\ c_hcas p <= eff x < hmachR /\ z_vs x' = c_vscas p /\ z_v x' = c2tR vcasR (eff x) 0) \/
      (z_seg x' = Some sMACH /\ 1500 * ft <= eff x /\ c_hcas p <= eff x /\ hmachR <= eff x < hcrR /\ z_vs x' = c_vsmach p /\ z_v x' = c_mach p * aR (eff x) 0))) \/
   (c_vtof p <= z_v x /\ Lalt <= eff x /\ z_seg x' = Some sCR /\ z_v x' = c_mach p * aR (eff x) 0 /\ z_vs x' = 0 /\
    z_tcr x' = (if Req_EM_T (z_tcr x) 0 then z_t x' else z_tcr x) /\ stop = Rltb 60 (z_t x' - z_tcr x'))).
Proof.
  intros x. unfold climb_stepR. fold (eff x). pose proof v_bounds as V. pose proof Lalt_bounds as B.
  destruct (Rltb_spec (z_v x) (c_vtof p)) as [L|L]; cbn -[ft].
  { repeat (split; [reflexivity|]). left. repeat split; auto. }
  destruct (Rltb_spec (eff x) (1500 * ft)) as [L1|L1]; cbn -[ft].
  { repeat (split; [reflexivity|]). right. left. repeat split; try lra. left. repeat split; auto. }
  destruct (Rltb_spec (eff x) (c_hcas p)) as [L2|L2]; cbn -[ft].
  { repeat (split; [reflexivity|]). right. left. repeat split; try lra. right; left. repeat split; auto; lra. }
  destruct (Rltb_spec (eff x) hmachR) as [L3|L3]; cbn -[ft].
  { repeat (split; [reflexivity|]). right. left. repeat split; try lra. right; right; left. repeat split; auto; lra. }
  destruct (Rltb_spec (eff x) hcrR) as [L4|L4]; cbn -[ft].
  { repeat (split; [reflexivity|]). right. left. repeat split; try lra. right; right; right. repeat split; auto; lra. }
  repeat (split; [reflexivity|]). right. right. repeat split; try lra. apply Lalt_glb; lra.
Qed.

Lemma accelR_nonneg : forall v h, 0 <= v -> 0 <= accelR v h.
Proof. intros. unfold accelR. destruct (Rleb _ _); [apply c2tR_nonneg|lra]. Qed.
Lemma machv_nonneg : forall h, 0 <= c_mach p * aR h 0.
Proof. intros. apply Rmult_le_pos; auto. left; apply aR_pos. Qed.

Definition inv (x : rcs) : Prop := 0 <= z_v x /\ 0 <= z_vs x /\ 0 <= z_tcr x /\ 0 <= z_t x /\ 0 <= z_h x.
Lemma inv_x0 : inv x0. Proof. unfold inv, x0; cbn; lra. Qed.
Lemma inv_step : forall x, inv x -> inv (fst (climb_stepR x)).
Proof.
  intros x (I1 & I2 & I3 & I4 & I5). destruct (step_cases x) as (T & Ss & H & C).
  set (x' := fst (climb_stepR x)) in *. pose proof vmin_pos.
  assert (0 <= eff x) by (unfold eff; nra).
  unfold inv. rewrite T, H.
  destruct C as [(_ & _ & Ev & Evs & _ & Et)|[(_ & _ & Evs & _ & Et & C)|(_ & _ & _ & Ev & Evs & Et & _)]].
  - rewrite Ev, Evs, Et. repeat split; try lra. nra.
  - rewrite Et. repeat split; try lra.
    destruct C as [(_ & _ & _ & ->)|[(_ & _ & _ & ->)|[(_ & _ & _ & _ & ->)|(_ & _ & _ & _ & _ & ->)]]];
    auto using accelR_nonneg, c2tR_nonneg, machv_nonneg.
  - rewrite Ev, Evs. repeat split; try lra; [apply machv_nonneg|]. rewrite Et. destruct (Req_EM_T _ _); lra.
Qed.

Notation term := (terminates (fun x => climb_row (finC x)) climb_stepR).

(** reach a step that is not a take-off step *)
Lemma leave_to : forall (Q : rcs -> Prop),
  (forall x, Q x -> z_v x < c_vtof p -> Q (fst (climb_stepR x))) ->
  (forall x, Q x -> c_vtof p <= z_v x -> term x) -> forall x, Q x -> term x.
Proof.
  intros Q HQ Hbase.
  assert (K : forall k x, Q x -> c_vtof p - z_v x <= INR k * (c_atof p * dt) -> term x).
  { induction k as [|k IH]; intros x Hx Hk.
    - cbn in Hk. apply Hbase; auto. lra.
    - destruct (Rlt_le_dec (z_v x) (c_vtof p)) as [L|L]; [|apply Hbase; auto].
      apply term_step. apply IH; auto. destruct (step_cases x) as (_ & _ & _ & C).
      destruct C as [(_ & _ & Ev & _)|[(F & _)|(F & _)]]; try lra. rewrite Ev. rewrite S_INR in Hk. lra. }
  intros x Hx. assert (Hpos : 0 < c_atof p * dt) by (apply Rmult_lt_0_compat; auto).
  destruct (INR_unbounded ((c_vtof p - z_v x) / (c_atof p * dt))) as [k Hk].
  apply (K k x Hx). apply Rlt_le in Hk. apply (Rmult_le_compat_r (c_atof p * dt)) in Hk; [|lra].
  replace ((c_vtof p - z_v x) / (c_atof p * dt) * (c_atof p * dt)) with (c_vtof p - z_v x) in Hk by (field; split; lra). lra.
Qed.

(** at the top: only the clock matters *)
Lemma term_top : forall x, inv x -> Lalt <= eff x -> z_tcr x <> 0 -> term x.
Proof.
  assert (K : forall k x, inv x /\ Lalt <= eff x /\ z_tcr x <> 0 /\ 60 - (z_t x - z_tcr x) < INR k * dt -> term x).
  { induction k as [|k IH]; apply leave_to.
    - intros x (I & L & N & Hk) Hv. pose proof (inv_step x I) as I'. destruct (step_cases x) as (T & _ & H & C).
      destruct C as [(_ & _ & Ev & Evs & _ & Et)|[(F & _)|(F & _)]]; try lra.
      split; auto. rewrite Et, T. unfold eff at 1. rewrite H, Evs. repeat split; auto; lra.
    - intros x (I & L & N & Hk) Hv. destruct (step_cases x) as (T & _ & H & C).
      destruct C as [(F & _)|[(_ & F & _)|(_ & _ & _ & _ & _ & Et & Es)]]; try lra.
      apply term_stop. rewrite Es. apply Rltb_true. rewrite Et, T. destruct (Req_EM_T (z_tcr x) 0); [tauto|]. cbn in Hk. lra.
    - intros x (I & L & N & Hk) Hv. pose proof (inv_step x I) as I'. destruct (step_cases x) as (T & _ & H & C).
      destruct C as [(_ & _ & Ev & Evs & _ & Et)|[(F & _)|(F & _)]]; try lra.
      split; auto. rewrite Et, T. unfold eff at 1. rewrite H, Evs. repeat split; auto; lra.
    - intros x (I & L & N & Hk) Hv. apply term_step. apply IH. pose proof (inv_step x I) as I'.
      destruct (step_cases x) as (T & _ & H & C).
      destruct C as [(F & _)|[(_ & F & _)|(_ & _ & _ & _ & Evs & Et & Es)]]; try lra.
      split; auto. destruct (Req_EM_T (z_tcr x) 0); [tauto|]. rewrite Et, T. unfold eff at 1. rewrite H, Evs.
      rewrite S_INR in Hk. repeat split; auto; lra. }
  intros x I L N. destruct (INR_unbounded ((60 - (z_t x - z_tcr x)) / dt)) as [k Hk].
  apply (K k). repeat split; auto; try apply I. apply (Rmult_lt_compat_r dt) in Hk; auto.
  replace ((60 - (z_t x - z_tcr x)) / dt * dt) with (60 - (z_t x - z_tcr x)) in Hk by (field; lra). lra.
Qed.
Lemma term_top0 : forall x, inv x -> Lalt <= eff x -> term x.
Proof.
  intros x I L. cut ((fun x => inv x /\ Lalt <= eff x) x); [|split; auto]. apply (leave_to (fun x => inv x /\ Lalt <= eff x)); clear x I L.
  - intros x (I & L) Hv. pose proof (inv_step x I) as I'. destruct (step_cases x) as (T & _ & H & C).
    destruct C as [(_ & _ & Ev & Evs & _ & Et)|[(F & _)|(F & _)]]; try lra.
    split; auto. unfold eff at 1. rewrite H, Evs. lra.
  - intros x (I & L) Hv. apply term_step. apply term_top; [apply inv_step; auto| |];
    destruct (step_cases x) as (T & _ & H & C);
    destruct C as [(F & _)|[(_ & F & _)|(_ & _ & _ & _ & Evs & Et & Es)]]; try lra.
    + unfold eff at 1. rewrite H, Evs. lra.
    + rewrite Et, T. destruct I as (_ & _ & _ & I & _). destruct (Req_EM_T (z_tcr x) 0); auto. lra.
Qed.
Lemma climb_terminates : forall x, inv x -> term x.
Proof.
  pose proof vmin_pos as Vm.
  assert (K : forall k x, inv x /\ Lalt - eff x <= INR k * (vmin * dt) -> term x).
  { induction k as [|k IH].
    - intros x (I & L). cbn in L. apply term_top0; auto. lra.
    - apply leave_to.
      + intros x (I & L) Hv. pose proof (inv_step x I) as I'. destruct (step_cases x) as (T & _ & H & C).
        destruct C as [(_ & _ & Ev & Evs & _ & Et)|[(F & _)|(F & _)]]; try lra.
        split; auto. unfold eff at 1. rewrite H, Evs. lra.
      + intros x (I & L) Hv. destruct (Rle_lt_dec Lalt (eff x)) as [Ht|Ht]; [apply term_top0; auto|].
        apply term_step. apply IH. split; [apply inv_step; auto|]. destruct (step_cases x) as (T & _ & H & C).
        destruct C as [(F & _)|[(_ & _ & Evs & _)|(_ & F & _)]]; try lra.
        unfold eff at 1. rewrite H. rewrite S_INR in L.
        assert (vmin * dt <= z_vs (fst (climb_stepR x)) * dt) by (apply Rmult_le_compat_r; lra). lra. }
  intros x I. assert (Hp : 0 < vmin * dt) by (apply Rmult_lt_0_compat; auto).
  destruct (INR_unbounded ((Lalt - eff x) / (vmin * dt))) as [k Hk]. apply (K k). split; auto.
  apply (Rmult_lt_compat_r (vmin * dt)) in Hk; auto.
  replace ((Lalt - eff x) / (vmin * dt) * (vmin * dt)) with (Lalt - eff x) in Hk by (field; split; lra). lra.
Qed.

(** invariants along the iteration *)
Lemma inv_it : forall n, inv (it climb_stepR n x0).
Proof. induction n; [apply inv_x0|]. cbn. apply inv_step; auto. Qed.

(** final altitude *)
Definition alt_inv (x : rcs) : Prop :=
  (z_tcr x = 0 /\ (z_vs x = 0 \/ z_h x < Lalt) /\ 0 <= z_vs x <= vmax /\ z_h x < Lalt + vmax * dt) \/
  (0 < z_tcr x /\ z_vs x = 0 /\ Lalt <= z_h x < Lalt + vmax * dt).
Lemma alt_inv_step : forall x, inv x -> alt_inv x -> alt_inv (fst (climb_stepR x)).
Proof.
  intros x I A. destruct I as (I1 & I2 & I3 & I4 & I5). pose proof vmin_pos as Vm.
  assert (Vmx : 0 < vmax) by (pose proof v_bounds; lra).
  destruct (step_cases x) as (T & _ & H & C). unfold alt_inv. rewrite H.
  assert (E : eff x < Lalt + vmax * dt).
  { unfold eff. destruct A as [(_ & [E|L] & V & L')|(_ & E & L)].
    - rewrite E. lra.
    - assert (z_vs x * dt <= vmax * dt) by (apply Rmult_le_compat_r; lra). lra.
    - rewrite E. lra. }
  destruct C as [(_ & _ & Ev & Evs & _ & Et)|[(_ & Lo & Evs & _ & Et & _)|(_ & Hi & _ & _ & Evs & Et & _)]].
  - rewrite Evs, Et. destruct A as [(A1 & _)|(A1 & A2 & A3)]; [left; repeat split; auto; lra|right].
    repeat split; auto. unfold eff. rewrite A2. lra.
  - rewrite Et. destruct A as [(A1 & _)|(A1 & A2 & A3)]; [left; repeat split; auto; lra|].
    exfalso. unfold eff in Lo. rewrite A2 in Lo. lra.
  - right. rewrite Et, Evs. repeat split; auto. destruct (Req_EM_T (z_tcr x) 0); lra.
Qed.
Lemma alt_inv_it : forall n, alt_inv (it climb_stepR n x0).
Proof.
  induction n; [|cbn; apply alt_inv_step; auto using inv_it]. left. cbn.
  pose proof Lalt_bounds. pose proof ft_pos. pose proof vmin_pos. pose proof v_bounds.
  assert (0 < vmax * dt) by (apply Rmult_lt_0_compat; lra). repeat split; auto; lra.
Qed.
Lemma stop_alt : forall x, alt_inv x -> snd (climb_stepR x) = true -> z_vs x = 0 /\ Lalt <= z_h x < Lalt + vmax * dt.
Proof.
  intros x A St. destruct (step_cases x) as (T & _ & H & C).
  destruct C as [(_ & _ & _ & _ & F & _)|[(_ & _ & _ & F & _)|(_ & _ & _ & _ & _ & Et & Es)]]; try congruence.
  rewrite St in Es. symmetry in Es. destruct A as [(A1 & _)|(A1 & A2 & A3)]; auto.
  exfalso. rewrite Et, A1 in Es. destruct (Req_EM_T 0 0); [|tauto].
  rewrite Rminus_diag_eq in Es by auto. rewrite Rltb_false in Es by lra. discriminate.
Qed.
End ClimbR.
