(** Differentiation of the thrust model in the JAX backend. *)
From Coq Require Import Reals List Bool Lra Lia.
From Coquelicot Require Import Coquelicot.
From Verif Require Import Num NumFacts Aero AeroFacts Thrust ThrustFacts Jax SpecJax JaxFacts JaxAero Hom JaxHom JaxDrag.
Import ListNotations.
Open Scope R_scope.

Section TakeoffJ.
Context (e : thrust_par) (s0 : R) (V H D : R -> ext) (v h d : jx) (Hv : exact s0 V v) (Hh : exact s0 H h) (Hd : exact s0 D d)
  (Oh : fixed h \/ H s0 <> Fin (11000 / ft)) (Od : off_limits s0 D d) (Pb : 0 <= eng_bpr e).
Lemma takeoff_sm : exact s0 (takeoff_thrust LE e V H D) (takeoff_thrust JB e v h d).
Proof.
  assert (A1 : exact s0 (tas2mach LE (mul LE V (cst LE kts)) (cst LE 0) D) (tas2mach JB (mul JB v (cst JB kts)) (cst JB 0) d)).
  { apply tas2mach_sm; auto. apply sm_cst. left; reflexivity. apply sm_spd; auto. }
  assert (A2 : exact s0 (div LE (pressure LE (mul LE H (cst LE ft)) D) (cst LE p0)) (div JB (pressure JB (mul JB h (cst JB ft)) d) (cst JB p0))).
  { apply sm_div; [|apply sm_cst|apply nz; uc; lra]. apply p_sm; auto. apply sm_alt; auto. apply alt_off; auto. }
  unfold takeoff_thrust. cbv zeta.
  set (m := tas2mach LE _ _ D) in *. set (m' := tas2mach JB _ _ d) in *. set (q := div LE (pressure LE _ D) (cst LE p0)) in *. set (q' := div JB (pressure JB _ d) (cst JB p0)) in *. clearbody m m' q q'.
  assert (S1 : exact s0 (bsqrt LE (mul LE (add LE (cst LE 1) (mul LE (cst LE 0.82) (cst LE (eng_bpr e)))) (add LE (mul LE (cst LE 0.0606) (cst LE (eng_bpr e))) (cst LE 0.6337))))
     (bsqrt JB (mul JB (add JB (cst JB 1) (mul JB (cst JB 0.82) (cst JB (eng_bpr e)))) (add JB (mul JB (cst JB 0.0606) (cst JB (eng_bpr e))) (cst JB 0.6337))))).
  { apply sm_sqrt. repeat first [apply sm_mul|apply sm_add|apply sm_cst]. apply isr_fin. apply Rmult_lt_0_compat; lra. }
  assert (S2 : bsqrt LE (mul LE (add LE (cst LE 1) (mul LE (cst LE 0.82) (cst LE (eng_bpr e)))) (add LE (mul LE (cst LE 0.0606) (cst LE (eng_bpr e))) (cst LE 0.6337))) s0 <> Fin 0).
  { change (esqrt (Fin ((1 + 0.82 * eng_bpr e) * (0.0606 * eng_bpr e + 0.6337))) <> Fin 0). rewrite esqrt_fin by (apply Rmult_le_pos; lra). apply nz. pose proof (coefa_sqrt_pos _ Pb). lra. }
  assert (S3 : exact s0 (bsqrt LE (cst LE (eng_bpr e))) (bsqrt JB (cst JB (eng_bpr e)))).
  { apply sm_sqrt0; [apply sm_cst|apply isr_fin; auto|reflexivity]. }
  repeat first [exact A1|exact A2|exact S1|exact S3|exact S2|apply sm_mul|apply sm_add|apply sm_sub|apply sm_powi|apply sm_cst|apply sm_div].
Qed.
Lemma idle_sm : exact s0 (descent_idle LE e V H D) (descent_idle JB e v h d).
Proof. unfold descent_idle. apply sm_mul; [apply sm_cst|exact takeoff_sm]. Qed.
End TakeoffJ.

Section ClimbJ.
Context (e : thrust_par) (s0 : R) (V H C D : R -> ext) (v h c d : jx) (Hv : exact s0 V v) (Hh : exact s0 H h) (Hc : exact s0 C c) (Hd : exact s0 D d)
  (Oh : fixed h \/ H s0 <> Fin (11000 / ft) /\ H s0 <> Fin 10000 /\ H s0 <> Fin 30000) (Od : off_limits s0 D d)
  (Ov : fixed v \/ V s0 <> Fin 10) (Oc : fixed c \/ C s0 <> Fin 0)
  (Pm : 0 < cruise_mach e) (PF : eng_cruise_thrust e * eng_number e <> 0).
Let Oh' : fixed h \/ H s0 <> Fin (11000 / ft).
Proof. destruct Oh as [?|[? _]]; auto. Qed.
Lemma climb_sm : exact s0 (climb_thrust LE e V H C D) (climb_thrust JB e v h c d).
Proof.
  finr Hv x Ex. finr Hh y Ey. finr Hd z Ez.
  assert (X1 : exact s0 (babs LE C) (babs JB c)) by (apply sm_abs; auto; tauto).
  pose proof (sm_alt s0 H h Hh) as X2. pose proof (alt_off s0 H h Hh Oh') as X2'.
  assert (X3 : exact s0 (maximum LE (cst LE 10) V) (maximum JB (cst JB 10) v)).
  { apply sm_max; auto. apply sm_cst. destruct Ov as [N|N]; [|left; intros Q; apply N; rewrite <- Q; reflexivity].
    apply (apart_fixed s0 _ _ (cst JB 10) v); auto. apply sm_cst. reflexivity. }
  pose proof (sm_spd s0 _ _ X3) as X4.
  assert (EV : mul LE (maximum LE (cst LE 10) V) (cst LE kts) s0 = Fin (Rmax 10 x * kts)) by (cbn; rewrite Ex; reflexivity).
  assert (EH : mul LE H (cst LE ft) s0 = Fin (y * ft)) by (apply mul_val; auto).
  pose proof (floor_pos x) as FP.
  set (TV := mul LE (maximum LE (cst LE 10) V) (cst LE kts)) in *. set (tv := mul JB (maximum JB (cst JB 10) v) (cst JB kts)) in *.
  set (TH := mul LE H (cst LE ft)) in *. set (th := mul JB h (cst JB ft)) in *. 
  assert (NV : TV s0 <> Fin 0) by (rewrite EV; apply nz; lra).
  assert (CA : forall k, exact s0 (mul LE (cst LE k) (cst LE ft)) (mul JB (cst JB k) (cst JB ft))) by (intros; apply sm_mul; apply sm_cst).
  assert (CO : forall k, off_tropopause s0 (mul LE (cst LE k) (cst LE ft)) (mul JB (cst JB k) (cst JB ft))) by (intros; left; reflexivity).
  pose proof (tas2mach_sm s0 TH D th d X2 Hd X2' Od TV tv X4) as Y1.
  pose proof (tas2cas_sm s0 TH D TV th d tv X2 Hd X4 X2' Od NV) as Y2.
  pose proof (p_sm s0 TH D th d X2 Hd X2' Od) as Y3.
  pose proof (p_sm s0 _ D _ d (CA 10000) Hd (CO _) Od) as Y4.
  pose proof (p_sm s0 _ D _ d (CA (cruise_alt e)) Hd (CO _) Od) as Y5.
  assert (Nm : cst LE (cruise_mach e) s0 <> Fin 0) by (apply nz; lra).
  pose proof (mach2cas_sm s0 _ D _ _ d _ (CA (cruise_alt e)) Hd (sm_cst s0 (cruise_mach e)) (CO _) Od Nm) as Y6.
  assert (Z1 : tas2mach LE TV TH D s0 = Fin (Rmax 10 x * kts / aR (y * ft) z)).
  { change (tas2mach NP (TV s0) (TH s0) (D s0) = Fin (Rmax 10 x * kts / aR (y * ft) z)). rewrite EV, EH, Ez. apply tas2mach_NP. }
  assert (Z2 : tas2cas LE TV TH D s0 = Fin (t2cR (Rmax 10 x * kts) (y * ft) z)).
  { change (tas2cas NP (TV s0) (TH s0) (D s0) = Fin (t2cR (Rmax 10 x * kts) (y * ft) z)). rewrite EV, EH, Ez. apply tas2cas_NP. }
  assert (Z3 : pressure LE TH D s0 = Fin (pR (y * ft) z)) by (apply pressure_val; auto).
  assert (Z4 : pressure LE (mul LE (cst LE 10000) (cst LE ft)) D s0 = Fin (pR (10000 * ft) z)) by (apply pressure_val; auto).
  assert (Z5 : pressure LE (mul LE (cst LE (cruise_alt e)) (cst LE ft)) D s0 = Fin (pR (cruise_alt e * ft) z)) by (apply pressure_val; auto).
  assert (Z6 : mach2cas LE (cst LE (cruise_mach e)) (mul LE (cst LE (cruise_alt e)) (cst LE ft)) D s0 = Fin (vrefR e z)).
  { change (mach2cas NP (Fin (cruise_mach e)) (Fin (cruise_alt e * ft)) (D s0) = Fin (vrefR e z)). rewrite Ez. unfold mach2cas, mach2tas. rewrite vsound_NP. cbn [mul NP emul]. apply tas2cas_NP. }
  unfold climb_thrust, dfunc, nfunc, mfunc. cbv zeta. fold TV tv TH th.
  set (ma := tas2mach LE TV TH D) in *. set (ma' := tas2mach JB tv th d) in *.
  set (ca := tas2cas LE TV TH D) in *. set (ca' := tas2cas JB tv th d) in *.
  set (P := pressure LE TH D) in *. set (P' := pressure JB th d) in *.
  set (P10 := pressure LE (mul LE (cst LE 10000) (cst LE ft)) D) in *. set (P10' := pressure JB (mul JB (cst JB 10000) (cst JB ft)) d) in *.
  set (Pc := pressure LE (mul LE (cst LE (cruise_alt e)) (cst LE ft)) D) in *. set (Pc' := pressure JB (mul JB (cst JB (cruise_alt e)) (cst JB ft)) d) in *.
  set (vr := mach2cas LE (cst LE (cruise_mach e)) (mul LE (cst LE (cruise_alt e)) (cst LE ft)) D) in *.
  set (vr' := mach2cas JB (cst JB (cruise_mach e)) (mul JB (cst JB (cruise_alt e)) (cst JB ft)) d) in *.
  set (ro := babs LE C) in *. set (ro' := babs JB c) in *.
  clearbody ma ma' ca ca' P P' P10 P10' Pc Pc' vr vr' ro ro'.
  pose proof (aR_pos (y * ft) z). pose proof (pR_pos (y * ft) z). pose proof (pR_pos (10000 * ft) z). pose proof (pR_pos (cruise_alt e * ft) z). pose proof (vrefR_pos e z Pm).
  assert (Tp : 0 < t2cR (Rmax 10 x * kts) (y * ft) z). { rewrite <- (t2cR_0 (y * ft) z). apply t2cR_incr. lra. }
  assert (R1 : exact s0 (div LE ma (cst LE (cruise_mach e))) (div JB ma' (cst JB (cruise_mach e)))) by (apply sm_div; auto; apply sm_cst).
  assert (Q1 : posi (div LE ma (cst LE (cruise_mach e)) s0)).
  { rewrite (div_val s0 _ _ _ _ Z1 (eq_refl : cst LE (cruise_mach e) s0 = Fin (cruise_mach e))) by lra. apply isr_fin. repeat apply Rdiv_lt_0_compat; lra. }
  assert (R2 : exact s0 (div LE ca vr) (div JB ca' vr')) by (apply sm_div; auto; rewrite Z6; apply nz; lra).
  assert (Q2 : posi (div LE ca vr s0)) by (rewrite (div_val s0 _ _ _ _ Z2 Z6) by lra; apply isr_fin; apply Rdiv_lt_0_compat; lra).
  assert (R3 : exact s0 (div LE P Pc) (div JB P' Pc')) by (apply sm_div; auto; rewrite Z5; apply nz; lra).
  assert (Q3 : posi (div LE P Pc s0)) by (rewrite (div_val s0 _ _ _ _ Z3 Z5) by lra; apply isr_fin; apply Rdiv_lt_0_compat; lra).
  assert (R4 : exact s0 (div LE P10 Pc) (div JB P10' Pc')) by (apply sm_div; auto; rewrite Z5; apply nz; lra).
  assert (Q4 : posi (div LE P10 Pc s0)) by (rewrite (div_val s0 _ _ _ _ Z4 Z5) by lra; apply isr_fin; apply Rdiv_lt_0_compat; lra).
  assert (Fc : mul LE (cst LE (eng_cruise_thrust e)) (cst LE (eng_number e)) s0 <> Fin 0) by (apply nz; auto).
  assert (OK : forall k, k = 10000 \/ k = 30000 -> cexact s0 (gt LE H (cst LE k)) (gt JB h (cst JB k))).
  { intros k Hk. apply sm_gt; auto. apply sm_cst. eapply apart_cst; eauto. destruct Oh as [?|(_ & ? & ?)]; auto. right. destruct Hk; subst; auto. }
  repeat first [assumption|apply sm_mul|apply sm_add|apply sm_sub|apply sm_powi|apply sm_cst|apply sm_power|apply sm_log|apply sm_where|apply sm_div|apply OK; tauto].
Qed.
End ClimbJ.
Lemma cruise_sm : forall e s0 V H D v h d, exact s0 V v -> exact s0 H h -> exact s0 D d ->
  (fixed h \/ H s0 <> Fin (11000 / ft) /\ H s0 <> Fin 10000 /\ H s0 <> Fin 30000) -> off_limits s0 D d -> (fixed v \/ V s0 <> Fin 10) ->
  0 < cruise_mach e -> eng_cruise_thrust e * eng_number e <> 0 -> exact s0 (cruise_thrust LE e V H D) (cruise_thrust JB e v h d).
Proof. intros. unfold cruise_thrust. apply climb_sm; auto. apply sm_cst. left. reflexivity. Qed.
