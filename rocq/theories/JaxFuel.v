(** Differentiation of the fuel and emission models in the JAX backend. *)
From Coq Require Import Reals List Bool Lra Lia Psatz.
From Coquelicot Require Import Coquelicot.
From Verif Require Import Num NumFacts Aero AeroFacts Thrust ThrustFacts Drag DragFacts Fuel FuelFacts Emission P_Emission Jax SpecJax JaxFacts JaxAero Hom JaxHom JaxDrag JaxThrust.
Import ListNotations.
Open Scope R_scope.

Section FuelJ.
Context (f : fuel_par) (Hf : fuel_ok f) (s0 : R) (X : R -> ext) (x : jx) (Hx : exact s0 X x)
  (Bx : isr (fun t => t <= 14.2 * (f_n_eng f * f_max_thrust f)) (X s0)).
Lemma thrust_ratio_sm : exact s0 (thrust_ratio LE f X) (thrust_ratio JB f x).
Proof.
  destruct Bx as (t & E & B). pose proof (ok_thr f Hf) as Pt. pose proof (ok_n f Hf) as Pn.
  assert (A : exact s0 (div LE (div LE X (cst LE (f_n_eng f))) (cst LE (f_max_thrust f))) (div JB (div JB x (cst JB (f_n_eng f))) (cst JB (f_max_thrust f)))).
  { apply sm_div; [apply sm_div; [auto|apply sm_cst|apply nz; lra]|apply sm_cst|apply nz; lra]. }
  assert (EA : div LE (div LE X (cst LE (f_n_eng f))) (cst LE (f_max_thrust f)) s0 = Fin (ratR f t)).
  { apply div_val; auto; try lra. apply div_val; auto; lra. }
  assert (L : ratR f t <= 14.2) by (apply ratR_le; auto).
  unfold thrust_ratio. cbv zeta. set (r := div LE (div LE X _) _) in *. set (r' := div JB (div JB x _) _) in *. clearbody r r'.
  assert (K : forall k c, k * (14.2 - c) < exp_max -> 0 < k -> exact s0 (blog LE (add LE (cst LE 1) (bexp LE (mul LE (cst LE k) (sub LE r (cst LE c)))))) (blog JB (add JB (cst JB 1) (bexp JB (mul JB (cst JB k) (sub JB r' (cst JB c))))))).
  { intros k c L1 Pk. assert (k * (ratR f t - c) < exp_max) by (apply Rle_lt_trans with (2 := L1); apply Rmult_le_compat_l; lra).
    assert (EE : mul LE (cst LE k) (sub LE r (cst LE c)) s0 = Fin (k * (ratR f t - c))) by (cbn; rewrite EA; reflexivity).
    apply sm_log.
    - apply sm_add; [apply sm_cst|]. apply sm_exp; [apply sm_mul; [apply sm_cst|apply sm_sub; [auto|apply sm_cst]]|]. rewrite EE. apply isr_fin. auto.
    - change (posi (eadd (Fin 1) (eexp (mul LE (cst LE k) (sub LE r (cst LE c)) s0)))). rewrite EE, eexp_fin by lra. apply isr_fin. pose proof (exp_pos (k * (ratR f t - c))). lra. }
  apply sm_add; [|apply sm_cst]. apply sm_div.
  - apply sm_sub; apply K; unfold exp_max; lra.
  - assert (50 < exp_max) by (unfold exp_max; lra). apply sm_log. { apply sm_add; [apply sm_cst|]. apply sm_exp; [apply sm_cst|]. apply isr_fin. auto. }
    change (posi (eadd (Fin 1) (eexp (Fin 50)))). rewrite eexp_fin by lra. apply isr_fin. pose proof (exp_pos 50). lra.
  - change (elog (eadd (Fin 1) (eexp (Fin 50))) <> Fin 0). rewrite eexp_fin by (unfold exp_max; lra). cbn [eadd]. pose proof (exp_pos 50). rewrite elog_fin by lra. apply nz. pose proof (sp_pos 50) as S. unfold sp in S. lra.
Qed.
Lemma at_thrust_sm : exact s0 (at_thrust LE f X) (at_thrust JB f x).
Proof.
  pose proof thrust_ratio_sm as A. destruct Bx as (t & E & B). pose proof (ok_thr f Hf) as Pt. pose proof (ok_n f Hf) as Pn.
  assert (L : ratR f t <= 14.2) by (apply ratR_le; auto).
  assert (EA : thrust_ratio LE f X s0 = Fin (limR (ratR f t))).
  { change (thrust_ratio NP f (X s0) = Fin (limR (ratR f t))). rewrite E. apply thrust_ratio_NP; auto. }
  unfold at_thrust. set (r := thrust_ratio LE f X) in *. set (r' := thrust_ratio JB f x) in *. clearbody r r'.
  apply sm_mul; [|apply sm_cst]. unfold func_fuel. apply sm_mul; [apply sm_cst|]. apply sm_sub; [apply sm_cst|].
  pose proof (limR_pos (ratR f t)) as L1. pose proof (limR_ub (ratR f t) L) as L2. set (q := limR (ratR f t)) in *. clearbody q.
  destruct Hf as [H1 H2 H3 H4 H5 H6].
  assert (B1 : fc3 f * q < exp_max) by (unfold exp_max; nra).
  assert (EM : mul LE (cst LE (fc3 f)) r s0 = Fin (fc3 f * q)) by (apply mul_val; auto).
  pose proof (ln_c1_small _ H1) as Ln. pose proof (exp_pos (fc3 f * q)).
  assert (EL : div LE (blog LE (cst LE (fc1 f))) (cst LE (fc2 f)) s0 = Fin (ln (fc1 f) / fc2 f)).
  { apply div_val; auto; [|lra]. change (elog (Fin (fc1 f)) = Fin (ln (fc1 f))). apply elog_fin. lra. }
  apply sm_exp.
  - apply sm_mul; [apply sm_neg; apply sm_cst|]. apply sm_sub.
    + apply sm_mul; auto. apply sm_exp; [apply sm_mul; [apply sm_cst|auto]|]. rewrite EM. apply isr_fin; auto.
    + apply sm_div; [apply sm_log; [apply sm_cst|apply isr_fin; lra]|apply sm_cst|apply nz; lra].
  - match goal with |- isr _ (mul LE (neg LE (cst LE ?c)) (sub LE (mul LE r (bexp LE ?u)) ?w) s0) => change (isr (fun r => r < exp_max) (emul (Fin (- c)) (esub (emul (r s0) (eexp (u s0))) (w s0)))) end.
    rewrite EA, EM, EL, eexp_fin by lra. cbn [emul esub]. apply isr_fin.
    replace (- fc2 f * (q * exp (fc3 f * q) - ln (fc1 f) / fc2 f)) with (- (fc2 f * (q * exp (fc3 f * q))) + ln (fc1 f)) by (field; lra).
    assert (0 <= fc2 f * (q * exp (fc3 f * q))) by (repeat apply Rmult_le_pos; lra). unfold exp_max. lra.
Qed.
End FuelJ.

(** total thrust required in the path of the aircraft, as [enroute] computes it *)
Definition required (b : backend) (p : drag_par) (wave : bool) (m v h w c d : T b) : T b :=
  add b (add b (clean b p wave m v h w d) (mul b (mul b m (cst b 9.81)) (bsin b (barctan2 b (mul b w (cst b fpm)) (mul b v (cst b kts)))))) (mul b m c).
Lemma enroute_required : forall b p wave f m v h w c d l, enroute b p wave f m v h w c d l = at_thrust b f (required b p wave m v h w c d).
Proof. reflexivity. Qed.

Section EnrouteJ.
Context (p : drag_par) (f : fuel_par) (wave : bool) (s0 : R) (M V H W A D : R -> ext) (m v h w a d : jx)
  (Hm : exact s0 M m) (Hv : exact s0 V v) (Hh : exact s0 H h) (Hw : exact s0 W w) (Ha : exact s0 A a) (Hd : exact s0 D d)
  (Pv : posi (V s0)) (Oh : fixed h \/ H s0 <> Fin (11000 / ft)) (Od : off_limits s0 D d) (Of : off_floor (wing_area p) s0 V H D v h d)
  (Sw : -90 < wing_sweep p < 90) (Hf : fuel_ok f)
  (Bx : isr (fun t => t <= 14.2 * (f_n_eng f * f_max_thrust f)) (required NP p wave (M s0) (V s0) (H s0) (W s0) (A s0) (D s0))).
Lemma enroute_sm : forall l, exact s0 (enroute LE p wave f M V H W A D l) (enroute JB p wave f m v h w a d l).
Proof.
  intros l. rewrite !enroute_required. apply at_thrust_sm; [auto| |destruct wave; exact Bx]. unfold required. apply sm_add; [apply sm_add|apply sm_mul; auto].
  - apply clean_sm; auto.
  - apply sm_mul; [apply sm_mul; [auto|apply sm_cst]|]. apply sm_sin. apply sm_atan2; [apply sm_mul; [auto|apply sm_cst]|apply sm_spd; auto|]. left. apply kts_pos; auto.
Qed.
End EnrouteJ.

Section EmissionJ.
Context (n : R) (tb : ei_table) (s0 : R) (F V H D : R -> ext) (x v h d : jx)
  (Hx : exact s0 F x) (Hv : exact s0 V v) (Hh : exact s0 H h) (Hd : exact s0 D d)
  (Nn : n <> 0) (Bv : isr (fun r => Rabs r <= 30000) (V s0)) (Bh : isr (fun r => -4000000 <= r < 288.15 / 0.0019812) (H s0))
  (Oh : fixed h \/ H s0 <> Fin (11000 / ft)) (Od : off_limits s0 D d).
Lemma fl2sl_sm : exact s0 (fst (fl2sl LE n F V H D)) (fst (fl2sl JB n x v h d)) /\ exact s0 (snd (fl2sl LE n F V H D)) (snd (fl2sl JB n x v h d)).
Proof.
  destruct Bv as (y & Ey & By), Bh as (z & Ez & Bz). finr Hd u Eu.
  assert (Bz' : 0.0019812 * z < 288.15).
  { destruct Bz as [_ Bz]. apply (Rmult_lt_compat_l 0.0019812) in Bz; [|lra]. replace (0.0019812 * (288.15 / 0.0019812)) with 288.15 in Bz by (qr; field). auto. }
  pose proof (sm_alt s0 H h Hh) as A. pose proof (alt_off s0 H h Hh Oh) as A'. pose proof (sm_spd s0 V v Hv) as Av.
  assert (EH : mul LE H (cst LE ft) s0 = Fin (z * ft)) by (apply mul_val; auto).
  assert (EV : mul LE V (cst LE kts) s0 = Fin (y * kts)) by (apply mul_val; auto).
  pose proof (tas2mach_sm s0 _ D _ d A Hd A' Od _ _ Av) as S1. pose proof (T_sm s0 _ D _ d A Hd A' Od) as S2.
  assert (V1 : tas2mach LE (mul LE V (cst LE kts)) (mul LE H (cst LE ft)) D s0 = Fin (machR y z u)).
  { match goal with |- tas2mach LE ?P ?Q ?R _ = _ => change (tas2mach NP (P s0) (Q s0) (R s0) = Fin (machR y z u)) end. rewrite EV, EH, Eu. apply tas2mach_NP. }
  pose proof (temperature_val s0 _ D _ _ EH Eu) as V2.
  unfold fl2sl. cbv zeta. cbn [fst snd].
  set (ma := tas2mach LE _ _ D) in *. set (ma' := tas2mach JB _ _ d) in *. set (te := temperature LE _ D) in *. set (te' := temperature JB _ d) in *. clearbody ma ma' te te'.
  assert (Bm : 0.2 * machR y z u ^ 2 < exp_max).
  { pose proof (mach_small (y * 1.01) z u). assert (Rabs (y * 1.01) <= 30300) by (rewrite Rabs_mult, (Rabs_right 1.01) by lra; lra).
    unfold machR. pose proof (aR_lb (z * ft) u) as La.
    assert (Hq : Rabs (y * kts / aR (z * ft) u) <= 56).
    { unfold Rdiv. rewrite !Rabs_mult, Rabs_inv. rewrite (Rabs_pos_eq kts) by (uc; lra). rewrite (Rabs_pos_eq (aR _ _)) by lra. apply (Rmult_le_reg_r (aR (z * ft) u)); [lra|].
      rewrite Rmult_assoc, Rinv_l by lra. uc. pose proof (Rabs_pos y). nra. }
    rewrite <- (pow2_abs (y * kts / _)). unfold exp_max. pose proof (Rabs_pos (y * kts / aR (z * ft) u)). nra. }
  assert (Eb0 : mul LE (cst LE 0.2) (powi LE ma 2) s0 = Fin (0.2 * machR y z u ^ 2)) by (change (emul (Fin 0.2) (epowi (ma s0) 2) = Fin (0.2 * machR y z u ^ 2)); rewrite V1; reflexivity).
  assert (Sb : exact s0 (bexp LE (mul LE (cst LE 0.2) (powi LE ma 2))) (bexp JB (mul JB (cst JB 0.2) (powi JB ma' 2)))).
  { apply sm_exp; [apply sm_mul; [apply sm_cst|apply sm_powi; auto]|]. rewrite Eb0. apply isr_fin. auto. }
  assert (Eb : bexp LE (mul LE (cst LE 0.2) (powi LE ma 2)) s0 = Fin (betaR y z u)).
  { match goal with |- bexp LE ?P s0 = _ => change (eexp (P s0) = Fin (betaR y z u)) end. rewrite Eb0. apply eexp_fin. lra. }
  set (be := bexp LE _) in *. set (be' := bexp JB _) in *. clearbody be be'. pose proof (betaR_pos y z u) as Pb.
  assert (St : exact s0 (div LE (div LE te (cst LE 288.15)) be) (div JB (div JB te' (cst JB 288.15)) be')).
  { apply sm_div; [apply sm_div; [auto|apply sm_cst|apply nz; lra]|auto|]. rewrite Eb. apply nz. lra. }
  assert (Et : div LE (div LE te (cst LE 288.15)) be s0 = Fin (thetaR y z u)).
  { apply div_val; auto; try lra. apply div_val; auto; lra. }
  set (tt := div LE (div LE te _) be) in *. set (tt' := div JB (div JB te' _) be') in *. clearbody tt tt'. pose proof (thetaR_pos y z u) as Pt.
  assert (E0 : sub LE (cst LE 1) (div LE (mul LE (cst LE 0.0019812) H) (cst LE 288.15)) s0 = Fin (1 - 0.0019812 * z / 288.15)).
  { match goal with |- sub LE _ ?P s0 = _ => change (esub (Fin 1) (P s0) = Fin (1 - 0.0019812 * z / 288.15)) end.
    rewrite (div_val s0 (mul LE (cst LE 0.0019812) H) (cst LE 288.15) (0.0019812 * z) 288.15); auto; [apply mul_val; auto|lra]. }
  assert (Sd : exact s0 (div LE (power LE (sub LE (cst LE 1) (div LE (mul LE (cst LE 0.0019812) H) (cst LE 288.15))) (cst LE 5.255876)) (power LE be (cst LE 3.5)))
      (div JB (power JB (sub JB (cst JB 1) (div JB (mul JB (cst JB 0.0019812) h) (cst JB 288.15))) (cst JB 5.255876)) (power JB be' (cst JB 3.5)))).
  { apply sm_div.
    - apply sm_power; [|apply sm_cst|]. apply sm_sub; [apply sm_cst|apply sm_div; [apply sm_mul; [apply sm_cst|auto]|apply sm_cst|apply nz; lra]]. rewrite E0. apply isr_fin. lra.
    - apply sm_power; auto. apply sm_cst. rewrite Eb. apply isr_fin; auto.
    - change (epower (be s0) (Fin 3.5) <> Fin 0). rewrite Eb, epower_fin by auto. apply nz. pose proof (Rpower_pos (betaR y z u) 3.5). lra. }
  assert (Ed : div LE (power LE (sub LE (cst LE 1) (div LE (mul LE (cst LE 0.0019812) H) (cst LE 288.15))) (cst LE 5.255876)) (power LE be (cst LE 3.5)) s0 = Fin (deltaR y z u)).
  { apply div_val.
    - match goal with |- power LE ?P _ s0 = _ => change (epower (P s0) (Fin 5.255876) = Fin (Rpower (1 - 0.0019812 * z / 288.15) 5.255876)) end. rewrite E0. apply epower_fin. lra.
    - change (epower (be s0) (Fin 3.5) = Fin (Rpower (betaR y z u) 3.5)). rewrite Eb. apply epower_fin. auto.
    - pose proof (Rpower_pos (betaR y z u) 3.5). lra. }
  set (de := div LE (power LE _ _) _) in *. set (de' := div JB (power JB _ _) _) in *. clearbody de de'. pose proof (deltaR_pos y z u) as Pd.
  split.
  - apply sm_mul; auto. apply sm_div; auto; [|rewrite Ed; apply nz; lra]. apply sm_mul; [apply sm_div; [auto|apply sm_cst|apply nz; auto]|].
    apply sm_power; auto. apply sm_cst. rewrite Et. apply isr_fin; auto.
  - apply sm_div.
    + apply sm_power; auto. apply sm_cst. rewrite Et. apply isr_fin; auto.
    + apply sm_power; auto. apply sm_cst. rewrite Ed. apply isr_fin; auto.
    + change (epower (de s0) (Fin 1.02) <> Fin 0). rewrite Ed, epower_fin by auto. apply nz. pose proof (Rpower_pos (deltaR y z u) 1.02). lra.
Qed.
(** the sea-level fuel flow at which the databank is read is not one of the four tabulated flows, or nothing in it is traced *)
Definition off_table : Prop :=
  (fixed x /\ fixed v /\ fixed h /\ fixed d) \/
  forall q, q = ff_idl tb \/ q = ff_app tb \/ q = ff_co tb \/ q = ff_to tb -> fst (fl2sl NP n (F s0) (V s0) (H s0) (D s0)) <> Fin q.
Context (Ot : off_table).
Lemma index_sm : exact s0 (interp LE (fst (fl2sl LE n F V H D)) (ei_points tb)) (interp JB (fst (fl2sl JB n x v h d)) (ei_points tb)).
Proof.
  apply sm_interp; [apply fl2sl_sm|discriminate|]. destruct Ot as [(N1 & N2 & N3 & N4)|N].
  - left. apply (fl2sl_hom _ _ hom_fixed n x x v v h h d d); auto.
  - right. intros q Hq. apply (N (fst q)). unfold ei_points in Hq. cbn [In] in Hq. destruct Hq as [<-|[<-|[<-|[<-|[]]]]]; auto.
Qed.
Lemma co_sm : exact s0 (co_hc LE n tb F V H D) (co_hc JB n tb x v h d).
Proof.
  pose proof index_sm as A. destruct fl2sl_sm as [_ B]. unfold co_hc. destruct (fl2sl LE n F V H D) as [q r], (fl2sl JB n x v h d) as [q' r']. cbn [fst snd] in *.
  apply sm_mul; auto. apply sm_mul; auto.
Qed.
Lemma nox_sm : exact s0 (nox LE n tb F V H D) (nox JB n tb x v h d).
Proof.
  pose proof index_sm as A. destruct fl2sl_sm as [_ B]. destruct Bv as (y & Ey & By), Bh as (z & Ez & Bz). finr Hx w Ew. finr Hd u Eu.
  assert (Er : exists r, snd (fl2sl LE n F V H D) s0 = Fin r /\ 0 < r).
  { exists (ratioR y z u). split; [|apply ratioR_pos]. change (snd (fl2sl NP n (F s0) (V s0) (H s0) (D s0)) = Fin (ratioR y z u)). rewrite Ew, Ey, Ez, Eu, fl2sl_NP; auto.
    destruct Bz as [_ Bz]. apply (Rmult_lt_compat_l 0.0019812) in Bz; [|lra]. replace (0.0019812 * (288.15 / 0.0019812)) with 288.15 in Bz by (qr; field). auto. }
  unfold nox. destruct (fl2sl LE n F V H D) as [q r], (fl2sl JB n x v h d) as [q' r']. cbn [fst snd] in *. destruct Er as (rr & Er & Pr).
  apply sm_mul; auto. apply sm_mul; [apply sm_mul; auto|].
  - apply sm_sqrt. apply sm_div; auto. apply sm_cst. rewrite Er. apply nz. lra. rewrite (div_val s0 (cst LE 1) r 1 rr); auto; [|lra]. apply isr_fin. apply Rdiv_lt_0_compat; lra.
  - assert (E0 : mul LE (cst LE (-0.0001426)) (sub LE H (cst LE 12900)) s0 = Fin (-0.0001426 * (z - 12900))) by (cbn; rewrite Ez; reflexivity).
    assert (E0' : bexp LE (mul LE (cst LE (-0.0001426)) (sub LE H (cst LE 12900))) s0 = Fin (exp (-0.0001426 * (z - 12900)))).
    { match goal with |- bexp LE ?P s0 = _ => change (eexp (P s0) = Fin (exp (-0.0001426 * (z - 12900)))) end. rewrite E0. apply eexp_fin. unfold exp_max. lra. }
    apply sm_exp.
    + apply sm_mul; [apply sm_cst|]. apply sm_sub; [|apply sm_cst]. apply sm_mul; [apply sm_cst|]. apply sm_exp; [apply sm_mul; [apply sm_cst|apply sm_sub; [auto|apply sm_cst]]|]. rewrite E0. apply isr_fin. unfold exp_max. lra.
    + match goal with |- isr _ (mul LE _ (sub LE (mul LE _ ?P) _) s0) => change (isr (fun r => r < exp_max) (emul (Fin (-19)) (esub (emul (Fin 0.001) (P s0)) (Fin 0.00634)))) end.
      rewrite E0'. cbn [emul esub]. apply isr_fin. pose proof (exp_pos (-0.0001426 * (z - 12900))). unfold exp_max. lra.
Qed.
End EmissionJ.
