(** * Properties C107, C108: JAX gradients of drag and thrust *)
From Coq Require Import Reals List Bool Lra Lia Psatz.
From Coquelicot Require Import Coquelicot.
From Verif Require Import Num NumFacts SpecNum Aero AeroFacts Drag DragFacts Thrust Jax SpecJax Hom JaxFacts JaxHom JaxAero JaxDrag JaxThrust JaxNf P_Drag P_Thrust.
Import ListNotations.
Open Scope R_scope.

(** ** C107: drag; mass in kg, speed in kt, altitude in ft, vertical rate in ft/min *)
Section Drag107.
Context (p : drag_par) (s0 : R) (M V H W D : R -> ext) (m v h w d : jx)
  (Hm : exact s0 M m) (Hv : exact s0 V v) (Hh : exact s0 H h) (Hw : exact s0 W w) (Hd : exact s0 D d)
  (Pv : exists r, V s0 = Fin r /\ 0 < r)
  (Oh : fixed h \/ H s0 <> Fin (11000 / 0.3048))
  (Od : fixed d \/ (D s0 <> Fin (-25) /\ D s0 <> Fin 15))
  (Of : (fixed v /\ fixed h /\ fixed d) \/
        emul (emul (emul (Fin 0.5) (density NP (emul (H s0) (Fin 0.3048)) (D s0))) (epowi (emul (V s0) (Fin 0.514444)) 2)) (Fin (wing_area p)) <> Fin 1e-3).
Theorem C107_clean : forall wave, -90 < wing_sweep p < 90 ->
  exact s0 (fun s => clean NP p wave (M s) (V s) (H s) (W s) (D s)) (clean JB p wave m v h w d).
Proof.
  intros wave Sw. pose proof (clean_sm p s0 M V H D m v h d Hm Hv Hh Hd Pv Oh Od Of Sw wave W w Hw) as E. destruct wave; exact E.
Qed.
Theorem C107_nonclean : forall F f gear, exact s0 F f -> (exists r, F s0 = Fin r /\ 0 <= r) ->
  0 < k_clean p -> 0 < wing_area p -> 0 < cf_c p -> 0 < mtow p ->
  exact s0 (fun s => nonclean NP p (M s) (V s) (H s) (F s) (W s) (D s) gear) (nonclean JB p m v h f w d gear).
Proof.
  intros F f gear Hf Pf Pk PS Pc PM. pose proof (nonclean_sm p s0 M V H D W F m v h d w f Hm Hv Hh Hd Hw Hf Pv Oh Od Of Pk PS Pc PM Pf gear) as E. unfold nonclean in *. destruct gear, (rear_mounted p); exact E.
Qed.
End Drag107.
(** an A320 of 60 t in level flight: the gradient by mass is twice the induced drag divided by the mass *)
Example C107_ex : j_grad (clean JB a320_drag false (j_var 60000) (j_const 250) (j_const 10000) (j_const 0) (j_const 0)) =
  Fin (2 * (k_clean a320_drag * (60000 * g0) ^ 2 / qSR (wing_area a320_drag) 250 10000 0) / 60000).
Proof.
  assert (P : exists r, Fin 250 = Fin r /\ 0 < r) by (exists 250; split; [reflexivity|lra]).
  assert (Sw : -90 < wing_sweep a320_drag < 90) by (unfold a320_drag, wing_sweep; lra).
  destruct (exact_grad _ _ _ (C107_clean a320_drag 60000 Fin (fun _ => Fin 250) (fun _ => Fin 10000) (fun _ => Fin 0) (fun _ => Fin 0)
    (j_var 60000) (j_const 250) (j_const 10000) (j_const 0) (j_const 0) (exact_var _) (exact_const _ _) (exact_const _ _) (exact_const _ _) (exact_const _ _)
    P (or_introl eq_refl) (or_introl eq_refl) (or_introl (conj eq_refl (conj eq_refl eq_refl))) false Sw)) as (g & D & _ & ->).
  f_equal. apply (grad_unique _ _ _ _ D). eexists. split.
  - apply filter_forall. intros s. rewrite clean_NP, dragR_eq, liftR_level by lra. reflexivity.
  - pose proof (qSR_pos (wing_area a320_drag) 250 10000 0). set (q := qSR _ _ _ _) in *. clearbody q. generalize (cd0_clean a320_drag) (k_clean a320_drag) g0. intros c k g1. auto_derive; [lra|]. field. lra.
Qed.
(** At standstill with zero vertical rate the drag does not change with speed, but JAX does not give a number: the flight path angle is [arctan2(0, 0)]. *)
Theorem C107_standstill_refuted : forall p m h d,
  has_derivative (fun s => clean NP p false (Fin m) (Fin s) (Fin h) (Fin 0) (Fin d)) 0 0 /\
  let a := clean JB p false (j_const m) (j_var 0) (j_const h) (j_const 0) (j_const d) in
  ~ finite (j_grad a) /\ ~ finite (j_jvp a).
Proof.
  intros p m h d. split.
  - exists (fun _ => cd0_clean p * 1e-3 + k_clean p * (m * g0) ^ 2 / 1e-3). split; [|auto_derive; auto].
    set (c := 0.5 * rhoR (h * ft) d). 
    assert (L : locally 0 (fun s => c * (s * kts) ^ 2 * wing_area p < 1e-3)).
    { assert (Q : continuous (fun s : R => c * (s * kts) ^ 2 * wing_area p) 0). { apply (ex_derive_continuous (fun s : R => c * (s * kts) ^ 2 * wing_area p)). auto_derive; auto. }
      apply (Q (fun y => y < 1e-3)). replace (c * (0 * kts) ^ 2 * wing_area p) with 0 by ring. apply locally_lt. lra. }
    revert L. apply filter_imp. intros s Hs. rewrite clean_NP, dragR_eq. f_equal. unfold qSR. fold c. rewrite Rmax_right by lra.
    assert (Q : liftR m s 0 ^ 2 = (m * g0) ^ 2); [|rewrite Q; reflexivity].
    unfold liftR. rewrite Rmult_0_l. destruct (Req_dec s 0) as [->|N].
    + rewrite Rmult_0_l, atan2_00, cos_0. ring.
    + assert (K : s * kts <> 0) by (apply kts_nz; auto). rewrite cos_atan2_hyp by auto. set (x := s * kts) in *.
      assert (P : 0 < x * x + 0 * 0) by nra. assert (R2 : sqrt (x * x + 0 * 0) ^ 2 = x * x + 0 * 0) by (rewrite <- Rsqr_pow2; apply Rsqr_sqrt; lra).
      assert (sqrt (x * x + 0 * 0) <> 0) by (pose proof (sqrt_lt_R0 _ P); lra).
      replace ((m * g0 * (x / sqrt (x * x + 0 * 0))) ^ 2) with ((m * g0) ^ 2 * (x * x) / sqrt (x * x + 0 * 0) ^ 2) by (field; auto). rewrite R2. field. nra.
  - cbv zeta. apply dirty_grad. unfold clean, calc_drag. 
    assert (G : dirty (barctan2 JB (mul JB (j_const 0) (cst JB fpm)) (mul JB (j_var 0) (cst JB kts)))).
    { apply bin_start; try (st; fail). right. split; [apply bin_traced; left; apply var_traced|]. cbn. destruct Req_EM_T; [exact I|]. exfalso. apply n. ring. }
    assert (C : dirty (fst (cl_qS JB p (j_const m) (j_var 0) (j_const h) (j_const 0) (j_const d)))).
    { unfold cl_qS. cbv zeta. cbn [fst]. apply bin_dirty. left. apply bin_dirty. right. apply un_dirty. exact G. }
    destruct (cl_qS JB p (j_const m) (j_var 0) (j_const h) (j_const 0) (j_const d)) as [cl q]. cbn [fst] in C.
    apply bin_dirty. left. apply bin_dirty. right. apply bin_dirty. right. apply un_dirty. exact C.
Qed.

(** ** C108: thrust; speed in kt, altitude in ft, vertical rate in ft/min *)
Section Thrust108.
Context (e : thrust_par) (s0 : R) (V H D : R -> ext) (v h d : jx) (Hv : exact s0 V v) (Hh : exact s0 H h) (Hd : exact s0 D d)
  (Od : fixed d \/ (D s0 <> Fin (-25) /\ D s0 <> Fin 15)).
Theorem C108_takeoff : (fixed h \/ H s0 <> Fin (11000 / 0.3048)) -> 0 <= eng_bpr e ->
  exact s0 (fun s => takeoff_thrust NP e (V s) (H s) (D s)) (takeoff_thrust JB e v h d).
Proof. intros Oh Pb. exact (takeoff_sm e s0 V H D v h d Hv Hh Hd Oh Od Pb). Qed.
Theorem C108_idle : (fixed h \/ H s0 <> Fin (11000 / 0.3048)) -> 0 <= eng_bpr e ->
  exact s0 (fun s => descent_idle NP e (V s) (H s) (D s)) (descent_idle JB e v h d).
Proof. intros Oh Pb. exact (idle_sm e s0 V H D v h d Hv Hh Hd Oh Od Pb). Qed.
Context (Oh : fixed h \/ H s0 <> Fin (11000 / 0.3048) /\ H s0 <> Fin 10000 /\ H s0 <> Fin 30000) (Ov : fixed v \/ V s0 <> Fin 10)
  (Pm : 0 < cruise_mach e) (PF : eng_cruise_thrust e * eng_number e <> 0).
Theorem C108_climb : forall C c, exact s0 C c -> (fixed c \/ C s0 <> Fin 0) ->
  exact s0 (fun s => climb_thrust NP e (V s) (H s) (C s) (D s)) (climb_thrust JB e v h c d).
Proof.
  intros C c Hc Oc.
  apply (exact_ext s0 (climb_thrust LE e V H C D)).
  - exact (climb_sm e s0 V H C D v h c d Hv Hh Hc Hd Oh Od Ov Oc Pm PF).
  - intros s. apply (climb_thrust_hom _ _ (hom_at s)); reflexivity.
Qed.
Theorem C108_cruise : exact s0 (fun s => cruise_thrust NP e (V s) (H s) (D s)) (cruise_thrust JB e v h d).
Proof.
  apply (exact_ext s0 (cruise_thrust LE e V H D)).
  - exact (cruise_sm e s0 V H D v h d Hv Hh Hd Oh Od Ov Pm PF).
  - intros s. apply (cruise_thrust_hom _ _ (hom_at s)); reflexivity.
Qed.
End Thrust108.
(** an A320 that climbs at 300 kt and 2000 ft/min through 20000 ft: all conditions hold, whichever argument is traced *)
Example C108_ex : grad_is (fun s => climb_thrust NP a320_thrust (Fin s) (Fin 20000) (Fin 2000) (Fin 0)) 300 (climb_thrust JB a320_thrust (j_var 300) (j_const 20000) (j_const 2000) (j_const 0)) /\
  grad_is (fun s => climb_thrust NP a320_thrust (Fin 300) (Fin s) (Fin 2000) (Fin 0)) 20000 (climb_thrust JB a320_thrust (j_const 300) (j_var 20000) (j_const 2000) (j_const 0)) /\
  grad_is (fun s => climb_thrust NP a320_thrust (Fin 300) (Fin 20000) (Fin s) (Fin 0)) 2000 (climb_thrust JB a320_thrust (j_const 300) (j_const 20000) (j_var 2000) (j_const 0)) /\
  grad_is (fun s => takeoff_thrust NP a320_thrust (Fin s) (Fin 0) (Fin 0)) 0 (takeoff_thrust JB a320_thrust (j_var 0) (j_const 0) (j_const 0)).
Proof.
  assert (Em : 0 < cruise_mach a320_thrust /\ eng_cruise_thrust a320_thrust * eng_number a320_thrust <> 0 /\ 0 <= eng_bpr a320_thrust).
  { unfold a320_thrust, thrust_init, Rltb. destruct Rlt_dec; cbn; repeat split; lra. }
  destruct Em as (P1 & P2 & P3).
  assert (Ni : forall x y : R, x <> y -> Fin x <> Fin y) by (intros x y N Q; injection Q; auto).
  repeat apply conj; apply exact_grad.
  - apply (C108_climb a320_thrust 300 Fin (fun _ => Fin 20000) (fun _ => Fin 0) (j_var 300) (j_const 20000) (j_const 0) (exact_var _) (exact_const _ _) (exact_const _ _)
      (or_introl eq_refl) (or_introl eq_refl) (or_intror (Ni 300 10 ltac:(lra))) P1 P2 (fun _ => Fin 2000) (j_const 2000) (exact_const _ _) (or_introl eq_refl)).
  - apply (C108_climb a320_thrust 20000 (fun _ => Fin 300) Fin (fun _ => Fin 0) (j_const 300) (j_var 20000) (j_const 0) (exact_const _ _) (exact_var _) (exact_const _ _)
      (or_introl eq_refl) (or_intror (conj (Ni 20000 (11000 / 0.3048) ltac:(lra)) (conj (Ni 20000 10000 ltac:(lra)) (Ni 20000 30000 ltac:(lra))))) (or_introl eq_refl) P1 P2 (fun _ => Fin 2000) (j_const 2000) (exact_const _ _) (or_introl eq_refl)).
  - apply (C108_climb a320_thrust 2000 (fun _ => Fin 300) (fun _ => Fin 20000) (fun _ => Fin 0) (j_const 300) (j_const 20000) (j_const 0) (exact_const _ _) (exact_const _ _) (exact_const _ _)
      (or_introl eq_refl) (or_introl eq_refl) (or_introl eq_refl) P1 P2 Fin (j_var 2000) (exact_var _) (or_intror (Ni 2000 0 ltac:(lra)))).
  - apply (C108_takeoff a320_thrust 0 Fin (fun _ => Fin 0) (fun _ => Fin 0) (j_var 0) (j_const 0) (j_const 0) (exact_var _) (exact_const _ _) (exact_const _ _) (or_introl eq_refl) (or_introl eq_refl) P3).
Qed.
