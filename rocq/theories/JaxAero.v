(** Exact derivatives of the functions of openap/aero.py with the JAX backend: lemmas. *)
From Coq Require Import Reals List Bool Lra Lia Psatz.
From Coquelicot Require Import Coquelicot.
From Verif Require Import Num NumFacts Jax SpecJax JaxFacts Aero AeroFacts.
Import ListNotations.
Open Scope R_scope.

(** the altitude (m) is not traced or not exactly the tropopause *)
Definition off_tropopause (s0 : R) (H : R -> ext) (a : jx) : Prop := fixed a \/ H s0 <> Fin 11000.
(** the temperature deviation is not traced or not exactly at a limit *)
Definition off_limits (s0 : R) (D : R -> ext) (b : jx) : Prop := fixed b \/ (D s0 <> Fin (-25) /\ D s0 <> Fin 15).

Ltac finr H r E := destruct (exact_fin _ _ _ H) as (r & E).
Lemma clip_sm : forall s0 D b, exact s0 D b -> off_limits s0 D b -> exact s0 (clip LE D (cst LE (-25)) (cst LE 15)) (clip JB b (cst JB (-25)) (cst JB 15)).
Proof.
  intros s0 D b Hb O. finr Hb r E. apply sm_clip; try apply sm_cst; auto; destruct O as [O|[O1 O2]].
  - apply (apart_fixed s0 _ _ b (cst JB (-25))); auto; [apply sm_cst|reflexivity].
  - left. exact O1.
  - apply (apart_fixed s0 _ _ (maximum JB b (cst JB (-25))) (cst JB 15)); auto; try apply sm_cst; try reflexivity.
    + apply sm_max; auto; [apply sm_cst|]. apply (apart_fixed s0 _ _ b (cst JB (-25))); auto; [apply sm_cst|reflexivity].
    + unfold fixed in *. cbn. rewrite O. reflexivity.
  - left. intros Q. apply O2. revert Q. cbn. rewrite E. cbn [emax]. unfold Rmax. destruct (Rle_dec r (-25)); intros Q; injection Q as Q; [lra|subst; reflexivity].
Qed.
Lemma clip_fin : forall r, eclip (Fin r) (Fin (-25)) (Fin 15) = Fin (clipT r).
Proof. reflexivity. Qed.
Ltac fx := unfold fixed in *; cbn; repeat match goal with H : j_der _ = None |- _ => rewrite H; clear H end; reflexivity.


Lemma isr_fin : forall (P : R -> Prop) r, P r -> isr P (Fin r).
Proof. intros. exists r. auto. Qed.
Lemma nz : forall r, r <> 0 -> Fin r <> Fin 0.
Proof. congruence. Qed.
Lemma div_val : forall s0 F G x y, F s0 = Fin x -> G s0 = Fin y -> y <> 0 -> div LE F G s0 = Fin (x / y).
Proof. intros s0 F G x y E1 E2 N. change (ediv (F s0) (G s0) = Fin (x / y)). rewrite E1, E2. apply ediv_fin. auto. Qed.
Section Atmos.
Context (s0 : R) (H D : R -> ext) (a b : jx) (Ha : exact s0 H a) (Hb : exact s0 D b) (Oh : off_tropopause s0 H a) (Od : off_limits s0 D b).
Let D' := clip LE D (cst LE (-25)) (cst LE 15).
Let b' := clip JB b (cst JB (-25)) (cst JB 15).
Let Hd : exact s0 D' b' := clip_sm s0 D b Hb Od.
Lemma T_sm : exact s0 (temperature LE H D) (temperature JB a b).
Proof.
  finr Ha h Eh. finr Hd d' Ed'. apply sm_max.
  - apply sm_add; [apply sm_add; [apply sm_cst|exact Hd]|apply sm_mul; [apply sm_cst|auto]].
  - apply sm_add; [apply sm_cst|exact Hd].
  - change (apart s0 (fun s => eadd (eadd (Fin T0) (D' s)) (emul (Fin beta) (H s))) (fun s => eadd (Fin 216.65) (D' s))).
    destruct (Req_EM_T h 11000) as [E|E].
    + destruct Oh as [N|N]; [|congruence]. right. pose proof (fixed_loc _ _ _ Ha N) as L. generalize (filter_and _ _ L (exact_loc _ _ _ Hd)). apply filter_imp.
      intros s [-> (r & ->)]. rewrite Eh, E. cbn [emul eadd]. f_equal. uc. lra.
    + left. rewrite Eh, Ed'. cbn [emul eadd]. intros Q. injection Q as Q. revert Q. uc. lra.
Qed.
Lemma temperature_val : forall h d, H s0 = Fin h -> D s0 = Fin d -> temperature LE H D s0 = Fin (tR h d).
Proof. intros h d E1 E2. change (temperature NP (H s0) (D s0) = Fin (tR h d)). rewrite E1, E2. apply temperature_NP. Qed.
Lemma rho_sm : exact s0 (density LE H D) (density JB a b).
Proof.
  finr Ha h Eh. finr Hb d Ed.
  assert (S : exact s0 (add LE (cst LE T0) D') (add JB (cst JB T0) b')) by (apply sm_add; [apply sm_cst|exact Hd]).
  assert (ES : add LE (cst LE T0) D' s0 = Fin (T0 + clipT d)) by (cbn; rewrite Ed; reflexivity).
  pose proof (T0s_pos d) as P. pose proof (tR_pos h d) as P'.
  assert (Q : exact s0 (maximum LE (cst LE 0.0) (sub LE H (cst LE 11000.0))) (maximum JB (cst JB 0.0) (sub JB a (cst JB 11000.0)))).
  { apply sm_max; [apply sm_cst|apply sm_sub; [auto|apply sm_cst]|]. destruct Oh as [N|N].
    - apply (apart_fixed s0 _ _ (cst JB 0.0) (sub JB a (cst JB 11000.0))); [apply sm_cst|apply sm_sub; [auto|apply sm_cst]|reflexivity|fx].
    - left. cbn. rewrite Eh in *. cbn [esub]. intros Z. injection Z as Z. apply N. f_equal. lra. }
  apply sm_mul; [apply sm_mul; [apply sm_cst|]|].
  - apply sm_power; [apply sm_div; [exact T_sm|exact S|]|apply sm_cst|].
    + change (add LE (cst LE T0) D' s0 <> Fin 0). rewrite ES. apply nz. lra.
    + change (posi (ediv (temperature LE H D s0) (add LE (cst LE T0) D' s0))). rewrite ES, (temperature_val h d Eh Ed), ediv_fin by lra. apply isr_fin. apply Rdiv_lt_0_compat; lra.
  - apply sm_exp. { apply sm_div; [apply sm_neg; exact Q|apply sm_cst|cbn; apply nz; lra]. }
    cbn. rewrite Eh. cbn [esub emax eneg]. rewrite ediv_fin by lra. apply isr_fin. unfold exp_max. pose proof (Rmax_l 0.0 (h - 11000.0)).
    assert (- Rmax 0.0 (h - 11000.0) / 6341.552161 <= 0); [|lra]. apply Rmult_le_reg_r with 6341.552161; [lra|]. unfold Rdiv. rewrite Rmult_assoc, Rinv_l by lra. lra.
Qed.
Lemma p_sm : exact s0 (pressure LE H D) (pressure JB a b).
Proof. apply sm_mul; [apply sm_mul; [exact rho_sm|apply sm_cst]|exact T_sm]. Qed.
Lemma density_val : forall h d, H s0 = Fin h -> D s0 = Fin d -> density LE H D s0 = Fin (rhoR h d).
Proof. intros h d E1 E2. change (density NP (H s0) (D s0) = Fin (rhoR h d)). rewrite E1, E2. apply density_NP. Qed.
Lemma pressure_val : forall h d, H s0 = Fin h -> D s0 = Fin d -> pressure LE H D s0 = Fin (pR h d).
Proof. intros h d E1 E2. change (pressure NP (H s0) (D s0) = Fin (pR h d)). rewrite E1, E2. apply pressure_NP. Qed.
Lemma a_sm : exact s0 (vsound LE H D) (vsound JB a b).
Proof.
  finr Ha h Eh. finr Hb d Ed. apply sm_sqrt.
  - apply sm_mul; [apply sm_mul; apply sm_cst|exact T_sm].
  - change (posi (emul (emul (Fin gamma) (Fin Rgas)) (temperature LE H D s0))). rewrite (temperature_val h d Eh Ed). apply isr_fin. pose proof (tR_pos h d). uc. lra.
Qed.
Lemma vsound_val : forall h d, H s0 = Fin h -> D s0 = Fin d -> vsound LE H D s0 = Fin (aR h d).
Proof. intros h d E1 E2. change (vsound NP (H s0) (D s0) = Fin (aR h d)). rewrite E1, E2. apply vsound_NP. Qed.

Context (V : R -> ext) (v : jx) (Hv : exact s0 V v).
Lemma tas2mach_sm : exact s0 (tas2mach LE V H D) (tas2mach JB v a b).
Proof. finr Ha h Eh. finr Hb d Ed. apply sm_div; [auto|exact a_sm|]. rewrite (vsound_val h d Eh Ed). apply nz. pose proof (aR_pos h d). lra. Qed.
Lemma mach2tas_sm : exact s0 (mach2tas LE V H D) (mach2tas JB v a b).
Proof. apply sm_mul; [auto|exact a_sm]. Qed.
Lemma eas2tas_sm : exact s0 (eas2tas LE V H D) (eas2tas JB v a b).
Proof.
  finr Ha h Eh. finr Hb d Ed. pose proof (rhoR_pos h d). apply sm_mul; [auto|]. apply sm_sqrt.
  - apply sm_div; [apply sm_cst|exact rho_sm|]. rewrite (density_val h d Eh Ed). apply nz. lra.
  - change (posi (ediv (Fin rho0) (density LE H D s0))). rewrite (density_val h d Eh Ed), ediv_fin by lra. apply isr_fin. apply Rdiv_lt_0_compat; [uc|]; lra.
Qed.
Lemma tas2eas_sm : exact s0 (tas2eas LE V H D) (tas2eas JB v a b).
Proof.
  finr Ha h Eh. finr Hb d Ed. pose proof (rhoR_pos h d). apply sm_mul; [auto|]. apply sm_sqrt.
  - apply sm_div; [exact rho_sm|apply sm_cst|]. apply nz. uc. lra.
  - change (posi (ediv (density LE H D s0) (Fin rho0))). rewrite (density_val h d Eh Ed), ediv_fin by (uc; lra). apply isr_fin. apply Rdiv_lt_0_compat; [|uc]; lra.
Qed.
End Atmos.

(** the speed conversion between two atmospheres *)
Section Conv.
Context (s0 : R) (P1 R1 P2 R2 V : R -> ext) (p1 r1 p2 r2 v : jx)
  (H1 : exact s0 P1 p1) (H2 : exact s0 R1 r1) (H3 : exact s0 P2 p2) (H4 : exact s0 R2 r2) (H5 : exact s0 V v)
  (Q1 : posi (P1 s0)) (Q2 : posi (R1 s0)) (Q3 : posi (P2 s0)) (Q4 : posi (R2 s0)).
Definition qdyn (b : backend) (p r v : T b) : T b := mul b p (sub b (power b (add b (cst b 1.0) (div b (mul b (mul b r v) v) (mul b (cst b 7.0) p))) (cst b 3.5)) (cst b 1.0)).
Definition vdyn (b : backend) (p r q : T b) : T b := mul b (div b (mul b (cst b 7.0) p) r) (sub b (power b (add b (cst b 1.0) (div b q p)) (div b (cst b 2.0) (cst b 7.0))) (cst b 1.0)).
Definition vdyn' (b : backend) (p r q : T b) : T b := mul b (div b (mul b (cst b 7.0) p) r) (sub b (power b (add b (div b q p) (cst b 1.0)) (div b (cst b 2.0) (cst b 7.0))) (cst b 1.0)).
Lemma qdyn_sm : exact s0 (qdyn LE P1 R1 V) (qdyn JB p1 r1 v).
Proof.
  destruct Q1 as (p & E1 & L1), Q2 as (r & E2 & L2). finr H5 x E5. apply sm_mul; [auto|]. apply sm_sub; [|apply sm_cst]. apply sm_power; [|apply sm_cst|].
  - apply sm_add; [apply sm_cst|]. apply sm_div; [apply sm_mul; [apply sm_mul|]; auto|apply sm_mul; [apply sm_cst|auto]|]. cbn. rewrite E1. cbn [emul]. apply nz. lra.
  - cbn. rewrite E1, E2, E5. cbn [emul]. rewrite ediv_fin by lra. cbn [eadd]. apply isr_fin. pose proof (qd_arg p r x L1 L2). lra.
Qed.
Lemma qdyn_val : exists q, qdyn LE P1 R1 V s0 = Fin q /\ 0 <= q /\ (V s0 <> Fin 0 -> 0 < q).
Proof.
  destruct Q1 as (p & E1 & L1), Q2 as (r & E2 & L2). finr H5 x E5. exists (qd p r x). split; [|split].
  - cbn. rewrite E1, E2, E5. cbn [emul]. pose proof (qd_arg p r x L1 L2). rewrite ediv_fin by lra. cbn [eadd]. rewrite epower_fin by lra. reflexivity.
  - apply qd_nonneg; auto.
  - intros N. rewrite E5 in N. assert (x <> 0) by congruence. rewrite <- (qd_abs p r x). replace 0 with (qd p r 0).
    + apply qd_incr; auto. split; [lra|]. apply Rabs_pos_lt; auto.
    + unfold qd. replace (1.0 + r * 0 * 0 / (7.0 * p)) with 1 by (qr; field; lra). rewrite Rpower_one. lra.
Qed.
Context (Q : R -> ext) (q : jx) (HQ : exact s0 Q q).
Lemma vdyn_sm : isr (fun r => 0 <= r) (Q s0) -> exact s0 (vdyn LE P2 R2 Q) (vdyn JB p2 r2 q) /\ exact s0 (vdyn' LE P2 R2 Q) (vdyn' JB p2 r2 q).
Proof.
  intros (x & E & L). destruct Q3 as (p & E1 & L1), Q4 as (r & E2 & L2).
  assert (A : exact s0 (div LE (mul LE (cst LE 7.0) P2) R2) (div JB (mul JB (cst JB 7.0) p2) r2)).
  { apply sm_div; auto. apply sm_mul; [apply sm_cst|auto]. rewrite E2. apply nz. lra. }
  assert (B : exact s0 (div LE Q P2) (div JB q p2)) by (apply sm_div; auto; rewrite E1; apply nz; lra).
  assert (C : exact s0 (div LE (cst LE 2.0) (cst LE 7.0)) (div JB (cst JB 2.0) (cst JB 7.0))) by (apply sm_div; try apply sm_cst; apply nz; lra).
  pose proof (vq_arg p x L1 L) as W.
  split; (apply sm_mul; [exact A|]; apply sm_sub; [|apply sm_cst]; apply sm_power; [apply sm_add; [try apply sm_cst; auto|try apply sm_cst; auto]|exact C|]);
    cbn; rewrite E, E1, ediv_fin by lra; cbn [eadd]; apply isr_fin; lra.
Qed.
Lemma vdyn_pos : posi (Q s0) -> posi (vdyn LE P2 R2 Q s0) /\ posi (vdyn' LE P2 R2 Q s0).
Proof.
  intros (x & E & L). destruct Q3 as (p & E1 & L1), Q4 as (r & E2 & L2). pose proof (vq_arg p x L1 ltac:(lra)) as W.
  assert (M : 0 < 7.0 * p / r * (Rpower (1.0 + x / p) (2.0 / 7.0) - 1.0)).
  { apply Rmult_lt_0_compat; [apply Rdiv_lt_0_compat; lra|]. assert (Rpower 1 (2.0 / 7.0) < Rpower (1.0 + x / p) (2.0 / 7.0)).
    - apply Rpower_lt_base; try lra. assert (0 < x / p) by (apply Rdiv_lt_0_compat; lra). lra.
    - rewrite Rpower_one in H. lra. }
  split; cbn; rewrite E, E1, E2, (ediv_fin x) by lra; (destruct (Req_EM_T 7.0 0); [lra|]); cbn [eadd emul]; rewrite epower_fin, ediv_fin by lra; cbn [esub emul]; apply isr_fin; auto.
  replace (x / p + 1.0) with (1.0 + x / p) by ring. exact M.
Qed.
End Conv.

Lemma tas2cas_dyn : forall b v h d, tas2cas b v h d = bsqrt b (vdyn' b (cst b p0) (cst b rho0) (qdyn b (pressure b h d) (density b h d) v)).
Proof. reflexivity. Qed.
Lemma cas2tas_dyn : forall b v h d, cas2tas b v h d = bsqrt b (vdyn b (pressure b h d) (density b h d) (qdyn b (cst b p0) (cst b rho0) v)).
Proof. reflexivity. Qed.
Section Speeds.
Context (s0 : R) (H D V : R -> ext) (a b v : jx) (Ha : exact s0 H a) (Hb : exact s0 D b) (Hv : exact s0 V v)
  (Oh : off_tropopause s0 H a) (Od : off_limits s0 D b) (Nv : V s0 <> Fin 0).
Let P := pressure LE H D. Let Rh := density LE H D. Let p := pressure JB a b. Let r := density JB a b.
Lemma PR_pos : posi (P s0) /\ posi (Rh s0).
Proof.
  finr Ha h Eh. finr Hb d Ed. unfold P, Rh. rewrite (pressure_val s0 H D h d Eh Ed), (density_val s0 H D h d Eh Ed).
  split; apply isr_fin; [apply pR_pos|apply rhoR_pos].
Qed.
Lemma tas2cas_sm : exact s0 (tas2cas LE V H D) (tas2cas JB v a b).
Proof.
  destruct PR_pos as [Q1 Q2].
  assert (Z1 : posi (cst LE p0 s0)) by (apply isr_fin; apply p0_pos). assert (Z2 : posi (cst LE rho0 s0)) by (apply isr_fin; apply rho0_pos).
  pose proof (qdyn_sm s0 P Rh V p r v (p_sm s0 H D a b Ha Hb Oh Od) (rho_sm s0 H D a b Ha Hb Oh Od) Hv Q1 Q2) as S.
  destruct (qdyn_val s0 P Rh V v Hv Q1 Q2) as (q & E & L & L').
  rewrite !tas2cas_dyn.
  apply sm_sqrt.
  - refine (proj2 (vdyn_sm s0 (cst LE p0) (cst LE rho0) (cst JB p0) (cst JB rho0) (sm_cst _ _) (sm_cst _ _) Z1 Z2 _ _ S _)). rewrite E. apply isr_fin. auto.
  - refine (proj2 (vdyn_pos s0 (cst LE p0) (cst LE rho0) Z1 Z2 (qdyn LE P Rh V) _)). rewrite E. apply isr_fin. auto.
Qed.
Lemma cas2tas_sm : exact s0 (cas2tas LE V H D) (cas2tas JB v a b).
Proof.
  destruct PR_pos as [Q1 Q2].
  assert (Z1 : posi (cst LE p0 s0)) by (apply isr_fin; apply p0_pos). assert (Z2 : posi (cst LE rho0 s0)) by (apply isr_fin; apply rho0_pos).
  pose proof (qdyn_sm s0 (cst LE p0) (cst LE rho0) V (cst JB p0) (cst JB rho0) v (sm_cst _ _) (sm_cst _ _) Hv Z1 Z2) as S.
  destruct (qdyn_val s0 (cst LE p0) (cst LE rho0) V v Hv Z1 Z2) as (q & E & L & L').
  rewrite !cas2tas_dyn.
  apply sm_sqrt.
  - refine (proj1 (vdyn_sm s0 P Rh p r (p_sm s0 H D a b Ha Hb Oh Od) (rho_sm s0 H D a b Ha Hb Oh Od) Q1 Q2 _ _ S _)). rewrite E. apply isr_fin. auto.
  - refine (proj1 (vdyn_pos s0 P Rh Q1 Q2 (qdyn LE (cst LE p0) (cst LE rho0) V) _)). rewrite E. apply isr_fin. auto.
Qed.
End Speeds.
Section Mach.
Context (s0 : R) (H D V : R -> ext) (a b v : jx) (Ha : exact s0 H a) (Hb : exact s0 D b) (Hv : exact s0 V v)
  (Oh : off_tropopause s0 H a) (Od : off_limits s0 D b) (Nv : V s0 <> Fin 0).
Lemma mach2cas_sm : exact s0 (mach2cas LE V H D) (mach2cas JB v a b).
Proof.
  unfold mach2cas. apply tas2cas_sm; auto. { apply mach2tas_sm; auto. }
  finr Ha h Eh. finr Hb d Ed. finr Hv x Ev. change (emul (V s0) (vsound LE H D s0) <> Fin 0). rewrite (vsound_val s0 H D h d Eh Ed). rewrite Ev in *. cbn [emul].
  pose proof (aR_pos h d). assert (x <> 0) by congruence. apply nz. apply Rmult_integral_contrapositive_currified; lra.
Qed.
Lemma cas2mach_sm : exact s0 (cas2mach LE V H D) (cas2mach JB v a b).
Proof. unfold cas2mach. apply tas2mach_sm; auto. apply cas2tas_sm; auto. Qed.
End Mach.

Lemma apart_cst : forall s0 F a c, exact s0 F a -> (fixed a \/ F s0 <> Fin c) -> apart s0 F (cst LE c).
Proof.
  intros s0 F a c H [N|N]; [|left; exact N]. apply (apart_fixed s0 _ _ a (cst JB c)); auto. apply sm_cst. reflexivity.
Qed.
Section HIsa.
Context (s0 : R) (P D : R -> ext) (p d : jx) (Hp : exact s0 P p) (Hd : exact s0 D d) (Np : posi (P s0)) (Op : fixed p \/ P s0 <> Fin 22630).
Lemma h_isa_sm : exact s0 (h_isa LE P D) (h_isa JB p d).
Proof.
  destruct Np as (x & E & L). finr Hd y Ed. unfold h_isa. apply sm_where.
  - apply sm_div; [|apply sm_cst|apply nz; uc; lra]. apply sm_sub; [|apply sm_add; [apply sm_cst|auto]]. apply sm_mul; [apply sm_add; [apply sm_cst|auto]|].
    apply sm_power. 
    + apply sm_div; auto. apply sm_cst. rewrite E. apply nz. lra.
    + apply sm_div; [apply sm_mul|..]; try apply sm_cst. apply nz. uc. lra.
    + rewrite (div_val s0 (cst LE p0) P p0 x eq_refl E) by lra. apply isr_fin. apply Rdiv_lt_0_compat; [uc|]; lra.
  - apply sm_add; [|apply sm_cst]. apply sm_mul.
    + apply sm_div; [|apply sm_cst|apply nz; uc; lra]. apply sm_mul. apply sm_neg. apply sm_cst. apply sm_add; [apply sm_add; [apply sm_cst|auto]|apply sm_mul; apply sm_cst].
    + apply sm_log. apply sm_div; auto. apply sm_cst. apply nz. lra. rewrite (div_val s0 P (cst LE 22630) x 22630 E eq_refl) by lra. apply isr_fin. apply Rdiv_lt_0_compat; lra.
  - apply sm_gt; auto. apply sm_cst. eapply apart_cst; eauto.
Qed.
End HIsa.

Section Crossover.
Context (s0 : R) (V M D : R -> ext) (v m d : jx) (Hv : exact s0 V v) (Hm : exact s0 M m) (Hd : exact s0 D d) (Nv : V s0 <> Fin 0) (Om : fixed m \/ M s0 <> Fin 1e-4).
Lemma crossover_sm : exact s0 (crossover_alt LE V M D) (crossover_alt JB v m d).
Proof.
  finr Hv x Ev. finr Hm y Em. finr Hd z Ed. rewrite Ev in Nv. assert (Nx : x <> 0) by congruence. unfold crossover_alt.
  assert (S : exact s0 (maximum LE M (cst LE 1e-4)) (maximum JB m (cst JB 1e-4))). { apply sm_max; auto. apply sm_cst. eapply apart_cst; eauto. }
  assert (F : forall F a r, exact s0 F a -> F s0 = Fin r -> exact s0 (sub LE (power LE (add LE (mul LE (cst LE 0.2) (powi LE F 2)) (cst LE 1)) (cst LE 3.5)) (cst LE 1))
    (sub JB (power JB (add JB (mul JB (cst JB 0.2) (powi JB a 2)) (cst JB 1)) (cst JB 3.5)) (cst JB 1)) /\
    exists w, sub LE (power LE (add LE (mul LE (cst LE 0.2) (powi LE F 2)) (cst LE 1)) (cst LE 3.5)) (cst LE 1) s0 = Fin w /\ (r <> 0 -> 0 < w)).
  { intros F a r H E. assert (B : add LE (mul LE (cst LE 0.2) (powi LE F 2)) (cst LE 1) s0 = Fin (0.2 * (r * (r * 1)) + 1)) by (cbn; rewrite E; reflexivity).
    pose proof (Rle_0_sqr r) as Sq. unfold Rsqr in Sq. split.
    - apply sm_sub; [|apply sm_cst]. apply sm_power; [apply sm_add; [apply sm_mul; [apply sm_cst|apply sm_powi; auto]|apply sm_cst]|apply sm_cst|]. rewrite B. apply isr_fin. lra.
    - exists (Rpower (0.2 * (r * (r * 1)) + 1) 3.5 - 1). split.
      + change (esub (epower (add LE (mul LE (cst LE 0.2) (powi LE F 2)) (cst LE 1) s0) (Fin 3.5)) (Fin 1) = Fin (Rpower (0.2 * (r * (r * 1)) + 1) 3.5 - 1)). rewrite B, epower_fin by lra. reflexivity.
      + intros N. assert (0 < r * r) by (apply Rsqr_pos_lt in N; exact N). assert (Rpower 1 3.5 < Rpower (0.2 * (r * (r * 1)) + 1) 3.5) by (apply Rpower_lt_base; lra).
        rewrite Rpower_one in *. lra. }
  assert (Sv : exact s0 (div LE V (cst LE a0)) (div JB v (cst JB a0))) by (apply sm_div; auto; [apply sm_cst|apply nz; uc; lra]).
  assert (Ev' : div LE V (cst LE a0) s0 = Fin (x / a0)) by (apply div_val; auto; uc; lra).
  assert (Em' : maximum LE M (cst LE 1e-4) s0 = Fin (Rmax y 1e-4)) by (cbn; rewrite Em; reflexivity).
  destruct (F _ _ _ Sv Ev') as (A1 & w1 & B1 & C1). destruct (F _ _ _ S Em') as (A2 & w2 & B2 & C2).
  assert (0 < w1). { apply C1. apply Rmult_integral_contrapositive_currified; auto. apply Rinv_neq_0_compat. uc. lra. }
  assert (0 < w2). { apply C2. pose proof (Rmax_r y 1e-4). lra. }
  apply sm_mul. { apply sm_div; [apply sm_add; [apply sm_cst|auto]|apply sm_cst|apply nz; uc; lra]. }
  apply sm_sub; [|apply sm_cst]. apply sm_power.
  - apply sm_div; [exact A1|exact A2|]. rewrite B2. apply nz. lra.
  - apply sm_div; [apply sm_mul; [apply sm_mul|]|..]; try apply sm_cst. apply nz. uc. lra.
  - match goal with |- posi (div LE ?X ?Y s0) => change (posi (ediv (X s0) (Y s0))) end. rewrite B1, B2, ediv_fin by lra. apply isr_fin. apply Rdiv_lt_0_compat; lra.
Qed.
End Crossover.
