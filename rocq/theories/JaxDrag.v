(** Differentiation of the drag model in the JAX backend. *)
From Coq Require Import Reals List Bool Lra Lia.
From Coquelicot Require Import Coquelicot.
From Verif Require Import Num NumFacts Aero AeroFacts Drag DragFacts Jax SpecJax JaxFacts JaxAero Hom JaxHom.
Import ListNotations.
Open Scope R_scope.

(** the fourth power of a clamped quantity has a derivative everywhere *)
Lemma relu4_derive : is_derive (fun y => Rmax y 0.0 ^ 4) 0 0.
Proof.
  apply is_derive_Reals. intros eps He. exists (mkposreal (Rmin 1 eps) (Rmin_pos 1 eps Rlt_0_1 He)). intros h Hh0 Hh. cbn [pos] in Hh.
  rewrite Rplus_0_l. rewrite (Rmax_left 0 0.0) by lra.
  assert (B : 0 <= Rmax h 0.0 <= Rabs h).
  { split; [pose proof (Rmax_r h 0.0); lra|]. apply Rmax_lub; [apply Rle_abs|]. pose proof (Rabs_pos h); lra. }
  assert (P : 0 < Rabs h) by (apply Rabs_pos_lt; auto). assert (Rabs h < 1) by (apply Rlt_le_trans with (1 := Hh); apply Rmin_l).
  assert (Rabs h < eps) by (apply Rlt_le_trans with (1 := Hh); apply Rmin_r).
  replace ((Rmax h 0.0 ^ 4 - 0 ^ 4) / h - 0) with (Rmax h 0.0 ^ 4 / h) by (cbn [pow]; field; auto).
  unfold Rdiv. rewrite Rabs_mult, Rabs_inv, (Rabs_right (Rmax h 0.0 ^ 4)) by (apply Rle_ge, pow_le; lra).
  apply Rmult_lt_reg_r with (Rabs h); auto. rewrite Rmult_assoc, Rinv_l, Rmult_1_r by lra.
  apply Rle_lt_trans with (Rabs h ^ 4). { apply pow_incr; auto. }
  replace (Rabs h ^ 4) with (Rabs h * Rabs h ^ 3) by ring. rewrite (Rmult_comm eps). apply Rmult_lt_compat_l; auto.
  apply Rle_lt_trans with (Rabs h); auto. assert (Rabs h * Rabs h <= 1) by (apply Rle_trans with (1 * 1); [apply Rmult_le_compat; lra|lra]).
  replace (Rabs h ^ 3) with (Rabs h * (Rabs h * Rabs h)) by ring. apply Rle_trans with (Rabs h * 1); [apply Rmult_le_compat_l; lra|lra].
Qed.
Lemma sm_relu4 : forall s0 F a, exact s0 F a -> exact s0 (powi LE (maximum LE F (cst LE 0.0)) 4) (powi JB (maximum JB a (cst JB 0.0)) 4).
Proof.
  intros s0 F a H. finr H x Ex. destruct (Req_EM_T x 0) as [->|N].
  2:{ apply sm_powi. apply sm_max; auto. apply sm_cst. left. rewrite Ex. cbn. intros Q; injection Q as Q. lra. }
  destruct H as (f & H). pose proof H as (HF & Hv & HD). assert (E0 : f s0 = 0) by (apply jd_F in H; congruence).
  exists (fun s => Rmax (f s) 0.0 ^ 4). split; [|split].
  - revert HF. apply filter_imp. intros s E. cbn [LE Lift powi maximum cst NP]. rewrite E. reflexivity.
  - cbn [JB powi maximum j_max j_un j_bin j_val cst j_const]. rewrite Hv. reflexivity.
  - assert (D : is_derive (fun y => Rmax y 0.0 ^ 4) (f s0) 0) by (rewrite E0; exact relu4_derive).
    assert (Z : emul (Fin (INR 4)) (epowi (j_val (maximum JB a (cst JB 0.0))) 3) = Fin 0).
    { cbn [JB maximum j_max j_bin j_val cst j_const]. rewrite Hv, E0. cbn [emax epowi emul]. f_equal. rewrite Rmax_left by lra. cbn. ring. }
    cbn [JB powi j_un j_der]. rewrite Z. cbn [maximum JB j_max j_bin j_der cst j_const j_val]. destruct (j_der a) as [[t k]|].
    + destruct HD as (d & -> & Hd & Hk). exists 0. rewrite Hv, E0. unfold balanced. cbn [emax]. rewrite (Rmax_left 0 0.0) by lra.
      rewrite eeqb_refl'. replace (eeqb (Fin 0.0) (Fin 0)) with true by (symmetry; apply eeqb_fin; lra). rewrite ediv_fin by lra. cbn [emul]. split; [f_equal; ring|]. split.
      * replace 0 with (d * 0) by ring. apply (is_derive_comp (fun y => Rmax y 0.0 ^ 4) f s0 0 d); auto.
      * intros c. rewrite Hk. f_equal. ring.
    + revert HD; apply filter_imp; intros s ->; auto.
Qed.
(** the floor of the dynamic pressure term is not crossed: 0.5 rho v^2 S is not 0.001, or nothing in it is traced *)
Definition off_floor (S s0 : R) (V H D : R -> ext) (v h d : jx) : Prop :=
  (fixed v /\ fixed h /\ fixed d) \/
  emul (emul (emul (Fin 0.5) (density NP (emul (H s0) (Fin ft)) (D s0))) (epowi (emul (V s0) (Fin kts)) 2)) (Fin S) <> Fin 1e-3.

Lemma mul_val : forall s0 F G x y, F s0 = Fin x -> G s0 = Fin y -> mul LE F G s0 = Fin (x * y).
Proof. intros s0 F G x y E1 E2. change (emul (F s0) (G s0) = Fin (x * y)). rewrite E1, E2. reflexivity. Qed.
Lemma sm_alt : forall s0 H h, exact s0 H h -> exact s0 (mul LE H (cst LE ft)) (mul JB h (cst JB ft)).
Proof. intros. apply sm_mul; auto. apply sm_cst. Qed.
Lemma sm_spd : forall s0 H h, exact s0 H h -> exact s0 (mul LE H (cst LE kts)) (mul JB h (cst JB kts)).
Proof. intros. apply sm_mul; auto. apply sm_cst. Qed.
Lemma alt_off : forall s0 H h, exact s0 H h -> (fixed h \/ H s0 <> Fin (11000 / ft)) -> off_tropopause s0 (mul LE H (cst LE ft)) (mul JB h (cst JB ft)).
Proof.
  intros s0 H h Hh [N|N]; [left; fx|]. finr Hh y Eh. right. cbn. rewrite Eh in *. cbn [emul]. intros Q. injection Q as Q. apply N. f_equal. rewrite <- Q. field. uc. lra.
Qed.
Lemma kts_pos : forall s0 V, posi (V s0) -> posi (mul LE V (cst LE kts) s0).
Proof. intros s0 V (x & E & L). rewrite (mul_val s0 V (cst LE kts) x kts E eq_refl). apply isr_fin. apply Rmult_lt_0_compat; auto. uc. lra. Qed.

Section DragJ.
Context (p : drag_par) (s0 : R) (M V H D : R -> ext) (m v h d : jx)
  (Hm : exact s0 M m) (Hv : exact s0 V v) (Hh : exact s0 H h) (Hd : exact s0 D d)
  (Pv : posi (V s0)) (Oh : fixed h \/ H s0 <> Fin (11000 / ft)) (Od : off_limits s0 D d) (Of : off_floor (wing_area p) s0 V H D v h d).

Lemma rho_d : exact s0 (density LE (mul LE H (cst LE ft)) D) (density JB (mul JB h (cst JB ft)) d).
Proof. apply rho_sm; auto. apply sm_alt; auto. apply alt_off; auto. Qed.

Lemma cl_sm : forall W w, exact s0 W w ->
  exact s0 (snd (cl_qS LE p M V H W D)) (snd (cl_qS JB p m v h w d)) /\ exact s0 (fst (cl_qS LE p M V H W D)) (fst (cl_qS JB p m v h w d)).
Proof.
  intros W w Hw. assert (A : exact s0 (snd (cl_qS LE p M V H W D)) (snd (cl_qS JB p m v h w d))).
  { unfold cl_qS. cbn [snd].
    assert (A : exact s0 (mul LE (mul LE (mul LE (cst LE 0.5) (density LE (mul LE H (cst LE ft)) D)) (powi LE (mul LE V (cst LE kts)) 2)) (cst LE (wing_area p)))
      (mul JB (mul JB (mul JB (cst JB 0.5) (density JB (mul JB h (cst JB ft)) d)) (powi JB (mul JB v (cst JB kts)) 2)) (cst JB (wing_area p)))).
    { apply sm_mul; [apply sm_mul; [apply sm_mul; [apply sm_cst|exact rho_d]|apply sm_powi; apply sm_spd; auto]|apply sm_cst]. }
    apply sm_max; [exact A|apply sm_cst|].
    eapply apart_cst; [exact A|]. destruct Of as [(N1 & N2 & N3)|N]; [left|right; exact N].
    apply (h_mul _ _ hom_fixed _ v _ v); [|reflexivity]. apply (h_mul _ _ hom_fixed _ v _ v).
    - apply (h_mul _ _ hom_fixed _ v _ v); [reflexivity|]. apply (density_hom _ _ hom_fixed _ v _ v); auto. cbn. fx.
    - cbn. fx. }
  split; [exact A|]. finr Hm x1 Em. finr Hv x2 E2. finr Hh x3 E3. finr Hw x4 E4. finr Hd x5 E5. unfold cl_qS in *. cbn [fst snd] in *.
  apply sm_div; [|exact A|].
  - apply sm_mul; [apply sm_mul; [auto|apply sm_cst]|]. apply sm_cos. apply sm_atan2; [apply sm_mul; [auto|apply sm_cst]|apply sm_spd; auto|].
    left. apply kts_pos; auto.
  - match goal with |- ?X <> _ => change X with (snd (cl_qS NP p (M s0) (V s0) (H s0) (W s0) (D s0))) end.
    rewrite Em, E2, E3, E4, E5, cl_qS_NP. cbn [snd]. apply nz. pose proof (qSR_pos (wing_area p) x2 x3 x5). lra.
Qed.
Lemma calc_drag_sm : forall W w C c K k, exact s0 W w -> exact s0 C c -> exact s0 K k ->
  exact s0 (calc_drag LE p M V H C K W D) (calc_drag JB p m v h c k w d).
Proof.
  intros W w C c K k Hw Hc Hk. destruct (cl_sm W w Hw) as [A B]. unfold calc_drag. destruct (cl_qS LE p M V H W D) as [cl q], (cl_qS JB p m v h w d) as [cl' q'].
  cbn [fst snd] in *. apply sm_mul; auto. apply sm_add; auto. apply sm_mul; auto. apply sm_powi. auto.
Qed.
Context (Sw : -90 < wing_sweep p < 90).
Lemma mach_crit_sm : exact s0 (mach_crit LE p M V H D) (mach_crit JB p m v h d).
Proof.
  destruct (cl_sm _ _ (sm_cst s0 0)) as [_ B]. unfold mach_crit. destruct (cl_qS LE p M V H (cst LE 0) D) as [cl q], (cl_qS JB p m v h (cst JB 0) d) as [cl' q']. cbn [fst snd] in *.
  pose proof (cos_sweep_pos _ Sw) as P. assert (N180 : 180 <> 0) by lra.
  assert (A1 : exact s0 (div LE (mul LE (cst LE (wing_sweep p)) (bpi LE)) (cst LE 180)) (div JB (mul JB (cst JB (wing_sweep p)) (bpi JB)) (cst JB 180))).
  { apply sm_div; [apply sm_mul; [apply sm_cst|apply sm_pi]|apply sm_cst|apply nz; auto]. }
  set (A := div LE (mul LE (cst LE (wing_sweep p)) (bpi LE)) (cst LE 180)) in *. set (A' := div JB (mul JB (cst JB (wing_sweep p)) (bpi JB)) (cst JB 180)) in *.
  assert (E : bcos LE A s0 = Fin (cos (wing_sweep p * PI / 180))).
  { change (elift cos (A s0) = Fin (cos (wing_sweep p * PI / 180))). unfold A. rewrite (div_val s0 (mul LE (cst LE (wing_sweep p)) (bpi LE)) (cst LE 180) (wing_sweep p * PI) 180 eq_refl eq_refl N180). reflexivity. }
  assert (Sc : exact s0 (bcos LE A) (bcos JB A')) by (apply sm_cos; auto).
  assert (Sn : forall n, powi LE (bcos LE A) n s0 <> Fin 0).
  { intros n. change (epowi (bcos LE A s0) n <> Fin 0). rewrite E. cbn [epowi]. apply nz. apply pow_nonzero. lra. }
  clearbody A A'.
  apply sm_sub; [|apply sm_cst]. apply sm_sub; [apply sm_sub|].
  - apply sm_div; [apply sm_cst|exact Sc|]. rewrite E. apply nz. lra.
  - apply sm_div; [apply sm_cst|apply sm_powi; exact Sc|apply Sn].
  - apply sm_div; [apply sm_mul; [apply sm_cst|exact B]|apply sm_powi; exact Sc|apply Sn].
Qed.
Lemma wave_cd_sm : exact s0 (wave_cd LE p M V H D) (wave_cd JB p m v h d).
Proof.
  unfold wave_cd. apply sm_mul; [apply sm_cst|]. apply sm_relu4. apply sm_sub; [|exact mach_crit_sm].
  apply tas2mach_sm; auto. apply sm_alt; auto. apply alt_off; auto. apply sm_spd; auto.
Qed.
Lemma clean_sm : forall wave W w, exact s0 W w -> exact s0 (clean LE p wave M V H W D) (clean JB p wave m v h w d).
Proof.
  intros wave W w Hw. unfold clean. apply calc_drag_sm; auto; [|apply sm_cst]. apply sm_add; [apply sm_cst|]. destruct wave; [apply wave_cd_sm|apply sm_cst].
Qed.
End DragJ.
Section Nonclean.
Context (p : drag_par) (s0 : R) (M V H D W F : R -> ext) (m v h d w f : jx)
  (Hm : exact s0 M m) (Hv : exact s0 V v) (Hh : exact s0 H h) (Hd : exact s0 D d) (Hw : exact s0 W w) (Hf : exact s0 F f)
  (Pv : posi (V s0)) (Oh : fixed h \/ H s0 <> Fin (11000 / ft)) (Od : off_limits s0 D d) (Of : off_floor (wing_area p) s0 V H D v h d)
  (Pk : 0 < k_clean p) (PS : 0 < wing_area p) (Pc : 0 < cf_c p) (PM : 0 < mtow p) (Pf : isr (fun r => 0 <= r) (F s0)).
Lemma nonclean_sm : forall gear, exact s0 (nonclean LE p M V H F W D gear) (nonclean JB p m v h f w d gear).
Proof.
  intros gear. destruct Pf as (fl & Ef & Lf). unfold nonclean. apply calc_drag_sm; auto.
  - apply sm_add.
    + apply sm_add; [apply sm_cst|]. apply sm_mul.
      * apply sm_mul; [|apply sm_cst]. apply sm_mul; [apply sm_cst|]. apply sm_power; try apply sm_cst. apply isr_fin; auto.
      * apply sm_powi. apply sm_sin. apply sm_div; [apply sm_mul; [auto|apply sm_pi]|apply sm_cst|apply nz; lra].
    + destruct gear; [|apply sm_cst]. apply sm_mul; [apply sm_mul; [|apply sm_cst]|].
      * apply sm_div; [apply sm_mul; apply sm_cst|apply sm_cst|apply nz; lra].
      * apply sm_power; try apply sm_cst. apply isr_fin; auto.
  - assert (A1 : exact s0 (div LE (cst LE 1) (cst LE (k_clean p))) (div JB (cst JB 1) (cst JB (k_clean p)))) by (apply sm_div; [apply sm_cst|apply sm_cst|apply nz; lra]).
    assert (A2 : exact s0 (div LE (powi LE (cst LE (wing_span p)) 2) (cst LE (wing_area p))) (div JB (powi JB (cst JB (wing_span p)) 2) (cst JB (wing_area p)))).
    { apply sm_div; [apply sm_powi; apply sm_cst|apply sm_cst|apply nz; lra]. }
    assert (A3 : exact s0 (mul LE (if rear_mounted p then cst LE 0.0046 else cst LE 0.0026) F) (mul JB (if rear_mounted p then cst JB 0.0046 else cst JB 0.0026) f)).
    { apply sm_mul; auto. destruct (rear_mounted p); apply sm_cst. }
    assert (E1 : div LE (cst LE 1) (cst LE (k_clean p)) s0 = Fin (1 / k_clean p)) by (apply div_val; auto; lra).
    assert (E2 : div LE (powi LE (cst LE (wing_span p)) 2) (cst LE (wing_area p)) s0 = Fin (wing_span p ^ 2 / wing_area p)) by (apply div_val; auto; lra).
    assert (E3 : mul LE (if rear_mounted p then cst LE 0.0046 else cst LE 0.0026) F s0 = Fin (deltaeR p fl)).
    { unfold deltaeR. destruct (rear_mounted p); apply mul_val; auto. }
    apply sm_div; [apply sm_cst|apply sm_add; [exact A1|apply sm_mul; [apply sm_mul; [apply sm_pi|exact A2]|exact A3]]|].
    match goal with |- add LE ?X (mul LE (mul LE ?Y ?Z) ?U) s0 <> _ => change (eadd (X s0) (emul (emul (Fin PI) (Z s0)) (U s0)) <> Fin 0) end.
    rewrite E1, E2, E3. cbn [emul eadd]. apply nz. pose proof (ktot_den p fl Pk PS Lf). lra.
Qed.
End Nonclean.
