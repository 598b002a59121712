(** * Properties C105, C106: the JAX backend gives the NumPy numbers, and its gradients of the atmosphere and speed
    functions are the derivatives of the NumPy functions *)
From Coq Require Import Reals List Bool Lra Lia Psatz.
From Coquelicot Require Import Coquelicot.
From Verif Require Import Num NumFacts Aero AeroFacts AeroFacts3 Geo Thrust Drag Fuel Emission Hom Jax SpecJax JaxFacts JaxHom JaxAero JaxNf.
From Verif Require Import SpecNum.
Import ListNotations.
Open Scope R_scope.

(** ** C105: the number of a JAX result is the NumPy result on the numbers of the arguments, traced or not *)
Theorem C105_values : forall h d v : jx,
  j_val (temperature JB h d) = temperature NP (j_val h) (j_val d) /\
  j_val (pressure JB h d) = pressure NP (j_val h) (j_val d) /\
  j_val (density JB h d) = density NP (j_val h) (j_val d) /\
  j_val (vsound JB h d) = vsound NP (j_val h) (j_val d) /\
  j_val (h_isa JB h d) = h_isa NP (j_val h) (j_val d) /\
  j_val (tas2mach JB v h d) = tas2mach NP (j_val v) (j_val h) (j_val d) /\
  j_val (mach2tas JB v h d) = mach2tas NP (j_val v) (j_val h) (j_val d) /\
  j_val (eas2tas JB v h d) = eas2tas NP (j_val v) (j_val h) (j_val d) /\
  j_val (tas2eas JB v h d) = tas2eas NP (j_val v) (j_val h) (j_val d) /\
  j_val (cas2tas JB v h d) = cas2tas NP (j_val v) (j_val h) (j_val d) /\
  j_val (tas2cas JB v h d) = tas2cas NP (j_val v) (j_val h) (j_val d) /\
  j_val (mach2cas JB v h d) = mach2cas NP (j_val v) (j_val h) (j_val d) /\
  j_val (cas2mach JB v h d) = cas2mach NP (j_val v) (j_val h) (j_val d) /\
  j_val (crossover_alt JB v h d) = crossover_alt NP (j_val v) (j_val h) (j_val d).
Proof.
  intros. repeat apply conj.
  - apply (temperature_hom _ _ hom_val); reflexivity.
  - apply (pressure_hom _ _ hom_val); reflexivity.
  - apply (density_hom _ _ hom_val); reflexivity.
  - apply (vsound_hom _ _ hom_val); reflexivity.
  - apply (h_isa_hom _ _ hom_val); reflexivity.
  - apply (tas2mach_hom _ _ hom_val); reflexivity.
  - apply (mach2tas_hom _ _ hom_val); reflexivity.
  - apply (eas2tas_hom _ _ hom_val); reflexivity.
  - apply (tas2eas_hom _ _ hom_val); reflexivity.
  - apply (cas2tas_hom _ _ hom_val); reflexivity.
  - apply (tas2cas_hom _ _ hom_val); reflexivity.
  - apply (mach2cas_hom _ _ hom_val); reflexivity.
  - apply (cas2mach_hom _ _ hom_val); reflexivity.
  - apply (crossover_hom _ _ hom_val); reflexivity.
Qed.
Theorem C105_model_values : forall (p : drag_par) (e : thrust_par) (f : fuel_par) (tb : ei_table) (n : R) (wave gear lim : bool) (m v h w c d fl : jx),
  j_val (clean JB p wave m v h w d) = clean NP p wave (j_val m) (j_val v) (j_val h) (j_val w) (j_val d) /\
  j_val (nonclean JB p m v h fl w d gear) = nonclean NP p (j_val m) (j_val v) (j_val h) (j_val fl) (j_val w) (j_val d) gear /\
  j_val (takeoff_thrust JB e v h d) = takeoff_thrust NP e (j_val v) (j_val h) (j_val d) /\
  j_val (climb_thrust JB e v h w d) = climb_thrust NP e (j_val v) (j_val h) (j_val w) (j_val d) /\
  j_val (cruise_thrust JB e v h d) = cruise_thrust NP e (j_val v) (j_val h) (j_val d) /\
  j_val (descent_idle JB e v h d) = descent_idle NP e (j_val v) (j_val h) (j_val d) /\
  j_val (at_thrust JB f m) = at_thrust NP f (j_val m) /\
  j_val (enroute JB p wave f m v h w c d lim) = enroute NP p wave f (j_val m) (j_val v) (j_val h) (j_val w) (j_val c) (j_val d) lim /\
  j_val (co2 JB m) = co2 NP (j_val m) /\ j_val (h2o JB m) = h2o NP (j_val m) /\ j_val (soot JB m) = soot NP (j_val m) /\ j_val (sox JB m) = sox NP (j_val m) /\
  j_val (nox JB n tb m v h d) = nox NP n tb (j_val m) (j_val v) (j_val h) (j_val d) /\
  j_val (co_hc JB n tb m v h d) = co_hc NP n tb (j_val m) (j_val v) (j_val h) (j_val d).
Proof.
  intros.
  repeat apply conj.
  - apply (clean_hom _ _ hom_val); reflexivity.
  - apply (nonclean_hom _ _ hom_val); reflexivity.
  - apply (takeoff_thrust_hom _ _ hom_val); reflexivity.
  - apply (climb_thrust_hom _ _ hom_val); reflexivity.
  - apply (cruise_thrust_hom _ _ hom_val); reflexivity.
  - apply (descent_idle_hom _ _ hom_val); reflexivity.
  - apply (at_thrust_hom _ _ hom_val); reflexivity.
  - apply (enroute_hom _ _ hom_val); reflexivity.
  - reflexivity.
  - reflexivity.
  - reflexivity.
  - reflexivity.
  - apply (nox_hom _ _ hom_val); try reflexivity.
  - apply (co_hc_hom _ _ hom_val); try reflexivity.
Qed.
Theorem C105_geo_values : forall a o a' o' h : jx,
  j_val (distance JB a o a' o' h) = distance NP (j_val a) (j_val o) (j_val a') (j_val o') (j_val h) /\
  j_val (bearing JB a o a' o') = bearing NP (j_val a) (j_val o) (j_val a') (j_val o') /\
  j_val (fst (latlon JB a o a' o' h)) = fst (latlon NP (j_val a) (j_val o) (j_val a') (j_val o') (j_val h)) /\
  j_val (snd (latlon JB a o a' o' h)) = snd (latlon NP (j_val a) (j_val o) (j_val a') (j_val o') (j_val h)).
Proof.
  intros. repeat apply conj.
  - apply (distance_hom _ _ hom_val); reflexivity.
  - apply (bearing_hom _ _ hom_val); reflexivity.
  - apply (latlon_hom _ _ hom_val a o a' o' h); reflexivity.
  - apply (latlon_hom _ _ hom_val a o a' o' h); reflexivity.
Qed.
Theorem C105_takeoff_fuel : forall (e : thrust_par) (f : fuel_par) (v h x : T JB) (v' h' x' : T NP), j_val v = v' -> j_val h = h' -> j_val x = x' ->
  exists y, takeoff_fuel JB e f v (Some h) x = inr y /\ takeoff_fuel NP e f v' (Some h') x' = inr (j_val y).
Proof.
  intros e f v h x v' h' x' E1' E2' E3'. pose proof (takeoff_fuel_hom _ _ hom_val e f v v' h h' x x' E1' E2' E3') as Q.
  destruct (takeoff_fuel JB e f v (Some h) x) as [?|y], (takeoff_fuel NP e f v' (Some h') x') as [?|y']; try contradiction Q.
  exists y. split; [reflexivity|]. f_equal. symmetry. exact Q.
Qed.
(** traced altitude: the number is the sea-level temperature *)
Example C105_ex : j_val (temperature JB (j_var 0) (j_const 0)) = Fin 288.15.
Proof.
  destruct (C105_values (j_var 0) (j_const 0) (j_const 0)) as [-> _]. cbn [j_val j_var j_const]. rewrite temperature_NP. f_equal. unfold tR, clipT. rewrite (Rmax_left 0), (Rmin_left 0) by lra. uc. rewrite Rmax_left; lra.
Qed.

(** ** C106 *)
(** An exact value has the right gradient, and there is only one right gradient. *)
Theorem C106_gradient : forall s0 F a, exact s0 F a -> exists d, has_derivative F s0 d /\ j_grad a = Fin d /\ j_jvp a = Fin d /\ forall d', has_derivative F s0 d' -> d' = d.
Proof.
  intros s0 F a H. destruct (exact_grad s0 F a H) as (d & D & J & G). exists d. repeat split; auto. intros d' D'. apply (grad_unique F s0 d' d); auto.
Qed.

Section Aero106.
Context (s0 : R) (V H D : R -> ext) (v h d : jx) (Hv : exact s0 V v) (Hh : exact s0 H h) (Hd : exact s0 D d)
  (Oh : fixed h \/ H s0 <> Fin 11000) (Od : fixed d \/ (D s0 <> Fin (-25) /\ D s0 <> Fin 15)).
Theorem C106_atmosphere :
  exact s0 (fun s => temperature NP (H s) (D s)) (temperature JB h d) /\
  exact s0 (fun s => pressure NP (H s) (D s)) (pressure JB h d) /\
  exact s0 (fun s => density NP (H s) (D s)) (density JB h d) /\
  exact s0 (fun s => vsound NP (H s) (D s)) (vsound JB h d).
Proof.
  repeat apply conj.
  - exact (T_sm s0 H D h d Hh Hd Oh Od).
  - exact (p_sm s0 H D h d Hh Hd Oh Od).
  - exact (rho_sm s0 H D h d Hh Hd Oh Od).
  - exact (a_sm s0 H D h d Hh Hd Oh Od).
Qed.
Theorem C106_mach_eas :
  exact s0 (fun s => tas2mach NP (V s) (H s) (D s)) (tas2mach JB v h d) /\
  exact s0 (fun s => mach2tas NP (V s) (H s) (D s)) (mach2tas JB v h d) /\
  exact s0 (fun s => eas2tas NP (V s) (H s) (D s)) (eas2tas JB v h d) /\
  exact s0 (fun s => tas2eas NP (V s) (H s) (D s)) (tas2eas JB v h d).
Proof.
  repeat apply conj.
  - exact (tas2mach_sm s0 H D h d Hh Hd Oh Od V v Hv).
  - exact (mach2tas_sm s0 H D h d Hh Hd Oh Od V v Hv).
  - exact (eas2tas_sm s0 H D h d Hh Hd Oh Od V v Hv).
  - exact (tas2eas_sm s0 H D h d Hh Hd Oh Od V v Hv).
Qed.
Theorem C106_cas : V s0 <> Fin 0 ->
  exact s0 (fun s => tas2cas NP (V s) (H s) (D s)) (tas2cas JB v h d) /\
  exact s0 (fun s => cas2tas NP (V s) (H s) (D s)) (cas2tas JB v h d) /\
  exact s0 (fun s => mach2cas NP (V s) (H s) (D s)) (mach2cas JB v h d) /\
  exact s0 (fun s => cas2mach NP (V s) (H s) (D s)) (cas2mach JB v h d).
Proof.
  intros N. repeat apply conj.
  - exact (tas2cas_sm s0 H D V h d v Hh Hd Hv Oh Od N).
  - exact (cas2tas_sm s0 H D V h d v Hh Hd Hv Oh Od N).
  - exact (mach2cas_sm s0 H D V h d v Hh Hd Hv Oh Od N).
  - exact (cas2mach_sm s0 H D V h d v Hh Hd Hv Oh Od N).
Qed.
End Aero106.
Theorem C106_h_isa : forall s0 P D p d, exact s0 P p -> exact s0 D d -> posi (P s0) -> (fixed p \/ P s0 <> Fin 22630) ->
  exact s0 (fun s => h_isa NP (P s) (D s)) (h_isa JB p d).
Proof. intros s0 P D p d. exact (h_isa_sm s0 P D p d). Qed.
Theorem C106_crossover : forall s0 V M D v m d, exact s0 V v -> exact s0 M m -> exact s0 D d -> V s0 <> Fin 0 -> (fixed m \/ M s0 <> Fin 1e-4) ->
  exact s0 (fun s => crossover_alt NP (V s) (M s) (D s)) (crossover_alt JB v m d).
Proof. intros s0 V M D v m d. exact (crossover_sm s0 V M D v m d). Qed.
(** below the tropopause JAX returns the lapse rate *)
Example C106_ex : j_grad (temperature JB (j_var 5000) (j_const 0)) = Fin (-0.0065) /\ j_jvp (temperature JB (j_var 5000) (j_const 0)) = Fin (-0.0065).
Proof.
  destruct (C106_atmosphere 5000 Fin (fun _ => Fin 0) (j_var 5000) (j_const 0) (exact_var 5000) (exact_const 5000 0)) as [E _]; [right; intros Q; injection Q; lra|left; reflexivity|].
  destruct (C106_gradient _ _ _ E) as (d & _ & -> & -> & U). assert (K : -0.0065 = d); [|rewrite <- K; auto]. apply U. exists (fun s => 288.15 - 0.0065 * s). split.
  - assert (L : 5000 < 11000) by lra. generalize (locally_lt _ _ L). apply filter_imp. intros s Hs. rewrite temperature_NP. f_equal. unfold tR, clipT. rewrite (Rmax_left 0), (Rmin_left 0) by lra. uc. rewrite Rmax_left; lra.
  - auto_derive; [trivial|]. lra.
Qed.

(** at the tropopause the temperature has a kink; JAX returns the mean of the two slopes *)
Lemma trop_NP : forall dT s, temperature NP (Fin s) (Fin dT) = Fin (Rmax (288.15 - 0.0065 * s) 216.65 + clipT dT).
Proof. intros. rewrite temperature_NP. f_equal. unfold tR. uc. unfold Rmax. repeat destruct Rle_dec; lra. Qed.
Lemma bal_half : forall x, balanced (Fin x) (Fin x) (Fin x) = Fin (1 / 2).
Proof. intros. unfold balanced. rewrite eeqb_refl'. apply ediv_fin. lra. Qed.
Theorem C106_tropopause : forall dT,
  j_grad (temperature JB (j_var 11000) (j_const dT)) = Fin (-0.00325) /\ j_jvp (temperature JB (j_var 11000) (j_const dT)) = Fin (-0.00325) /\
  exists t, temperature NP (Fin 11000) (Fin dT) = Fin t /\
  (forall s, s <= 11000 -> temperature NP (Fin s) (Fin dT) = Fin (t - 0.0065 * (s - 11000))) /\
  (forall s, 11000 <= s -> temperature NP (Fin s) (Fin dT) = Fin t).
Proof.
  intros dT.
  assert (G : j_grad (temperature JB (j_var 11000) (j_const dT)) = Fin (-0.00325) /\ j_jvp (temperature JB (j_var 11000) (j_const dT)) = Fin (-0.00325)).
  { assert (C : exists c, clip JB (j_const dT) (j_const (-25)) (j_const 15) = j_const c) by (eexists; reflexivity). destruct C as [c C].
    unfold temperature, atmos. cbv zeta. cbn [snd]. change (cst JB) with j_const. rewrite C.
    unfold j_grad, j_jvp. cbn [maximum JB j_max j_bin add mul j_val j_der j_var j_const eadd emul emax]. 
    replace (Rmax (T0 + c + beta * 11000) (216.65 + c)) with (216.65 + c) by (uc; rewrite Rmax_right; lra).
    replace (T0 + c + beta * 11000) with (216.65 + c) by (uc; lra). rewrite bal_half. cbn [emul]. uc. split; f_equal; lra. }
  destruct G as [G G']. split; [exact G|split; [exact G'|]].
  exists (216.65 + clipT dT). split; [|split]; intros; rewrite trop_NP; f_equal; unfold Rmax; destruct Rle_dec; lra.
Qed.
(** the condition cannot be dropped: at the tropopause there is no derivative *)
Theorem C106_tropopause_none : forall dT, ~ exists d, has_derivative (fun s => temperature NP (Fin s) (Fin dT)) 11000 d.
Proof.
  intros dT (d & f & L & D). apply is_derive_Reals in D.
  assert (E : locally 11000 (fun s => f s = Rmax (288.15 - 0.0065 * s) 216.65 + clipT dT)).
  { revert L. apply filter_imp. intros s Hs. rewrite trop_NP in Hs. injection Hs; auto. }
  destruct E as [e E]. assert (E0 : f 11000 = 216.65 + clipT dT). { rewrite E by apply ball_center. rewrite Rmax_right; lra. }
  destruct (D 0.001 ltac:(lra)) as [g G]. set (m := Rmin (e / 2) (g / 2)).
  assert (M : 0 < m /\ m < e /\ m < g). { pose proof (cond_pos e). pose proof (cond_pos g). unfold m, Rmin. destruct Rle_dec; lra. }
  assert (Bp : f (11000 + m) = 216.65 + clipT dT). { rewrite E. rewrite Rmax_right; lra. change (Rabs (11000 + m - 11000) < e). rewrite Rabs_pos_eq; lra. }
  assert (Bm : f (11000 + - m) = 216.65 + 0.0065 * m + clipT dT). { rewrite E. rewrite Rmax_left; lra. change (Rabs (11000 + - m - 11000) < e). rewrite Rabs_left; lra. }
  pose proof (G m ltac:(lra)) as G1. rewrite Rabs_pos_eq in G1 by lra. specialize (G1 ltac:(lra)).
  pose proof (G (- m) ltac:(lra)) as G2. rewrite Rabs_left in G2 by lra. specialize (G2 ltac:(lra)).
  rewrite Bp, E0 in G1. rewrite Bm, E0 in G2.
  replace ((216.65 + clipT dT - (216.65 + clipT dT)) / m - d) with (- d) in G1 by (field; lra).
  replace ((216.65 + 0.0065 * m + clipT dT - (216.65 + clipT dT)) / - m - d) with (- (0.0065 + d)) in G2 by (field; lra).
  apply Rabs_def2 in G1. apply Rabs_def2 in G2. lra.
Qed.

(** at zero speed the calibrated airspeed is zero at every altitude, so its derivative by altitude is zero; JAX does not give a number *)
Lemma atmos_str : forall h d, strict h -> strict d -> strict (fst (fst (atmos JB h d))) /\ strict (snd (fst (atmos JB h d))) /\ strict (snd (atmos JB h d)).
Proof. intros h d H D. unfold atmos. cbv zeta. cbn [fst snd]. repeat split; st. Qed.
Lemma traced_rho : forall h d, traced h -> traced (snd (fst (atmos JB h d))).
Proof. intros h d H. unfold atmos. cbv zeta. cbn [fst snd]. apply bin_traced. right. apply un_traced, bin_traced. left. apply un_traced, bin_traced. right. apply bin_traced. auto. Qed.
Theorem C106_zero_speed_refuted : forall h d,
  has_derivative (fun s => tas2cas NP (Fin 0) (Fin s) (Fin d)) h 0 /\
  ~ finite (j_grad (tas2cas JB (j_const 0) (j_var h) (j_const d))) /\ ~ finite (j_jvp (tas2cas JB (j_const 0) (j_var h) (j_const d))).
Proof.
  intros h d. split.
  - exists (fun _ => 0). split; [|auto_derive; auto]. apply filter_forall. intros s. rewrite tas2cas_NP. f_equal. apply t2cR_0.
  - apply dirty_grad. unfold tas2cas. destruct (atmos_str (j_var h) (j_const d) (var_strict h) (cst_strict d)) as (SP & SQ & _).
    pose proof (traced_rho (j_var h) (j_const d) (var_traced h)) as TQ.
    assert (Z : j_val (tas2cas JB (j_const 0) (j_var h) (j_const d)) = Fin 0).
    { destruct (C105_values (j_var h) (j_const d) (j_const 0)) as (_ & _ & _ & _ & _ & _ & _ & _ & _ & _ & E & _). rewrite E. cbn [j_val j_var j_const]. rewrite tas2cas_NP. f_equal. apply t2cR_0. }
    unfold tas2cas in Z.
    destruct (atmos JB (j_var h) (j_const d)) as [[p q] t]. cbn [fst snd] in *. apply sqrt_dirty; [exact Z| |st].
    apply bin_traced. right. apply bin_traced. left. apply bin_traced. left. apply bin_traced. left. apply bin_traced. left. apply bin_traced. right.
    apply bin_traced. left. apply bin_traced. left. apply bin_traced. right. apply bin_traced. left. apply bin_traced. left. apply bin_traced. left. exact TQ.
Qed.
