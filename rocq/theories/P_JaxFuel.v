(** * Properties C109, C110: JAX gradients of fuel flow, emissions and the geometry on the sphere *)
From Coq Require Import Reals List Bool Lra Lia Psatz.
From Coquelicot Require Import Coquelicot.
From Verif Require Import Num NumFacts SpecNum Aero AeroFacts Geo GeoFacts Drag DragFacts Fuel FuelFacts Emission Jax SpecJax Hom JaxFacts JaxHom JaxAero JaxDrag JaxFuel JaxGeo JaxNf
  P_Drag P_Fuel P_Emission P_Sym P_BFFM P_Geo P_Jax.
Import ListNotations.
Open Scope R_scope.

(** ** C109: fuel flow and emissions *)
Theorem C109_at_thrust : forall f s0 X x, fuel_ok f -> exact s0 X x -> (exists t, X s0 = Fin t /\ t <= 14.2 * (f_n_eng f * f_max_thrust f)) ->
  exact s0 (fun s => at_thrust NP f (X s)) (at_thrust JB f x).
Proof. intros f s0 X x Hf Hx Bx. exact (at_thrust_sm f Hf s0 X x Hx Bx). Qed.

Theorem C109_enroute : forall p f wave limit s0 (M V H W A D : R -> ext) (m v h w a d : jx),
  exact s0 M m -> exact s0 V v -> exact s0 H h -> exact s0 W w -> exact s0 A a -> exact s0 D d ->
  (exists r, V s0 = Fin r /\ 0 < r) ->
  (fixed h \/ H s0 <> Fin (11000 / 0.3048)) ->
  (fixed d \/ (D s0 <> Fin (-25) /\ D s0 <> Fin 15)) ->
  ((fixed v /\ fixed h /\ fixed d) \/
   emul (emul (emul (Fin 0.5) (density NP (emul (H s0) (Fin 0.3048)) (D s0))) (epowi (emul (V s0) (Fin 0.514444)) 2)) (Fin (wing_area p)) <> Fin 1e-3) ->
  -90 < wing_sweep p < 90 -> fuel_ok f ->
  (exists t, eadd (eadd (clean NP p wave (M s0) (V s0) (H s0) (W s0) (D s0))
                        (emul (emul (M s0) (Fin 9.81)) (elift sin (eatan2 (emul (W s0) (Fin 0.00508)) (emul (V s0) (Fin 0.514444))))))
                  (emul (M s0) (A s0)) = Fin t /\ t <= 14.2 * (f_n_eng f * f_max_thrust f)) ->
  exact s0 (fun s => enroute NP p wave f (M s) (V s) (H s) (W s) (A s) (D s) limit) (enroute JB p wave f m v h w a d limit).
Proof.
  intros p f wave limit s0 M V H W A D m v h w a d Hm Hv Hh Hw Ha Hd Pv Oh Od Of Sw Hf Bx.
  apply (exact_ext s0 (enroute LE p wave f M V H W A D limit)).
  - exact (enroute_sm p f wave s0 M V H W A D m v h w a d Hm Hv Hh Hw Ha Hd Pv Oh Od Of Sw Hf Bx limit).
  - intros s. apply (enroute_hom _ _ (hom_at s)); reflexivity.
Qed.

Theorem C109_linear : forall s0 X x, exact s0 X x ->
  exact s0 (fun s => co2 NP (X s)) (co2 JB x) /\ exact s0 (fun s => h2o NP (X s)) (h2o JB x) /\
  exact s0 (fun s => soot NP (X s)) (soot JB x) /\ exact s0 (fun s => sox NP (X s)) (sox JB x).
Proof. intros s0 X x Hx. repeat apply conj; apply (sm_mul s0 X _ x _ Hx (sm_cst s0 _)). Qed.

Section Emission109.
Context (n : R) (tb : ei_table) (s0 : R) (F V H D : R -> ext) (x v h d : jx)
  (Hx : exact s0 F x) (Hv : exact s0 V v) (Hh : exact s0 H h) (Hd : exact s0 D d)
  (Nn : n <> 0) (Bv : exists r, V s0 = Fin r /\ Rabs r <= 30000) (Bh : exists r, H s0 = Fin r /\ -4000000 <= r < 288.15 / 0.0019812)
  (Oh : fixed h \/ H s0 <> Fin (11000 / 0.3048))
  (Od : fixed d \/ (D s0 <> Fin (-25) /\ D s0 <> Fin 15))
  (Ot : (fixed x /\ fixed v /\ fixed h /\ fixed d) \/
        forall q, q = ff_idl tb \/ q = ff_app tb \/ q = ff_co tb \/ q = ff_to tb -> fst (fl2sl NP n (F s0) (V s0) (H s0) (D s0)) <> Fin q).
Theorem C109_nox : exact s0 (fun s => nox NP n tb (F s) (V s) (H s) (D s)) (nox JB n tb x v h d).
Proof.
  apply (exact_ext s0 (nox LE n tb F V H D)).
  - exact (nox_sm n tb s0 F V H D x v h d Hx Hv Hh Hd Nn Bv Bh Oh Od Ot).
  - intros s. apply (nox_hom _ _ (hom_at s)); try reflexivity.
Qed.
Theorem C109_co_hc : exact s0 (fun s => co_hc NP n tb (F s) (V s) (H s) (D s)) (co_hc JB n tb x v h d).
Proof.
  apply (exact_ext s0 (co_hc LE n tb F V H D)).
  - exact (co_sm n tb s0 F V H D x v h d Hx Hv Hh Hd Nn Bv Bh Oh Od Ot).
  - intros s. apply (co_hc_hom _ _ (hom_at s)); try reflexivity.
Qed.
End Emission109.

(** CO2 of an A320 of 60 t in level flight at sea level and 250 kt: fuel flow and emission composed, by mass *)
Example C109_ex : grad_is (fun s => co2 NP (enroute NP a320_drag false a320_fuel (Fin s) (Fin 250) (Fin 0) (Fin 0) (Fin 0) (Fin 0) false)) 60000
  (co2 JB (enroute JB a320_drag false a320_fuel (j_var 60000) (j_const 250) (j_const 0) (j_const 0) (j_const 0) (j_const 0) false)).
Proof.
  apply exact_grad. refine (proj1 (C109_linear _ _ _ _)). apply C109_enroute; try apply exact_var; try apply exact_const; try (left; reflexivity).
  - exists 250. split; [reflexivity|lra].
  - left. repeat split.
  - unfold a320_drag, wing_sweep. lra.
  - apply a320_fuel_ok.
  - destruct C27_ex as (_ & _ & D & -> & B & _). eexists. split; [reflexivity|].
    assert (S : sin (Ratan2 (0 * 0.00508) (250 * 0.514444)) = 0). { rewrite Ratan2_right by lra. rewrite Rmult_0_l. unfold Rdiv. rewrite Rmult_0_l, atan_0, sin_0. reflexivity. }
    rewrite S. exact B.
Qed.
(** NOx of two CFM56-5B4 by fuel flow, by speed and by altitude *)
Example C109_ex_nox :
  grad_is (fun s => nox NP 2 cfm56_nox (Fin s) (Fin 0) (Fin 0) (Fin 0)) 1 (nox JB 2 cfm56_nox (j_var 1) (j_const 0) (j_const 0) (j_const 0)) /\
  grad_is (fun s => nox NP 2 cfm56_nox (Fin 1) (Fin s) (Fin 0) (Fin 0)) 0 (nox JB 2 cfm56_nox (j_const 1) (j_var 0) (j_const 0) (j_const 0)) /\
  grad_is (fun s => nox NP 2 cfm56_nox (Fin 1) (Fin 0) (Fin s) (Fin 0)) 0 (nox JB 2 cfm56_nox (j_const 1) (j_const 0) (j_var 0) (j_const 0)).
Proof.
  assert (Q : forall q, q = ff_idl cfm56_nox \/ q = ff_app cfm56_nox \/ q = ff_co cfm56_nox \/ q = ff_to cfm56_nox -> fst (fl2sl NP 2 (Fin 1) (Fin 0) (Fin 0) (Fin 0)) <> Fin q).
  { rewrite fl2sl_static by lra. intros q Hq E. injection E as E. unfold cfm56_nox in Hq. cbn in Hq. lra. }
  assert (B0 : exists r, Fin 0 = Fin r /\ Rabs r <= 30000) by (exists 0; split; [reflexivity|rewrite Rabs_R0; lra]).
  assert (B1 : exists r, Fin 0 = Fin r /\ -4000000 <= r < 288.15 / 0.0019812) by (exists 0; split; [reflexivity|lra]).
  assert (Ni : Fin 0 <> Fin (11000 / 0.3048)) by (intros E; injection E; lra).
  repeat apply conj; apply exact_grad.
  - apply (C109_nox 2 cfm56_nox 1 Fin (fun _ => Fin 0) (fun _ => Fin 0) (fun _ => Fin 0)); auto; try apply exact_var; try apply exact_const; try (left; reflexivity).
  - apply (C109_nox 2 cfm56_nox 0 (fun _ => Fin 1) Fin (fun _ => Fin 0) (fun _ => Fin 0)); auto; try apply exact_var; try apply exact_const; try (left; reflexivity).
  - apply (C109_nox 2 cfm56_nox 0 (fun _ => Fin 1) (fun _ => Fin 0) Fin (fun _ => Fin 0)); auto; try apply exact_var; try apply exact_const; try (left; reflexivity).
Qed.

(** ** C110: the sphere; degrees and metres *)
Section Geo110.
Context (s0 : R) (A1 O1 A2 O2 H : R -> ext) (a1 o1 a2 o2 h : jx)
  (Ha1 : exact s0 A1 a1) (Ho1 : exact s0 O1 o1) (Ha2 : exact s0 A2 a2) (Ho2 : exact s0 O2 o2) (Hh : exact s0 H h).
(** the points are neither the same nor antipodal *)
Theorem C110_distance :
  ((fixed a1 /\ fixed o1 /\ fixed a2 /\ fixed o2) \/ exists r, distance NP (A1 s0) (O1 s0) (A2 s0) (O2 s0) (Fin 0) = Fin r /\ 0 < r < PI * 6371000) ->
  exact s0 (fun s => distance NP (A1 s) (O1 s) (A2 s) (O2 s) (H s)) (distance JB a1 o1 a2 o2 h).
Proof. intros Od. exact (distance_sm s0 A1 O1 A2 O2 H a1 o1 a2 o2 h Ha1 Ho1 Ha2 Ho2 Hh Od). Qed.
(** the bearing is not due north, where it jumps between 0 and 360 *)
Theorem C110_bearing : bearing NP (A1 s0) (O1 s0) (A2 s0) (O2 s0) <> Fin 0 ->
  exact s0 (fun s => bearing NP (A1 s) (O1 s) (A2 s) (O2 s)) (bearing JB a1 o1 a2 o2).
Proof. intros N. exact (bearing_sm s0 A1 O1 A2 O2 a1 o1 a2 o2 Ha1 Ho1 Ha2 Ho2 N). Qed.
End Geo110.
Section Dest110.
Context (s0 : R) (A O D B H : R -> ext) (a o d b h : jx)
  (Ha : exact s0 A a) (Ho : exact s0 O o) (Hd : exact s0 D d) (Hb : exact s0 B b) (Hh : exact s0 H h)
  (Ph : H s0 <> Fin (-6371000))
  (Np : fst (latlon NP (A s0) (O s0) (D s0) (B s0) (H s0)) <> Fin 90 /\ fst (latlon NP (A s0) (O s0) (D s0) (B s0) (H s0)) <> Fin (-90)).
Theorem C110_destination_latitude : exact s0 (fun s => fst (latlon NP (A s) (O s) (D s) (B s) (H s))) (fst (latlon JB a o d b h)).
Proof. exact (lat2_sm s0 A O D B H a o d b h Ha Ho Hd Hb Hh Ph Np). Qed.
(** the start is not a pole and the destination is not on the opposite meridian *)
Theorem C110_destination_longitude : (exists r, A s0 = Fin r /\ -90 < r < 90) ->
  snd (latlon NP (A s0) (O s0) (D s0) (B s0) (H s0)) <> eadd (O s0) (Fin 180) ->
  exact s0 (fun s => snd (latlon NP (A s) (O s) (D s) (B s) (H s))) (snd (latlon JB a o d b h)).
Proof. intros Ns Nm. exact (lon2_sm s0 A O D B H a o d b h Ha Ho Hd Hb Hh Ph Np Ns Nm). Qed.
End Dest110.
(** on the equator the distance grows by one degree of arc per degree of longitude *)
Example C110_ex : j_grad (distance JB (j_const 0) (j_const 0) (j_const 0) (j_var 90) (j_const 0)) = Fin (PI / 180 * 6371000).
Proof.
  pose proof PI_RGT_0 as PP.
  assert (L : forall s, 0 <= s <= 180 -> distance NP (Fin 0) (Fin 0) (Fin 0) (Fin s) (Fin 0) = Fin (PI / 180 * 6371000 * s)).
  { intros s Hs. rewrite distance_NP. f_equal. unfold ang, dotp, rad. replace 180.0 with 180 by lra. rewrite !Rmult_0_l, sin_0, cos_0.
    replace (1 * 1 * cos (s * (PI / 180) - 0) + 0 * 0) with (cos (s * (PI / 180))) by (rewrite Rminus_0_r; ring). rewrite acos_cos; [ring|]. nra. }
  assert (E : exact 90 (fun s => distance NP (Fin 0) (Fin 0) (Fin 0) (Fin s) (Fin 0)) (distance JB (j_const 0) (j_const 0) (j_const 0) (j_var 90) (j_const 0))).
  { apply (C110_distance 90 (fun _ => Fin 0) (fun _ => Fin 0) (fun _ => Fin 0) Fin (fun _ => Fin 0)); try apply exact_const; try apply exact_var.
    right. rewrite L by lra. eexists. split; [reflexivity|]. nra. }
  destruct (exact_grad _ _ _ E) as (g & D & _ & ->). f_equal. apply (grad_unique _ _ _ _ D). exists (fun s => PI / 180 * 6371000 * s). split; [|auto_derive; [trivial|ring]].
  assert (B1 : 0 < 90) by lra. assert (B2 : 90 < 180) by lra. generalize (filter_and _ _ (locally_gt _ _ B1) (locally_lt _ _ B2)). apply filter_imp. intros s [? ?]. apply L. lra.
Qed.
(** two degrees to the east across the date line: destination by bearing; and a bearing by latitude *)
Example C110_ex_destination :
  let d := PI / 90 * 6371000 in
  grad_is (fun s => fst (latlon NP (Fin 0) (Fin 179) (Fin d) (Fin s) (Fin 0))) 90 (fst (latlon JB (j_const 0) (j_const 179) (j_const d) (j_var 90) (j_const 0))) /\
  grad_is (fun s => snd (latlon NP (Fin 0) (Fin 179) (Fin d) (Fin s) (Fin 0))) 90 (snd (latlon JB (j_const 0) (j_const 179) (j_const d) (j_var 90) (j_const 0))) /\
  grad_is (fun s => bearing NP (Fin 0) (Fin 0) (Fin s) (Fin 10)) 0 (bearing JB (j_const 0) (j_const 0) (j_var 0) (j_const 10)).
Proof.
  cbv zeta. repeat apply conj; apply exact_grad.
  - apply (C110_destination_latitude 90 (fun _ => Fin 0) (fun _ => Fin 179) (fun _ => Fin (PI / 90 * 6371000)) Fin (fun _ => Fin 0)); try apply exact_const; try apply exact_var.
    + intros E; injection E; lra.
    + rewrite C17_longitude_normalised_refuted. cbn [fst]. split; intros E; injection E; lra.
  - apply (C110_destination_longitude 90 (fun _ => Fin 0) (fun _ => Fin 179) (fun _ => Fin (PI / 90 * 6371000)) Fin (fun _ => Fin 0)); try apply exact_const; try apply exact_var.
    + intros E; injection E; lra.
    + rewrite C17_longitude_normalised_refuted. cbn [fst]. split; intros E; injection E; lra.
    + exists 0. split; [reflexivity|lra].
    + rewrite C17_longitude_normalised_refuted. cbn [snd eadd]. intros E; injection E; lra.
  - apply (C110_bearing 0 (fun _ => Fin 0) (fun _ => Fin 0) Fin (fun _ => Fin 10)); try apply exact_const; try apply exact_var.
    rewrite C14_ex_east. intros E; injection E; lra.
Qed.

(** Two points that stay together have distance zero, but JAX does not give a number. *)
Theorem C110_coincident_refuted : forall a o h,
  has_derivative (fun s => distance NP (Fin a) (Fin s) (Fin a) (Fin s) (Fin h)) o 0 /\
  let x := distance JB (j_const a) (j_var o) (j_const a) (j_var o) (j_const h) in
  ~ finite (j_grad x) /\ ~ finite (j_jvp x).
Proof.
  intros a o h. split.
  - exists (fun _ => 0). split; [|auto_derive; auto]. apply filter_forall. intros s. rewrite distance_NP. f_equal.
    unfold ang, dotp. replace (rad s - rad s) with 0 by ring. rewrite cos_0. replace (cos (rad a) * cos (rad a) * 1 + sin (rad a) * sin (rad a)) with 1; [rewrite acos_1; ring|].
    pose proof (sin2_cos2 (rad a)) as Q. unfold Rsqr in Q. lra.
  - cbv zeta. apply dirty_grad. unfold distance. cbv zeta.
    apply bin_dirty. left. apply bin_dirty. right. apply un_dirty. apply sqrt_dirty.
    + cbn [bsqrt JB j_un j_val add mul powi bsin bcos sub div bpi cst j_bin j_const j_var].
      rewrite (ediv_fin PI) by lra. cbn [emul esub eadd eneg]. rewrite !ediv_fin by lra. cbn [emul esub eadd eneg elift epowi].
      match goal with |- esqrt (Fin ?e) = _ => replace e with 0 end.
      * rewrite esqrt_fin by lra. rewrite sqrt_0. reflexivity.
      * rewrite !Rminus_diag_eq by reflexivity. replace (0 / 2) with 0 by lra. rewrite sin_0. ring.
    + apply bin_traced. right. apply bin_traced. right. apply un_traced, un_traced, bin_traced. left. apply bin_traced. left. apply bin_traced. left. apply var_traced.
    + st.
Qed.
