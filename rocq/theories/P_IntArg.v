(** * C133: integer arguments

    Numbers of the caller that are stored as NumPy integers (altitudes, speeds, masses and vertical rates of tracks often
    are) keep their integer type inside the methods.  Where the first operation involves a float nothing happens; in four
    places integers meet integers. *)
From Coq Require Import Reals ZArith Bool List Lra Lia Psatz.
From Interval Require Import Tactic.
From Verif Require Import Num NumFacts SpecNum Aero AeroFacts Geo Thrust ThrustFacts Drag Py Fuel FuelFacts Emission Hom IntArg IntArgFacts P_Drag P_Fuel.
Import ListNotations.
Open Scope R_scope.

(** ** Specification: an argument and the number it stands for *)
Inductive given : inum -> ext -> Prop :=
| given_int t z : (ilo t <= z <= ihi t)%Z -> given (A t z) (Fin (IZR z))
| given_float v : given (Fl v) v.
Lemma given_good x v : given x v -> good x /\ val x = v.
Proof. intros [t z H | u]; cbn; [rewrite in_type_spec |]; tauto. Qed.
Lemma given_soft x v : given x v -> soft (as_float x) v.
Proof. intros H. apply given_good in H as [_ E]. exact E. Qed.
Ltac opens := repeat match goal with H : given ?x ?v |- _ =>
  let G := fresh "G" in let S := fresh "S" in pose proof (given_soft x v H) as S; pose proof (proj1 (given_good x v H)) as G; clear H end.

Lemma climb_ends b e v h r q d : exists u w, climb_with b e v h r q d = mul b u w.
Proof. unfold climb_with, climb_core. cbv zeta. eexists; eexists; reflexivity. Qed.
Lemma takeoff_ends b e v h d : exists u w, takeoff_thrust b e v h d = mul b u w.
Proof. unfold takeoff_thrust. cbv zeta. eexists; eexists; reflexivity. Qed.
Lemma calc_ends b a m v h c k s d : exists u w, calc_drag b a m v h c k s d = mul b u w.
Proof. unfold calc_drag. destruct (cl_qS b a m v h s d). eexists; eexists; reflexivity. Qed.
Lemma clean_ends b a x m v h s d : exists u w, clean b a x m v h s d = mul b u w.
Proof. unfold clean. cbv zeta. apply calc_ends. Qed.
Lemma nonclean_ends b a m v h f s d g : exists u w, nonclean b a m v h f s d g = mul b u w.
Proof. unfold nonclean. cbv zeta. apply calc_ends. Qed.
Lemma climb_float e tas v alt h r r' q q' dT d : given tas v -> given alt h -> given dT d ->
  good r -> val r = r' -> good q -> val q = q' ->
  climb_with IB e tas alt r q dT = Fl (climb_with NP e v h r' q' d).
Proof.
  intros Hv Hh Hd Gr Er Gq Eq. opens. rewrite climb_with_int by assumption.
  assert (Q : soft (climb_with IB e (as_float tas) (as_float alt) (as_float r) (as_float q) (as_float dT)) (climb_with NP e v h r' q' d))
    by (rewrite <- hom_soft in *; apply (climb_with_hom _ _ soft_hom); assumption).
  destruct (climb_ends IB e (as_float tas) (as_float alt) (as_float r) (as_float q) (as_float dT)) as (u & w & E). rewrite E in *. apply mul_float, Q.
Qed.
Lemma soft_good x y : soft x y -> good x.
Proof. destruct x; cbn; tauto. Qed.

(** ** Drag, take-off and cruise thrust, fuel flow at a thrust *)
(** C133.  Integers of any width, signed or not, give the same drag and thrust as the floats of the same value. *)
Theorem C133_drag (a : drag_par) w gear mass m tas v alt h flap f vs s dT d :
  given mass m -> given tas v -> given alt h -> given flap f -> given vs s -> given dT d ->
  clean IB a w mass tas alt vs dT = Fl (clean NP a w m v h s d) /\
  nonclean IB a mass tas alt flap vs dT gear = Fl (nonclean NP a m v h f s d gear).
Proof.
  intros Hm Hv Hh Hf Hs Hd. opens. split.
  - rewrite clean_int by assumption.
    match goal with |- ?x = Fl ?y => assert (Q : soft x y) by (rewrite <- hom_soft in *; apply (clean_hom _ _ soft_hom); assumption) end.
    match type of Q with soft ?x _ => assert (E : exists u w', x = mul IB u w') by apply clean_ends end.
    destruct E as (u & w' & E). rewrite E in *. apply mul_float, Q.
  - rewrite nonclean_int by assumption.
    match goal with |- ?x = Fl ?y => assert (Q : soft x y) by (rewrite <- hom_soft in *; apply (nonclean_hom _ _ soft_hom); assumption) end.
    match type of Q with soft ?x _ => assert (E : exists u w', x = mul IB u w') by apply nonclean_ends end.
    destruct E as (u & w' & E). rewrite E in *. apply mul_float, Q.
Qed.
Lemma takeoff_float e tas v alt h dT d : given tas v -> given alt h -> given dT d ->
  takeoff_thrust IB e tas alt dT = Fl (takeoff_thrust NP e v h d).
Proof.
  intros Hv Hh Hd. opens. rewrite takeoff_int by assumption.
  assert (Q : soft (takeoff_thrust IB e (as_float tas) (as_float alt) (as_float dT)) (takeoff_thrust NP e v h d))
    by (rewrite <- hom_soft in *; apply (takeoff_thrust_hom _ _ soft_hom); assumption).
  destruct (takeoff_ends IB e (as_float tas) (as_float alt) (as_float dT)) as (u & w & E). rewrite E in *. apply mul_float, Q.
Qed.
Lemma idle_float e tas v alt h dT d : given tas v -> given alt h -> given dT d ->
  descent_idle IB e tas alt dT = Fl (descent_idle NP e v h d).
Proof.
  intros Hv Hh Hd. unfold descent_idle. rewrite (takeoff_float e tas v alt h dT d) by assumption.
  generalize (takeoff_thrust NP e v h d). intros y. apply mul_float. apply (soft_int2 Z.mul emul); [apply soft_cst | reflexivity].
Qed.
Lemma cruise_float e tas v alt h dT d : given tas v -> given alt h -> given dT d ->
  cruise_thrust IB e tas alt dT = Fl (cruise_thrust NP e v h d).
Proof.
  intros Hv Hh Hd. unfold cruise_thrust. rewrite (climb_is_with IB), (climb_is_with NP).
  assert (Z0 : soft (babs IB (cst IB 0)) (babs NP (cst NP 0))) by (apply (soft_int1 Z.abs eabs), soft_cst).
  revert Z0. generalize (babs IB (cst IB 0)) (babs NP (cst NP 0)). intros x y Z0.
  assert (Z1 : soft (powi IB x 2) (powi NP y 2)) by (rewrite <- hom_soft in *; apply (h_powi _ _ soft_hom); [discriminate | exact Z0]).
  revert Z1. generalize (powi IB x 2) (powi NP y 2). intros x2 y2 Z1.
  apply climb_float; try assumption; [eapply soft_good, Z0 | apply soft_val, Z0 | eapply soft_good, Z1 | apply soft_val, Z1].
Qed.
Theorem C133_thrust (e : thrust_par) tas v alt h dT d :
  given tas v -> given alt h -> given dT d ->
  takeoff_thrust IB e tas alt dT = Fl (takeoff_thrust NP e v h d) /\
  descent_idle IB e tas alt dT = Fl (descent_idle NP e v h d) /\
  cruise_thrust IB e tas alt dT = Fl (cruise_thrust NP e v h d).
Proof.
  intros Hv Hh Hd. split; [apply takeoff_float; assumption | split; [apply idle_float; assumption | apply cruise_float; assumption]].
Qed.

(** ** Climb thrust: the square of the rate of climb *)
(** C133.  The same for climb thrust as long as the square of the rate of climb fits its type ... *)
Theorem C133_climb (e : thrust_par) tas v alt h roc r dT d :
  given tas v -> given alt h -> given roc r -> given dT d ->
  (forall t z, roc = A t z -> (Z.abs z <= ihi t)%Z /\ (z ^ 2 <= ihi t)%Z) ->
  climb_thrust IB e tas alt roc dT = Fl (climb_thrust NP e v h r d).
Proof.
  intros Hv Hh Hr Hd Hz. rewrite !climb_is_with.
  assert (B : good (babs IB roc) /\ val (babs IB roc) = babs NP r /\ good (powi IB (babs IB roc) 2) /\
    val (powi IB (babs IB roc) 2) = powi NP (babs NP r) 2).
  { destruct Hr as [t z R | x]; [| repeat split; exact I].
    destruct (Hz t z eq_refl) as [Ha Hq]. cbn [IB NP babs powi int1 eabs epowi good val].
    assert (L0 : (ilo t <= 0)%Z) by (destruct t as [[|] []]; unfold ilo; cbn; lia).
    assert (Wa : in_type t (Z.abs z) = true) by (rewrite in_type_spec; lia).
    assert (Eq : (Z.abs z ^ Z.of_nat 2 = z ^ 2)%Z) by (change (Z.of_nat 2) with 2%Z; rewrite !Z.pow_2_r; destruct (Z.abs_spec z) as [[_ ->] | [_ ->]]; ring).
    assert (Wq : in_type t (z ^ 2) = true) by (rewrite in_type_spec, Z.pow_2_r in *; nia).
    rewrite (wrap_id t (Z.abs z) Wa), Eq, (wrap_id t (z ^ 2) Wq). repeat split; try assumption; f_equal.
    - apply abs_IZR.
    - rewrite <- abs_IZR. rewrite pow_IZR, Eq. reflexivity. }
  destruct B as (B1 & B2 & B3 & B4). apply climb_float; assumption.
Qed.

Lemma climb_with_NP e tas alt r q dT : 0 < cruise_mach e -> eng_cruise_thrust e * eng_number e <> 0 ->
  climb_with NP e (Fin tas) (Fin alt) (Fin r) (Fin q) (Fin dT) =
  let v := Rmax 10 tas * kts in let h := alt * ft in
  Fin ((if Rltb 30000 alt then seg3R e v h dT
   else if Rltb 10000 alt then seg2R e v h r dT
   else seg1R e v h r dT + 8.8889e-9 * (r ^ 2 - q) * (prR e h dT - prR e (10000 * ft) dT)) * FcrR e).
Proof.
  intros Hm HF. cbv zeta. unfold climb_with, climb_core. cbn [mul NP cst emul maximum emax].
  rewrite tas2mach_NP, tas2cas_NP, !pressure_NP, mach2cas_NP. fold (vrefR e dT).
  pose proof (floor_pos tas) as Hv. set (v := Rmax 10 tas * kts) in *.
  pose proof (vrefR_pos e dT Hm) as Hvr. pose proof (pR_pos (cruise_alt e * ft) dT) as Hpc.
  cbn [div NP power blog gt where_].
  rewrite (ediv_fin _ (cruise_mach e)) by lra. rewrite (ediv_fin _ (vrefR e dT)) by lra.
  rewrite !(ediv_fin _ (pR (cruise_alt e * ft) dT)) by lra.
  fold (mrR e v (alt * ft) dT). fold (xrR e v (alt * ft) dT). fold (prR e (alt * ft) dT).
  fold (prR e (10000 * ft) dT).
  rewrite elog_fin by apply prR_pos.
  rewrite (epower_fin (mrR _ _ _ _)) by (apply mrR_pos; lra).
  rewrite (epower_fin (xrR _ _ _ _)) by (apply xrR_pos; lra).
  unfold dfunc. cbn [mul NP cst emul add eadd sub esub].
  rewrite !(epower_fin (prR _ _ _)) by apply prR_pos. cbn [emul].
  rewrite ediv_fin by auto. cbn [esub eadd emul egt]. unfold ewhere.
  destruct (Rltb 30000 alt), (Rltb 10000 alt); cbn [emul]; apply f_equal; unfold seg3R, seg2R, seg1R, expo, mR, FcrR; first [reflexivity | field; split; intros E; apply HF; rewrite E; ring].
Qed.
(** ... and otherwise the thrust below 10000 ft is too high: the square is replaced by what is left of it in the type. *)
Theorem C133_climb_wrap (e : thrust_par) tas v alt h t z dT d P P10 Pcr :
  0 < cruise_mach e -> 0 < eng_cruise_thrust e -> 0 < eng_number e ->
  given tas (Fin v) -> given alt (Fin h) -> (ilo t <= z <= ihi t)%Z -> (Z.abs z <= ihi t)%Z -> given dT (Fin d) ->
  pressure NP (Fin (si_ft h)) (Fin d) = Fin P -> pressure NP (Fin (si_ft 10000)) (Fin d) = Fin P10 ->
  pressure NP (Fin (si_ft (cruise_alt e))) (Fin d) = Fin Pcr ->
  exists F q k, climb_thrust NP e (Fin v) (Fin h) (Fin (IZR z)) (Fin d) = Fin F /\
    (ilo t <= q <= ihi t)%Z /\ (q = z ^ 2 - k * 2 ^ bits (i_width t))%Z /\ (0 <= k)%Z /\ (k = 0 <-> z ^ 2 <= ihi t)%Z /\
    climb_thrust IB e tas alt (A t z) dT =
      Fl (Fin (if Rltb 10000 h then F
               else F + 8.8889e-9 * IZR (k * 2 ^ bits (i_width t)) * (P - P10) / Pcr * (eng_cruise_thrust e * eng_number e))).
Proof.
  intros Hm Hc Hn Hv Hh Hz Ha Hd HP HP10 HPcr. assert (HF : eng_cruise_thrust e * eng_number e <> 0) by nra.
  rewrite climb_NP by assumption. destruct (wrap_mod t (z ^ 2)) as [k Hk].
  exists (climbR e v h (IZR z) d), (wrap t (z ^ 2)), k. split; [reflexivity |].
  pose proof (wrap_in t (z ^ 2)) as W. split; [apply in_type_spec, W |]. split; [exact Hk |].
  assert (L0 : (ilo t <= 0)%Z) by (destruct t as [[|] []]; unfold ilo; cbn; lia).
  assert (L1 : (0 <= z ^ 2)%Z) by (rewrite Z.pow_2_r; nia).
  assert (P2 : (0 < 2 ^ bits (i_width t))%Z) by (destruct t as [? []]; reflexivity).
  pose proof (wrap_above t (z ^ 2) ltac:(lia)) as Wa.
  assert (K0 : (0 <= k)%Z) by nia. split; [exact K0 |]. split.
  { split; intros E.
    - apply in_type_spec in W. rewrite Hk, E in W. lia.
    - rewrite wrap_id in Hk by (apply in_type_spec; lia). nia. }
  rewrite climb_is_with. cbn [IB babs powi int1].
  assert (Wz : in_type t (Z.abs z) = true) by (rewrite in_type_spec; lia). rewrite (wrap_id t (Z.abs z) Wz).
  assert (Eq : (Z.abs z ^ Z.of_nat 2 = z ^ 2)%Z) by (change (Z.of_nat 2) with 2%Z; rewrite !Z.pow_2_r; destruct (Z.abs_spec z) as [[_ ->] | [_ ->]]; ring).
  rewrite Eq. rewrite (climb_float e tas (Fin v) alt (Fin h) _ (Fin (IZR (Z.abs z))) _ (Fin (IZR (wrap t (z ^ 2)))) dT (Fin d)) by (first [assumption | reflexivity]).
  rewrite climb_with_NP by assumption. cbv zeta. f_equal. f_equal.
  rewrite pressure_NP in HP, HP10, HPcr. apply Fin_inj in HP. apply Fin_inj in HP10. apply Fin_inj in HPcr.
  unfold climbR. cbv zeta. rewrite abs_IZR. unfold si_ft in *. fold ft in *.
  destruct (Rltb 30000 h) eqn:E3.
  { assert (30000 < h) by (unfold Rltb in E3; destruct (Rlt_dec 30000 h); [assumption | discriminate]). rewrite (Rltb_true 10000 h) by lra. reflexivity. }
  destruct (Rltb 10000 h); [reflexivity |].
  rewrite Hk, minus_IZR, <- abs_IZR, pow_IZR. rewrite Eq. unfold prR, FcrR. unfold ft in *. rewrite HP, HP10, HPcr.
  pose proof (pR_pos (cruise_alt e * 0.3048) d) as Pp. rewrite HPcr in Pp. field. lra.
Qed.
(** C133 (refuted): a rate of climb of 3000 ft/min in 16 bits below 10000 ft gives a thrust that is too high, for every engine. *)
Theorem C133_climb_refuted (e : thrust_par) v h d F :
  0 < cruise_mach e -> 0 < eng_cruise_thrust e -> 0 < eng_number e -> h < 10000 ->
  climb_thrust NP e (Fin v) (Fin h) (Fin 3000) (Fin d) = Fin F ->
  exists F', climb_thrust IB e (Fl (Fin v)) (Fl (Fin h)) (A (mkIty true W16) 3000) (Fl (Fin d)) = Fl (Fin F') /\ F < F'.
Proof.
  intros Hm Hc Hn Hh HF.
  destruct (C133_climb_wrap e (Fl (Fin v)) v (Fl (Fin h)) h (mkIty true W16) 3000 (Fl (Fin d)) d
    (pR (si_ft h) d) (pR (si_ft 10000) d) (pR (si_ft (cruise_alt e)) d)) as (F0 & q & k & E0 & Q & Qk & K0 & K & E);
    try assumption; try constructor; try (apply pressure_NP); try (cbn; lia).
  rewrite HF in E0. apply Fin_inj in E0. subst F0. eexists. split; [exact E |].
  rewrite (Rltb_false 10000 h) by lra.
  assert (k <> 0)%Z as Nk by (intros N; apply K in N; cbn in N; lia).
  assert (PP : pR (si_ft 10000) d < pR (si_ft h) d) by (apply pR_decr; unfold si_ft; lra).
  pose proof (pR_pos (si_ft (cruise_alt e)) d) as P1.
  assert (B : (1 <= k * 2 ^ bits (i_width (mkIty true W16)))%Z) by (change (2 ^ bits (i_width (mkIty true W16)))%Z with 65536%Z; lia).
  apply IZR_le in B. set (w := IZR (k * 2 ^ bits (i_width (mkIty true W16)))) in *.
  assert (0 < 8.8889e-9 * w * (pR (si_ft h) d - pR (si_ft 10000) d) / pR (si_ft (cruise_alt e)) d * (eng_cruise_thrust e * eng_number e)); [| lra].
  apply Rmult_lt_0_compat; [| nra]. apply Rdiv_lt_0_compat; [| exact P1]. apply Rmult_lt_0_compat; [| lra]. apply Rmult_lt_0_compat; lra.
Qed.

(** ** Fuel flow *)
Lemma at_thrust_ends b f x : exists u w, at_thrust b f x = mul b u w.
Proof. unfold at_thrust. eexists; eexists; reflexivity. Qed.
Lemma at_thrust_float f x y : soft x y -> at_thrust IB f x = Fl (at_thrust NP f y).
Proof.
  intros H. assert (Q : soft (at_thrust IB f x) (at_thrust NP f y)) by (rewrite <- hom_soft in *; apply (at_thrust_hom _ _ soft_hom); assumption).
  destruct (at_thrust_ends IB f x) as (u & w & E). rewrite E in *. apply mul_float, Q.
Qed.
Lemma at_thrust_int f x : good x -> at_thrust IB f x = at_thrust IB f (as_float x).
Proof. intros G. unfold at_thrust, thrust_ratio. cbv zeta. rewrite (div_l x _ G). reflexivity. Qed.
(** C133.  Fuel flow at a thrust and at take-off: as with floats. *)
Theorem C133_fuel (e : thrust_par) (f : fuel_par) thr x tas v alt h throttle c :
  given thr x -> given tas v -> given alt h -> given throttle c ->
  at_thrust IB f thr = Fl (at_thrust NP f x) /\
  match takeoff_fuel IB e f tas (Some alt) throttle, takeoff_fuel NP e f v (Some h) c with
  | inr p, inr q => p = Fl q | _, _ => False end.
Proof.
  intros Hx Hv Hh Hc. split.
  - opens. rewrite at_thrust_int by assumption. apply at_thrust_float. assumption.
  - cbn [takeoff_fuel].
    assert (E : takeoff_thrust IB e tas alt (cst IB 0) = Fl (takeoff_thrust NP e v h (cst NP 0))).
    { pose proof (soft_cst 0) as S0. change (cst IB 0) with (icst 0). change (cst NP 0) with (Fin 0). destruct (icst 0) eqn:E0; cbn in S0; try contradiction.
      - opens. rewrite takeoff_int by first [assumption | exact I].
        assert (Q : soft (takeoff_thrust IB e (as_float tas) (as_float alt) (as_float (KI z))) (takeoff_thrust NP e v h (Fin 0)))
          by (rewrite <- hom_soft in *; apply (takeoff_thrust_hom _ _ soft_hom); assumption).
        destruct (takeoff_ends IB e (as_float tas) (as_float alt) (as_float (KI z))) as (u & w & E). rewrite E in *. apply mul_float, Q.
      - subst x0. apply takeoff_float; try assumption. constructor. }
    rewrite E. rewrite (at_thrust_float f _ (takeoff_thrust NP e v h (cst NP 0))) by reflexivity.
    apply given_good in Hc as [Gc <-]. rewrite mul_fl by exact Gc. reflexivity.
Qed.

(** the product of mass and acceleration in integers *)
Lemma product_int mass m acc c : given mass m -> given acc c ->
  (forall t z u y s, mass = A t z -> acc = A u y -> promote t u = Some s -> (ilo s <= z * y <= ihi s)%Z) ->
  good (mul IB mass acc) /\ val (mul IB mass acc) = mul NP m c.
Proof.
  intros [t z Hz | v] [u y Hy | w] Hp; cbn [IB NP mul int2 val]; try (split; [exact I | reflexivity]).
  destruct (promote t u) as [s |] eqn:E; [| split; [exact I | reflexivity]].
  pose proof (Hp t z u y s eq_refl eq_refl E) as B. rewrite wrap_id by (apply in_type_spec, B). cbn [good val emul].
  rewrite mult_IZR. split; [apply in_type_spec, B | reflexivity].
Qed.
Lemma add_float x y : good y -> add IB (Fl x) y = Fl (eadd x (val y)).
Proof. destruct y; cbn; tauto. Qed.
Lemma enroute_balance (a : drag_par) w (f : fuel_par) mass m tas v alt h vs s acc dT d limit p :
  given mass m -> given tas v -> given alt h -> given vs s -> given dT d ->
  good (mul IB mass acc) -> val (mul IB mass acc) = p ->
  enroute IB a w f mass tas alt vs acc dT limit =
  Fl (at_thrust NP f (add NP (add NP (clean NP a w m v h s d) (mul NP (mul NP m (Fin 9.81)) (bsin NP (barctan2 NP (mul NP s (Fin fpm)) (mul NP v (Fin kts)))))) p)).
Proof.
  intros Hm Hv Hh Hs Hd Gp Ep. unfold enroute. cbv zeta.
  rewrite (proj1 (C133_drag a w false mass m tas v alt h (Fl (Fin 0)) (Fin 0) vs s dT d Hm Hv Hh ltac:(constructor) Hs Hd)).
  generalize dependent (mul IB mass acc). intros pr Gp Ep. opens.
  rewrite (mul_fpm vs), (mul_kts tas), (mul_l mass 9.81) by (try assumption; exists 9%Z; lra).
  set (g := mul IB (mul IB (as_float mass) (cst IB 9.81)) (bsin IB (barctan2 IB (mul IB (as_float vs) (cst IB fpm)) (mul IB (as_float tas) (cst IB kts))))).
  assert (Q : soft g (mul NP (mul NP m (Fin 9.81)) (bsin NP (barctan2 NP (mul NP s (Fin fpm)) (mul NP v (Fin kts)))))).
  { unfold g. change (Fin 9.81) with (cst NP 9.81). change (Fin fpm) with (cst NP fpm). change (Fin kts) with (cst NP kts).
    clear g. rewrite <- hom_soft in *. hom. }
  assert (Eg : g = Fl (mul NP (mul NP m (Fin 9.81)) (bsin NP (barctan2 NP (mul NP s (Fin fpm)) (mul NP v (Fin kts)))))) by (apply mul_float, Q).
  clearbody g. subst g. rewrite add_float by exact I. rewrite add_float by exact Gp. rewrite Ep. apply at_thrust_float. reflexivity.
Qed.
(** C133.  En-route fuel flow: as with floats if mass times acceleration fits the common type of the two. *)
Theorem C133_enroute (a : drag_par) w (f : fuel_par) mass m tas v alt h vs s acc c dT d limit :
  given mass m -> given tas v -> given alt h -> given vs s -> given acc c -> given dT d ->
  (forall t z u y ty, mass = A t z -> acc = A u y -> promote t u = Some ty -> (ilo ty <= z * y <= ihi ty)%Z) ->
  enroute IB a w f mass tas alt vs acc dT limit = Fl (enroute NP a w f m v h s c d limit).
Proof.
  intros Hm Hv Hh Hs Hc Hd Hp. destruct (product_int mass m acc c Hm Hc Hp) as [Gp Ep].
  rewrite (enroute_balance a w f mass m tas v alt h vs s acc dT d limit _ Hm Hv Hh Hs Hd Gp Ep). reflexivity.
Qed.
(** with the default acceleration 0 the condition always holds *)
Theorem C133_enroute_default (a : drag_par) w (f : fuel_par) mass m tas v alt h vs s t dT d limit :
  given mass m -> given tas v -> given alt h -> given vs s -> given dT d ->
  enroute IB a w f mass tas alt vs (A t 0) dT limit = Fl (enroute NP a w f m v h s (Fin 0) d limit).
Proof.
  intros. apply C133_enroute; try assumption.
  - apply (given_int t 0). destruct t as [[|] []]; unfold ilo, ihi; cbn; lia.
  - intros t1 z u y ty _ E _. injection E as <- <-. rewrite Z.mul_0_r. destruct ty as [[|] []]; unfold ilo, ihi; cbn; lia.
Qed.
(** C133 (refuted): 20000 kg and 2 m/s2 in 16 bits: the thrust that is needed is taken 65536 N too small, and the fuel flow with it. *)
Theorem C133_enroute_refuted (a : drag_par) w (f : fuel_par) v h s d limit D :
  fuel_ok f -> clean NP a w (Fin 20000) (Fin v) (Fin h) (Fin s) (Fin d) = Fin D ->
  let X := D + 20000 * 9.81 * sin (Ratan2 (s * fpm) (v * kts)) + 40000 in
  -10.5 * rated f <= X - 65536 -> X <= 14.2 * rated f ->
  exists q q', enroute NP a w f (Fin 20000) (Fin v) (Fin h) (Fin s) (Fin 2) (Fin d) limit = Fin q /\
    enroute IB a w f (A (mkIty true W16) 20000) (Fl (Fin v)) (Fl (Fin h)) (Fl (Fin s)) (A (mkIty true W16) 2) (Fl (Fin d)) limit = Fl (Fin q') /\
    q' < q.
Proof.
  intros Hf HD X X1 X2.
  assert (E1 : enroute NP a w f (Fin 20000) (Fin v) (Fin h) (Fin s) (Fin 2) (Fin d) limit = at_thrust NP f (Fin X)).
  { unfold enroute. cbv zeta. rewrite HD. cbn [NP mul cst emul barctan2 eatan2 bsin elift add eadd]. unfold X. replace (20000 * 2) with 40000 by ring. reflexivity. }
  assert (E2 : enroute IB a w f (A (mkIty true W16) 20000) (Fl (Fin v)) (Fl (Fin h)) (Fl (Fin s)) (A (mkIty true W16) 2) (Fl (Fin d)) limit =
    Fl (at_thrust NP f (Fin (X - 65536)))).
  { rewrite (enroute_balance a w f (A (mkIty true W16) 20000) (Fin 20000) (Fl (Fin v)) (Fin v) (Fl (Fin h)) (Fin h) (Fl (Fin s)) (Fin s)
      (A (mkIty true W16) 2) (Fl (Fin d)) (Fin d) limit (Fin (40000 - 65536))); try constructor; try (cbn; lia).
    - rewrite HD. cbn [NP mul cst emul barctan2 eatan2 bsin elift add eadd]. f_equal. f_equal. f_equal. unfold X. lra.
    - cbn [IB mul int2 promote i_signed i_width]. change (wmax W16 W16) with W16.
      replace (wrap (mkIty true W16) (20000 * 2)) with (-25536)%Z by reflexivity. cbn [val]. f_equal. lra. }
  destruct (C24_flow_positive_increasing_bounded f Hf X X2) as (q & Eq & _).
  destruct (C24_flow_positive_increasing_bounded f Hf (X - 65536) ltac:(lra)) as (q' & Eq' & _ & _ & Mono).
  exists q, q'. rewrite E1, E2, Eq, Eq'. split; [reflexivity | split; [reflexivity |]]. apply (Mono X q); [lra | exact X2 | exact Eq].
Qed.

(** ** Emissions *)
(** C133.  CO, HC, soot and SOx: as with floats. *)
Lemma fl2sl_int n x tas alt dT : good x -> good tas -> good alt -> good dT ->
  fl2sl IB n x tas alt dT = fl2sl IB n (as_float x) (as_float tas) (as_float alt) (as_float dT).
Proof.
  intros Gx Gv Gh Gd. unfold fl2sl. cbv zeta.
  rewrite (mul_kts tas Gv), (mul_ft alt Gh), (tas2mach_shift _ _ dT Gd), (temperature_shift _ dT Gd), (div_l x _ Gx).
  rewrite (mul_r alt 0.0019812 Gh) by (exists 0%Z; lra). reflexivity.
Qed.
Lemma fl2sl_float n x x' tas v alt h dT d : given x x' -> given tas v -> given alt h -> given dT d ->
  soft (fst (fl2sl IB n x tas alt dT)) (fst (fl2sl NP n x' v h d)) /\ soft (snd (fl2sl IB n x tas alt dT)) (snd (fl2sl NP n x' v h d)).
Proof.
  intros Hx Hv Hh Hd. pose proof (proj1 (given_good _ _ Hx)) as Gx. pose proof (proj1 (given_good _ _ Hv)) as Gv.
  pose proof (proj1 (given_good _ _ Hh)) as Gh. pose proof (proj1 (given_good _ _ Hd)) as Gd. rewrite (fl2sl_int n x tas alt dT Gx Gv Gh Gd).
  pose proof (fl2sl_hom IB NP soft_hom n (as_float x) x' (as_float tas) v (as_float alt) h (as_float dT) d) as Q. rewrite hom_soft in Q.
  exact (Q (given_soft _ _ Hx) (given_soft _ _ Hv) (given_soft _ _ Hh) (given_soft _ _ Hd)).
Qed.
Theorem C133_emission n (t : ei_table) ffac x tas v alt h dT d :
  given ffac x -> given tas v -> given alt h -> given dT d ->
  co_hc IB n t ffac tas alt dT = Fl (co_hc NP n t x v h d) /\
  soot IB ffac = Fl (soot NP x) /\ sox IB ffac = Fl (sox NP x).
Proof.
  intros Hx Hv Hh Hd. pose proof (given_good _ _ Hx) as [G E]. split; [| split].
  - pose proof (fl2sl_float n ffac x tas v alt h dT d Hx Hv Hh Hd) as Q. unfold co_hc.
    destruct (fl2sl IB n _ _ _ _) as [p r], (fl2sl NP n _ _ _ _) as [p' r']. cbn [fst snd] in Q. destruct Q as [Q1 Q2].
    assert (Q3 : soft (mul IB (interp IB p (ei_points t)) r) (mul NP (interp NP p' (ei_points t)) r'))
      by (apply (soft_int2 Z.mul emul); [apply soft_interp, Q1 | exact Q2]).
    apply mul_float in Q3. rewrite Q3. rewrite mul_fr by exact G. rewrite <- E. reflexivity.
  - rewrite <- E. unfold soot. rewrite mul_l by (try assumption; exists 0%Z; lra). apply mul_float. apply (soft_int2 Z.mul emul); [reflexivity | apply soft_cst].
  - rewrite <- E. unfold sox. rewrite mul_l by (try assumption; exists 1%Z; lra). apply mul_float. apply (soft_int2 Z.mul emul); [reflexivity | apply soft_cst].
Qed.
(** C133.  CO2 and H2O of a fuel flow in integers: the product in the type of the fuel flow; as with floats if it fits. *)
Theorem C133_co2 t z : (ilo t <= z <= ihi t)%Z -> i_width t <> W8 ->
  exists c w k l, co2 IB (A t z) = A t c /\ h2o IB (A t z) = A t w /\
    (ilo t <= c <= ihi t)%Z /\ (c = z * 3160 - k * 2 ^ bits (i_width t))%Z /\ ((ilo t <= z * 3160 <= ihi t)%Z -> val (co2 IB (A t z)) = co2 NP (Fin (IZR z))) /\
    (ilo t <= w <= ihi t)%Z /\ (w = z * 1230 - l * 2 ^ bits (i_width t))%Z /\ ((ilo t <= z * 1230 <= ihi t)%Z -> val (h2o IB (A t z)) = h2o NP (Fin (IZR z))).
Proof.
  intros Hz Hw. destruct (wrap_mod t (z * 3160)) as [k Hk]. destruct (wrap_mod t (z * 1230)) as [l Hl].
  assert (E1 : co2 IB (A t z) = A t (wrap t (z * 3160))).
  { unfold co2. cbn [IB mul cst]. replace (icst 3160) with (KI 3160) by (symmetry; apply (cst_int 3160)). cbn [int2].
    replace (in_type t 3160) with true; [reflexivity |]. destruct t as [[|] []]; try reflexivity; exfalso; apply Hw; reflexivity. }
  assert (E2 : h2o IB (A t z) = A t (wrap t (z * 1230))).
  { unfold h2o. cbn [IB mul cst]. replace (icst 1230) with (KI 1230) by (symmetry; apply (cst_int 1230)). cbn [int2].
    replace (in_type t 1230) with true; [reflexivity |]. destruct t as [[|] []]; try reflexivity; exfalso; apply Hw; reflexivity. }
  exists (wrap t (z * 3160)), (wrap t (z * 1230)), k, l. rewrite E1, E2.
  split; [reflexivity | split; [reflexivity |]].
  split; [apply in_type_spec, wrap_in |]. split; [exact Hk |].
  split. { intros B. cbn [val]. rewrite wrap_id by (apply in_type_spec, B). unfold co2. cbn [NP mul cst emul]. rewrite mult_IZR. reflexivity. }
  split; [apply in_type_spec, wrap_in |]. split; [exact Hl |].
  intros B. cbn [val]. rewrite wrap_id by (apply in_type_spec, B). unfold h2o. cbn [NP mul cst emul]. rewrite mult_IZR. reflexivity.
Qed.
(** C133 (refuted): 11 kg/s in 16 bits "absorbs" 30776 g/s of CO2. *)
Theorem C133_co2_refuted : co2 NP (Fin 11) = Fin 34760 /\ co2 IB (A (mkIty true W16) 11) = A (mkIty true W16) (-30776).
Proof.
  split; [unfold co2; cbn [NP mul cst emul]; f_equal; lra |].
  unfold co2. cbn [IB mul cst]. replace (icst 3160) with (KI 3160) by (symmetry; apply (cst_int 3160)). reflexivity.
Qed.

(** *** NOx: the altitude minus 12900 ft *)
Definition nox_pre (b : backend) (sl ratio diff : T b) : T b :=
  let omega := mul b (cst b 0.001) (bexp b (mul b (cst b (-0.0001426)) diff)) in
  mul b (mul b sl (bsqrt b (div b (cst b 1) ratio))) (bexp b (mul b (cst b (-19)) (sub b omega (cst b 0.00634)))).
Lemma nox_is_pre b n t x v h d : nox b n t x v h d =
  mul b (nox_pre b (interp b (fst (fl2sl b n x v h d)) (ei_points t)) (snd (fl2sl b n x v h d)) (sub b h (cst b 12900))) x.
Proof. unfold nox, nox_pre. cbv zeta. destruct (fl2sl b n x v h d). reflexivity. Qed.
Lemma nox_pre_float sl sl' r r' diff : soft sl sl' -> soft r r' -> good diff ->
  nox_pre IB sl r diff = Fl (nox_pre NP sl' r' (val diff)).
Proof.
  intros Hs Hr G. unfold nox_pre. cbv zeta. rewrite (mul_r diff (-0.0001426) G) by (exists (-1)%Z; lra).
  pose proof (as_float_soft diff) as Hd. revert Hd. generalize (as_float diff) (val diff). intros x y Hd.
  apply mul_float. rewrite <- hom_soft in *. hom.
Qed.
Lemma nox_float n t ffac x tas v alt h dT d diff : given ffac x -> given tas v -> given alt h -> given dT d ->
  sub IB alt (cst IB 12900) = diff -> good diff ->
  nox IB n t ffac tas alt dT = Fl (mul NP (nox_pre NP (interp NP (fst (fl2sl NP n x v h d)) (ei_points t)) (snd (fl2sl NP n x v h d)) (val diff)) x).
Proof.
  intros Hx Hv Hh Hd Ed Gd. rewrite nox_is_pre, Ed. destruct (fl2sl_float n ffac x tas v alt h dT d Hx Hv Hh Hd) as [Q1 Q2].
  rewrite (nox_pre_float _ _ _ _ diff (soft_interp (ei_points t) _ _ Q1) Q2 Gd).
  pose proof (given_good _ _ Hx) as [G <-]. rewrite mul_fr by exact G. reflexivity.
Qed.
Lemma cst_12900 : cst IB 12900 = KI 12900.
Proof. exact (cst_int 12900). Qed.
(** C133.  NOx: as with floats if the altitude minus 12900 fits the type of the altitude ... *)
Theorem C133_nox n (t : ei_table) ffac x tas v alt h dT d :
  given ffac x -> given tas v -> given alt h -> given dT d ->
  (forall ty z, alt = A ty z -> (12900 <= ihi ty)%Z /\ (ilo ty <= z - 12900)%Z) ->
  nox IB n t ffac tas alt dT = Fl (nox NP n t x v h d).
Proof.
  intros Hx Hv Hh Hd Hz. rewrite (nox_is_pre NP).
  assert (D : good (sub IB alt (cst IB 12900)) /\ val (sub IB alt (cst IB 12900)) = sub NP h (cst NP 12900)).
  { rewrite cst_12900. destruct Hh as [ty z R | y]; [| split; [exact I | reflexivity]]. destruct (Hz ty z eq_refl) as [H1 H2].
    assert (L0 : (ilo ty <= 0)%Z) by (destruct ty as [[|] []]; unfold ilo; cbn; lia).
    cbn [IB NP sub int2 cst esub]. replace (in_type ty 12900) with true by (symmetry; apply in_type_spec; lia).
    rewrite wrap_id by (apply in_type_spec; lia). cbn [good val]. rewrite minus_IZR. split; [apply in_type_spec; lia | reflexivity]. }
  destruct D as [D1 D2]. rewrite (nox_float n t ffac x tas v alt h dT d _ Hx Hv Hh Hd eq_refl D1), D2. reflexivity.
Qed.
Lemma nox_pre_NP sl r d1 d2 q y : (-4900000 <= d1) -> (-4900000 <= d2) ->
  emul (nox_pre NP sl r (Fin d1)) (Fin q) = Fin y ->
  emul (nox_pre NP sl r (Fin d2)) (Fin q) = Fin (y * exp (0.019 * (exp (-0.0001426 * d1) - exp (-0.0001426 * d2)))).
Proof.
  intros H1 H2. unfold nox_pre. cbv zeta. cbn [NP mul cst bexp emul sub esub bsqrt div].
  assert (B : forall d, -4900000 <= d -> eexp (Fin (-0.0001426 * d)) = Fin (exp (-0.0001426 * d))).
  { intros d Hd. cbn [eexp]. destruct (Rle_dec (-0.0001426 * d) exp_max) as [_ | N]; [reflexivity | exfalso; apply N; unfold exp_max; lra]. }
  rewrite !B by assumption. cbn [emul esub].
  assert (C : forall w, 0 < w -> eexp (Fin (-19 * (0.001 * w - 0.00634))) = Fin (exp (-19 * (0.001 * w - 0.00634)))).
  { intros w Hw. cbn [eexp]. destruct (Rle_dec (-19 * (0.001 * w - 0.00634)) exp_max) as [_ | N]; [reflexivity | exfalso; apply N; unfold exp_max; lra]. }
  rewrite !C by apply exp_pos. set (w1 := exp (-0.0001426 * d1)). set (w2 := exp (-0.0001426 * d2)).
  destruct (emul sl (esqrt (ediv (Fin 1) r))) as [u | | |]; cbn [emul].
  - intros E. apply Fin_inj in E. subst y. f_equal.
    replace (exp (-19 * (0.001 * w2 - 0.00634))) with (exp (-19 * (0.001 * w1 - 0.00634)) * exp (0.019 * (w1 - w2))) by (rewrite <- exp_plus; f_equal; lra). ring.
  - unfold einf_mul. destruct (Rlt_dec 0 _); [| destruct (Rlt_dec _ 0)]; cbn [emul]; unfold einf_mul; repeat destruct (Rlt_dec _ _); discriminate.
  - unfold einf_mul. destruct (Rlt_dec 0 _); [| destruct (Rlt_dec _ 0)]; cbn [emul]; unfold einf_mul; repeat destruct (Rlt_dec _ _); discriminate.
  - discriminate.
Qed.
(** ... and otherwise too high: an unsigned altitude below 12900 ft turns around to the top of its type.  (Refutes the claim
    that integer altitudes are harmless: at sea level in 16 bits NOx is 12 % too high.) *)
Theorem C133_nox_refuted n (t : ei_table) ffac q tas v w z dT d y :
  given ffac (Fin q) -> given tas v -> given dT d -> w <> W8 -> (0 <= z < 12900)%Z ->
  nox NP n t (Fin q) v (Fin (IZR z)) d = Fin y ->
  exists k, k = exp (0.019 * (exp (-0.0001426 * (IZR z - 12900)) - exp (-0.0001426 * (IZR z - 12900 + IZR (2 ^ bits w))))) /\ 1 < k /\
    nox IB n t ffac tas (A (mkIty false w) z) dT = Fl (Fin (y * k)) /\ (z = 0%Z -> w = W16 -> 1.12 < k).
Proof.
  intros Hx Hv Hd Hw Hz Hy. eexists. split; [reflexivity |].
  assert (Hb : (65536 <= 2 ^ bits w)%Z) by (destruct w; cbn; lia || (exfalso; apply Hw; reflexivity)).
  assert (Hbr : 65536 <= IZR (2 ^ bits w)) by (apply (IZR_le 65536), Hb).
  assert (Hzr : 0 <= IZR z < 12900) by (split; [apply (IZR_le 0) | apply (IZR_lt z 12900)]; lia).
  split; [| split].
  - rewrite <- exp_0. apply exp_increasing. apply Rmult_lt_0_compat; [lra |]. apply Rlt_Rminus. apply exp_increasing. lra.
  - rewrite (nox_is_pre NP) in Hy.
    assert (Hh : given (A (mkIty false w) z) (Fin (IZR z))) by (constructor; unfold ilo, ihi; cbn [i_signed i_width]; lia).
    assert (D : sub IB (A (mkIty false w) z) (cst IB 12900) = A (mkIty false w) (z - 12900 + 2 ^ bits w)).
    { rewrite cst_12900. cbn [IB sub int2]. replace (in_type (mkIty false w) 12900) with true by (symmetry; apply in_type_spec; unfold ilo, ihi; cbn [i_signed i_width]; lia).
      f_equal. unfold wrap, ilo. cbn [i_signed i_width]. rewrite Z.sub_0_r, Z.add_0_l.
      rewrite <- (Z_mod_plus_full (z - 12900) 1), Z.mul_1_l. apply Z.mod_small. lia. }
    rewrite (nox_float n t ffac (Fin q) tas v (A (mkIty false w) z) (Fin (IZR z)) dT d _ Hx Hv Hh Hd D) by (cbn [good]; apply in_type_spec; unfold ilo, ihi; cbn [i_signed i_width]; lia).
    f_equal. cbn [val]. rewrite plus_IZR, minus_IZR. cbn [NP sub cst esub] in Hy. cbn [NP mul].
    apply nox_pre_NP; [lra | lra | exact Hy].
  - intros -> ->. cbn [bits]. change (2 ^ 16)%Z with 65536%Z. interval.
Qed.

(** ** Positions *)
(** C133.  Distance, bearing and destination of positions in integer degrees: as with floats (height as a float). *)
Theorem C133_geo lat1 x1 lon1 y1 lat2 x2 lon2 y2 dist r brg g h :
  given lat1 x1 -> given lon1 y1 -> given lat2 x2 -> given lon2 y2 -> given dist r -> given brg g ->
  distance IB lat1 lon1 lat2 lon2 (Fl h) = Fl (distance NP x1 y1 x2 y2 h) /\
  bearing IB lat1 lon1 lat2 lon2 = Fl (bearing NP x1 y1 x2 y2) /\
  latlon IB lat1 lon1 dist brg (Fl h) = (Fl (fst (latlon NP x1 y1 r g h)), Fl (snd (latlon NP x1 y1 r g h))).
Proof.
  intros H1 H2 H3 H4 H5 H6. apply given_good in H1 as [G1 <-]. apply given_good in H2 as [G2 <-]. apply given_good in H3 as [G3 <-].
  apply given_good in H4 as [G4 <-]. apply given_good in H5 as [G5 <-]. apply given_good in H6 as [G6 <-].
  pose (k := div NP (bpi NP) (cst NP 180.0)).
  assert (K : div IB (bpi IB) (cst IB 180.0) = Fl k).
  { unfold k. pose proof (soft_cst 180.0) as S. cbn [IB NP div bpi cst]. destruct (icst 180.0); cbn in S; try contradiction; cbn [fl2 val]; rewrite S; reflexivity. }
  assert (FM : forall u w y, soft (fmod IB u w) y -> fmod IB u w = Fl y) by (intros [] [] y; cbn; try tauto; intros <-; reflexivity).
  split; [| split].
  - unfold distance. cbv zeta. rewrite K. rewrite !(mul_fl lat1), !(mul_fl lon1), !(mul_fl lat2), !(mul_fl lon2) by assumption.
    fold k. clearbody k. apply mul_float. generalize (soft_cst geo_r_earth). 
    pose proof (as_float_soft lat1) as S1. pose proof (as_float_soft lon1) as S2. pose proof (as_float_soft lat2) as S3. pose proof (as_float_soft lon2) as S4.
    assert (Sk : soft (Fl k) k) by reflexivity. assert (Sh : soft (Fl h) h) by reflexivity. intros _.
    revert S1 S2 S3 S4. generalize (as_float lat1) (val lat1) (as_float lon1) (val lon1) (as_float lat2) (val lat2) (as_float lon2) (val lon2). intros.
    rewrite <- hom_soft in *. hom.
  - unfold bearing. cbv zeta. rewrite K. rewrite !(mul_fl lat1), !(mul_fl lon1), !(mul_fl lat2), !(mul_fl lon2) by assumption.
    fold k. clearbody k. apply FM.
    pose proof (as_float_soft lat1) as S1. pose proof (as_float_soft lon1) as S2. pose proof (as_float_soft lat2) as S3. pose proof (as_float_soft lon2) as S4.
    assert (Sk : soft (Fl k) k) by reflexivity.
    revert S1 S2 S3 S4. generalize (as_float lat1) (val lat1) (as_float lon1) (val lon1) (as_float lat2) (val lat2) (as_float lon2) (val lon2). intros.
    rewrite <- hom_soft in *. hom.
  - unfold latlon. cbv zeta. cbn [fst snd]. rewrite K. rewrite !(mul_fl lat1), !(mul_fl lon1), !(mul_fl brg), !(div_l dist) by assumption.
    fold k. clearbody k.
    pose proof (as_float_soft lat1) as S1. pose proof (as_float_soft lon1) as S2. pose proof (as_float_soft brg) as S3. pose proof (as_float_soft dist) as S4.
    assert (Sk : soft (Fl k) k) by reflexivity. assert (Sh : soft (Fl h) h) by reflexivity.
    revert S1 S2 S3 S4. generalize (as_float lat1) (val lat1) (as_float lon1) (val lon1) (as_float brg) (val brg) (as_float dist) (val dist). intros.
    apply f_equal2; apply mul_float; rewrite <- hom_soft in *; hom.
Qed.

(** ** Concrete cases *)
(** 180 ft/min in 16 bits and 3000 ft/min in 32 bits meet the condition of [C133_climb], at 250 kt and 35000 ft in unsigned 16 bits *)
Example C133_ex (e : thrust_par) : let u16 := mkIty false W16 in
  climb_thrust IB e (A u16 250) (A u16 35000) (A (mkIty true W16) (-180)) (A (mkIty true W8) (-10)) =
    Fl (climb_thrust NP e (Fin 250) (Fin 35000) (Fin (-180)) (Fin (-10))) /\
  climb_thrust IB e (A u16 250) (A u16 35000) (A (mkIty true W32) 3000) (A (mkIty true W8) (-10)) =
    Fl (climb_thrust NP e (Fin 250) (Fin 35000) (Fin 3000) (Fin (-10))).
Proof.
  intros u16. split.
  - apply C133_climb; try (apply given_int; cbn; lia). intros t z E. injection E as <- <-. cbn. lia.
  - apply C133_climb; try (apply given_int; cbn; lia). intros t z E. injection E as <- <-. cbn. lia.
Qed.
(** 60000 kg in 32 bits with 2 m/s2 in 16 bits meet the condition of [C133_enroute]; 16 bit altitudes that of [C133_nox] *)
Example C133_ex2 (a : drag_par) (f : fuel_par) n t : let i16 := mkIty true W16 in let i32 := mkIty true W32 in
  enroute IB a true f (A i32 60000) (A i16 250) (A i16 12000) (A i16 (-500)) (A i16 2) (A i16 0) false =
    Fl (enroute NP a true f (Fin 60000) (Fin 250) (Fin 12000) (Fin (-500)) (Fin 2) (Fin 0) false) /\
  nox IB n t (Fl (Fin 0.9)) (A i16 250) (A i16 3000) (A i16 0) = Fl (nox NP n t (Fin 0.9) (Fin 250) (Fin 3000) (Fin 0)).
Proof.
  intros i16 i32. split.
  - apply C133_enroute; try (apply given_int; cbn; lia).
    intros t1 z u y ty E1 E2 E3. injection E1 as <- <-. injection E2 as <- <-. cbn in E3. injection E3 as <-. cbn. lia.
  - apply C133_nox; try (apply given_int; cbn; lia); [apply given_float |]. intros t1 z E. injection E as <- <-. cbn. lia.
Qed.
(** drag of a track stored in integers of different widths *)
Example C133_ex3 (a : drag_par) : let i16 := mkIty true W16 in
  clean IB a true (A (mkIty false W32) 65000) (A i16 440) (A (mkIty false W16) 36000) (A i16 0) (A (mkIty true W8) 5) =
    Fl (clean NP a true (Fin 65000) (Fin 440) (Fin 36000) (Fin 0) (Fin 5)).
Proof.
  intros i16. apply (C133_drag a true false _ _ _ _ _ _ (Fl (Fin 0)) (Fin 0)); try (apply given_int; cbn; lia); apply given_float.
Qed.

(** ** The common type *)
(** C133.  The common type of mass and acceleration is the narrowest type that holds every number of both; float64 if there is none. *)
Definition holds (s t : ity) : Prop := (ilo s <= ilo t /\ ihi t <= ihi s)%Z.
Definition holdsb (s t : ity) : bool := (ilo s <=? ilo t)%Z && (ihi t <=? ihi s)%Z.
Lemma holdsb_spec s t : holdsb s t = true <-> holds s t.
Proof. unfold holdsb, holds. rewrite andb_true_iff, !Z.leb_le. reflexivity. Qed.
Definition all_types : list ity := flat_map (fun b => map (mkIty b) [W8; W16; W32; W64]) [true; false].
Definition common_ok (t u : ity) : bool :=
  match promote t u with
  | Some s => holdsb s t && holdsb s u && forallb (fun r => if holdsb r t then if holdsb r u then holdsb r s else true else true) all_types
  | None => forallb (fun r => if holdsb r t then negb (holdsb r u) else true) all_types
  end.
Theorem C133_common_type t u :
  match promote t u with
  | Some s => holds s t /\ holds s u /\ (forall r, holds r t -> holds r u -> holds r s)
  | None => forall r, ~ (holds r t /\ holds r u)
  end.
Proof.
  assert (In0 : forall r, In r all_types) by (intros [[|] []]; cbn; tauto).
  assert (K : common_ok t u = true) by (destruct t as [[|] []], u as [[|] []]; vm_compute; reflexivity).
  unfold common_ok in K. destruct (promote t u) as [s |].
  - apply andb_true_iff in K as [K1 K2]. apply andb_true_iff in K1 as [K0 K1]. rewrite forallb_forall in K2.
    split; [apply holdsb_spec, K0 | split; [apply holdsb_spec, K1 |]].
    intros r H1 H2. specialize (K2 r (In0 r)). apply holdsb_spec in H1. apply holdsb_spec in H2. rewrite H1, H2 in K2. apply holdsb_spec, K2.
  - rewrite forallb_forall in K. intros r [H1 H2]. specialize (K r (In0 r)). apply holdsb_spec in H1. apply holdsb_spec in H2. rewrite H1, H2 in K. discriminate.
Qed.
(** C133.  8 bit fuel flows and altitudes: 3160, 1230 and 12900 do not fit, so [co2], [h2o] and [nox] give no number. *)
Theorem C133_8bit s z n (t : ei_table) ffac x tas v dT d :
  given ffac x -> given tas v -> given dT d -> (ilo (mkIty s W8) <= z <= ihi (mkIty s W8))%Z ->
  co2 IB (A (mkIty s W8) z) = Bad /\ h2o IB (A (mkIty s W8) z) = Bad /\ nox IB n t ffac tas (A (mkIty s W8) z) dT = Bad.
Proof.
  intros Hx Hv Hd Hz. split; [| split].
  - unfold co2. cbn [IB mul cst]. replace (icst 3160) with (KI 3160) by (symmetry; apply (cst_int 3160)). destruct s; reflexivity.
  - unfold h2o. cbn [IB mul cst]. replace (icst 1230) with (KI 1230) by (symmetry; apply (cst_int 1230)). destruct s; reflexivity.
  - rewrite nox_is_pre, cst_12900. replace (sub IB (A (mkIty s W8) z) (KI 12900)) with Bad by (destruct s; reflexivity).
    destruct (fl2sl_float n ffac x tas v (A (mkIty s W8) z) (Fin (IZR z)) dT d Hx Hv (given_int _ _ Hz) Hd) as [Q1 Q2]. apply (soft_interp (ei_points t)) in Q1.
    revert Q1 Q2. generalize (interp IB (fst (fl2sl IB n ffac tas (A (mkIty s W8) z) dT)) (ei_points t)) (snd (fl2sl IB n ffac tas (A (mkIty s W8) z) dT)).
    intros p r _ _. unfold nox_pre. cbv zeta.
    assert (L : forall y, mul IB y Bad = Bad) by (intros []; reflexivity). assert (L2 : forall y, mul IB Bad y = Bad) by (intros []; reflexivity).
    assert (L3 : forall y, sub IB Bad y = Bad) by (intros []; reflexivity). assert (L4 : bexp IB Bad = Bad) by reflexivity.
    rewrite L, L4, L, L3, L, L4, L, L2. reflexivity.
Qed.
Example C133_ex4 : promote (mkIty false W16) (mkIty true W16) = Some (mkIty true W32) /\ promote (mkIty false W64) (mkIty true W8) = None.
Proof. split; reflexivity. Qed.
