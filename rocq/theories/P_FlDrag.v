(** * Property C120: drag in binary64 *)
From Coq Require Import String List Bool ZArith Permutation QArith Qreals Reals Lra Lia Psatz.
From Coquelicot Require Import Coquelicot.
From Interval Require Import Tactic.
From Verif Require Import Num NumFacts SpecNum Aero AeroFacts Drag DragFacts P_Drag Fl SpecFl FlFacts P_Fl P_FlCas FlAtmFacts
  Py Str PropPy DataAc DataPolar DataWrap DataEng Build Params PropFacts P_Prop P_Data.
Import ListNotations.
Open Scope string_scope.
Open Scope R_scope.

(** the path is no steeper than 45 degrees (speed in kt, vertical rate in ft/min) *)
Definition shallow (tas vs : R) : Prop := 0 < tas /\ Rabs vs * 0.00508 <= tas * 0.514444.

Section Fl.
Context (rd : rounding) (Hrd : accurate rd) (a : drag_par).
Local Notation cs := (cst (FL rd)).
Lemma nr_pi : nr PI 1 (bpi (FL rd)).
Proof. pose proof (nr_rnd rd Hrd Opi [] PI 0 (Fin PI) (nr_exact PI)) as H. rewrite Rplus_0_l in H. exact H. Qed.
Lemma c180 : cs 180 = Fin 180.
Proof. apply (c_int rd Hrd 180). cbn; lia. Qed.
Lemma c1' : cs 1 = Fin 1.
Proof. apply (c_int rd Hrd 1). cbn; lia. Qed.
Lemma c0' : cs 0 = Fin 0.
Proof. apply (c_int rd Hrd 0). cbn; lia. Qed.
Lemma c20 : cs 20 = Fin 20.
Proof. apply (c_int rd Hrd 20). cbn; lia. Qed.

Context (mass tas alt dT : R) (Halt : -3000 <= alt <= 60000).
Lemma cl_qS_fl : forall W w, nr w 0 W -> shallow tas w -> exists cl qS, cl_qS (FL rd) a (Fin mass) (Fin tas) (Fin alt) W (Fin dT) = (cl, qS) /\
  nr (liftR mass tas w / qSR (wing_area a) tas alt dT) 132 cl /\ nr (qSR (wing_area a) tas alt dT) 117 qS.
Proof.
  intros W w HW [Pt Hs]. unfold cl_qS. eexists _, _. split; [reflexivity|].
  assert (V : nr (tas * kts) 2 (mul (FL rd) (Fin tas) (cs kts))) by (eapply nr_w; [apply nr_mul; auto; [apply nr_exact|apply nr_cst; auto]|lra]).
  assert (VS : nr (w * fpm) 2 (mul (FL rd) W (cs fpm))) by (eapply nr_w; [apply nr_mul; auto; [exact HW|apply nr_cst; auto]|lra]).
  match goal with |- _ /\ nr _ _ ?q => assert (Q : nr (qSR (wing_area a) tas alt dT) 117 q) end.
  { unfold qSR. eapply nr_w; [apply nr_max; auto; [apply nr_mul; auto; [apply nr_mul; auto; [apply nr_mul; auto; [apply nr_cst; auto|apply density_alt; auto]|apply nr_powi; auto; exact V]|apply nr_cst; auto]|apply nr_cst; auto]|].
    cbn [INR]. apply Rmax_lub; lra. }
  split; [|exact Q]. pose proof (qSR_pos (wing_area a) tas alt dT). eapply nr_w; [apply nr_div; auto; [|exact Q|lra]|].
  - unfold liftR. apply nr_mul; auto; [apply nr_mul; auto; [apply nr_exact|apply nr_cst; auto]|]. apply (cos_gamma_fl rd Hrd _ 2 _ _ 2 _ VS V); try lra.
    + uc; nra.
    + rewrite Rabs_mult. assert (Rabs fpm = 0.00508) as -> by (uc; rewrite Rabs_pos_eq; lra). uc; lra.
  - lra.
Qed.
Lemma calc_drag_fl : forall vs cd0 C kc k K kk m, shallow tas vs -> nr cd0 kc C -> nr k kk K -> 0 < cd0 -> 0 <= k -> kc <= m -> kk + 266 <= m -> m <= 1e11 ->
  nr (dragR (wing_area a) cd0 k mass tas alt vs dT) (1.05 * m + 119) (calc_drag (FL rd) a (Fin mass) (Fin tas) (Fin alt) C K (Fin vs) (Fin dT)).
Proof.
  intros vs cd0 C kc k K kk m Hs HC HK Pc Pk M1 M2 M3. destruct (cl_qS_fl (Fin vs) vs (nr_exact vs) Hs) as (cl & qS & E & Nc & Nq). unfold calc_drag. rewrite E.
  set (q := qSR (wing_area a) tas alt dT) in *. unfold dragR. fold q. set (c := liftR mass tas vs / q) in *. pose proof (pow2_ge_0 c).
  eapply nr_w; [apply nr_mul; auto; [apply (nr_addp rd Hrd _ kc _ _ (kk + 266) _ m HC); auto; try nra; try lra|exact Nq]|lra].
  eapply nr_w; [apply nr_mul; auto; [exact HK|apply nr_powi; auto; exact Nc]|]. cbn [INR]. lra.
Qed.
(** clean drag without wave drag: any positive polar *)
Theorem C120_clean : forall vs, 0 < cd0_clean a -> 0 <= k_clean a -> shallow tas vs ->
  within 5e-13 (clean NP a false (Fin mass) (Fin tas) (Fin alt) (Fin vs) (Fin dT)) (clean (FL rd) a false (Fin mass) (Fin tas) (Fin alt) (Fin vs) (Fin dT)).
Proof.
  intros vs Pc Pk Hs. rewrite clean_NP. apply nr_within with (1.05 * 320 + 119); [|lra|lra]. unfold clean. rewrite c0'.
  apply (calc_drag_fl vs _ _ 3 _ _ 1); auto; try lra; [|apply nr_cst; auto].
  apply nr_x with (cd0_clean a + 0); [|ring]. eapply nr_w; [apply (nr_addp rd Hrd _ 1 _ _ 0 _ 1); try lra; [apply nr_cst; auto|apply nr_exact]|lra].
Qed.
(** flaps and landing gear *)
Lemma sin_flap : forall flap, 0 <= flap <= 90 -> nr (sin (flap * PI / 180)) 7 (bsin (FL rd) (div (FL rd) (mul (FL rd) (Fin flap) (bpi (FL rd))) (cs 180))).
Proof.
  intros flap Hf. rewrite c180. pose proof PI_RGT_0 as PP.
  assert (X : nr (flap * PI / 180) 3 (div (FL rd) (mul (FL rd) (Fin flap) (bpi (FL rd))) (Fin 180))).
  { eapply nr_w; [apply (nr_div rd Hrd _ 2 _ _ 0 _); [|apply nr_exact|lra]|lra]. eapply nr_w; [apply (nr_mul rd Hrd _ 0 _ _ 1 _); [apply nr_exact|apply nr_pi]|lra]. }
  set (x := flap * PI / 180) in *. assert (0 <= x <= PI / 2) as [B1 B2] by (unfold x; split; nra).
  destruct (Req_dec x 0) as [Z|NZ].
  - rewrite Z in *. destruct X as (t & -> & _). rewrite Rmult_0_l, sin_0. apply nr_w with (0 + 1); [|lra]. apply nr_rnd; auto. cbn [elift]. rewrite sin_0. apply nr_exact.
  - assert (S : x <= 1.58 * sin x).
    { assert (PI / 2 <= 1.571) by interval. destruct (Rle_dec x 0.1).
      - assert (x - x ^ 3 / 6 <= sin x). { assert (B : 0 <= x <= PI) by lra. pose proof (SIN_bound x). destruct (pre_sin_bound x 0 ltac:(lra) ltac:(lra)) as [Q _]. unfold sin_approx, sin_term in Q. cbn in Q. lra. }
        assert (x ^ 3 <= 0.01 * x) by (replace (x ^ 3) with (x * x * x) by ring; nra). lra.
      - assert (L : 0.1 <= x <= 1.571) by lra. enough (0 <= 1.58 * sin x - x) by lra. interval with (i_bisect x, i_taylor x, i_degree 8, i_depth 25). }
    assert (0 < sin x) by lra. eapply nr_w; [apply (nr_sin rd Hrd x 3 _ 4.75 X); try lra; rewrite !Rabs_pos_eq by lra; lra|lra].
Qed.
Definition ordinary_flaps : Prop :=
  0 < cd0_clean a /\ 0 < k_clean a /\ 0 < wing_area a /\ 0 <= lambda_f a /\ 0 <= Sf_S a /\ 0.01 <= cf_c a <= 1 /\ 1000 <= mtow a <= 1e6.
Theorem C120_nonclean : forall vs flap (gear : bool), ordinary_flaps -> 0 <= flap <= 90 -> shallow tas vs ->
  within 5e-13 (nonclean NP a (Fin mass) (Fin tas) (Fin alt) (Fin flap) (Fin vs) (Fin dT) gear) (nonclean (FL rd) a (Fin mass) (Fin tas) (Fin alt) (Fin flap) (Fin vs) (Fin dT) gear).
Proof.
  intros vs flap gear (Pc & Pk & Pa & Pl & Ps & Pf & Pm) Hf Hs. rewrite nonclean_NP by lra. apply nr_within with (1.05 * 320 + 119); [|lra|lra]. unfold nonclean.
  pose proof (Rpower_pos (cf_c a) 1.38). pose proof (Rpower_pos (mtow a) (-0.215)). pose proof (pow2_ge_0 (sin (flap * PI / 180))).
  assert (0 <= flapcdR a flap). { unfold flapcdR. apply Rmult_le_pos; auto. apply Rmult_le_pos; auto. apply Rmult_le_pos; lra. }
  assert (0 <= gearcdR a gear). { unfold gearcdR. destruct gear; [|lra]. apply Rmult_le_pos; [|lra]. apply Rmult_le_pos; [|lra]. apply Rlt_le, Rdiv_lt_0_compat; auto. uc. nra. }
  assert (NF : nr (flapcdR a flap) 30 (mul (FL rd) (mul (FL rd) (mul (FL rd) (cs (lambda_f a)) (power (FL rd) (cs (cf_c a)) (cs 1.38))) (cs (Sf_S a))) (powi (FL rd) (bsin (FL rd) (div (FL rd) (mul (FL rd) (Fin flap) (bpi (FL rd))) (cs 180))) 2))).
  { unfold flapcdR. eapply nr_w; [apply nr_mul; auto; [apply nr_mul; auto; [apply nr_mul; auto; [apply nr_cst; auto|apply nr_power; auto; [apply nr_cst; auto|apply nr_cst; auto|lra|lra]]|apply nr_cst; auto]|apply nr_powi; auto; apply sin_flap; auto]|].
    cbn [INR]. assert (B : Rabs (1.38 * ln (cf_c a)) <= 6.4) by interval. rewrite (Rabs_pos_eq 1.38) by lra. lra. }
  assert (NG : nr (gearcdR a gear) 30 (if gear then mul (FL rd) (mul (FL rd) (div (FL rd) (mul (FL rd) (cs (mtow a)) (cs g0)) (cs (wing_area a))) (cs 3.16e-5)) (power (FL rd) (cs (mtow a)) (cs (-0.215))) else cs 0)).
  { unfold gearcdR. destruct gear; [|rewrite c0'; eapply nr_w; [apply nr_exact|lra]].
    eapply nr_w; [apply nr_mul; auto; [apply nr_mul; auto; [apply nr_div; auto; [apply nr_mul; auto; apply nr_cst; auto|apply nr_cst; auto|lra]|apply nr_cst; auto]|apply nr_power; auto; [apply nr_cst; auto|apply nr_cst; auto|lra|lra]]|].
    assert (B : Rabs (-0.215 * ln (mtow a)) <= 3) by interval. assert (Rabs (-0.215) = 0.215) as -> by (rewrite Rabs_left; lra). lra. }
  pose proof PI_RGT_0 as PP. assert (0 <= wing_span a ^ 2 / wing_area a). { apply Rmult_le_pos; [apply pow2_ge_0|]. left. apply Rinv_0_lt_compat; auto. }
  assert (0 < 1 / k_clean a) by (apply Rdiv_lt_0_compat; lra).
  assert (0 <= deltaeR a flap) by (unfold deltaeR; destruct (rear_mounted a); lra).
  assert (NE : nr (deltaeR a flap) 2 (mul (FL rd) (if rear_mounted a then cs 0.0046 else cs 0.0026) (Fin flap))).
  { unfold deltaeR. destruct (rear_mounted a); (eapply nr_w; [apply nr_mul; auto; [apply nr_cst; auto|apply nr_exact]|lra]). }
  assert (0 <= PI * (wing_span a ^ 2 / wing_area a) * deltaeR a flap) by (apply Rmult_le_pos; [apply Rmult_le_pos; lra|lra]).
  apply (calc_drag_fl vs _ _ 100 _ _ 42); auto; try lra.
  - eapply nr_w; [apply (nr_addp rd Hrd _ 40 _ _ 40 _ 40); try lra; [|eapply nr_w; [exact NG|lra]]|lra].
    eapply nr_w; [apply (nr_addp rd Hrd _ 30 _ _ 30 _ 30); try lra; [|exact NF]|lra]. eapply nr_w; [apply nr_cst; auto|lra].
  - unfold ktotR. rewrite c1'. eapply nr_w; [apply nr_div; auto; [apply nr_exact|apply (nr_addp rd Hrd _ 2 _ _ 20 _ 20); try lra|lra]|lra].
    + eapply nr_w; [apply nr_div; auto; [apply nr_exact|apply nr_cst; auto|lra]|lra].
    + eapply nr_w; [apply nr_mul; auto; [apply nr_mul; auto; [apply nr_pi|apply nr_div; auto; [apply nr_powi; auto; apply nr_cst; auto|apply nr_cst; auto|lra]]|exact NE]|]. cbn [INR]. lra.
  - unfold ktotR. left. apply Rdiv_lt_0_compat; lra.
Qed.
(** wave drag: the polar, the sweep and the thickness of an airliner; the lift coefficient in level flight at most 3 *)
Definition ordinary_wing : Prop :=
  0.01 <= cd0_clean a /\ 0 <= k_clean a /\ 0 <= wing_sweep a <= 45 /\ match wing_tc a with Some t => 0 <= t <= 0.2 | None => True end.
Definition flyable : Prop := exists rho, density NP (Fin (si_ft alt)) (Fin dT) = Fin rho /\ mass * gravity <= 3 * (rho * (si_kt tas) ^ 2 / 2 * wing_area a).
Lemma wave_poly : forall d e, 0 <= d <= 3 -> 0 <= e <= 1e-9 -> 80 * (d + e) ^ 3 <= 16 * (0.01 + 20 * d ^ 4).
Proof. intros d e D E. enough (0 <= 16 * (0.01 + 20 * d ^ 4) - 80 * (d + e) ^ 3) by lra. interval with (i_bisect d, i_taylor d, i_depth 30). Qed.
Lemma pow4_diff : forall d e, 0 <= d -> 0 <= d + e -> Rabs ((d + e) ^ 4 - d ^ 4) <= 4 * (d + Rabs e) ^ 3 * Rabs e.
Proof.
  intros d e D E. replace ((d + e) ^ 4 - d ^ 4) with (e * ((2 * d + e) * ((d + e) ^ 2 + d ^ 2))) by ring. rewrite Rabs_mult, Rmult_comm. apply Rmult_le_compat_r; [apply Rabs_pos|].
  pose proof (pow2_ge_0 (d + e)). pose proof (pow2_ge_0 d). rewrite Rabs_pos_eq by (apply Rmult_le_pos; lra).
  pose proof (Rle_abs e). pose proof (Rabs_pos e). set (u := d + Rabs e) in *.
  assert (d + e <= u) by (unfold u; lra). assert (d <= u) by (unfold u; lra).
  assert ((d + e) ^ 2 <= u ^ 2) by (apply pow_incr; lra). assert (d ^ 2 <= u ^ 2) by (apply pow_incr; lra).
  apply Rle_trans with ((2 * u) * (2 * u ^ 2)); [apply Rmult_le_compat; lra|]. right. ring.
Qed.
Theorem C120_wave : forall vs, ordinary_wing -> 0 <= mass -> tas <= 1000 -> flyable -> shallow tas vs ->
  within 5e-12 (clean NP a true (Fin mass) (Fin tas) (Fin alt) (Fin vs) (Fin dT)) (clean (FL rd) a true (Fin mass) (Fin tas) (Fin alt) (Fin vs) (Fin dT)).
Proof.
  intros vs (Pc & Pk & Hw & Htc) Pm Ht (rho & Hr & Hcl) Hs. pose proof Hs as [Pt _]. rewrite clean_wave_NP by lra.
  apply nr_within with (1.05 * 3800 + 119); [|lra|lra]. unfold clean.
  pose proof (wcdR_nonneg a mass tas alt dT) as Wp.
  apply (calc_drag_fl vs _ _ 3800 _ _ 1); auto; try lra; [|apply nr_cst; auto].
  unfold wave_cd. rewrite c20. replace 0.0 with 0 by lra. rewrite c0'. unfold mach_crit. rewrite c0', c180.
  assert (S0 : shallow tas 0) by (split; [auto|rewrite Rabs_R0; lra]).
  destruct (cl_qS_fl (Fin 0) 0 (nr_exact 0) S0) as (cl & qS & E & Nc & _). rewrite E. clear E.
  rewrite liftR_level in Nc by lra. rewrite density_NP in Hr. injection Hr as Hr.
  set (q := qSR (wing_area a) tas alt dT) in *.
  assert (Q : rho * si_kt tas ^ 2 / 2 * wing_area a <= q).
  { unfold q, qSR. eapply Rle_trans; [|apply Rmax_l]. right. rewrite <- Hr. change (si_kt tas) with (tas * kts). change (si_ft alt) with (alt * ft). lra. }
  pose proof (qSR_pos (wing_area a) tas alt dT) as Pq. fold q in Pq.
  assert (Cl : 0 <= mass * g0 / q <= 3).
  { split; [apply Rmult_le_pos; [uc; lra|left; apply Rinv_0_lt_compat; auto]|]. apply Rmult_le_reg_r with q; auto. unfold Rdiv. rewrite Rmult_assoc, Rinv_l, Rmult_1_r by lra.
    unfold gravity in Hcl. uc. lra. }
  set (c := mass * g0 / q) in *.
  pose proof PI_RGT_0 as PP.
  set (sw := wing_sweep a * PI / 180). assert (Bsw : 0 <= sw <= 0.7854). { unfold sw. assert (3.14159 <= PI <= 3.1416) by (split; interval). split; nra. }
  assert (Nsw : nr sw 4 (div (FL rd) (mul (FL rd) (cs (wing_sweep a)) (bpi (FL rd))) (Fin 180))).
  { unfold sw. eapply nr_w; [apply (nr_div rd Hrd _ 3 _ _ 0 _); [|apply nr_exact|lra]|lra]. eapply nr_w; [apply (nr_mul rd Hrd _ 1 _ _ 1 _); [apply nr_cst; auto|apply nr_pi]|lra]. }
  assert (Bc : 0.7071 <= cos sw <= 1) by (split; [interval|apply COS_bound]).
  assert (Ncos : nr (cos sw) 6 (bcos (FL rd) (div (FL rd) (mul (FL rd) (cs (wing_sweep a)) (bpi (FL rd))) (Fin 180)))).
  { eapply nr_w; [apply (nr_cos rd Hrd sw 4 _ 4.5 Nsw); try lra; rewrite !Rabs_pos_eq by lra; lra|lra]. }
  set (Cs := bcos (FL rd) (div (FL rd) (mul (FL rd) (cs (wing_sweep a)) (bpi (FL rd))) (Fin 180))) in *. clearbody Cs.
  set (tc := match wing_tc a with Some t => t | None => 0.12 end).
  assert (Btc : 0 <= tc <= 0.2) by (unfold tc; destruct (wing_tc a); lra).
  set (co := cos sw) in *.
  assert (I1 : 0 < / co <= 1.415). { split; [apply Rinv_0_lt_compat; lra|]. apply Rmult_le_reg_r with co; [lra|]. rewrite Rinv_l by lra. lra. }
  assert (I2 : 0 < / co ^ 2 <= 2.003). { rewrite <- pow_inv by lra. split; [apply pow_lt; lra|]. replace (/ co ^ 2) with (/ co ^ 2) by auto. cbn. nra. }
  assert (I3 : 0 < / co ^ 3 <= 2.835). { rewrite <- pow_inv by lra. split; [apply pow_lt; lra|]. rewrite <- pow_inv in I2 by lra. replace ((/ co) ^ 3) with (/ co * (/ co) ^ 2) by ring. apply Rle_trans with (1.415 * 2.003); [apply Rmult_le_compat; lra|lra]. }
  assert (P2 : co ^ 2 <> 0) by (apply pow_nonzero; lra). assert (P3 : co ^ 3 <> 0) by (apply pow_nonzero; lra).
  assert (A1 : na (0.95 / co) 12 (div (FL rd) (cs 0.95) Cs)).
  { apply nr_na with 8; [eapply nr_w; [apply nr_div; auto; [apply nr_cst; auto|exact Ncos|lra]|lra]|lra|]. unfold Rdiv. rewrite Rabs_pos_eq by nra. nra. }
  assert (A2 : na (tc / co ^ 2) 7 (div (FL rd) (cs tc) (powi (FL rd) Cs 2))).
  { apply nr_na with 15; [eapply nr_w; [apply nr_div; auto; [apply nr_cst; auto|apply nr_powi; auto; exact Ncos]|cbn [INR]; lra]|lra|]. unfold Rdiv. rewrite Rabs_pos_eq by (apply Rmult_le_pos; lra). nra. }
  assert (A3 : na (0.1 * c / co ^ 3) 135 (div (FL rd) (mul (FL rd) (cs 0.1) cl) (powi (FL rd) Cs 3))).
  { apply nr_na with 154; [eapply nr_w; [apply nr_div; auto; [apply nr_mul; auto; [apply nr_cst; auto|exact Nc]|apply nr_powi; auto; exact Ncos]|cbn [INR]; lra]|lra|]. unfold Rdiv. rewrite Rabs_pos_eq by (apply Rmult_le_pos; [nra|lra]).
    assert (0.1 * c * / co ^ 3 <= 0.3 * 2.835) by (apply Rmult_le_compat; lra). lra. }
  assert (A4 : na 0.108 0.2 (cs 0.108)). { apply nr_na with 1; [apply nr_cst; auto|lra|]. rewrite Rabs_pos_eq; lra. }
  assert (1 <= / co) by (apply Rmult_le_reg_r with co; [lra|]; rewrite Rinv_l by lra; lra).
  assert (V1 : 0.95 <= 0.95 / co <= 1.35) by (unfold Rdiv; split; lra).
  assert (V2 : 0 <= tc / co ^ 2 <= 0.401) by (unfold Rdiv; split; [apply Rmult_le_pos; lra|nra]).
  assert (V3 : 0 <= 0.1 * c / co ^ 3 <= 0.851). { unfold Rdiv; split; [apply Rmult_le_pos; [nra|lra]|]. assert (0.1 * c * / co ^ 3 <= 0.3 * 2.835) by (apply Rmult_le_compat; lra). lra. }
  set (x1 := 0.95 / co) in *. set (x2 := tc / co ^ 2) in *. set (x3 := 0.1 * c / co ^ 3) in *.
  pose proof (na_sub rd Hrd _ _ _ _ _ _ A1 A2 ltac:(lra)) as B1.
  assert (B1' : na (x1 - x2) 21 (sub (FL rd) (div (FL rd) (cs 0.95) Cs) (div (FL rd) (cs tc) (powi (FL rd) Cs 2)))).
  { eapply na_w; [exact B1|]. assert (Rabs (x1 - x2) <= 1.35) by (apply Rabs_le; lra). lra. }
  pose proof (na_sub rd Hrd _ _ _ _ _ _ B1' A3 ltac:(lra)) as B2. assert (Rabs (x1 - x2 - x3) <= 1.4) by (apply Rabs_le; lra).
  apply na_w with (a' := 161) in B2; [|lra].
  pose proof (na_sub rd Hrd _ _ _ _ _ _ B2 A4 ltac:(lra)) as B3. assert (Rabs (x1 - x2 - x3 - 0.108) <= 1.4) by (apply Rabs_le; lra).
  apply na_w with (a' := 166) in B3; [|lra].
  assert (Em : x1 - x2 - x3 - 0.108 = mcritR a mass tas alt dT) by reflexivity. 
  set (mc := mcritR a mass tas alt dT) in *. rewrite Em in B3.
  match type of B3 with na _ _ ?t => set (MC := t) in *; clearbody MC end.
  pose proof (aR_pos (alt * ft) dT) as Pa.
  assert (Ba : 277 <= aR (alt * ft) dT). { unfold aR. pose proof (tR_pos (alt * ft) dT). rewrite <- (sqrt_square 277) by lra. apply sqrt_le_1_alt. uc. lra. }
  assert (Nm : nr (tas * kts / aR (alt * ft) dT) 12 (tas2mach (FL rd) (mul (FL rd) (Fin tas) (cs kts)) (mul (FL rd) (Fin alt) (cs ft)) (Fin dT))).
  { eapply nr_w; [apply (mach_alt rd Hrd _ 2); auto; eapply nr_w; [apply nr_mul; auto; [apply nr_exact|apply nr_cst; auto]|lra]|lra]. }
  set (M := tas2mach _ _ _ _) in *. clearbody M. set (mach := tas * kts / aR (alt * ft) dT) in *.
  assert (Bm : 0 <= mach <= 1.9).
  { unfold mach. split; [apply Rmult_le_pos; [uc; lra|left; apply Rinv_0_lt_compat; lra]|]. apply Rmult_le_reg_r with (aR (alt * ft) dT); [lra|]. unfold Rdiv. rewrite Rmult_assoc, Rinv_l by lra. uc; lra. }
  assert (Am : na mach 24 M) by (apply nr_na with 12; [exact Nm|lra|rewrite Rabs_pos_eq; lra]).
  pose proof (na_sub rd Hrd _ _ _ _ _ _ Am B3 ltac:(lra)) as B4. assert (Bmc : -0.5 <= mc <= 1.35) by lra.
  assert (Rabs (mach - mc) <= 2.4) by (apply Rabs_le; lra). apply na_w with (a' := 197) in B4; [|lra].
  destruct B4 as (x' & E4 & H4). rewrite E4. cbn [maximum FL emax]. set (d' := Rmax x' 0).
  assert (Hd : Rabs (d' - Rmax (mach - mc) 0) <= 197 * v). { apply Rmax_lip; auto. replace (0 - 0) with 0 by ring. rewrite Rabs_R0. pose proof v_pos. lra. }
  assert (Ew : wcdR a mass tas alt dT = 20 * Rmax (mach - mc) 0 ^ 4) by (unfold wcdR; replace 0.0 with 0 by lra; reflexivity). rewrite Ew in *.
  set (d := Rmax (mach - mc) 0) in *. assert (Bd : 0 <= d <= 2.4). { unfold d. split; [apply Rmax_r|]. apply Rmax_lub; lra. }
  assert (Hd' : 0 <= d') by apply Rmax_r.
  set (e := d' - d) in *. assert (Ed : d' = d + e) by (unfold e; ring). pose proof v_pos. pose proof v_small.
  pose proof (pow4_diff d e ltac:(lra) ltac:(lra)) as D4. pose proof (Rabs_pos e).
  pose proof (wave_poly d (Rabs e) ltac:(lra) ltac:(lra)) as WP.
  assert (W4 : 0 <= d ^ 4) by (apply pow_le; lra). assert (W4' : 0 <= d' ^ 4) by (apply pow_le; lra).
  assert (N0 : nr (cd0_clean a + 20 * d ^ 4) (1.02 * 3152) (Fin (cd0_clean a + 20 * d' ^ 4))).
  { apply nr_delta; [lra| |lra]. replace (cd0_clean a + 20 * d' ^ 4 - (cd0_clean a + 20 * d ^ 4)) with (20 * ((d + e) ^ 4 - d ^ 4)) by (rewrite Ed; ring).
    rewrite Rabs_mult, (Rabs_pos_eq 20), (Rabs_pos_eq (cd0_clean a + 20 * d ^ 4)) by lra.
    apply Rle_trans with (20 * (4 * (d + Rabs e) ^ 3 * Rabs e)); [lra|].
    assert (0 <= (d + Rabs e) ^ 3) by (apply pow_le; lra).
    apply Rle_trans with (80 * (d + Rabs e) ^ 3 * (197 * v)); [|].
    - replace (20 * (4 * (d + Rabs e) ^ 3 * Rabs e)) with (80 * (d + Rabs e) ^ 3 * Rabs e) by ring. apply Rmult_le_compat_l; lra.
    - apply Rle_trans with (16 * (0.01 + 20 * d ^ 4) * (197 * v)); [apply Rmult_le_compat_r; lra|]. nra. }
  eapply nr_w; [eapply nr_trans; [exact N0|]|].
  - apply (nr_addp rd Hrd _ 2 _ _ 2 _ 2); try lra; [eapply nr_w; [apply nr_cst; auto|lra]|].
    eapply nr_w; [apply nr_mul; auto; [apply nr_exact|apply nr_powi; auto; apply nr_exact]|cbn [INR]; lra].
  - lra.
Qed.
End Fl.

(** ** Every Drag object of the package *)
Definition wing_check (a : acrec) : bool :=
  Qle_bool (ac_sweep a) 45 && match ac_tc a with Some t => Qle_bool 0 t && Qle_bool t 0.2 | None => true end && Qle_bool 1000 (ac_mtow a) && Qle_bool (ac_mtow a) 1000000.
Lemma wing_checked : forallb wing_check shipped_aircraft = true.
Proof. vm_compute. reflexivity. Qed.
Definition polar_check (p : porec) : bool := Qle_bool 0.01 (po_cd0 p) && Qle_bool 0.01 (po_cfc p) && Qle_bool (po_cfc p) 1.
Lemma polar_checked : forallb polar_check shipped_polar = true.
Proof. vm_compute. reflexivity. Qed.
Section Shipped.
Context (d : db) (SH : ships d).
Lemma shipped_ordinary : forall ac k o, drag_new d ac k = inr o -> ordinary_wing (drag_par_of o) /\ ordinary_flaps (drag_par_of o).
Proof.
  intros ac k o H. destruct (drag_new_ok d SH _ _ _ H) as (H1 & H2 & H3 & H4 & H5 & H6).
  unfold drag_new in H. binds H. injection H as <-.
  apply (ship_ac_ok d SH) in E. destruct E as [Ck E]. unfold load_drag_model in E0. binds E0.
  destruct (find _ _) as [r|] eqn:F; [|discriminate]. injection E0 as <-.
  apply find_some in F. destruct F as [F _]. apply (Permutation_in _ (Permutation_sym (sh_polar d SH))) in F.
  pose proof po_checked as C. rewrite forallb_forall in C. specialize (C _ F).
  pose proof polar_checked as C2. rewrite forallb_forall in C2. specialize (C2 _ F).
  pose proof wing_checked as C3. rewrite forallb_forall in C3. specialize (C3 _ E).
  unfold po_check, polar_check, wing_check, ac_check in *. cbn in *.
  assert (Q2R 60 = 60) by (unfold Q2R; cbn; lra). assert (Q2R 45 = 45) by (unfold Q2R; cbn; lra). assert (Q2R 1000 = 1000) by (unfold Q2R; cbn; lra). assert (Q2R 1000000 = 1000000) by (unfold Q2R; cbn; lra).
  assert (Q2R 1 = 1) by (unfold Q2R; cbn; lra).
  split.
  - unfold ordinary_wing. cbn. destruct (ac_tc _) as [t|]; bools; cbn [option_map]; repeat apply conj; auto; lra.
  - unfold ordinary_flaps. cbn. bools. repeat apply conj; auto; lra.
Qed.
(** [Drag(ac).clean] and [Drag(ac).nonclean] with NumPy on binary64 *)
Theorem C120_shipped : forall rd ac k o, accurate rd -> drag_new d ac k = inr o ->
  let a := drag_par_of o in
  forall mass tas alt vs dT, -3000 <= alt <= 60000 -> shallow tas vs ->
  within 5e-13 (clean NP a false (Fin mass) (Fin tas) (Fin alt) (Fin vs) (Fin dT)) (clean (FL rd) a false (Fin mass) (Fin tas) (Fin alt) (Fin vs) (Fin dT)) /\
  (0 <= mass -> tas <= 1000 -> flyable a mass tas alt dT ->
   within 5e-12 (clean NP a true (Fin mass) (Fin tas) (Fin alt) (Fin vs) (Fin dT)) (clean (FL rd) a true (Fin mass) (Fin tas) (Fin alt) (Fin vs) (Fin dT))) /\
  (forall flap (gear : bool), 0 <= flap <= 90 ->
   within 5e-13 (nonclean NP a (Fin mass) (Fin tas) (Fin alt) (Fin flap) (Fin vs) (Fin dT) gear) (nonclean (FL rd) a (Fin mass) (Fin tas) (Fin alt) (Fin flap) (Fin vs) (Fin dT) gear)).
Proof.
  intros rd ac k o Hrd H a mass tas alt vs dT Halt Hs. destruct (shipped_ordinary _ _ _ H) as [W F]. fold a in W, F. pose proof F as (P1 & P2 & _). repeat apply conj.
  - apply C120_clean; auto; lra.
  - intros. apply C120_wave; auto.
  - intros. apply C120_nonclean; auto.
Qed.
End Shipped.
(** A320 at FL350, 450 kt, 60 t: the hypotheses hold *)
Example C120_ex : exists o, drag_new shipped0 "A320" (mkKwc None None) = inr o /\
  within 5e-12 (clean NP (drag_par_of o) true (Fin 60000) (Fin 450) (Fin 35000) (Fin 0) (Fin 0)) (clean (FL binary64) (drag_par_of o) true (Fin 60000) (Fin 450) (Fin 35000) (Fin 0) (Fin 0)).
Proof.
  destruct (drag_new shipped0 "A320" (mkKwc None None)) as [e|o] eqn:E. { vm_compute in E. discriminate. }
  exists o. split; auto. destruct (C120_shipped shipped0 shipped0_ships binary64 "A320" _ o (proj1 C112_binary64) E 60000 450 35000 0 0) as (_ & W & _); try lra.
  - split; [lra|rewrite Rabs_R0; lra].
  - apply W; try lra. exists (rhoR (si_ft 35000) 0). split; [apply density_NP|].
    assert (A : wing_area (drag_par_of o) = 124). { vm_compute in E. injection E as <-. cbn. unfold Q2R. cbn. lra. } rewrite A.
    pose proof (rho_lb (si_ft 35000) 0 ltac:(unfold si_ft; lra)).
    unfold gravity, si_kt. nra.
Qed.
