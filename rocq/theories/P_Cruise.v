(** * C132: can the aircraft of the package hold their cruise altitude?

    Drag and thrust come from different sources (polar files, engine databank, a thrust law).  Here they are put
    together at the cruise altitude and Mach number of the aircraft files. *)
From Coq Require Import String List Bool QArith Qreals Reals Lra Psatz.
From Interval Require Import Tactic.
From Verif Require Import Num NumFacts SpecNum Aero AeroFacts AeroFacts2 Thrust ThrustFacts Drag DragFacts Py Str StrFacts PropPy DataAc DataPolar
  DataWrap DataEng Build Params PropFacts P_Prop P_Prop2 P_Drag P_Data.
Import ListNotations.
Open Scope string_scope.
Open Scope R_scope.

(** ** Available thrust *)
(** the thrust left at the cruise altitude when the reference Mach number is not the one flown *)
Lemma at_cruise_altitude e tas M dT : 0 < cruise_mach e -> 0 < eng_cruise_thrust e -> 0 < eng_number e -> 10 <= tas ->
  30000 < cruise_alt e -> tas * kts / aR (cruise_alt e * ft) dT = M ->
  cruise_thrust NP e (Fin tas) (Fin (cruise_alt e)) (Fin dT) = Fin (eng_number e * eng_cruise_thrust e * Rpower (M / cruise_mach e) (-0.11)).
Proof.
  intros Hm Hc Hn Ht Ha HM. assert (HF : eng_cruise_thrust e * eng_number e <> 0) by nra.
  unfold cruise_thrust. change (cst NP 0) with (Fin 0). rewrite climb_NP by auto. f_equal.
  unfold climbR. rewrite Rltb_true by auto. rewrite Rmax_right by lra. unfold seg3R, mrR, prR. rewrite HM.
  pose proof (pR_pos (cruise_alt e * ft) dT). replace (pR (cruise_alt e * ft) dT / pR (cruise_alt e * ft) dT) with 1 by (field; lra).
  rewrite ln_1. unfold FcrR. ring.
Qed.
Lemma exp_convex a u : 0 <= a <= 1 -> exp (a * u) <= 1 - a + a * exp u.
Proof.
  intros [A0 A1]. pose proof (exp_pos (a * u)) as P.
  assert (G : forall v, exp (a * u) * (1 + v - a * u) <= exp v).
  { intros v. replace (exp v) with (exp (a * u) * exp (v - a * u)) by (rewrite <- exp_plus; f_equal; ring).
    apply Rmult_le_compat_l; [lra |]. pose proof (exp_ineq1_le (v - a * u)). lra. }
  pose proof (G u) as G1. pose proof (G 0) as G0. rewrite exp_0 in G0. nra.
Qed.
Lemma power_between x : 0 < x -> / (1 + 0.11 * (x - 1)) <= Rpower x (-0.11) <= 1 + 0.11 * (/ x - 1).
Proof.
  intros P. unfold Rpower. split.
  - replace (-0.11 * ln x) with (- (0.11 * ln x)) by lra. rewrite exp_Ropp. apply Rinv_le_contravar; [apply exp_pos |].
    pose proof (exp_convex 0.11 (ln x) ltac:(lra)) as E. rewrite exp_ln in E by lra. lra.
  - replace (-0.11 * ln x) with (0.11 * (- ln x)) by lra. pose proof (exp_convex 0.11 (- ln x) ltac:(lra)) as E.
    rewrite exp_Ropp, exp_ln in E by lra. lra.
Qed.

(** ** Dynamic pressure at a Mach number *)
Lemma dynamic M h dT : rhoR h dT * (M * aR h dT) ^ 2 / 2 = 0.7 * pR h dT * M ^ 2.
Proof.
  unfold pR. replace ((M * aR h dT) ^ 2) with (M ^ 2 * (aR h dT * aR h dT)) by ring. unfold aR. rewrite sqrt_sqrt.
  { replace (rhoR h dT * (M ^ 2 * (gamma * Rgas * tR h dT)) / 2) with (gamma / 2 * (rhoR h dT * Rgas * tR h dT * M ^ 2)) by (unfold Rdiv; ring).
    replace (gamma / 2) with 0.7 by (unfold gamma; lra). ring. }
  pose proof (tR_pos h dT). apply Rlt_le. apply Rmult_lt_0_compat; [uc; nra | lra].
Qed.

(** ** Level flight *)
(** the force balance: thrust [F], wing times dynamic pressure [q], polar; [holds m] when the drag at mass m is at most F *)
Lemma parabolic_mass cd0 k q m m' : 0 < q -> 0 <= k -> 0 <= m <= m' ->
  parabolic cd0 k q (m * gravity * 1) <= parabolic cd0 k q (m' * gravity * 1).
Proof.
  intros Hq Hk Hm. unfold parabolic. apply Rplus_le_compat_l. unfold Rdiv. apply Rmult_le_compat_r; [apply Rlt_le, Rinv_0_lt_compat, Hq |].
  apply Rmult_le_compat_l; [exact Hk |]. unfold gravity. nra.
Qed.
(** C132.  At the cruise altitude the thrust left is the cruise thrust of the engines times a power of the Mach ratio, the
    drag follows the polar with the dynamic pressure 0.7 p M^2; so level flight needs more than this thrust exactly for the
    masses above one limit, or for all. *)
Theorem C132_balance (e : thrust_par) (a : drag_par) tas dT M p mass :
  0 < cruise_mach e -> 0 < eng_cruise_thrust e -> 0 < eng_number e -> 30000 < cruise_alt e ->
  0 < cd0_clean a -> 0 < k_clean a -> 0 < wing_area a -> 0 <= mass -> 10 <= tas ->
  tas2mach NP (Fin (si_kt tas)) (Fin (si_ft (cruise_alt e))) (Fin dT) = Fin M ->
  pressure NP (Fin (si_ft (cruise_alt e))) (Fin dT) = Fin p ->
  let q := 0.7 * p * M ^ 2 * wing_area a in 0.01 <= q ->
  let F := eng_number e * eng_cruise_thrust e * Rpower (M / cruise_mach e) (-0.11) in
  exists D, cruise_thrust NP e (Fin tas) (Fin (cruise_alt e)) (Fin dT) = Fin F /\
    clean NP a false (Fin mass) (Fin tas) (Fin (cruise_alt e)) (Fin 0) (Fin dT) = Fin D /\ D = parabolic (cd0_clean a) (k_clean a) q (mass * gravity) /\
    (D <= F <-> cd0_clean a * q <= F /\ mass <= sqrt (q * (F - cd0_clean a * q) / k_clean a) / gravity).
Proof.
  intros Hm Hc Hn Ha H0 Hk HS Hmass Ht HM Hp q Pq F.
  rewrite tas2mach_NP in HM. apply Fin_inj in HM. rewrite pressure_NP in Hp. apply Fin_inj in Hp.
  set (h := si_ft (cruise_alt e)) in *. pose proof (aR_pos h dT) as Pa. pose proof (pR_pos h dT) as Pp.
  assert (Ev : si_kt tas = M * aR h dT) by (rewrite <- HM; field; lra).
  assert (Eq0 : rhoR h dT * (si_kt tas) ^ 2 / 2 * wing_area a = q).
  { unfold q. rewrite Ev, dynamic, Hp. reflexivity. }
  exists (parabolic (cd0_clean a) (k_clean a) q (mass * gravity)). split; [| split; [| split; [reflexivity |]]].
  - apply at_cruise_altitude; auto.
  - pose proof (C28_clean_value a mass tas (cruise_alt e) 0 dT (rhoR h dT) 1 (density_NP h dT)) as V. cbv zeta in V.
    rewrite Eq0 in V. rewrite V; [rewrite Rmult_1_r; reflexivity | | lra].
    right. split; [left; unfold si_kt; lra |]. unfold si_fpm. rewrite Rmult_0_l, Rmult_0_l, Rplus_0_r.
    rewrite sqrt_square by (unfold si_kt; lra). field. unfold si_kt; lra.
  - unfold parabolic. assert (G : 0 < gravity) by (unfold gravity; lra).
    assert (A : forall x, x / q <= F - cd0_clean a * q <-> x <= (F - cd0_clean a * q) * q).
    { intros x. split; intros H.
      - apply (Rmult_le_compat_r q) in H; [| lra]. unfold Rdiv in H. rewrite Rmult_assoc, Rinv_l in H by lra. lra.
      - apply (Rmult_le_reg_r q); [lra |]. unfold Rdiv. rewrite Rmult_assoc, Rinv_l by lra. lra. }
    transitivity (k_clean a * (mass * gravity) ^ 2 <= (F - cd0_clean a * q) * q); [rewrite <- A; split; lra |].
    split.
    + intros H. assert (P2 : 0 <= k_clean a * (mass * gravity) ^ 2) by (apply Rmult_le_pos; [lra | apply pow2_ge_0]).
      assert (P3 : 0 <= F - cd0_clean a * q) by nra. split; [lra |].
      apply (Rmult_le_reg_r gravity); [exact G |]. unfold Rdiv at 1. rewrite Rmult_assoc, Rinv_l, Rmult_1_r by lra.
      apply Rsqr_incr_0_var; [| apply sqrt_pos]. unfold Rsqr. rewrite sqrt_sqrt.
      * apply (Rmult_le_reg_l (k_clean a)); [exact Hk |]. replace (k_clean a * (q * (F - cd0_clean a * q) / k_clean a)) with (q * (F - cd0_clean a * q)) by (field; lra). nra.
      * apply Rmult_le_pos; [nra | apply Rlt_le, Rinv_0_lt_compat, Hk].
    + intros [H1 H2]. apply (Rmult_le_compat_r gravity) in H2; [| lra]. unfold Rdiv in H2 at 1. rewrite Rmult_assoc, Rinv_l, Rmult_1_r in H2 by lra.
      assert (P4 : 0 <= q * (F - cd0_clean a * q) / k_clean a) by (apply Rmult_le_pos; [nra | apply Rlt_le, Rinv_0_lt_compat, Hk]).
      assert (H3 : (mass * gravity) * (mass * gravity) <= q * (F - cd0_clean a * q) / k_clean a).
      { rewrite <- (sqrt_sqrt _ P4). apply Rmult_le_compat; auto; apply Rmult_le_pos; lra. }
      apply (Rmult_le_compat_l (k_clean a)) in H3; [| lra].
      replace (k_clean a * (q * (F - cd0_clean a * q) / k_clean a)) with (q * (F - cd0_clean a * q)) in H3 by (field; lra). nra.
Qed.

(** ** The aircraft of the package *)
(** the types, and the names that stand for another type, for which level flight at the cruise altitude and Mach number needs
    less than the available thrust at every mass up to the maximum; up to the empty mass but not at the maximum; at no mass *)
Definition at_any_mass : list string :=
  ["a19n"; "a20n"; "a21n"; "a318"; "a319"; "a320"; "b37m"; "b734"; "b737"; "b738"; "b739"; "b752"; "b763"; "crj9"; "e145"; "e170"; "e190";
   "e195"; "e75l"; "glf6"; "a310"; "at72"; "at75"; "at76"; "b733"; "b735"; "b762"; "crj2"; "e290"; "glf5"; "gl5t"; "lj45"; "pc24"; "su95"].
Definition only_light : list string :=
  ["a321"; "a332"; "a333"; "a343"; "a359"; "a388"; "b38m"; "b39m"; "b3xm"; "b744"; "b748"; "b772"; "b773"; "b77w"; "b788"; "b789";
   "a124"; "a306"; "b77l"; "md11"].
Definition never : list string := ["c550"; "c25a"; "c525"; "c56x"].

(** *** Rational bounds *)
Definition press_bounds (h : Q) : option (Q * Q) :=
  if Qeq_bool h 11000 then Some (22625 # 1, 22626 # 1)%Q
  else if Qeq_bool h 12000 then Some (19325 # 1, 19326 # 1)%Q
  else if Qeq_bool h 12800 then Some (17034 # 1, 17035 # 1)%Q
  else None.
Lemma press_11000 : 22625 <= pR 11000 0 <= 22626.
Proof.
  unfold pR, rhoR, tR, clipT. uc. rewrite (Rmax_left 0 (-25)), (Rmin_left 0 15) by lra.
  rewrite Rmax_left by lra. rewrite (Rmax_left 0.0) by lra. split; interval.
Qed.
Lemma press_12000 : 19325 <= pR 12000 0 <= 19326.
Proof.
  unfold pR, rhoR, tR, clipT. uc. rewrite (Rmax_left 0 (-25)), (Rmin_left 0 15) by lra.
  rewrite Rmax_right by lra. rewrite (Rmax_right 0.0) by lra. split; interval.
Qed.
Lemma press_12800 : 17034 <= pR 12800 0 <= 17035.
Proof.
  unfold pR, rhoR, tR, clipT. uc. rewrite (Rmax_left 0 (-25)), (Rmin_left 0 15) by lra.
  rewrite Rmax_right by lra. rewrite (Rmax_right 0.0) by lra. split; interval.
Qed.
Lemma press_ok h lo hi : press_bounds h = Some (lo, hi) -> Q2R lo <= pR (Q2R h) 0 <= Q2R hi.
Proof.
  unfold press_bounds. intros H.
  destruct (Qeq_bool h 11000) eqn:E1; [| destruct (Qeq_bool h 12000) eqn:E2; [| destruct (Qeq_bool h 12800) eqn:E3; [| discriminate]]]; injection H as <- <-.
  - apply Qeq_bool_eq, Qeq_eqR in E1. rewrite E1. replace (Q2R 11000) with 11000 by (unfold Q2R; cbn; lra).
    pose proof press_11000. unfold Q2R; cbn. lra.
  - apply Qeq_bool_eq, Qeq_eqR in E2. rewrite E2. replace (Q2R 12000) with 12000 by (unfold Q2R; cbn; lra).
    pose proof press_12000. unfold Q2R; cbn. lra.
  - apply Qeq_bool_eq, Qeq_eqR in E3. rewrite E3. replace (Q2R 12800) with 12800 by (unfold Q2R; cbn; lra).
    pose proof press_12800. unfold Q2R; cbn. lra.
Qed.
(** reference Mach number and thrust of one engine *)
Definition reference (a : acrec) (e : engrec) : option (Q * Q) :=
  match en_max_thrust e with
  | Some mt => match en_cr_mach e, en_cr_thrust e with
               | Some m, Some f => if qlt 0 m then Some (m, f) else Some (ac_mach a, (2 # 10) * mt + 890)%Q
               | _, _ => Some (ac_mach a, (2 # 10) * mt + 890)%Q
               end
  | None => None
  end.
(** thrust from below and above, dynamic pressure times area from below and above *)
Definition bounds (a : acrec) (e : engrec) : option (Q * Q * (Q * Q)) :=
  match reference a e, press_bounds (ac_height a) with
  | Some (cm, ct), Some (lo, hi) =>
      let M := ac_mach a in
      let Fc := (ac_number a * ct)%Q in
      let s := ((7 # 10) * M * M * ac_area a)%Q in
      Some (Fc / (1 + (11 # 100) * (M / cm - 1)), Fc * (1 + (11 # 100) * (cm / M - 1)), (lo * s, hi * s))%Q
  | _, _ => None
  end.
(** drag at a mass from above and below *)
Definition drag_hi (p : porec) (ql qh m : Q) : Q := (po_cd0 p * qh + po_k p * (m * (980665 # 100000)) * (m * (980665 # 100000)) / ql)%Q.
Definition drag_lo (p : porec) (ql qh m : Q) : Q := (po_cd0 p * ql + po_k p * (m * (980665 # 100000)) * (m * (980665 # 100000)) / qh)%Q.
Definition class_ok (c : string) (a : acrec) (e : engrec) (p : porec) : bool :=
  match bounds a e with
  | Some (Fl, Fh, (ql, qh)) =>
      qlt 1 ql && qlt (1 # 10) (ac_mach a) && Qle_bool (ac_oew a) (ac_mtow a) &&
      match reference a e with Some (cm, ct) => qlt 0 cm && qlt 0 ct | None => false end &&
      ((mem c at_any_mass && qlt (drag_hi p ql qh (ac_mtow a)) Fl) ||
       (mem c only_light &&
          qlt (drag_hi p ql qh (ac_oew a)) Fl && qlt Fh (drag_lo p ql qh (ac_mtow a))) ||
       (mem c never && qlt Fh (drag_lo p ql qh (ac_oew a))))
  | None => false
  end.
Definition type_ok (c : string) : bool :=
  match thrust_new shipped0 c None (mkKwc (Some true) None), drag_new shipped0 c (mkKwc (Some true) None) with
  | inr t, inr dr => class_ok c (to_ac t) (er_row (to_eng t)) (do_polar dr)
  | _, _ => true
  end.
Lemma types_ok : forallb type_ok all_types = true.
Proof. vm_cast_no_check (eq_refl true). Qed.
Lemma type_ok_inr c t dr : type_ok c = true -> thrust_new shipped0 c None (mkKwc (Some true) None) = inr t ->
  drag_new shipped0 c (mkKwc (Some true) None) = inr dr -> class_ok c (to_ac t) (er_row (to_eng t)) (do_polar dr) = true.
Proof. unfold type_ok. intros H E1 E2. rewrite E1, E2 in H. exact H. Qed.
(** switching synonyms on does not change an object that can be built without them *)
Lemma aircraft_on d ac b a : aircraft d ac b = inr a -> aircraft d ac true = inr a.
Proof.
  destruct b; auto. unfold aircraft. cbv zeta. destruct (glob_aircraft d (lower ac)); auto.
  destruct (synonym (d_acsyn d) (lower ac)); discriminate.
Qed.
Lemma drag_on d ac s dr : drag_new d ac (mkKwc s None) = inr dr -> drag_new d ac (mkKwc (Some true) None) = inr dr.
Proof.
  unfold drag_new. cbv zeta. cbn [kw_syn get]. intros H. binds H. rewrite (aircraft_on _ _ _ _ E). cbn [bind].
  replace (load_drag_model d (lower ac) true) with (inr x0 : py porec); [exact H |]. rewrite <- E0.
  destruct (get s false); auto. unfold load_drag_model in *. destruct (mem (lower ac) (polar_available d)); auto.
  destruct (synonym (d_polsyn d) (lower ac)); discriminate.
Qed.
Lemma thrust_on d ac eng s t : thrust_new d ac eng (mkKwc s None) = inr t -> thrust_new d ac eng (mkKwc (Some true) None) = inr t.
Proof. unfold thrust_new. cbn [kw_syn kw_force get]. intros H. binds H. rewrite (aircraft_on _ _ _ _ E). cbn [bind]. rewrite E0. cbn [bind]. exact H. Qed.

(** *** From the bounds to the numbers *)
Lemma q2r_div x y : 0 < Q2R y -> Q2R (x / y) = Q2R x / Q2R y.
Proof. intros H. apply Q2R_div. intros E. apply Qeq_eqR in E. rewrite E in H. unfold Q2R in H. cbn in H. lra. Qed.
Ltac q2r := repeat (rewrite ?Q2R_mult, ?Q2R_plus, ?Q2R_minus in *).
Lemma objects_agree d ac k o : fuel_new d ac None k = inr o -> to_ac (fo_thrust o) = fo_ac o /\ do_ac (fo_drag o) = fo_ac o.
Proof.
  intros H. unfold fuel_new in H. binds H. injection H as <-. cbn [fo_thrust fo_drag fo_ac].
  rewrite aircraft_lower in E. split.
  - unfold thrust_new in E1. binds E1. destruct (_ && _); [discriminate |]. injection E1 as <-. cbn. congruence.
  - unfold drag_new in E2. binds E2. injection E2 as <-. cbn. rewrite aircraft_lower in *. congruence.
Qed.
Lemma reference_par a e cm ct par : reference a e = Some (cm, ct) -> thrust_par_of a e = Some par ->
  cruise_alt par = Q2R (ac_height a) / ft /\ eng_number par = Q2R (ac_number a) /\ cruise_mach par = Q2R cm /\ eng_cruise_thrust par = Q2R ct.
Proof.
  unfold reference, thrust_par_of. destruct (en_bpr e) as [b |]; [| discriminate]. destruct (en_max_thrust e) as [mt |]; [| discriminate].
  intros H E. injection E as <-. unfold thrust_init.
  assert (N : Q2R ((2 # 10) * mt + 890) = 0.2 * Q2R mt + 890).
  { q2r. replace (Q2R (2 # 10)) with 0.2 by (unfold Q2R; cbn; lra). replace (Q2R 890) with 890 by (unfold Q2R; cbn; lra). reflexivity. }
  destruct (en_cr_mach e) as [m |]; [destruct (en_cr_thrust e) as [f |] |]; cbn [option_map].
  - destruct (qlt 0 m) eqn:L.
    + injection H as <- <-. rewrite Rltb_true by (now apply qpos). cbn. auto.
    + injection H as <- <-. rewrite Rltb_false.
      * cbn. auto.
      * unfold qlt in L. apply negb_false_iff, qle_R in L. replace (Q2R 0) with 0 in L by (unfold Q2R; cbn; lra). exact L.
  - injection H as <- <-. cbn. auto.
  - injection H as <- <-. cbn. auto.
Qed.
Lemma bounds_ok a e cm ct Fl Fh ql qh : reference a e = Some (cm, ct) -> bounds a e = Some (Fl, Fh, (ql, qh)) ->
  0 < Q2R cm -> 0 < Q2R ct -> 0.1 < Q2R (ac_mach a) -> 0 < Q2R (ac_number a) -> 0 < Q2R (ac_area a) ->
  Q2R Fl <= Q2R (ac_number a) * Q2R ct * Rpower (Q2R (ac_mach a) / Q2R cm) (-0.11) <= Q2R Fh /\
  Q2R ql <= 0.7 * pR (Q2R (ac_height a)) 0 * Q2R (ac_mach a) ^ 2 * Q2R (ac_area a) <= Q2R qh.
Proof.
  intros R B Pc Pt PM Pn PA. unfold bounds in B. rewrite R in B. destruct (press_bounds (ac_height a)) as [[lo hi] |] eqn:P; [| discriminate].
  apply press_ok in P. injection B as <- <- <- <-.

  assert (E1 : Q2R 1 = 1) by (unfold Q2R; cbn; lra).
  set (M := Q2R (ac_mach a)) in *. set (n := Q2R (ac_number a)) in *. set (x := M / Q2R cm).
  assert (Px : 0 < x) by (unfold x; apply Rdiv_lt_0_compat; lra).
  assert (Dl : Q2R (1 + (11 # 100) * (ac_mach a / cm - 1))%Q = 1 + 0.11 * (x - 1)).
  { rewrite Q2R_plus. rewrite Q2R_mult. rewrite Q2R_minus. rewrite E1. rewrite q2r_div by exact Pc. reflexivity. }
  assert (Dh : Q2R (1 + (11 # 100) * (cm / ac_mach a - 1))%Q = 1 + 0.11 * (/ x - 1)).
  { rewrite Q2R_plus, Q2R_mult, Q2R_minus, E1. rewrite q2r_div by (fold M; lra). fold M. unfold x. f_equal. f_equal. f_equal. field. lra. }
  destruct (power_between x Px) as [L U]. split; split.
  - rewrite q2r_div by (rewrite Dl; lra). rewrite Dl, Q2R_mult. fold n. unfold Rdiv at 1. apply Rmult_le_compat_l; [nra |]. exact L.
  - rewrite Q2R_mult, Dh, Q2R_mult. fold n. apply Rmult_le_compat_l; [nra |]. exact U.
  - rewrite !Q2R_mult. fold M. replace (0.7 * pR (Q2R (ac_height a)) 0 * M ^ 2 * Q2R (ac_area a)) with (pR (Q2R (ac_height a)) 0 * (0.7 * M * M * Q2R (ac_area a))) by ring.
    apply Rmult_le_compat_r; [| lra]. apply Rmult_le_pos; [nra | lra].
  - rewrite !Q2R_mult. fold M. replace (0.7 * pR (Q2R (ac_height a)) 0 * M ^ 2 * Q2R (ac_area a)) with (pR (Q2R (ac_height a)) 0 * (0.7 * M * M * Q2R (ac_area a))) by ring.
    apply Rmult_le_compat_r; [| lra]. apply Rmult_le_pos; [nra | lra].
Qed.
Lemma drag_between p ql qh m q : 0 < Q2R ql -> Q2R ql <= q <= Q2R qh -> 0 < Q2R (po_cd0 p) -> 0 < Q2R (po_k p) ->
  Q2R (drag_lo p ql qh m) <= parabolic (Q2R (po_cd0 p)) (Q2R (po_k p)) q (Q2R m * gravity) <= Q2R (drag_hi p ql qh m).
Proof.
  intros P H C K. assert (G : Q2R (980665 # 100000) = gravity) by (unfold Q2R, gravity; cbn; lra).
  unfold drag_lo, drag_hi, parabolic. rewrite !Q2R_plus, !q2r_div, !Q2R_mult, G by lra.
  replace (Q2R (po_k p) * (Q2R m * gravity) * (Q2R m * gravity)) with (Q2R (po_k p) * (Q2R m * gravity) ^ 2) by ring.
  assert (N : 0 <= Q2R (po_k p) * (Q2R m * gravity) ^ 2) by (apply Rmult_le_pos; [lra | apply pow2_ge_0]).
  split; apply Rplus_le_compat; unfold Rdiv.
  - apply Rmult_le_compat_l; lra.
  - apply Rmult_le_compat_l; [lra |]. apply Rinv_le_contravar; lra.
  - apply Rmult_le_compat_l; lra.
  - apply Rmult_le_compat_l; [lra |]. apply Rinv_le_contravar; lra.
Qed.
Lemma parabolic_mono cd0 k q m m' : 0 < q -> 0 <= k -> 0 <= m <= m' -> parabolic cd0 k q (m * gravity) <= parabolic cd0 k q (m' * gravity).
Proof. intros. pose proof (parabolic_mass cd0 k q m m' ltac:(auto) ltac:(auto) ltac:(auto)) as H2. now rewrite !Rmult_1_r in H2. Qed.
Lemma fuel_parts d ac s o : fuel_new d ac None (mkKwc s None) = inr o ->
  thrust_new d ac None (mkKwc (Some true) None) = inr (fo_thrust o) /\ drag_new d ac (mkKwc (Some true) None) = inr (fo_drag o).
Proof.
  intros H. unfold fuel_new in H. binds H. injection H as <-. cbn [fo_thrust fo_drag]. split; [| exact (drag_on _ _ _ _ E2)].
  apply thrust_on in E1. unfold thrust_new in E1 |- *. cbn [kw_syn get] in *.
  rewrite aircraft_lower in E. apply aircraft_on in E. rewrite E in E1 |- *. exact E1.
Qed.
Lemma fuel_fails d ac eng k e : aircraft d ac (get (kw_syn k) false) = inl e -> fuel_new d ac eng k = inl e.
Proof. intros H. unfold fuel_new. cbv zeta. rewrite aircraft_lower, H. reflexivity. Qed.
Lemma drag_fails d ac k e : aircraft d ac (get (kw_syn k) false) = inl e -> drag_new d ac k = inl e.
Proof. intros H. unfold drag_new. cbv zeta. rewrite aircraft_lower, H. reflexivity. Qed.
Lemma nodup_app (l l' : list string) x : In x l -> In x l' -> ~ NoDup (l ++ l').
Proof.
  intros I I' N. induction l as [| y l IH]; [destruct I |]. cbn [app] in N. inversion N as [| ? ? A B]; subst. destruct I as [-> | I]; auto.
  apply A, in_or_app. now right.
Qed.
Lemma shipped_par d ac s o : ships d -> plain ac = true -> fuel_new d ac None (mkKwc s None) = inr o ->
  In (lower ac) all_types /\ class_ok (lower ac) (to_ac (fo_thrust o)) (er_row (to_eng (fo_thrust o))) (do_polar (fo_drag o)) = true.
Proof.
  intros S P H. rewrite (ship_fuel d) in H by auto.
  assert (I : In (lower ac) all_types).
  { destruct (in_dec string_dec (lower ac) all_types) as [I | N]; [exact I |]. exfalso.
    rewrite (fuel_fails _ _ _ _ _ (unknown_fails ac _ P N)) in H. discriminate. }
  split; [exact I |]. rewrite <- fuel_lower in H. destruct (fuel_parts _ _ _ _ H) as [E1 E2].
  refine (type_ok_inr _ _ _ _ E1 E2). apply (proj1 (forallb_forall type_ok all_types) types_ok _ I).
Qed.

(** C132.  The 58 names under which an aircraft can be built fall into three groups. *)
Theorem C132_groups : NoDup (at_any_mass ++ only_light ++ never) /\ forall c, In c all_types <-> In c (at_any_mass ++ only_light ++ never).
Proof.
  split.
  - apply (proj2 (NoDup_count_occ' string_dec _)). intros x I.
    assert (F : forallb (fun x => Nat.eqb (count_occ string_dec (at_any_mass ++ only_light ++ never) x) 1) (at_any_mass ++ only_light ++ never) = true) by (vm_compute; reflexivity).
    rewrite forallb_forall in F. apply PeanoNat.Nat.eqb_eq. exact (F x I).
  - intros c. split; intros I.
    + assert (F : forallb (fun x => mem x (at_any_mass ++ only_light ++ never)) all_types = true) by (vm_compute; reflexivity).
      rewrite forallb_forall in F. apply mem_in. exact (F c I).
    + assert (F : forallb (fun x => mem x all_types) (at_any_mass ++ only_light ++ never) = true) by (vm_compute; reflexivity).
      rewrite forallb_forall in F. apply mem_in. exact (F c I).
Qed.
(** C132.  At the cruise altitude and Mach number of its file, with standard temperature and its default engine, an aircraft
    of the first group needs less than the available thrust at every mass up to the maximum take-off mass; one of the second
    group at every mass up to the operating empty mass, and more than the available thrust from the maximum take-off mass
    on; one of the third group more than the available thrust from the operating empty mass on. *)
Theorem C132_shipped d ac s o : ships d -> plain ac = true -> fuel_new d ac None (mkKwc s None) = inr o ->
  let a := fo_ac o in let alt := Q2R (ac_height a) / 0.3048 in
  exists par, thrust_par_of (to_ac (fo_thrust o)) (er_row (to_eng (fo_thrust o))) = Some par /\
  forall tas, tas2mach NP (Fin (si_kt tas)) (Fin (Q2R (ac_height a))) (Fin 0) = Fin (Q2R (ac_mach a)) ->
  exists F drag, cruise_thrust NP par (Fin tas) (Fin alt) (Fin 0) = Fin F /\
    (forall mass, 0 <= mass -> clean NP (drag_par_of (fo_drag o)) false (Fin mass) (Fin tas) (Fin alt) (Fin 0) (Fin 0) = Fin (drag mass)) /\
    ((In (lower ac) at_any_mass /\ forall mass, 0 <= mass <= Q2R (ac_mtow a) -> drag mass < F) \/
     (In (lower ac) only_light /\ (forall mass, 0 <= mass <= Q2R (ac_oew a) -> drag mass < F) /\ forall mass, Q2R (ac_mtow a) <= mass -> F < drag mass) \/
     (In (lower ac) never /\ forall mass, Q2R (ac_oew a) <= mass -> F < drag mass)).
Proof.
  intros S P H a alt. destruct (shipped_par d ac s o S P H) as [_ C].
  destruct (objects_agree _ _ _ _ H) as [Et Ed]. assert (Kf : kw_force (mkKwc s None) <> Some true) by discriminate.
  destruct (fuel_new_ok d S ac None (mkKwc s None) o Kf H) as (_ & _ & _ & HT & HD).
  pose proof (accepted_has_thrust d S _ _ _ _ Kf HT) as Hn.
  destruct (thrust_new_row d S _ _ _ _ HT) as (Ka & _ & Ke & _).
  destruct (thrust_par_ok _ _ Ka Ke Hn) as (par & Ep & _ & _ & Pn & Pm & Pt & Pa).
  pose proof (drag_new_ok d S _ _ _ HD) as (Pc & Pk & PS & _). exists par. split; [exact Ep |]. rewrite Et in *. fold a in C, Ep, Et, Ed, Ka.
  set (e := er_row (to_eng (fo_thrust o))) in *.
  cbn [drag_par_of cd0_clean k_clean wing_area] in Pc, Pk, PS. rewrite Ed in PS. set (po := do_polar (fo_drag o)) in *.
  unfold class_ok in C. destruct (bounds a e) as [[[Fl Fh] [ql qh]] |] eqn:B; [| discriminate].
  destruct (reference a e) as [[cm ct] |] eqn:R; [| bools; discriminate].
  destruct (reference_par _ _ _ _ _ R Ep) as (Ea & En & Em & Ec).
  apply andb_true_iff in C. destruct C as [C G]. bools.
  assert (E1 : Q2R 1 = 1) by (unfold Q2R; cbn; lra). rewrite E1 in *. rewrite En in Pn.
  match goal with Hq : 1 < Q2R ql |- _ => rename Hq into Pq end. match goal with Hm : _ < Q2R (ac_mach a) |- _ => rename Hm into PM end.
  assert (PM' : 0.1 < Q2R (ac_mach a)) by (eapply Rle_lt_trans; [| exact PM]; unfold Q2R; cbn; lra).
  destruct (bounds_ok a e cm ct Fl Fh ql qh R B) as [BF Bq]; auto.
  intros tas HM. set (q := 0.7 * pR (Q2R (ac_height a)) 0 * Q2R (ac_mach a) ^ 2 * Q2R (ac_area a)) in *.
  set (F := Q2R (ac_number a) * Q2R ct * Rpower (Q2R (ac_mach a) / Q2R cm) (-0.11)) in *.
  assert (Eh : si_ft (cruise_alt par) = Q2R (ac_height a)) by (rewrite Ea; unfold si_ft, ft; lra).
  assert (Ealt : alt = cruise_alt par) by (rewrite Ea; reflexivity).
  assert (Ht : 10 <= tas).
  { rewrite tas2mach_NP in HM. apply Fin_inj in HM. pose proof (aR_pos (Q2R (ac_height a)) 0) as A0.
    assert (A : 100 <= aR (Q2R (ac_height a)) 0).
    { unfold aR. rewrite <- (sqrt_square 100) by lra. apply sqrt_le_1_alt. pose proof (tR_pos (Q2R (ac_height a)) 0). uc. nra. }
    assert (V : si_kt tas = Q2R (ac_mach a) * aR (Q2R (ac_height a)) 0) by (rewrite <- HM; field; lra).
    unfold si_kt in V. nra. }
  assert (D : forall mass, 0 <= mass -> cruise_thrust NP par (Fin tas) (Fin alt) (Fin 0) = Fin F /\
    clean NP (drag_par_of (fo_drag o)) false (Fin mass) (Fin tas) (Fin alt) (Fin 0) (Fin 0)
      = Fin (parabolic (Q2R (po_cd0 po)) (Q2R (po_k po)) q (mass * gravity))).
  { intros mass Hmass.
    destruct (C132_balance par (drag_par_of (fo_drag o)) tas 0 (Q2R (ac_mach a)) (pR (Q2R (ac_height a)) 0) mass) as (D & D1 & D2 & D3 & _); auto.
    - rewrite En. exact Pn.
    - cbn [drag_par_of wing_area]. rewrite Ed. exact PS.
    - rewrite Eh. exact HM.
    - rewrite Eh. apply pressure_NP.
    - cbn [drag_par_of wing_area]. rewrite Ed. fold a. fold q. lra.
    - rewrite Ealt. split; [rewrite D1, En, Ec, Em; reflexivity |]. rewrite D2, D3. cbn [drag_par_of wing_area cd0_clean k_clean]. rewrite Ed. reflexivity. }
  exists F, (fun mass => parabolic (Q2R (po_cd0 po)) (Q2R (po_k po)) q (mass * gravity)).
  split; [apply (D 0); lra |]. split; [intros mass Hm; apply (D mass Hm) |].
  assert (B2 : forall m, Q2R (drag_lo po ql qh m) <= parabolic (Q2R (po_cd0 po)) (Q2R (po_k po)) q (Q2R m * gravity) <= Q2R (drag_hi po ql qh m)).
  { intros m. apply drag_between; auto; lra. }
  assert (O : 0 <= Q2R (ac_oew a) <= Q2R (ac_mtow a)).
  { unfold ac_check in Ka. bools. lra. }
  apply orb_true_iff in G. destruct G as [G | G]; [apply orb_true_iff in G; destruct G as [G | G] |]; bools.
  - left. split; [now apply mem_in |]. intros mass Hm.
    pose proof (parabolic_mono (Q2R (po_cd0 po)) (Q2R (po_k po)) q mass (Q2R (ac_mtow a)) ltac:(lra) ltac:(lra) Hm) as L. pose proof (B2 (ac_mtow a)). lra.
  - right. left. split; [now apply mem_in |]. split; intros mass Hm.
    + pose proof (parabolic_mono (Q2R (po_cd0 po)) (Q2R (po_k po)) q mass (Q2R (ac_oew a)) ltac:(lra) ltac:(lra) Hm) as L. pose proof (B2 (ac_oew a)). lra.
    + pose proof (parabolic_mono (Q2R (po_cd0 po)) (Q2R (po_k po)) q (Q2R (ac_mtow a)) mass ltac:(lra) ltac:(lra) ltac:(lra)) as L. pose proof (B2 (ac_mtow a)). lra.
  - right. right. split; [now apply mem_in |]. intros mass Hm.
    pose proof (parabolic_mono (Q2R (po_cd0 po)) (Q2R (po_k po)) q (Q2R (ac_oew a)) mass ltac:(lra) ltac:(lra) ltac:(lra)) as L. pose proof (B2 (ac_oew a)). lra.
Qed.
Example C132_ex : In "a320" at_any_mass /\ In "a388" only_light /\ In "pc24" at_any_mass /\ In "c550" never /\
  match fuel_new shipped0 "A388" None (mkKwc None None) with
  | inr o => Qeq_bool (ac_mtow (fo_ac o)) 560000 && Qeq_bool (ac_height (fo_ac o)) 12800
  | inl _ => false
  end = true.
Proof.
  split; [apply mem_in; vm_compute; reflexivity |]. split; [apply mem_in; vm_compute; reflexivity |].
  split; [apply mem_in; vm_compute; reflexivity |]. split; [apply mem_in; vm_compute; reflexivity |].
  vm_cast_no_check (eq_refl true).
Qed.

(** C132, the plausible claims that fail: an aircraft can hold its own cruise altitude and Mach number at its maximum
    take-off mass, or at least with nothing on board. *)
Definition holds (mass_of : acrec -> Q) (d : db) (ac : string) (s : option bool) : Prop :=
  forall o, fuel_new d ac None (mkKwc s None) = inr o ->
  forall par tas F D, thrust_par_of (to_ac (fo_thrust o)) (er_row (to_eng (fo_thrust o))) = Some par ->
    tas2mach NP (Fin (si_kt tas)) (Fin (Q2R (ac_height (fo_ac o)))) (Fin 0) = Fin (Q2R (ac_mach (fo_ac o))) ->
    cruise_thrust NP par (Fin tas) (Fin (Q2R (ac_height (fo_ac o)) / 0.3048)) (Fin 0) = Fin F ->
    clean NP (drag_par_of (fo_drag o)) false (Fin (Q2R (mass_of (fo_ac o)))) (Fin tas) (Fin (Q2R (ac_height (fo_ac o)) / 0.3048)) (Fin 0) (Fin 0) = Fin D ->
    D <= F.
Theorem C132_holds d ac s : ships d -> plain ac = true -> In (lower ac) (buildable s) ->
  (holds ac_mtow d ac s <-> In (lower ac) at_any_mass) /\ (holds ac_oew d ac s <-> ~ In (lower ac) never).
Proof.
  intros S P I. destruct (proj1 (C39_buildable_types d S ac s P) I) as [o Ho].
  destruct (C132_shipped d ac s o S P Ho) as (par & Ep & T). cbv zeta in T.
  assert (O : 0 <= Q2R (ac_oew (fo_ac o)) <= Q2R (ac_mtow (fo_ac o))).
  { destruct (shipped_par d ac s o S P Ho) as [_ C]. destruct (objects_agree _ _ _ _ Ho) as [Et _]. rewrite Et in C.
    destruct (fuel_new_ok d S ac None (mkKwc s None) o ltac:(discriminate) Ho) as (_ & _ & _ & HT & _).
    destruct (thrust_new_row d S _ _ _ _ HT) as (Ka & _). rewrite Et in Ka. unfold ac_check in Ka.
    unfold class_ok in C. destruct (bounds _ _) as [[[? ?] [? ?]] |]; [| discriminate].
    apply andb_true_iff in C. destruct C as [C _]. apply andb_true_iff in C. destruct C as [C _]. bools. lra. }
  set (h := Q2R (ac_height (fo_ac o))) in *. set (M := Q2R (ac_mach (fo_ac o))) in *.
  assert (V : tas2mach NP (Fin (si_kt (M * aR h 0 / 0.514444))) (Fin h) (Fin 0) = Fin M).
  { rewrite tas2mach_NP. f_equal. pose proof (aR_pos h 0). unfold si_kt. field. lra. }
  assert (X : ~ (In (lower ac) at_any_mass /\ In (lower ac) only_light) /\ ~ (In (lower ac) at_any_mass /\ In (lower ac) never) /\ ~ (In (lower ac) only_light /\ In (lower ac) never)).
  { destruct C132_groups as [N _]. rewrite app_assoc in N. pose proof N as N2. rewrite <- app_assoc in N2. split; [| split]; intros [I1 I2].
    - revert N2. apply (nodup_app _ _ (lower ac)); [exact I1 | apply in_or_app; left; exact I2].
    - revert N2. apply (nodup_app _ _ (lower ac)); [exact I1 | apply in_or_app; right; exact I2].
    - revert N. apply (nodup_app _ _ (lower ac)); [apply in_or_app; right; exact I1 | exact I2]. }
  split; split.
  - intros H. destruct (T _ V) as (F & drag & TF & TD & [[G _] | [[_ [_ G]] | [_ G]]]); [exact G | exfalso ..].
    + pose proof (H o Ho par _ F _ Ep V TF (TD (Q2R (ac_mtow (fo_ac o))) ltac:(lra))) as L. specialize (G (Q2R (ac_mtow (fo_ac o))) ltac:(lra)). lra.
    + pose proof (H o Ho par _ F _ Ep V TF (TD (Q2R (ac_mtow (fo_ac o))) ltac:(lra))) as L. specialize (G (Q2R (ac_mtow (fo_ac o))) ltac:(lra)). lra.
  - intros J o' Ho' par' tas F' D Ep' V' TF' TD'. rewrite Ho in Ho'. injection Ho' as <-. rewrite Ep in Ep'. injection Ep' as <-.
    destruct (T _ V') as (F & drag & TF & TD & G). fold h in TF', TD'. rewrite TF in TF'. apply Fin_inj in TF'. subst F'.
    rewrite TD in TD' by lra. apply Fin_inj in TD'. subst D. destruct G as [[_ G] | [[G _] | [G _]]]; [| tauto ..].
    specialize (G (Q2R (ac_mtow (fo_ac o))) ltac:(lra)). lra.
  - intros H J. destruct (T _ V) as (F & drag & TF & TD & [[G _] | [[G _] | [_ G]]]); [tauto .. |].
    pose proof (H o Ho par _ F _ Ep V TF (TD (Q2R (ac_oew (fo_ac o))) ltac:(lra))) as L. specialize (G (Q2R (ac_oew (fo_ac o))) ltac:(lra)). lra.
  - intros J o' Ho' par' tas F' D Ep' V' TF' TD'. rewrite Ho in Ho'. injection Ho' as <-. rewrite Ep in Ep'. injection Ep' as <-.
    destruct (T _ V') as (F & drag & TF & TD & G). fold h in TF', TD'. rewrite TF in TF'. apply Fin_inj in TF'. subst F'.
    rewrite TD in TD' by lra. apply Fin_inj in TD'. subst D. destruct G as [[_ G] | [[_ [G _]] | [G _]]]; [| | tauto].
    + specialize (G (Q2R (ac_oew (fo_ac o))) ltac:(lra)). lra.
    + specialize (G (Q2R (ac_oew (fo_ac o))) ltac:(lra)). lra.
Qed.
Theorem C132_cruise_refuted :
  ~ (forall d ac s, ships d -> plain ac = true -> holds ac_mtow d ac s) /\ ~ (forall d ac s, ships d -> plain ac = true -> holds ac_oew d ac s).
Proof.
  split; intros H.
  - assert (I : In (lower "a388") (buildable None)) by (apply mem_in; vm_compute; reflexivity).
    pose proof (proj1 (proj1 (C132_holds shipped0 "a388" None shipped0_ships eq_refl I)) (H shipped0 "a388" None shipped0_ships eq_refl)) as J.
    apply mem_in in J. vm_compute in J. discriminate.
  - assert (I : In (lower "c550") (buildable None)) by (apply mem_in; vm_compute; reflexivity).
    apply (proj1 (proj2 (C132_holds shipped0 "c550" None shipped0_ships eq_refl I)) (H shipped0 "c550" None shipped0_ships eq_refl)).
    apply mem_in. vm_compute. reflexivity.
Qed.

(** ** Which polar goes with which aircraft *)
(** C132.  A name that stands for another type takes aircraft data and polar from separate tables.  The polar is the one that
    the aircraft flown in its place would get, except for "pc24". *)
Definition polar_check (c : string) : bool :=
  match drag_new shipped0 c (mkKwc (Some true) None) with
  | inr o => match drag_new shipped0 (ac_code (do_ac o)) (mkKwc (Some true) None) with
             | inr o' => plain (ac_code (do_ac o)) && String.eqb (ac_code (do_ac o')) (ac_code (do_ac o)) &&
                         Bool.eqb (String.eqb (po_code (do_polar o')) (po_code (do_polar o))) (negb (String.eqb c "pc24"))
             | inl _ => false
             end
  | inl _ => true
  end.
Lemma polar_checks : forallb polar_check all_types = true.
Proof. vm_cast_no_check (eq_refl true). Qed.
Lemma polar_check_inr c o : polar_check c = true -> drag_new shipped0 c (mkKwc (Some true) None) = inr o ->
  plain (ac_code (do_ac o)) = true /\
  exists o', drag_new shipped0 (ac_code (do_ac o)) (mkKwc (Some true) None) = inr o' /\ ac_code (do_ac o') = ac_code (do_ac o) /\
    (po_code (do_polar o') = po_code (do_polar o) <-> c <> "pc24").
Proof.
  unfold polar_check. intros H E. rewrite E in H. destruct (drag_new shipped0 (ac_code (do_ac o)) _) as [| o']; [discriminate |].
  apply andb_true_iff in H. destruct H as [H1 H2]. apply andb_true_iff in H1. destruct H1 as [H0 H1]. apply String.eqb_eq in H1. apply eqb_prop in H2.
  split; [exact H0 |]. exists o'. split; [reflexivity |]. split; [exact H1 |].
  rewrite <- String.eqb_eq, H2, negb_true_iff. apply String.eqb_neq.
Qed.
Theorem C132_polar_of_substitute d ac o : ships d -> plain ac = true -> drag_new d ac (mkKwc (Some true) None) = inr o ->
  exists o', drag_new d (ac_code (do_ac o)) (mkKwc (Some true) None) = inr o' /\ ac_code (do_ac o') = ac_code (do_ac o) /\
    (po_code (do_polar o') = po_code (do_polar o) <-> lower ac <> "pc24").
Proof.
  intros S P H. rewrite (ship_drag d) in H by auto.
  assert (L : drag_new shipped0 (lower ac) (mkKwc (Some true) None) = drag_new shipped0 ac (mkKwc (Some true) None)).
  { unfold drag_new. cbv zeta. rewrite lower_idem. reflexivity. }
  assert (I : In (lower ac) all_types).
  { destruct (in_dec string_dec (lower ac) all_types) as [I | N]; [exact I |]. exfalso.
    rewrite (drag_fails _ _ _ _ (unknown_fails ac _ P N)) in H. discriminate. }
  rewrite <- L in H. destruct (polar_check_inr (lower ac) o) as [K R]; [apply (proj1 (forallb_forall polar_check all_types) polar_checks _ I) | exact H |].
  rewrite (ship_drag d) by auto. exact R.
Qed.
Example C132_ex2 : match drag_new shipped0 "PC24" (mkKwc (Some true) None) with
                    | inr o => String.eqb (ac_code (do_ac o)) "c550" && String.eqb (po_code (do_polar o)) "glf6"
                    | inl _ => false
                    end = true.
Proof. vm_cast_no_check (eq_refl true). Qed.
