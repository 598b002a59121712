(** * Property C112: the atmosphere and the speed conversions in binary64 *)
From Coq Require Import Reals List ZArith Lra Lia Psatz.
From Flocq Require Import Core Relative.
From Interval Require Import Tactic.
From Verif Require Import Num NumFacts SpecNum Aero AeroFacts Fl SpecFl FlFacts.
Import ListNotations.
Open Scope R_scope.

(** binary64 with correct rounding is an instance, and it is monotone *)
Theorem C112_binary64 : accurate binary64 /\ monotone binary64.
Proof.
  repeat apply conj.
  - intros o l x. unfold binary64. eapply Rle_trans; [apply (relative_error_N_FLX radix2 53 eq_refl)|]. apply Rmult_le_compat_r; [apply Rabs_pos|].
    cbn. lra.
  - intros n H. unfold binary64. apply round_generic; [apply valid_rnd_N|]. apply generic_format_FLX. exists (Float radix2 n 0); [unfold F2R; cbn; ring|exact H].
  - intros o l l' x y H. unfold binary64. apply round_le; auto. apply FLX_exp_valid. reflexivity. apply valid_rnd_N.
Qed.

Section Aero.
Context (rd : rounding) (Hrd : accurate rd).
Local Notation cs := (cst (FL rd)).
Lemma c_int : forall n : Z, (Z.abs n < 2 ^ 53)%Z -> cs (IZR n) = Fin (IZR n).
Proof. intros. apply cst_int; auto. Qed.
Lemma clip_fl : forall dT, clip (FL rd) (Fin dT) (cs (-25)) (cs 15) = Fin (clipT dT).
Proof. intros dT. rewrite (c_int (-25)), (c_int 15) by (cbn; lia). reflexivity. Qed.
Lemma T0s_fl : forall dT, na (T0 + clipT dT) 650 (add (FL rd) (cs T0) (Fin (clipT dT))).
Proof.
  intros dT. pose proof (T0s_pos dT).
  assert (A : na T0 294 (cs T0)). { apply nr_na with 1; [apply nr_cst; auto|lra|]. uc. rewrite Rabs_pos_eq; lra. }
  eapply na_w; [apply (na_add rd Hrd _ _ _ _ _ _ A (na_exact (clipT dT))); lra|]. rewrite Rabs_pos_eq; lra.
Qed.
Lemma T0s_nr : forall dT, nr (T0 + clipT dT) 3 (add (FL rd) (cs T0) (Fin (clipT dT))).
Proof. intros dT. pose proof (T0s_pos dT). eapply nr_w; [apply (na_nr _ _ _ 2.5 (T0s_fl dT)); [lra|rewrite Rabs_pos_eq; lra|lra]|lra]. Qed.
Lemma T_fl : forall h dT, -1000 <= h <= 50000 ->
  nr (tR h dT) 10 (maximum (FL rd) (add (FL rd) (add (FL rd) (cs T0) (Fin (clipT dT))) (mul (FL rd) (cs beta) (Fin h))) (add (FL rd) (cs 216.65) (Fin (clipT dT)))).
Proof.
  intros h dT H. pose proof (T0s_pos dT). pose proof (clipT_range dT). pose proof (tR_pos h dT).
  assert (B : na (beta * h) 664 (mul (FL rd) (cs beta) (Fin h))).
  { apply nr_na with 2; [|lra|]. replace 2 with (1 + 0 + 1) by ring. apply nr_mul; auto; [apply nr_cst; auto|apply nr_exact]. rewrite Rabs_mult.
    assert (Rabs h <= 50000) by (apply Rabs_le; lra). assert (Rabs beta = 0.0065) as -> by (uc; rewrite Rabs_left; lra). lra. }
  assert (A : na (T0 + clipT dT + beta * h) 1700 (add (FL rd) (add (FL rd) (cs T0) (Fin (clipT dT))) (mul (FL rd) (cs beta) (Fin h)))).
  { eapply na_w; [apply (na_add rd Hrd _ _ _ _ _ _ (T0s_fl dT) B); lra|]. assert (Rabs (T0 + clipT dT + beta * h) <= 310); [|lra]. uc. apply Rabs_le; lra. }
  assert (C : na (216.65 + clipT dT) 480 (add (FL rd) (cs 216.65) (Fin (clipT dT)))).
  { assert (A' : na 216.65 222 (cs 216.65)). { apply nr_na with 1; [apply nr_cst; auto|lra|]. rewrite Rabs_pos_eq; lra. }
    eapply na_w; [apply (na_add rd Hrd _ _ _ _ _ _ A' (na_exact (clipT dT))); lra|]. rewrite Rabs_pos_eq; lra. }
  pose proof (na_max rd _ _ _ _ _ _ A C) as M. rewrite (Rmax_left 1700 480) in M by lra.
  eapply nr_w; [apply (na_nr _ _ _ 9 M)|lra]; fold (tR h dT); [lra|rewrite Rabs_pos_eq; lra|lra].
Qed.
Lemma ratio_ln : forall h dT, -1000 <= h -> Rabs (ln (tR h dT / (T0 + clipT dT))) <= 0.32.
Proof.
  intros h dT H. pose proof (T0s_pos dT). pose proof (clipT_range dT). pose proof (tR_pos h dT). pose proof (tR_lb h dT).
  assert (U : tR h dT <= T0 + clipT dT + 6.5). { unfold tR. apply Rmax_lub; uc; lra. }
  assert (L : 0.728 <= tR h dT / (T0 + clipT dT) <= 1.025).
  { split; apply Rmult_le_reg_r with (T0 + clipT dT); try lra; unfold Rdiv; rewrite Rmult_assoc, Rinv_l by lra; uc; lra. }
  set (z := tR h dT / (T0 + clipT dT)) in *. interval.
Qed.
Lemma atmos_fl : forall h dT, -1000 <= h <= 50000 ->
  exists P D K, atmos (FL rd) (Fin h) (Fin dT) = (P, D, K) /\ nr (pR h dT) 101 P /\ nr (rhoR h dT) 88 D /\ nr (tR h dT) 10 K.
Proof.
  intros h dT H. unfold atmos. rewrite clip_fl. eexists _, _, _. split; [reflexivity|].
  pose proof (T_fl h dT H) as KT. pose proof (T0s_nr dT) as K0. pose proof (T0s_pos dT). pose proof (tR_pos h dT).
  match goal with |- nr _ _ (mul _ (mul _ ?D _) ?K) /\ _ => set (Dd := D); set (Kk := K) end. fold Kk in KT.
  assert (KD : nr (rhoR h dT) 88 Dd).
  { unfold Dd, rhoR. eapply nr_w; [apply nr_mul; auto; [apply nr_mul; auto; [apply nr_cst; auto|]|]|].
    - apply nr_power; auto; [apply nr_div; auto; [exact KT|exact K0|lra]|apply nr_cst; auto| |lra]. apply Rdiv_lt_0_compat; lra.
    - apply nr_exp; auto.
      + apply nr_div; auto; [|apply nr_cst; auto|lra]. apply nr_neg. apply nr_max; auto.
        * replace 0.0 with 0 by lra. rewrite (c_int 0) by (cbn; lia). apply nr_exact.
        * replace 11000.0 with 11000 by lra. rewrite (c_int 11000) by (cbn; lia). apply nr_sub0; auto.
      + apply Rle_trans with 0; [|lra]. assert (0 <= Rmax 0.0 (h - 11000.0)) by (eapply Rle_trans; [|apply Rmax_l]; lra). unfold Rdiv. assert (0 < / 6341.552161) by (apply Rinv_0_lt_compat; lra). nra.
      + rewrite Rmax_right by lra. lra.
    - rewrite (Rmax_right 0 1) by lra.
      assert (E1' : Rabs 4.256848030018761 <= 4.26) by (rewrite Rabs_pos_eq; lra).
      assert (E2' : Rabs (4.256848030018761 * ln (tR h dT / (T0 + clipT dT))) <= 1.37). { rewrite Rabs_mult. pose proof (ratio_ln h dT ltac:(lra)). pose proof (Rabs_pos (ln (tR h dT / (T0 + clipT dT)))). nra. }
      assert (E3 : Rabs (- Rmax 0.0 (h - 11000.0) / 6341.552161) <= 6.16).
      { unfold Rdiv. rewrite Rabs_mult, Rabs_Ropp, (Rabs_pos_eq (/ 6341.552161)) by (left; apply Rinv_0_lt_compat; lra).
        assert (0 <= Rmax 0.0 (h - 11000.0) <= 39000) as B by (split; [eapply Rle_trans; [|apply Rmax_l]; lra|apply Rmax_lub; lra]). rewrite Rabs_pos_eq by lra.
        apply Rmult_le_reg_r with 6341.552161; [lra|]. rewrite Rmult_assoc, Rinv_l by lra. lra. }
      lra. }
  repeat apply conj; auto. unfold pR. eapply nr_w; [apply nr_mul; auto; [apply nr_mul; auto; [exact KD|apply nr_cst; auto]|exact KT]|lra].
Qed.
End Aero.

Section Thms.
Context (rd : rounding) (Hrd : accurate rd) (h dT : R) (Hh : -1000 <= h <= 50000).
Local Notation cs := (cst (FL rd)).
Lemma pressure_fl : nr (pR h dT) 101 (pressure (FL rd) (Fin h) (Fin dT)).
Proof. destruct (atmos_fl rd Hrd h dT Hh) as (P & D & K & E & A & B & C). unfold pressure. rewrite E. exact A. Qed.
Lemma density_fl : nr (rhoR h dT) 88 (density (FL rd) (Fin h) (Fin dT)).
Proof. destruct (atmos_fl rd Hrd h dT Hh) as (P & D & K & E & A & B & C). unfold density. rewrite E. exact B. Qed.
Lemma temperature_fl : nr (tR h dT) 10 (temperature (FL rd) (Fin h) (Fin dT)).
Proof. destruct (atmos_fl rd Hrd h dT Hh) as (P & D & K & E & A & B & C). unfold temperature. rewrite E. exact C. Qed.
Lemma vsound_fl : nr (aR h dT) 8 (vsound (FL rd) (Fin h) (Fin dT)).
Proof.
  unfold vsound, aR. pose proof (tR_pos h dT). eapply nr_w; [apply nr_sqrt; auto; [apply nr_mul; auto; [apply nr_mul; auto; apply nr_cst; auto|apply temperature_fl]|]|lra].
  apply Rmult_le_pos; [uc; lra|lra].
Qed.
(** pressure, density, temperature and speed of sound are correct to 13 digits *)
Theorem C112_atmosphere :
  within 1e-13 (pressure NP (Fin h) (Fin dT)) (pressure (FL rd) (Fin h) (Fin dT)) /\
  within 1e-13 (density NP (Fin h) (Fin dT)) (density (FL rd) (Fin h) (Fin dT)) /\
  within 1e-14 (temperature NP (Fin h) (Fin dT)) (temperature (FL rd) (Fin h) (Fin dT)) /\
  within 1e-14 (vsound NP (Fin h) (Fin dT)) (vsound (FL rd) (Fin h) (Fin dT)).
Proof.
  rewrite pressure_NP, density_NP, temperature_NP, vsound_NP. repeat apply conj.
  - apply nr_within with 101; [apply pressure_fl|lra|lra].
  - apply nr_within with 88; [apply density_fl|lra|lra].
  - apply nr_within with 10; [apply temperature_fl|lra|lra].
  - apply nr_within with 8; [apply vsound_fl|lra|lra].
Qed.
(** Mach number and equivalent airspeed at any speed *)
Theorem C112_mach_eas : forall s,
  within 1e-14 (tas2mach NP (Fin s) (Fin h) (Fin dT)) (tas2mach (FL rd) (Fin s) (Fin h) (Fin dT)) /\
  within 1e-14 (mach2tas NP (Fin s) (Fin h) (Fin dT)) (mach2tas (FL rd) (Fin s) (Fin h) (Fin dT)) /\
  within 1e-13 (tas2eas NP (Fin s) (Fin h) (Fin dT)) (tas2eas (FL rd) (Fin s) (Fin h) (Fin dT)) /\
  within 1e-13 (eas2tas NP (Fin s) (Fin h) (Fin dT)) (eas2tas (FL rd) (Fin s) (Fin h) (Fin dT)).
Proof.
  intros s. rewrite tas2mach_NP, mach2tas_NP, tas2eas_NP, eas2tas_NP. pose proof (aR_pos h dT). pose proof (rhoR_pos h dT). repeat apply conj.
  - apply nr_within with 9; [|lra|lra]. unfold tas2mach. eapply nr_w; [apply nr_div; auto; [apply nr_exact|apply vsound_fl|lra]|lra].
  - apply nr_within with 9; [|lra|lra]. unfold mach2tas. eapply nr_w; [apply nr_mul; auto; [apply nr_exact|apply vsound_fl]|lra].
  - apply nr_within with 50; [|lra|lra]. unfold tas2eas. eapply nr_w; [apply nr_mul; auto; [apply nr_exact|apply nr_sqrt; auto; [apply nr_div; auto; [apply density_fl|apply nr_cst; auto|uc; lra]|]]|lra].
    apply Rmult_le_pos; [lra|]. left. apply Rinv_0_lt_compat. uc; lra.
  - apply nr_within with 50; [|lra|lra]. unfold eas2tas. eapply nr_w; [apply nr_mul; auto; [apply nr_exact|apply nr_sqrt; auto; [apply nr_div; auto; [apply nr_cst; auto|apply density_fl|lra]|]]|lra].
    apply Rmult_le_pos; [uc; lra|]. left. apply Rinv_0_lt_compat. lra.
Qed.
(** there and back again *)
Theorem C112_round_trip : forall s,
  within 2e-15 (Fin s) (mach2tas (FL rd) (tas2mach (FL rd) (Fin s) (Fin h) (Fin dT)) (Fin h) (Fin dT)) /\
  within 5e-15 (Fin s) (eas2tas (FL rd) (tas2eas (FL rd) (Fin s) (Fin h) (Fin dT)) (Fin h) (Fin dT)).
Proof.
  intros s. split.
  - apply nr_within with 2; [|lra|lra]. unfold mach2tas, tas2mach. destruct vsound_fl as (t & -> & _). pose proof (aR_pos h dT). pose proof (exp_pos t).
    assert (P : 0 < aR h dT * exp t) by nra. set (a := aR h dT * exp t) in *. apply nr_x with (s / a * a); [|field; lra].
    eapply nr_w; [apply nr_mul; auto; [apply nr_div; auto; [apply nr_exact|apply nr_exact|lra]|apply nr_exact]|lra].
  - apply nr_within with 5; [|lra|lra]. unfold eas2tas, tas2eas. destruct density_fl as (t & -> & _). destruct (nr_cst rd Hrd rho0) as (u & -> & _).
    pose proof (rhoR_pos h dT). pose proof (exp_pos t). pose proof (exp_pos u). pose proof rho0_pos.
    assert (P : 0 < rhoR h dT * exp t) by nra. assert (Q : 0 < rho0 * exp u) by nra. set (a := rhoR h dT * exp t) in *. set (c := rho0 * exp u) in *.
    apply nr_x with (s * sqrt (a / c) * sqrt (c / a)); [|rewrite Rmult_assoc, sqrt_ratio_inv by auto; ring].
    assert (0 <= a / c) by (left; apply Rdiv_lt_0_compat; auto). assert (0 <= c / a) by (left; apply Rdiv_lt_0_compat; auto).
    eapply nr_w; [apply nr_mul; auto; [apply nr_mul; auto; [apply nr_exact|]|]; apply nr_sqrt; auto; apply nr_div; auto; try apply nr_exact; lra|lra].
Qed.
End Thms.
(** cruise level *)
Example C112_ex : within 1e-13 (pressure NP (Fin 11000) (Fin 0)) (pressure (FL binary64) (Fin 11000) (Fin 0)).
Proof. apply (C112_atmosphere binary64 (proj1 C112_binary64) 11000 0). lra. Qed.

(** With a rounding that respects order, air never gets denser or warmer with height, at any height *)
Section Mono.
Context (rd : rounding) (Hrd : accurate rd) (Hm : monotone rd).
Local Notation cs := (cst (FL rd)).
Lemma rd_pos : forall o l x, 0 < x -> 0 < rd o l x.
Proof. intros o l x H. destruct (rd_exp rd Hrd o l x) as (t & -> & _). pose proof (exp_pos t). nra. Qed.
Lemma rd_nonneg : forall o l x, 0 <= x -> 0 <= rd o l x.
Proof. intros o l x H. destruct (rd_exp rd Hrd o l x) as (t & -> & _). pose proof (exp_pos t). nra. Qed.
(** pieces of [atmos] as real functions *)
Lemma atmos_mono : forall h h' dT, h <= h' -> exists p d t p' d' t',
  atmos (FL rd) (Fin h) (Fin dT) = (Fin p, Fin d, Fin t) /\ atmos (FL rd) (Fin h') (Fin dT) = (Fin p', Fin d', Fin t') /\
  0 < p' <= p /\ 0 < d' <= d /\ 0 < t' <= t.
Proof.
  intros h h' dT H. unfold atmos. rewrite (clip_fl rd Hrd). pose proof (clipT_range dT) as Rc. pose proof (T0s_pos dT) as R0.
  set (c := clipT dT) in *.
  destruct (T0s_nr rd Hrd dT) as (w & Ew & _). fold c in Ew. rewrite Ew. set (T0s := (T0 + c) * exp w).
  assert (P0 : 0 < T0s) by (pose proof (exp_pos w); unfold T0s; nra).
  assert (Hb : exists bt, cs beta = Fin bt /\ bt < 0). { destruct (nr_cst rd Hrd beta) as (u & Eu & _). eexists. split; [exact Eu|]. pose proof (exp_pos u). uc. nra. }
  destruct Hb as (bt & -> & Nb).
  assert (Hl : exists lo, add (FL rd) (cs 216.65) (Fin c) = Fin lo /\ 0 < lo).
  { destruct (nr_cst rd Hrd 216.65) as (u & Eu & Bu). rewrite Eu. eexists. split; [reflexivity|]. apply rd_pos.
    assert (0.5 < exp u). { pose proof v_small. pose proof (exp_ineq1_le u). apply Rabs_le_inv in Bu. lra. } lra. }
  destruct Hl as (lo & -> & Pl).
  set (Tf := fun z => Rmax (rd Oadd [Fin T0s; Fin (rd Omul [Fin bt; Fin z] (bt * z))] (T0s + rd Omul [Fin bt; Fin z] (bt * z))) lo).
  assert (MT : 0 < Tf h' <= Tf h).
  { split; [eapply Rlt_le_trans; [exact Pl|apply Rmax_r]|]. unfold Tf. apply Rle_max_compat_r. apply Hm. apply Rplus_le_compat_l. apply Hm. nra. }
  assert (Pt : 0 < Tf h) by lra.
  assert (Hp : exists e, cs 4.256848030018761 = Fin e /\ 0 < e) by (eexists; split; [reflexivity|]; apply rd_pos; lra). destruct Hp as (e & -> & Pe).
  assert (Hr : exists r0, cs rho0 = Fin r0 /\ 0 < r0) by (eexists; split; [reflexivity|]; apply rd_pos; uc; lra). destruct Hr as (r0 & -> & Pr0).
  assert (Hg : exists rg, cs Rgas = Fin rg /\ 0 < rg) by (eexists; split; [reflexivity|]; apply rd_pos; uc; lra). destruct Hg as (rg & -> & Prg).
  assert (Hs : exists sc, cs 6341.552161 = Fin sc /\ 0 < sc) by (eexists; split; [reflexivity|]; apply rd_pos; lra). destruct Hs as (sc & -> & Psc).
  replace 11000.0 with (IZR 11000) by lra. replace 0.0 with (IZR 0) by lra. rewrite (c_int rd Hrd 11000), (c_int rd Hrd 0) by (cbn; lia).
  (* density *)
  set (Q := fun z => rd Odiv [Fin (Tf z); Fin T0s] (Tf z / T0s)).
  set (W := fun z => rd Opower [Fin (Q z); Fin e] (Rpower (Q z) e)).
  set (M := fun z => Rmax 0 (rd Osub [Fin z; Fin 11000] (z - 11000))).
  set (X := fun z => rd Odiv [Fin (- M z); Fin sc] (- M z / sc)).
  set (Y := fun z => rd Oexp [Fin (X z)] (exp (X z))).
  set (D0 := fun z => rd Omul [Fin r0; Fin (W z)] (r0 * W z)).
  set (D := fun z => rd Omul [Fin (D0 z); Fin (Y z)] (D0 z * Y z)).
  set (P1 := fun z => rd Omul [Fin (D z); Fin rg] (D z * rg)).
  set (P := fun z => rd Omul [Fin (P1 z); Fin (Tf z)] (P1 z * Tf z)).
  assert (MQ : 0 < Q h' <= Q h). { split; [apply rd_pos; apply Rdiv_lt_0_compat; lra|]. apply Hm. apply Rmult_le_compat_r; [left; apply Rinv_0_lt_compat; auto|lra]. }
  assert (MW : 0 < W h' <= W h). { split; [apply rd_pos; apply Rpower_pos|]. apply Hm. apply Rpower_le_base; lra. }
  assert (MM : 0 <= M h <= M h'). { split; [apply Rmax_l|]. apply Rle_max_compat_l. apply Hm. lra. }
  assert (MX : X h' <= X h). { apply Hm. apply Rmult_le_compat_r; [left; apply Rinv_0_lt_compat; auto|lra]. }
  assert (NX : X h <= 0). { unfold X. destruct (rd_exp rd Hrd Odiv [Fin (- M h); Fin sc] (- M h / sc)) as (q & -> & _). pose proof (exp_pos q).
    assert (- M h / sc <= 0) by (unfold Rdiv; pose proof (Rinv_0_lt_compat _ Psc); nra). nra. }
  assert (MY : 0 < Y h' <= Y h). { split; [apply rd_pos; apply exp_pos|]. apply Hm. destruct MX as [L|L]; [left; apply exp_increasing; auto|rewrite L; lra]. }
  assert (MD0 : 0 < D0 h' <= D0 h). { split; [apply rd_pos; nra|]. apply Hm. nra. }
  assert (MD : 0 < D h' <= D h). { split; [apply rd_pos; nra|]. apply Hm. apply Rmult_le_compat; lra. }
  assert (MP1 : 0 < P1 h' <= P1 h). { split; [apply rd_pos; nra|]. apply Hm. nra. }
  assert (MP : 0 < P h' <= P h). { split; [apply rd_pos; nra|]. apply Hm. apply Rmult_le_compat; lra. }
  exists (P h), (D h), (Tf h), (P h'), (D h'), (Tf h').
  assert (Gen : forall z, 0 < Q z -> 0 < Tf z -> X z <= 0 ->
    (let T := maximum (FL rd) (add (FL rd) (Fin T0s) (mul (FL rd) (Fin bt) (Fin z))) (Fin lo) in
     let rhotrop := mul (FL rd) (Fin r0) (power (FL rd) (div (FL rd) T (Fin T0s)) (Fin e)) in
     let dhstrat := maximum (FL rd) (Fin 0) (sub (FL rd) (Fin z) (Fin 11000)) in
     let rho := mul (FL rd) rhotrop (bexp (FL rd) (div (FL rd) (neg (FL rd) dhstrat) (Fin sc))) in
     let p := mul (FL rd) (mul (FL rd) rho (Fin rg)) T in (p, rho, T)) = (Fin (P z), Fin (D z), Fin (Tf z))).
  { intros z Pq Ptz Nx. cbv zeta.
    change (maximum (FL rd) (add (FL rd) (Fin T0s) (mul (FL rd) (Fin bt) (Fin z))) (Fin lo)) with (Fin (Tf z)).
    assert (E1' : div (FL rd) (Fin (Tf z)) (Fin T0s) = Fin (Q z)). { cbn [div FL]. unfold fdiv. rewrite ediv_fin by lra. reflexivity. }
    rewrite E1'. assert (E2' : power (FL rd) (Fin (Q z)) (Fin e) = Fin (W z)). { cbn [power FL]. rewrite epower_fin by lra. reflexivity. }
    rewrite E2'. change (maximum (FL rd) (Fin 0) (sub (FL rd) (Fin z) (Fin 11000))) with (Fin (M z)). change (neg (FL rd) (Fin (M z))) with (Fin (- M z)).
    assert (E3 : div (FL rd) (Fin (- M z)) (Fin sc) = Fin (X z)). { cbn [div FL]. unfold fdiv. rewrite ediv_fin by lra. reflexivity. }
    rewrite E3. assert (E4 : bexp (FL rd) (Fin (X z)) = Fin (Y z)). { cbn [bexp FL eexp]. destruct (Rle_dec (X z) exp_max) as [_|N]; [reflexivity|]. exfalso. apply N. unfold exp_max. lra. }
    rewrite E4. reflexivity. }
  split; [apply Gen; lra|]. split; [apply Gen; lra|]. auto.
Qed.
Theorem C112_monotone : forall h h' dT, h <= h' ->
  fle (pressure (FL rd) (Fin h') (Fin dT)) (pressure (FL rd) (Fin h) (Fin dT)) /\ fle (density (FL rd) (Fin h') (Fin dT)) (density (FL rd) (Fin h) (Fin dT)) /\
  fle (temperature (FL rd) (Fin h') (Fin dT)) (temperature (FL rd) (Fin h) (Fin dT)) /\
  flt (Fin 0) (pressure (FL rd) (Fin h') (Fin dT)) /\ flt (Fin 0) (density (FL rd) (Fin h') (Fin dT)) /\ flt (Fin 0) (temperature (FL rd) (Fin h') (Fin dT)).
Proof.
  intros h h' dT H. destruct (atmos_mono h h' dT H) as (p & d & t & p' & d' & t' & E & E' & A & B & C). unfold pressure, density, temperature. rewrite E, E'. cbn. lra.
Qed.
End Mono.
