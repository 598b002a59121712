(** * Property C114: geodesy in binary64 *)
From Coq Require Import Reals List ZArith Lra Lia Psatz.
From Flocq Require Import Core.
From Coquelicot Require Import Coquelicot.
From Interval Require Import Tactic.
From Verif Require Import Num NumFacts SpecNum Geo GeoFacts Fl SpecFl FlFacts P_Fl P_Geo.
Import ListNotations.
Open Scope R_scope.

(** the rounded value of a number given with enough digits *)
Lemma r64_eval : forall o l x (m : Z) (n : nat), 2 ^ 52 <= x * 2 ^ n < 2 ^ 53 -> Rabs (x * 2 ^ n - IZR m) <= 0.499 -> binary64 o l x = IZR m / 2 ^ n.
Proof.
  intros o l x m n B A. unfold binary64. assert (P2 : 0 < 2 ^ n) by (apply pow_lt; lra).
  assert (Ep : bpow radix2 (- Z.of_nat n) = / 2 ^ n). { rewrite bpow_opp. f_equal. rewrite <- IZR_Zpower by lia. rewrite <- pow_IZR. reflexivity. }
  assert (Em : mag radix2 x = (53 - Z.of_nat n)%Z :> Z).
  { apply mag_unique_pos. replace (53 - Z.of_nat n - 1)%Z with (52 + - Z.of_nat n)%Z by lia. replace (53 - Z.of_nat n)%Z with (53 + - Z.of_nat n)%Z by lia.
    rewrite !bpow_plus, Ep. replace (bpow radix2 52) with (2 ^ 52) by (cbn; lra). replace (bpow radix2 53) with (2 ^ 53) by (cbn; lra).
    split; apply Rmult_le_reg_r with (2 ^ n) || apply Rmult_lt_reg_r with (2 ^ n); auto; rewrite Rmult_assoc, Rinv_l by lra; lra. }
  assert (Ec : cexp radix2 (FLX_exp 53) x = (- Z.of_nat n)%Z). { unfold cexp. rewrite Em. unfold FLX_exp. lia. }
  unfold round, F2R, scaled_mantissa. rewrite Ec. cbn [Fnum Fexp]. rewrite Ep. rewrite Z.opp_involutive.
  replace (bpow radix2 (Z.of_nat n)) with (2 ^ n). 2:{ rewrite <- IZR_Zpower by lia. rewrite <- pow_IZR. reflexivity. }
  rewrite (Znearest_imp _ _ m); [reflexivity|lra].
Qed.
Lemma r64_int : forall o l (m : Z), (Z.abs m < 2 ^ 53)%Z -> binary64 o l (IZR m) = IZR m.
Proof. intros o l m H. apply (proj2 (proj1 C112_binary64) m H). Qed.
Lemma r64_0 : forall o l, binary64 o l 0 = 0.
Proof. intros. apply (r64_int o l 0). cbn. lia. Qed.
Lemma r64_1 : forall o l, binary64 o l 1 = 1.
Proof. intros. apply (r64_int o l 1). cbn. lia. Qed.

Ltac ev m n := rewrite (fun o l x => r64_eval o l x m n); [|clear; split; interval with (i_prec 200)|clear; interval with (i_prec 200)].

(** From 52 degrees north, flying 4 230 713 m due north at 8000 m ends at the pole to within a centimetre.  In binary64
    the sine of the latitude comes out as 1 + 2^-52 and its arcsine is not a number. *)
Theorem C114_pole_refuted : latlon (FL binary64) (Fin 52) (Fin 4) (Fin 4230713) (Fin 0) (Fin 8000) = (NaN, NaN) /\
  (exists la lo, latlon NP (Fin 52) (Fin 4) (Fin 4230713) (Fin 0) (Fin 8000) = (Fin la, Fin lo)).
Proof.
  split.
  - assert (Epi : bpi (FL binary64) = Fin (7074237752028440 / 2 ^ 51)). { cbn [bpi FL]. ev 7074237752028440%Z 51%nat. reflexivity. }
    assert (E180 : cst (FL binary64) 180.0 = Fin 180). { cbn [cst FL]. unfold fcst. replace 180.0 with 180 by lra. rewrite (r64_int _ _ 180); [reflexivity|cbn; lia]. }
    assert (ER : cst (FL binary64) geo_r_earth = Fin 6371000). { cbn [cst FL]. unfold fcst, geo_r_earth. replace 6371000.0 with 6371000 by lra. rewrite (r64_int _ _ 6371000); [reflexivity|cbn; lia]. }
    assert (Ed : div (FL binary64) (bpi (FL binary64)) (Fin 180) = Fin (5030569068109113 / 2 ^ 58)). { rewrite Epi. cbn [div FL]. unfold fdiv. rewrite ediv_fin by lra. cbn [rnd]. ev 5030569068109113%Z 58%nat. reflexivity. }
    assert (Ea : add (FL binary64) (Fin 6371000) (Fin 8000) = Fin 6379000). { cbn [add FL]. unfold fadd. cbn [eadd rnd]. replace (6371000 + 8000) with 6379000 by ring. rewrite (r64_int _ _ 6379000); [reflexivity|cbn; lia]. }
    assert (El : mul (FL binary64) (Fin 52) (Fin (5030569068109113 / 2 ^ 58)) = Fin (8174674735677309 / 2 ^ 53)). { cbn [mul FL]. unfold fmul. cbn [emul rnd]. ev 8174674735677309%Z 53%nat. reflexivity. }
    assert (Et : div (FL binary64) (Fin 4230713) (Fin 6379000) = Fin (5973800749431420 / 2 ^ 53)). { cbn [div FL]. unfold fdiv. rewrite ediv_fin by lra. cbn [rnd]. ev 5973800749431420%Z 53%nat. reflexivity. }
    assert (Es1 : bsin (FL binary64) (Fin (8174674735677309 / 2 ^ 53)) = Fin (7097769872614354 / 2 ^ 53)). { cbn [bsin FL]. cbn [elift rnd]. ev 7097769872614354%Z 53%nat. reflexivity. }
    assert (Ec1 : bcos (FL binary64) (Fin (8174674735677309 / 2 ^ 53)) = Fin (5545385581726009 / 2 ^ 53)). { cbn [bcos FL]. cbn [elift rnd]. ev 5545385581726009%Z 53%nat. reflexivity. }
    assert (Ect : bcos (FL binary64) (Fin (5973800749431420 / 2 ^ 53)) = Fin (7097769884280001 / 2 ^ 53)). { cbn [bcos FL]. cbn [elift rnd]. ev 7097769884280001%Z 53%nat. reflexivity. }
    assert (Est : bsin (FL binary64) (Fin (5973800749431420 / 2 ^ 53)) = Fin (5545385566794662 / 2 ^ 53)). { cbn [bsin FL]. cbn [elift rnd]. ev 5545385566794662%Z 53%nat. reflexivity. }
    assert (Eb : mul (FL binary64) (Fin 0) (Fin (5030569068109113 / 2 ^ 58)) = Fin 0). { cbn [mul FL]. unfold fmul. cbn [emul rnd]. rewrite Rmult_0_l, r64_0. reflexivity. }
    assert (Ecb : bcos (FL binary64) (Fin 0) = Fin 1). { cbn [bcos FL]. cbn [elift rnd]. rewrite cos_0, r64_1. reflexivity. }
    assert (Ep1 : mul (FL binary64) (Fin (7097769872614354 / 2 ^ 53)) (Fin (7097769884280001 / 2 ^ 53)) = Fin (5593118995438580 / 2 ^ 53)). { cbn [mul FL]. unfold fmul. cbn [emul rnd]. ev 5593118995438580%Z 53%nat. reflexivity. }
    assert (Ep2 : mul (FL binary64) (Fin (5545385581726009 / 2 ^ 53)) (Fin (5545385566794662 / 2 ^ 53)) = Fin (6828160518604827 / 2 ^ 54)). { cbn [mul FL]. unfold fmul. cbn [emul rnd]. ev 6828160518604827%Z 54%nat. reflexivity. }
    assert (Ep3 : mul (FL binary64) (Fin (6828160518604827 / 2 ^ 54)) (Fin 1) = Fin (6828160518604827 / 2 ^ 54)). { cbn [mul FL]. unfold fmul. cbn [emul rnd]. ev 6828160518604827%Z 54%nat. reflexivity. }
    assert (Esum : add (FL binary64) (Fin (5593118995438580 / 2 ^ 53)) (Fin (6828160518604827 / 2 ^ 54)) = Fin (4503599627370497 / 2 ^ 52)). { cbn [add FL]. unfold fadd. cbn [eadd rnd]. ev 4503599627370497%Z 52%nat. reflexivity. }
    assert (Eas : barcsin (FL binary64) (Fin (4503599627370497 / 2 ^ 52)) = NaN). { cbn [barcsin FL]. unfold eunit. destruct (Rle_dec (-1) _) as [_|_]; [|reflexivity]. destruct (Rle_dec _ 1) as [N|_]; [|reflexivity]. exfalso. lra. }
    unfold latlon. rewrite E180, ER, Ed, Ea, El, Et, Es1, Ec1, Ect, Est, Eb, Ecb, Ep1, Ep2, Ep3, Esum, Eas. cbn. f_equal.
  - rewrite latlon_NP by lra. eauto.
Qed.

(** ** distance *)
Lemma na_cst : forall rd, accurate rd -> forall x k Y a, nr x k Y -> k <= 1e12 -> 1.02 * k * Rabs x <= a -> na x a Y.
Proof. intros rd H x k Y a. apply nr_na. Qed.
Lemma na_sin : forall rd, accurate rd -> forall x a X, na x a X -> a <= 1e10 -> na (sin x) (a + 1.02 * (1 + a / 100)) (bsin (FL rd) X).
Proof.
  intros rd Hrd x a X (x' & -> & E) A. assert (0 <= a) by (pose proof v_pos; pose proof (Rabs_pos (x' - x)); nra).
  apply na_w with (a + 1.02 * (Rabs (sin x) + a / 100)); [|assert (Rabs (sin x) <= 1) by (apply Rabs_le; pose proof (SIN_bound x); lra); lra].
  apply (na_rnd rd Hrd Osin [Fin x'] (sin x) a (Fin (sin x'))); [|lra]. exists (sin x'). split; auto. eapply Rle_trans; [apply sin_lip|auto].
Qed.
Lemma na_cos : forall rd, accurate rd -> forall x a X, na x a X -> a <= 1e10 -> na (cos x) (a + 1.02 * (1 + a / 100)) (bcos (FL rd) X).
Proof.
  intros rd Hrd x a X (x' & -> & E) A. assert (0 <= a) by (pose proof v_pos; pose proof (Rabs_pos (x' - x)); nra).
  apply na_w with (a + 1.02 * (Rabs (cos x) + a / 100)); [|assert (Rabs (cos x) <= 1) by (apply Rabs_le; pose proof (COS_bound x); lra); lra].
  apply (na_rnd rd Hrd Ocos [Fin x'] (cos x) a (Fin (cos x'))); [|lra]. exists (cos x'). split; auto. eapply Rle_trans; [apply cos_lip|auto].
Qed.
Lemma na_half : forall rd, accurate rd -> forall x a X, na x a X -> a <= 1e10 -> na (x / 2) (a / 2 + 1.02 * (Rabs (x / 2) + a / 200)) (div (FL rd) X (cst (FL rd) 2)).
Proof.
  intros rd Hrd x a X (x' & -> & E) A. rewrite (cst_int rd Hrd 2) by (cbn; lia). replace (a / 200) with (a / 2 / 100) by lra.
  cbn [div FL]. unfold fdiv. rewrite ediv_fin by lra. apply (na_rnd rd Hrd Odiv _ (x / 2) (a / 2)); [|lra]. eexists. split; [reflexivity|].
  replace (x' / 2 - x / 2) with ((x' - x) / 2) by lra. unfold Rdiv. rewrite Rabs_mult, (Rabs_pos_eq (/ 2)) by lra. lra.
Qed.
Lemma na_mul_nr : forall rd, accurate rd -> forall x a X y k Y, na x a X -> nr y k Y -> a <= 1e10 -> k <= 1e10 -> na (x * y) (1.03 * (a * Rabs y + (k + 1) * Rabs (x * y))) (mul (FL rd) X Y).
Proof.
  intros rd Hrd x a X y k Y (x' & -> & E) HY A K. destruct HY as (t & -> & Ht). pose proof v_pos. pose proof v_small.
  assert (0 <= a) by (pose proof (Rabs_pos (x' - x)); nra). assert (0 <= k) by (pose proof (Rabs_pos t); nra).
  pose proof (nr_rnd rd Hrd Omul [Fin x'; Fin (y * exp t)] (x' * y) k (Fin (x' * (y * exp t)))) as N.
  destruct N as (s & Es & Hs). { exists t. split; auto. f_equal. ring. }
  change (mul (FL rd) (Fin x') (Fin (y * exp t))) with (rnd rd Omul [Fin x'; Fin (y * exp t)] (Fin (x' * (y * exp t)))). rewrite Es.
  eexists. split; [reflexivity|]. assert (Ks : (k + 1) * v <= 0.01) by nra. pose proof (exp_m1 s _ Hs Ks) as M.
  replace (x' * y * exp s - x * y) with ((x' - x) * y * exp s + x * y * (exp s - 1)) by ring. eapply Rle_trans; [apply Rabs_triang|]. rewrite !Rabs_mult.
  assert (Es' : Rabs (exp s) <= 1.02). { apply Rabs_le_inv in M. assert ((k + 1) * v <= 0.001) by nra. apply Rabs_le. lra. }
  pose proof (Rabs_pos (x' - x)). pose proof (Rabs_pos y). pose proof (Rabs_pos x). pose proof (Rabs_pos (exp s)). pose proof (Rabs_pos (exp s - 1)).
  assert (P1 : Rabs (x' - x) * Rabs y * Rabs (exp s) <= a * v * Rabs y * 1.02). { apply Rmult_le_compat; try lra. apply Rmult_le_pos; lra. apply Rmult_le_compat_r; lra. }
  assert (P2 : Rabs x * Rabs y * Rabs (exp s - 1) <= Rabs x * Rabs y * (1.02 * ((k + 1) * v))). { apply Rmult_le_compat_l; [apply Rmult_le_pos; lra|lra]. }
  assert (0 <= a * v * Rabs y) by (apply Rmult_le_pos; nra). assert (0 <= Rabs x * Rabs y * ((k + 1) * v)) by (apply Rmult_le_pos; [apply Rmult_le_pos; lra|nra]). lra.
Qed.
Lemma rad_fl : forall rd, accurate rd -> forall x, nr (rad x) 3 (mul (FL rd) (Fin x) (div (FL rd) (bpi (FL rd)) (cst (FL rd) 180.0))).
Proof.
  intros rd Hrd x. replace 180.0 with 180 by lra. rewrite (cst_int rd Hrd 180) by (cbn; lia). replace (rad x) with (x * (PI / 180)) by (unfold rad; f_equal; lra).
  apply nr_w with (0 + (1 + 0 + 1) + 1); [|lra]. apply (nr_mul rd Hrd); [apply nr_exact|]. apply (nr_div rd Hrd); [|apply nr_exact|lra].
  pose proof (nr_rnd rd Hrd Opi [] PI 0 (Fin PI) (nr_exact PI)) as H. rewrite Rplus_0_l in H. exact H.
Qed.

(** the haversine, from approximate sines and cosines *)
Lemma hav_err : forall x y c1 c2 X Y C1 C2 t1 t2 r, 0 <= c1 <= 1 -> 0 <= c2 <= 1 -> Rabs x <= 1 -> Rabs y <= 1 -> Rabs (c1 - c2) <= 2 * Rabs x ->
  0 <= r -> r * r = x ^ 2 + c1 * c2 * y ^ 2 -> Rabs (X - x) <= 10 * v -> Rabs (Y - y) <= 36 * v -> Rabs (C1 - c1) <= 6.2 * v -> Rabs (C2 - c2) <= 6.2 * v -> Rabs t1 <= 4 * v -> Rabs t2 <= 4 * v ->
  Rabs (X ^ 2 * exp t1 + C1 * C2 * Y ^ 2 * exp t2 - r * r) <= 160 * v * (r + 20 * v).
Proof.
  intros x y c1 c2 X Y C1 C2 t1 t2 r H1 H2 Hx Hy Hc Hr Er EX EY E1' E2' T1 T2. pose proof v_pos as Pv. pose proof v_small as Sv.
  assert (Bx : Rabs x <= r). { apply Rsqr_incr_0_var; auto. rewrite <- Rsqr_abs. unfold Rsqr. rewrite Er. assert (0 <= y ^ 2) by apply pow2_ge_0. assert (0 <= c1 * c2) by nra. nra. }
  assert (By : forall m, 0 <= m -> m <= c1 -> m <= c2 -> m * Rabs y <= r).
  { intros m Pm M1 M2. apply Rsqr_incr_0_var; auto. unfold Rsqr. rewrite Er. replace (m * Rabs y * (m * Rabs y)) with (m * m * (Rabs y * Rabs y)) by ring.
    replace (Rabs y * Rabs y) with (y ^ 2) by (rewrite <- pow2_abs; ring). assert (0 <= y ^ 2) by apply pow2_ge_0. assert (m * m <= c1 * c2) by (apply Rmult_le_compat; lra). pose proof (pow2_ge_0 x). nra. }
  assert (Bc : (c1 + c2) * Rabs y <= 4 * r).
  { pose proof (Rabs_pos y). destruct (Rle_dec c1 c2) as [L|L].
    - pose proof (By c1 ltac:(lra) ltac:(lra) ltac:(lra)). rewrite Rabs_left1 in Hc by lra. nra.
    - pose proof (By c2 ltac:(lra) ltac:(lra) ltac:(lra)). rewrite Rabs_pos_eq in Hc by lra. nra. }
  assert (Bcc : c1 * c2 * Rabs y <= r). { pose proof (Rabs_pos y). assert (c1 * c2 <= Rmin c1 c2) by (unfold Rmin; destruct (Rle_dec c1 c2); nra).
    pose proof (By (Rmin c1 c2) ltac:(unfold Rmin; destruct (Rle_dec c1 c2); lra) (Rmin_l _ _) (Rmin_r _ _)). nra. }
  assert (Dsq : forall a b e, Rabs (a - b) <= e -> Rabs (a ^ 2 - b ^ 2) <= e * (2 * Rabs b + e)).
  { intros a b e He. replace (a ^ 2 - b ^ 2) with ((a - b) * (2 * b + (a - b))) by ring. rewrite Rabs_mult. pose proof (Rabs_pos (a - b)).
    apply Rmult_le_compat; auto using Rabs_pos. eapply Rle_trans; [apply Rabs_triang|]. rewrite Rabs_mult, (Rabs_pos_eq 2) by lra. lra. }
  pose proof (Dsq X x _ EX) as DX. pose proof (Dsq Y y _ EY) as DY. clear Dsq.
  assert (Ee : forall t, Rabs t <= 4 * v -> Rabs (exp t - 1) <= 4.1 * v). { intros t Ht. pose proof (exp_m1 t _ Ht ltac:(lra)). lra. }
  pose proof (Ee t1 T1) as F1. pose proof (Ee t2 T2) as F2. clear Ee T1 T2.
  (* X part *)
  assert (PX : Rabs (X ^ 2 * exp t1 - x ^ 2) <= 25 * v * r + 101 * v * v).
  { replace (X ^ 2 * exp t1 - x ^ 2) with ((X ^ 2 - x ^ 2) + (X ^ 2 - x ^ 2) * (exp t1 - 1) + x ^ 2 * (exp t1 - 1)) by ring.
    eapply Rle_trans; [apply Rabs_triang|]. eapply Rle_trans; [apply Rplus_le_compat_r, Rabs_triang|]. rewrite !Rabs_mult.
    assert (D1 : Rabs (X ^ 2 - x ^ 2) <= 20 * v * r + 100 * v * v) by (eapply Rle_trans; [exact DX|]; nra).
    assert (D2 : Rabs (X ^ 2 - x ^ 2) * Rabs (exp t1 - 1) <= (20 * v * r + 100 * v * v) * 0.001). { apply Rmult_le_compat; auto using Rabs_pos. lra. }
    assert (D3 : Rabs (x ^ 2) * Rabs (exp t1 - 1) <= r * (4.1 * v)). { apply Rmult_le_compat; auto using Rabs_pos. rewrite <- RPow_abs. pose proof (Rabs_pos x). nra. }
    assert (0 <= v * r) by nra. nra. }
  assert (PC : Rabs (C1 * C2 - c1 * c2) <= 6.2 * v * (c1 + c2) + 39 * v * v).
  { replace (C1 * C2 - c1 * c2) with ((C1 - c1) * c2 + (C2 - c2) * c1 + (C1 - c1) * (C2 - c2)) by ring. eapply Rle_trans; [apply Rabs_triang|]. eapply Rle_trans; [apply Rplus_le_compat_r, Rabs_triang|]. rewrite !Rabs_mult, (Rabs_pos_eq c1), (Rabs_pos_eq c2) by lra.
    assert (Rabs (C1 - c1) * Rabs (C2 - c2) <= 6.2 * v * (6.2 * v)) by (apply Rmult_le_compat; auto using Rabs_pos). pose proof (Rabs_pos (C1 - c1)). pose proof (Rabs_pos (C2 - c2)). nra. }
  assert (Yq : Y ^ 2 <= y ^ 2 + 73 * v). { apply Rabs_le_inv in DY. pose proof (Rabs_pos y). nra. }
  assert (Yabs : y ^ 2 = Rabs y * Rabs y) by (rewrite <- pow2_abs; ring).
  assert (PZ : Rabs (C1 * C2 * Y ^ 2 - c1 * c2 * y ^ 2) <= (24.8 + 72) * v * r + 2500 * v * v).
  { replace (C1 * C2 * Y ^ 2 - c1 * c2 * y ^ 2) with ((C1 * C2 - c1 * c2) * Y ^ 2 + c1 * c2 * (Y ^ 2 - y ^ 2)) by ring. eapply Rle_trans; [apply Rabs_triang|]. rewrite !(Rabs_mult _ (_ ^ 2)), !(Rabs_mult (c1 * c2)), (Rabs_pos_eq (c1 * c2)) by nra.
    rewrite (Rabs_pos_eq (Y ^ 2)) by apply pow2_ge_0. pose proof (Rabs_pos y).
    assert (Q1 : c1 * c2 * Rabs (Y ^ 2 - y ^ 2) <= 72 * v * r + 1300 * v * v).
    { assert (0 <= c1 * c2 <= 1) by nra. apply Rle_trans with (c1 * c2 * (36 * v * (2 * Rabs y + 36 * v))); [apply Rmult_le_compat_l; lra|].
      replace (c1 * c2 * (36 * v * (2 * Rabs y + 36 * v))) with (72 * v * (c1 * c2 * Rabs y) + c1 * c2 * (1296 * v * v)) by ring. assert (0 <= 1296 * v * v) by nra. nra. }
    assert (Q2 : Rabs (C1 * C2 - c1 * c2) * Y ^ 2 <= 24.8 * v * r + 1100 * v * v).
    { apply Rle_trans with ((6.2 * v * (c1 + c2) + 39 * v * v) * (y ^ 2 + 73 * v)). { apply Rmult_le_compat; auto using Rabs_pos. apply pow2_ge_0. }
      rewrite Yabs. assert (A1 : (c1 + c2) * (Rabs y * Rabs y) <= 4 * r) by nra. assert (Rabs y * Rabs y <= 1) by nra.
      replace ((6.2 * v * (c1 + c2) + 39 * v * v) * (Rabs y * Rabs y + 73 * v)) with (6.2 * v * ((c1 + c2) * (Rabs y * Rabs y)) + v * v * (39 * (Rabs y * Rabs y) + 6.2 * 73 * (c1 + c2) + 39 * 73 * v)) by ring.
      assert (v * v * (39 * (Rabs y * Rabs y) + 6.2 * 73 * (c1 + c2) + 39 * 73 * v) <= v * v * 1100) by (apply Rmult_le_compat_l; nra). nra. }
    assert (0 <= v * v) by nra. lra. }
  assert (PW : Rabs (C1 * C2 * Y ^ 2 * exp t2 - c1 * c2 * y ^ 2) <= 105 * v * r + 2510 * v * v).
  { replace (C1 * C2 * Y ^ 2 * exp t2 - c1 * c2 * y ^ 2) with ((C1 * C2 * Y ^ 2 - c1 * c2 * y ^ 2) + (C1 * C2 * Y ^ 2 - c1 * c2 * y ^ 2) * (exp t2 - 1) + c1 * c2 * y ^ 2 * (exp t2 - 1)) by ring.
    set (D := C1 * C2 * Y ^ 2 - c1 * c2 * y ^ 2) in *. eapply Rle_trans; [apply Rabs_triang|]. eapply Rle_trans; [apply Rplus_le_compat_r, Rabs_triang|]. rewrite (Rabs_mult D), (Rabs_mult (c1 * c2 * y ^ 2)).
    assert (D2 : Rabs D * Rabs (exp t2 - 1) <= ((24.8 + 72) * v * r + 2500 * v * v) * 0.001). { apply Rmult_le_compat; auto using Rabs_pos. lra. }
    assert (D3 : Rabs (c1 * c2 * y ^ 2) * Rabs (exp t2 - 1) <= r * (4.1 * v)).
    { apply Rmult_le_compat; auto using Rabs_pos. rewrite Rabs_pos_eq by (apply Rmult_le_pos; [nra|apply pow2_ge_0]). rewrite Yabs. pose proof (Rabs_pos y). nra. }
    assert (0 <= v * r) by nra. nra. }
  rewrite Er. replace (X ^ 2 * exp t1 + C1 * C2 * Y ^ 2 * exp t2 - (x ^ 2 + c1 * c2 * y ^ 2)) with ((X ^ 2 * exp t1 - x ^ 2) + (C1 * C2 * Y ^ 2 * exp t2 - c1 * c2 * y ^ 2)) by ring.
  eapply Rle_trans; [apply Rabs_triang|]. assert (0 <= v * r) by nra. assert (0 <= v * v) by nra. lra.
Qed.
Lemma sqrt_err : forall a' r, 0 <= r -> 0 <= a' -> Rabs (a' - r * r) <= 160 * v * (r + 20 * v) -> Rabs (sqrt a' - r) <= 180 * v.
Proof.
  intros a' r Hr Ha H. pose proof v_pos. pose proof (sqrt_pos a') as Ps. assert (Es : sqrt a' * sqrt a' = a') by (apply sqrt_sqrt; auto). set (s := sqrt a') in *. rewrite <- Es in H.
  apply Rabs_le_inv in H. apply Rabs_le. split.
  - destruct (Rle_dec r (180 * v)); [lra|]. apply Rnot_lt_le. intros L. assert (s * s < (r - 180 * v) * (r - 180 * v)) by (apply Rmult_le_0_lt_compat; lra). nra.
  - apply Rnot_lt_le. intros L. assert ((r + 180 * v) * (r + 180 * v) < s * s) by (apply Rmult_le_0_lt_compat; lra). nra.
Qed.
Lemma asin_err : forall p q e, 0 <= p <= 0.9886 -> 0 <= q <= 0.9886 -> Rabs (p - q) <= e -> Rabs (asin p - asin q) <= 6.67 * e.
Proof.
  assert (W : forall p, 0 <= p <= 0.9886 -> 0 <= asin p <= 1.42).
  { intros p Hp. split.
    - destruct (Rle_dec 0 (asin p)); auto. exfalso. pose proof (asin_bound p). assert (Q : sin (asin p) < 0) by (pose proof PI_RGT_0; apply sin_lt_0_var; lra). rewrite sin_asin in Q by lra. lra.
    - rewrite <- (asin_sin 1.42) by (split; interval). apply Rnot_lt_le. intros L. assert (Q : sin (asin (sin 1.42)) < sin (asin p)) by (apply sin_increasing_1; try (pose proof (asin_bound p); pose proof (asin_bound (sin 1.42)); lra); auto).
      rewrite !sin_asin in Q; [|lra|split; interval]. assert (0.9886 <= sin 1.42) by interval. lra. }
  intros p q e Hp Hq He. pose proof (W p Hp) as Wp. pose proof (W q Hq) as Wq.
  destruct (MVT_gen sin (asin q) (asin p) cos) as (c & Bc & E).
  - intros x _. auto_derive; auto; ring.
  - intros x _. apply continuity_sin.
  - rewrite !sin_asin in E by lra. assert (Hc : 0 <= c <= 1.42). { unfold Rmin, Rmax in Bc. destruct (Rle_dec (asin q) (asin p)); lra. }
    assert (K : 0.15 <= cos c). { apply Rle_trans with (cos 1.42); [interval|]. apply cos_decr_1; try lra; interval. }
    rewrite E, Rabs_mult, (Rabs_pos_eq (cos c)) in He by lra. pose proof (Rabs_pos (asin p - asin q)). nra.
Qed.

Lemma rad_abs : forall x m, Rabs x <= m -> Rabs (rad x) <= m * (PI / 180).
Proof. intros x m H. unfold rad. pose proof PI_RGT_0. rewrite Rabs_mult, (Rabs_pos_eq (PI / 180.0)) by (replace 180.0 with 180 by lra; lra). replace 180.0 with 180 by lra. apply Rmult_le_compat_r; lra. Qed.
Lemma cos_pole : forall x, Rabs x <= 90 -> 0 <= cos (rad x).
Proof. intros x H. pose proof (rad_abs x 90 H) as B. apply Rabs_le_inv in B. apply cos_ge_0; lra. Qed.
Lemma cos_lat : forall x, Rabs x <= 89.999 -> 1e-5 <= cos (rad x).
Proof.
  intros x H. pose proof (rad_abs x 89.999 H) as B.
  replace (cos (rad x)) with (cos (Rabs (rad x))) by (unfold Rabs; destruct Rcase_abs; [apply cos_neg|auto]). pose proof (Rabs_pos (rad x)).
  assert (Q : 1e-5 <= cos (89.999 * (PI / 180))) by (clear; interval). assert (Q2 : 89.999 * (PI / 180) <= PI) by (pose proof PI_RGT_0; lra).
  apply Rle_trans with (cos (89.999 * (PI / 180))); [exact Q|]. apply cos_decr_1; lra.
Qed.
Lemma diff_cos : forall a b, Rabs (cos a - cos b) <= 2 * Rabs (sin ((b - a) / 2)).
Proof.
  intros a b. rewrite form2. replace ((a - b) / 2) with (- ((b - a) / 2)) by lra. rewrite sin_neg. replace (-2 * - sin ((b - a) / 2) * sin ((a + b) / 2)) with (2 * sin ((b - a) / 2) * sin ((a + b) / 2)) by ring.
  rewrite !Rabs_mult, (Rabs_pos_eq 2) by lra. assert (Rabs (sin ((a + b) / 2)) <= 1) by (apply Rabs_le; pose proof (SIN_bound ((a + b) / 2)); lra). pose proof (Rabs_pos (sin ((b - a) / 2))). nra.
Qed.

Lemma hav_fl : forall rd, accurate rd -> forall X Y C1 C2, exists t1 t2,
  add (FL rd) (powi (FL rd) (Fin X) 2) (mul (FL rd) (mul (FL rd) (Fin C1) (Fin C2)) (powi (FL rd) (Fin Y) 2)) = Fin (X ^ 2 * exp t1 + C1 * C2 * Y ^ 2 * exp t2) /\ Rabs t1 <= 4 * v /\ Rabs t2 <= 4 * v.
Proof.
  intros rd Hrd X Y C1 C2.
  destruct (nr_powi rd Hrd X 0 (Fin X) 2 (nr_exact X)) as (t1 & -> & T1). rewrite Rmult_0_r, Rplus_0_l in T1.
  destruct (nr_mul rd Hrd _ _ _ _ _ _ (nr_mul rd Hrd _ _ _ _ _ _ (nr_exact C1) (nr_exact C2)) (nr_powi rd Hrd Y 0 (Fin Y) 2 (nr_exact Y))) as (t2 & -> & T2).
  cbn [add FL]. unfold fadd. cbn [eadd rnd]. match goal with |- context [rd Oadd ?l ?z] => destruct (rd_exp rd Hrd Oadd l z) as (t3 & -> & T3) end.
  pose proof v_pos. exists (t1 + t3), (t2 + t3). rewrite Rmult_0_r in T2. split; [f_equal; rewrite !exp_plus; ring|]. split; (eapply Rle_trans; [apply Rabs_triang|]); lra.
Qed.

(** Up to 18 000 km the computed distance is right to 0.02 mm; points less than a millimetre apart must not be at a pole. *)
Theorem C114_distance : forall rd, accurate rd -> forall lat1 lon1 lat2 lon2 h, Rabs lat1 <= 90 -> Rabs lat2 <= 90 -> Rabs lon1 <= 360 -> Rabs lon2 <= 360 -> -1000 <= h <= 20000 ->
  fle (distance NP (Fin lat1) (Fin lon1) (Fin lat2) (Fin lon2) (Fin h)) (Fin 18000000) ->
  fle (Fin 1e-3) (distance NP (Fin lat1) (Fin lon1) (Fin lat2) (Fin lon2) (Fin h)) \/ (Rabs lat1 <= 89.999 /\ Rabs lat2 <= 89.999) ->
  fclose 2e-5 (distance NP (Fin lat1) (Fin lon1) (Fin lat2) (Fin lon2) (Fin h)) (distance (FL rd) (Fin lat1) (Fin lon1) (Fin lat2) (Fin lon2) (Fin h)).
Proof.
  intros rd Hrd lat1 lon1 lat2 lon2 h L1 L2 O1 O2 Hh U Nz. rewrite distance_NP in U, Nz |- *. cbn [fle] in U, Nz. pose proof v_pos as Pv. pose proof v_small as Sv.
  pose proof (dotp_range (rad lat1) (rad lon1) (rad lat2) (rad lon2)) as Hd. unfold ang in U, Nz |- *. rewrite <- two_asin in U, Nz |- * by auto.
  set (c := dotp (rad lat1) (rad lon1) (rad lat2) (rad lon2)) in *. set (r := sqrt ((1 - c) / 2)) in *. assert (Hr : 0 <= r) by apply sqrt_pos.
  assert (Hrr : r * r = (1 - c) / 2) by (apply sqrt_sqrt; lra). assert (Hr1 : r <= 1) by nra.
  unfold c in Hrr. rewrite <- hav in Hrr. clearbody r. clear Hd c.
  assert (Bpi : 3.1415 <= PI <= 3.1416) by (split; interval).
  pose proof (rad_abs lat1 90 L1) as R1. pose proof (rad_abs lat2 90 L2) as R2. pose proof (rad_abs lon1 360 O1) as R3. pose proof (rad_abs lon2 360 O2) as R4.
  pose proof (rad_fl rd Hrd lat1) as N1. pose proof (rad_fl rd Hrd lat2) as N2. pose proof (rad_fl rd Hrd lon1) as N3. pose proof (rad_fl rd Hrd lon2) as N4.
  pose proof (cos_pole lat1 L1) as C1p. pose proof (cos_pole lat2 L2) as C2p.
  assert (Cc : Rabs lat1 <= 89.999 -> 1e-5 <= cos (rad lat1)) by apply cos_lat. assert (Cc2 : Rabs lat2 <= 89.999 -> 1e-5 <= cos (rad lat2)) by apply cos_lat.
  unfold distance. cbv zeta.
  set (F1 := mul (FL rd) (Fin lat1) _) in *. set (F2 := mul (FL rd) (Fin lat2) _) in *. set (G1 := mul (FL rd) (Fin lon1) _) in *. set (G2 := mul (FL rd) (Fin lon2) _) in *. clearbody F1 F2 G1 G2.
  set (f1 := rad lat1) in *. set (f2 := rad lat2) in *. set (l1 := rad lon1) in *. set (l2 := rad lon2) in *. clearbody f1 f2 l1 l2.
  assert (A1 : na f1 4.9 F1) by (apply nr_na with 3; auto; nra). assert (A2 : na f2 4.9 F2) by (apply nr_na with 3; auto; nra).
  assert (A3 : na l1 19.3 G1) by (apply nr_na with 3; auto; nra). assert (A4 : na l2 19.3 G2) by (apply nr_na with 3; auto; nra).
  assert (D1 : Rabs (f2 - f1) <= 3.142) by (apply Rabs_le_inv in R1, R2; apply Rabs_le; nra). assert (D2 : Rabs (l2 - l1) <= 12.567) by (apply Rabs_le_inv in R3, R4; apply Rabs_le; nra).
  assert (B1 : na (f2 - f1) 13.2 (sub (FL rd) F2 F1)) by (eapply na_w; [apply (na_sub rd Hrd); [exact A2|exact A1|lra]|lra]).
  assert (B2 : na (l2 - l1) 52 (sub (FL rd) G2 G1)) by (eapply na_w; [apply (na_sub rd Hrd); [exact A4|exact A3|lra]|lra]).
  assert (Half : forall z m, Rabs z <= m -> Rabs (z / 2) <= m / 2) by (intros z m Hz; unfold Rdiv; rewrite Rabs_mult, (Rabs_pos_eq (/ 2)) by lra; lra).
  pose proof (Half _ _ D1) as H1. pose proof (Half _ _ D2) as H2.
  assert (S1 : na (sin ((f2 - f1) / 2)) 10 (bsin (FL rd) (div (FL rd) (sub (FL rd) F2 F1) (cst (FL rd) 2)))).
  { eapply na_w; [apply (na_sin rd Hrd); [apply (na_half rd Hrd); [exact B1|lra]|lra]|lra]. }
  assert (S2 : na (sin ((l2 - l1) / 2)) 36 (bsin (FL rd) (div (FL rd) (sub (FL rd) G2 G1) (cst (FL rd) 2)))).
  { eapply na_w; [apply (na_sin rd Hrd); [apply (na_half rd Hrd); [exact B2|lra]|lra]|lra]. }
  assert (K1 : na (cos f1) 6.2 (bcos (FL rd) F1)) by (eapply na_w; [apply (na_cos rd Hrd); [exact A1|lra]|lra]).
  assert (K2 : na (cos f2) 6.2 (bcos (FL rd) F2)) by (eapply na_w; [apply (na_cos rd Hrd); [exact A2|lra]|lra]).
  destruct S1 as (X & -> & EX). destruct S2 as (Y & -> & EY). destruct K1 as (C1 & -> & E1'). destruct K2 as (C2 & -> & E2').
  destruct (hav_fl rd Hrd X Y C1 C2) as (t1 & t2 & -> & T1 & T2).
  pose proof (COS_bound f1). pose proof (COS_bound f2).
  assert (AbsSin : forall z, Rabs (sin z) <= 1) by (intros z; apply Rabs_le; pose proof (SIN_bound z); lra).
  pose proof (hav_err (sin ((f2 - f1) / 2)) (sin ((l2 - l1) / 2)) (cos f1) (cos f2) X Y C1 C2 t1 t2 r ltac:(lra) ltac:(lra) (AbsSin _) (AbsSin _) (diff_cos f1 f2) Hr Hrr EX EY E1' E2' T1 T2) as Ha.
  assert (Bnd : 0 <= asin r).
  { destruct (Rle_dec 0 (asin r)); auto. exfalso. pose proof (asin_bound r). assert (Q : sin (asin r) < 0) by (apply sin_lt_0_var; lra). rewrite sin_asin in Q by lra. lra. }
  assert (Ru : asin r <= 1.413) by nra.
  assert (Rs : r <= 0.98759). { rewrite <- (sin_asin r) by lra. apply Rle_trans with (sin 1.413); [|clear; interval]. apply sin_incr_1; lra. }
  assert (Pa : 0 <= X ^ 2 * exp t1 + C1 * C2 * Y ^ 2 * exp t2).
  { destruct Nz as [Nz|[Q1 Q2]].
    - assert (Rl : 1e-11 <= r). { assert (7e-11 <= asin r) by nra. apply Rnot_lt_le. intros Lr. assert (asin r <= 6.67 * 1e-11). { pose proof (asin_err r 0 1e-11 ltac:(lra) ltac:(lra) ltac:(rewrite Rabs_pos_eq; lra)) as Q. rewrite asin_0, Rminus_0_r in Q. apply Rabs_le_inv in Q. lra. } lra. }
      apply Rabs_le_inv in Ha. nra.
    - pose proof (Cc Q1). pose proof (Cc2 Q2). apply Rabs_le_inv in E1', E2'. pose proof (exp_pos t1). pose proof (exp_pos t2). pose proof (pow2_ge_0 X). pose proof (pow2_ge_0 Y).
      apply Rplus_le_le_0_compat; [apply Rmult_le_pos; lra|]. apply Rmult_le_pos; [|lra]. apply Rmult_le_pos; [|lra]. apply Rmult_le_pos; lra. }
  set (a := X ^ 2 * exp t1 + C1 * C2 * Y ^ 2 * exp t2) in *. clearbody a.
  pose proof (sqrt_err a r Hr Pa Ha) as Hs. pose proof (sqrt_pos a) as Ps.
  destruct (nr_sqrt rd Hrd a 0 (Fin a) (nr_exact a) Pa) as (t3 & -> & T3). assert (T3' : Rabs t3 <= v) by lra. clear T3.
  pose proof (exp_m1 t3 v T3' ltac:(lra)) as M3.
  assert (Hs2 : Rabs (sqrt a * exp t3 - r) <= 182 * v).
  { replace (sqrt a * exp t3 - r) with ((sqrt a - r) + sqrt a * (exp t3 - 1)) by ring. eapply Rle_trans; [apply Rabs_triang|]. rewrite Rabs_mult, (Rabs_pos_eq (sqrt a)) by auto.
    assert (sqrt a <= 1) by (apply Rabs_le_inv in Hs; lra). pose proof (Rabs_pos (exp t3 - 1)). nra. }
  set (s := sqrt a * exp t3) in *. assert (Ps2 : 0 <= s) by (apply Rmult_le_pos; [auto|left; apply exp_pos]). clearbody s.
  assert (Su : s <= 0.9886) by (apply Rabs_le_inv in Hs2; lra).
  pose proof (asin_err s r _ ltac:(lra) ltac:(lra) Hs2) as Has.
  assert (Eas : nr (asin s) 1 (barcsin (FL rd) (Fin s))). { cbn [barcsin FL]. rewrite eunit_fin by lra. replace 1 with (0 + 1) by ring. apply (nr_rnd rd Hrd). apply nr_exact. }
  rewrite (cst_int rd Hrd 2) by (cbn; lia). assert (ER : cst (FL rd) geo_r_earth = Fin 6371000). { unfold geo_r_earth. replace 6371000.0 with 6371000 by lra. apply (cst_int rd Hrd 6371000). cbn. lia. }
  rewrite ER. pose proof (nr_mul rd Hrd _ _ _ _ _ _ (nr_mul rd Hrd _ _ _ _ _ _ (nr_exact 2) Eas) (nr_add0 rd Hrd 6371000 h)) as Nd.
  destruct (nr_na _ _ _ _ Nd ltac:(lra) (Rle_refl _)) as (d & -> & Hd). cbn [fclose].
  assert (Q : Rabs (asin s) <= 1.43) by (apply Rabs_le_inv in Has; apply Rabs_le; lra). apply Rabs_le_inv in Q.
  rewrite Rabs_minus_sym. replace (d - 2 * asin r * (6371000 + h)) with ((d - 2 * asin s * (6371000 + h)) + 2 * (6371000 + h) * (asin s - asin r)) by ring.
  eapply Rle_trans; [apply Rabs_triang|].
  assert (W1 : Rabs (2 * asin s * (6371000 + h)) <= 18.3e6). { rewrite !Rabs_mult, (Rabs_pos_eq 2), (Rabs_pos_eq (6371000 + h)) by lra. assert (Rabs (asin s) <= 1.43) by (apply Rabs_le; lra). pose proof (Rabs_pos (asin s)). nra. }
  assert (W2 : Rabs (2 * (6371000 + h) * (asin s - asin r)) <= 12782000 * (6.67 * (182 * v))). { rewrite Rabs_mult, (Rabs_pos_eq (2 * (6371000 + h))) by lra. apply Rmult_le_compat; auto using Rabs_pos; lra. }
  assert (W3 : Rabs (d - 2 * asin s * (6371000 + h)) <= 1.02 * (0 + 1 + 1 + 1 + 1) * 18.3e6 * v). { eapply Rle_trans; [exact Hd|]. apply Rmult_le_compat_r; [lra|]. apply Rmult_le_compat_l; lra. }
  lra.
Qed.
(** a quarter of the equator *)
Example C114_ex : fclose 2e-5 (Fin (PI / 2 * 6371000)) (distance (FL binary64) (Fin 0) (Fin 0) (Fin 0) (Fin 90) (Fin 0)).
Proof.
  rewrite <- C12_ex. assert (3.1415 <= PI <= 3.1416) by (split; interval).
  apply (C114_distance binary64 (proj1 C112_binary64)); try (rewrite Rabs_pos_eq; lra); try lra; rewrite C12_ex; cbn [fle]; lra.
Qed.
