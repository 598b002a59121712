(** Error calculus for rounded arithmetic: [nr rd x k Y] says that the computed value [Y] is [x * exp t] with
    [|t| <= k * v], where [v = 1 / (2^50 - 1)] bounds the logarithmic error of one operation. *)
From Coq Require Import Reals List ZArith Lra Lia Psatz.
From Coquelicot Require Import Coquelicot.
From Verif Require Import Num NumFacts Fl SpecFl.
Import ListNotations.
Open Scope R_scope.

Definition v : R := / (2 ^ 50 - 1).
Lemma v_pos : 0 < v.
Proof. unfold v. apply Rinv_0_lt_compat. lra. Qed.
Lemma v_small : v <= 9e-16.
Proof. unfold v. rewrite <- (Rinv_inv 9e-16). apply Rinv_le_contravar; lra. Qed.

Lemma Rabs_le_inv : forall x y, Rabs x <= y -> - y <= x <= y.
Proof. intros x y H. apply Rabs_le_between. exact H. Qed.
Lemma exp_m1 : forall t s, Rabs t <= s -> s <= 0.01 -> Rabs (exp t - 1) <= 1.02 * s.
Proof.
  intros t s H S. apply Rabs_le_inv in H. assert (0 <= s) by lra.
  assert (U : exp t <= exp s) by (destruct (Rle_lt_or_eq_dec t s); [lra|left; apply exp_increasing; lra|subst; lra]).
  assert (D : exp (- s) <= exp t) by (destruct (Rle_lt_or_eq_dec (- s) t); [lra|left; apply exp_increasing; lra|subst; lra]).
  assert (A : 1 - s <= exp (- s)) by (pose proof (exp_ineq1_le (- s)); lra).
  assert (B : exp s * exp (- s) = 1) by (rewrite <- exp_plus; replace (s + - s) with 0 by ring; apply exp_0).
  assert (E : exp s * (1 - s) <= 1) by (apply Rle_trans with (exp s * exp (- s)); [apply Rmult_le_compat_l; [left; apply exp_pos|exact A]|lra]).
  assert (F : exp s <= 1 + 1.02 * s). { apply Rmult_le_reg_r with (1 - s); [lra|]. nra. }
  apply Rabs_le. nra.
Qed.
Lemma ln_1p : forall d s, Rabs d <= s -> s <= 0.01 -> Rabs (ln (1 + d)) <= 1.02 * s.
Proof.
  intros d s H S. apply Rabs_le_inv in H. assert (0 <= s) by lra.
  assert (P : 0 < 1 + d) by lra.
  assert (U : ln (1 + d) <= d). { pose proof (exp_ineq1_le (ln (1 + d))) as Q. rewrite exp_ln in Q by lra. lra. }
  assert (D : - (ln (1 + d)) <= / (1 + d) - 1).
  { rewrite <- ln_Rinv by lra. assert (0 < / (1 + d)) by (apply Rinv_0_lt_compat; lra).
    pose proof (exp_ineq1_le (ln (/ (1 + d)))) as Q. rewrite exp_ln in Q by lra. lra. }
  assert (E : / (1 + d) <= 1 + 1.02 * s). { apply Rmult_le_reg_r with (1 + d); [lra|]. rewrite Rinv_l by lra. nra. }
  apply Rabs_le. nra.
Qed.
Lemma ln_1p_u : forall d, Rabs d <= / 2 ^ 50 -> Rabs (ln (1 + d)) <= v.
Proof.
  intros d H. apply Rabs_le_inv in H. assert (Q : / 2 ^ 50 <= 0.5) by lra.
  assert (P : 0 < 1 + d) by lra.
  assert (Ev : v = / 2 ^ 50 / (1 - / 2 ^ 50)) by (unfold v; field; lra).
  assert (U : ln (1 + d) <= d). { pose proof (exp_ineq1_le (ln (1 + d))) as Q'. rewrite exp_ln in Q' by lra. lra. }
  assert (D : - (ln (1 + d)) <= / (1 + d) - 1).
  { rewrite <- ln_Rinv by lra. assert (0 < / (1 + d)) by (apply Rinv_0_lt_compat; lra).
    pose proof (exp_ineq1_le (ln (/ (1 + d)))) as Q'. rewrite exp_ln in Q' by lra. lra. }
  assert (E : / (1 + d) - 1 <= v).
  { assert (/ (1 + d) <= / (1 - / 2 ^ 50)) by (apply Rinv_le_contravar; lra). rewrite Ev. unfold Rdiv.
    assert (/ (1 - / 2 ^ 50) - 1 = / 2 ^ 50 * / (1 - / 2 ^ 50)) by (field; lra). lra. }
  assert (G : / 2 ^ 50 <= v). { unfold v. apply Rinv_le_contravar; lra. }
  apply Rabs_le. lra.
Qed.

Lemma exp_pow_n : forall t n, exp t ^ n = exp (INR n * t).
Proof. intros t n. induction n as [|n IH]; [cbn; rewrite Rmult_0_l, exp_0; auto|]. rewrite S_INR. cbn [pow]. rewrite IH, <- exp_plus. f_equal. ring. Qed.
Definition nr (x k : R) (Y : ext) : Prop := exists t, Y = Fin (x * exp t) /\ Rabs t <= k * v.
Definition na (x a : R) (Y : ext) : Prop := exists y, Y = Fin y /\ Rabs (y - x) <= a * v.

Section Calc.
Context (rd : rounding) (Hrd : accurate rd).
Lemma rd_exp : forall o l x, exists t, rd o l x = x * exp t /\ Rabs t <= v.
Proof.
  intros o l x. destruct (Req_dec x 0) as [->|N].
  - exists 0. pose proof (proj1 Hrd o l 0) as H. rewrite Rabs_R0, Rmult_0_r in H. assert (rd o l 0 - 0 = 0) by (apply Rabs_eq_0; pose proof (Rabs_pos (rd o l 0 - 0)); lra).
    split; [rewrite Rmult_0_l; lra|rewrite Rabs_R0; pose proof v_pos; lra].
  - set (d := (rd o l x - x) / x). assert (D : Rabs d <= / 2 ^ 50).
    { unfold d, Rdiv. rewrite Rabs_mult, Rabs_inv by auto. apply Rmult_le_reg_r with (Rabs x); [apply Rabs_pos_lt; auto|].
      rewrite Rmult_assoc, Rinv_l, Rmult_1_r by (apply Rabs_no_R0; auto). apply (proj1 Hrd). }
    exists (ln (1 + d)). split; [|apply ln_1p_u; auto]. rewrite exp_ln; [unfold d; field; auto|]. apply Rabs_le_inv in D. lra.
Qed.
Lemma nr_k : forall x k Y, nr x k Y -> 0 <= k.
Proof. intros x k Y (t & _ & H). pose proof (Rabs_pos t). pose proof v_pos. nra. Qed.
Lemma nr_w : forall x k k' Y, nr x k Y -> k <= k' -> nr x k' Y.
Proof. intros x k k' Y (t & E & H) L. exists t. split; auto. pose proof v_pos. nra. Qed.
Lemma nr_exact : forall x, nr x 0 (Fin x).
Proof. intros x. exists 0. rewrite exp_0, Rmult_1_r, Rabs_R0. split; auto; lra. Qed.
Lemma nr_x : forall x x' k Y, nr x k Y -> x = x' -> nr x' k Y.
Proof. intros; subst; auto. Qed.
Lemma nr_rnd : forall o l x k Y, nr x k Y -> nr x (k + 1) (rnd rd o l Y).
Proof.
  intros o l x k Y (t & -> & H). cbn. destruct (rd_exp o l (x * exp t)) as (s & -> & S). exists (t + s). split.
  - rewrite exp_plus. f_equal. ring.
  - eapply Rle_trans; [apply Rabs_triang|]. lra.
Qed.
Lemma nr_cst : forall r, nr r 1 (cst (FL rd) r).
Proof. intros r. pose proof (nr_rnd Ocst [] r 0 (Fin r) (nr_exact r)) as H. rewrite Rplus_0_l in H. exact H. Qed.
Lemma cst_int : forall n : Z, (Z.abs n < 2 ^ 53)%Z -> cst (FL rd) (IZR n) = Fin (IZR n).
Proof. intros n H. cbn. unfold fcst. rewrite (proj2 Hrd n H). reflexivity. Qed.
Lemma nr_mul : forall x k X y l Y, nr x k X -> nr y l Y -> nr (x * y) (k + l + 1) (mul (FL rd) X Y).
Proof.
  intros x k X y l Y (t & -> & H) (s & -> & S). apply nr_rnd. exists (t + s). split.
  - cbn. f_equal. rewrite exp_plus. ring.
  - eapply Rle_trans; [apply Rabs_triang|]. lra.
Qed.
Lemma nr_div : forall x k X y l Y, nr x k X -> nr y l Y -> y <> 0 -> nr (x / y) (k + l + 1) (div (FL rd) X Y).
Proof.
  intros x k X y l Y (t & -> & H) (s & -> & S) N. apply nr_rnd. exists (t - s). pose proof (exp_pos s).
  assert (y * exp s <> 0) by (apply Rmult_integral_contrapositive_currified; lra). split.
  - rewrite ediv_fin by auto. f_equal. unfold Rminus. rewrite exp_plus, exp_Ropp. field. split; lra.
  - unfold Rminus. eapply Rle_trans; [apply Rabs_triang|]. rewrite Rabs_Ropp. lra.
Qed.
Lemma nr_neg : forall x k X, nr x k X -> nr (- x) k (neg (FL rd) X).
Proof. intros x k X (t & -> & H). exists t. split; auto. cbn. f_equal. ring. Qed.
Lemma nr_abs : forall x k X, nr x k X -> nr (Rabs x) k (babs (FL rd) X).
Proof. intros x k X (t & -> & H). exists t. split; auto. cbn. f_equal. rewrite Rabs_mult, (Rabs_pos_eq (exp t)); auto. left. apply exp_pos. Qed.
Lemma nr_powi : forall x k X n, nr x k X -> nr (x ^ n) (INR n * k + 1) (powi (FL rd) X n).
Proof.
  intros x k X n (t & -> & H). apply nr_rnd. exists (INR n * t). split.
  - cbn. f_equal. rewrite Rpow_mult_distr, exp_pow_n. reflexivity.
  - rewrite Rabs_mult, (Rabs_pos_eq (INR n)) by apply pos_INR. pose proof (pos_INR n). nra.
Qed.
Lemma nr_sqrt : forall x k X, nr x k X -> 0 <= x -> nr (sqrt x) (k / 2 + 1) (bsqrt (FL rd) X).
Proof.
  intros x k X (t & -> & H) P. apply nr_rnd. exists (t / 2). pose proof (exp_pos t). split.
  - cbn. destruct (Rle_dec 0 (x * exp t)) as [_|Q]; [|exfalso; apply Q; nra]. f_equal. rewrite sqrt_mult by lra. f_equal.
    replace t with (t / 2 + t / 2) at 1 by lra. rewrite exp_plus. apply sqrt_square. left. apply exp_pos.
  - unfold Rdiv. rewrite Rabs_mult, (Rabs_pos_eq (/ 2)) by lra. lra.
Qed.
(** from a relative difference *)
Lemma nr_delta : forall x y m, x <> 0 -> Rabs (y - x) <= m * v * Rabs x -> m <= 1e12 -> nr x (1.02 * m) (Fin y).
Proof.
  intros x y m N H M. set (d := (y - x) / x). pose proof v_pos. pose proof v_small. assert (Px : 0 < Rabs x) by (apply Rabs_pos_lt; auto).
  assert (D : Rabs d <= m * v). { unfold d, Rdiv. rewrite Rabs_mult, Rabs_inv by auto. apply Rmult_le_reg_r with (Rabs x); auto. rewrite Rmult_assoc, Rinv_l, Rmult_1_r; lra. }
  assert (S : m * v <= 0.01) by nra. exists (ln (1 + d)). split.
  - rewrite exp_ln; [f_equal; unfold d; field; auto|]. apply Rabs_le_inv in D. lra.
  - replace (1.02 * m * v) with (1.02 * (m * v)) by ring. apply ln_1p; auto.
Qed.
Lemma na_nr : forall x a Y m, na x a Y -> x <> 0 -> a <= m * Rabs x -> m <= 1e12 -> nr x (1.02 * m) Y.
Proof. intros x a Y m (y & -> & H) N A M. apply nr_delta; auto. pose proof v_pos. nra. Qed.
Lemma nr_na : forall x k Y a, nr x k Y -> k <= 1e12 -> 1.02 * k * Rabs x <= a -> na x a Y.
Proof.
  intros x k Y a (t & -> & H) K A. pose proof v_pos. pose proof v_small. pose proof (Rabs_pos t). assert (0 <= k) by nra.
  eexists. split; [reflexivity|]. replace (x * exp t - x) with (x * (exp t - 1)) by ring. rewrite Rabs_mult.
  assert (k * v <= 0.01) by nra. pose proof (exp_m1 t (k * v) H ltac:(auto)). pose proof (Rabs_pos x). pose proof (Rabs_pos (exp t - 1)).
  apply Rle_trans with (Rabs x * (1.02 * (k * v))); [apply Rmult_le_compat_l; lra|]. nra.
Qed.
Lemma na_exact : forall x, na x 0 (Fin x).
Proof. intros x. exists x. split; auto. replace (x - x) with 0 by ring. rewrite Rabs_R0. lra. Qed.
Lemma na_w : forall x a a' Y, na x a Y -> a <= a' -> na x a' Y.
Proof. intros x a a' Y (y & E & H) L. exists y. split; auto. pose proof v_pos. nra. Qed.
Lemma na_rnd : forall o l x a Y, na x a Y -> a <= 1e12 -> na x (a + 1.02 * (Rabs x + a / 100)) (rnd rd o l Y).
Proof.
  intros o l x a Y (y & -> & H) A. pose proof v_pos. pose proof v_small. pose proof (Rabs_pos (y - x)). assert (0 <= a) by nra.
  pose proof (nr_rnd o l y 0 (Fin y) (nr_exact y)) as N. destruct (nr_na y _ _ (1.02 * Rabs y) N ltac:(lra) ltac:(lra)) as (z & E & Z). exists z. split; auto.
  assert (Rabs y <= Rabs x + a * v) by (replace y with (x + (y - x)) by ring; eapply Rle_trans; [apply Rabs_triang|]; lra).
  assert (Rabs (z - x) <= Rabs (z - y) + Rabs (y - x)) by (replace (z - x) with ((z - y) + (y - x)) by ring; apply Rabs_triang).
  assert (a * v <= a / 100) by nra. assert (1.02 * Rabs y * v <= 1.02 * (Rabs x + a / 100) * v) by (apply Rmult_le_compat_r; lra). lra.
Qed.
Lemma na_add : forall x a X y c Y, na x a X -> na y c Y -> a + c <= 1e12 -> na (x + y) (a + c + 1.02 * (Rabs (x + y) + (a + c) / 100)) (add (FL rd) X Y).
Proof.
  intros x a X y c Y (x' & -> & H) (y' & -> & S) L. apply na_rnd; auto. eexists. split; [reflexivity|].
  replace (x' + y' - (x + y)) with ((x' - x) + (y' - y)) by ring. eapply Rle_trans; [apply Rabs_triang|]. lra.
Qed.
Lemma na_sub : forall x a X y c Y, na x a X -> na y c Y -> a + c <= 1e12 -> na (x - y) (a + c + 1.02 * (Rabs (x - y) + (a + c) / 100)) (sub (FL rd) X Y).
Proof.
  intros x a X y c Y (x' & -> & H) (y' & -> & S) L. apply na_rnd; auto. eexists. split; [reflexivity|].
  replace (x' - y' - (x - y)) with ((x' - x) + - (y' - y)) by ring. eapply Rle_trans; [apply Rabs_triang|]. rewrite Rabs_Ropp. lra.
Qed.
Lemma Rmax_lip : forall a b c d e, Rabs (a - c) <= e -> Rabs (b - d) <= e -> Rabs (Rmax a b - Rmax c d) <= e.
Proof. intros a b c d e H S. apply Rabs_le_inv in H, S. apply Rabs_le. unfold Rmax. repeat destruct Rle_dec; lra. Qed.
Lemma Rmin_lip : forall a b c d e, Rabs (a - c) <= e -> Rabs (b - d) <= e -> Rabs (Rmin a b - Rmin c d) <= e.
Proof. intros a b c d e H S. apply Rabs_le_inv in H, S. apply Rabs_le. unfold Rmin. repeat destruct Rle_dec; lra. Qed.
Lemma na_max : forall x a X y c Y, na x a X -> na y c Y -> na (Rmax x y) (Rmax a c) (maximum (FL rd) X Y).
Proof.
  intros x a X y c Y (x' & -> & H) (y' & -> & S). eexists. split; [reflexivity|]. pose proof v_pos. pose proof (Rmax_l a c). pose proof (Rmax_r a c). apply Rmax_lip; nra.
Qed.
Lemma nr_max : forall x k X y l Y, nr x k X -> nr y l Y -> nr (Rmax x y) (Rmax k l) (maximum (FL rd) X Y).
Proof.
  intros x k X y l Y (t & -> & H) (s & -> & S). cbn [maximum FL emax].
  pose proof v_pos. pose proof (Rmax_l k l). pose proof (Rmax_r k l). set (m := Rmax k l) in *.
  assert (Ht : Rabs t <= m * v) by nra. assert (Hs : Rabs s <= m * v) by nra. clear H S.
  pose proof (exp_pos t). pose proof (exp_pos s). apply Rabs_le_inv in Ht, Hs.
  set (z := Rmax (x * exp t) (y * exp s)).
  (* z lies between Rmax x y * exp (-m v) and Rmax x y * exp (m v) in the order given by the sign *)
  assert (B : exists r, z = Rmax x y * exp r /\ - (m * v) <= r <= m * v).
  { assert (Mono : forall a b, a <= b -> exp a <= exp b) by (intros a b [L| ->]; [left; apply exp_increasing; auto|lra]).
    destruct (Rtotal_order (Rmax x y) 0) as [N|[Z|P]].
    - assert (x < 0 /\ y < 0) as [Nx Ny] by (pose proof (Rmax_l x y); pose proof (Rmax_r x y); lra).
      set (M := Rmax x y) in *. exists (ln (z / M)).
      assert (L1 : M * exp (m * v) <= z).
      { unfold z, M, Rmax. pose proof (Mono t (m * v) ltac:(lra)). pose proof (Mono s (m * v) ltac:(lra)). repeat destruct Rle_dec; nra. }
      assert (L2 : z <= M * exp (- (m * v))).
      { unfold z, M, Rmax. pose proof (Mono (- (m * v)) t ltac:(lra)). pose proof (Mono (- (m * v)) s ltac:(lra)). repeat destruct Rle_dec; nra. }
      assert (E1' : z / M <= exp (m * v)). { apply Rmult_le_reg_r with (- M); [lra|]. replace (z / M * - M) with (- z) by (field; lra). lra. }
      assert (E2' : exp (- (m * v)) <= z / M). { apply Rmult_le_reg_r with (- M); [lra|]. replace (z / M * - M) with (- z) by (field; lra). lra. }
      pose proof (exp_pos (- (m * v))). split; [rewrite exp_ln by lra; field; lra|]. split.
      + rewrite <- (ln_exp (- (m * v))). destruct E2' as [E2'| <-]; [left; apply ln_increasing; lra|lra].
      + rewrite <- (ln_exp (m * v)). destruct E1' as [E1'| ->]; [left; apply ln_increasing; lra|lra].
    - exists 0. split; [|nra]. rewrite Z. rewrite Rmult_0_l. unfold z, Rmax in *. repeat destruct Rle_dec; nra.
    - set (M := Rmax x y) in *. exists (ln (z / M)).
      assert (Hc : forall a r, a <= M -> r <= m * v -> a * exp r <= M * exp (m * v)).
      { intros a r La Lr. pose proof (Mono r (m * v) Lr). pose proof (exp_pos r). pose proof (exp_pos (m * v)). destruct (Rle_dec 0 a); [apply Rmult_le_compat; lra|].
        apply Rle_trans with 0; [nra|apply Rmult_le_pos; lra]. }
      assert (L1 : z <= M * exp (m * v)).
      { unfold z. apply Rmax_lub; unfold M.
        - apply Hc; [apply Rmax_l|lra].
        - apply Hc; [apply Rmax_r|lra]. }
      assert (L2 : M * exp (- (m * v)) <= z).
      { unfold M, Rmax in P |- *. destruct (Rle_dec x y).
        - eapply Rle_trans; [|apply Rmax_r]. apply Rmult_le_compat_l; [|apply Mono]; unfold M, Rmax in *; destruct (Rle_dec x y); lra.
        - eapply Rle_trans; [|apply Rmax_l]. apply Rmult_le_compat_l; [|apply Mono]; unfold M, Rmax in *; destruct (Rle_dec x y); lra. }
      assert (E1' : z / M <= exp (m * v)). { apply Rmult_le_reg_r with M; [lra|]. replace (z / M * M) with z by (field; lra). lra. }
      assert (E2' : exp (- (m * v)) <= z / M). { apply Rmult_le_reg_r with M; [lra|]. replace (z / M * M) with z by (field; lra). lra. }
      pose proof (exp_pos (- (m * v))). split; [rewrite exp_ln by lra; field; lra|]. split.
      + rewrite <- (ln_exp (- (m * v))). destruct E2' as [E2'| <-]; [left; apply ln_increasing; lra|lra].
      + rewrite <- (ln_exp (m * v)). destruct E1' as [E1'| ->]; [left; apply ln_increasing; lra|lra]. }
  destruct B as (r & -> & B). exists r. split; auto. apply Rabs_le. lra.
Qed.
(** sums and differences *)
Lemma nr_add : forall x k X y l Y m, nr x k X -> nr y l Y -> x + y <> 0 -> Rabs x * k + Rabs y * l <= m * Rabs (x + y) -> k <= 1e12 -> l <= 1e12 -> m <= 9e11 ->
  nr (x + y) (1.05 * m + 1) (add (FL rd) X Y).
Proof.
  intros x k X y l Y m HX HY N M K L B. pose proof (nr_na _ _ _ _ HX K (Rle_refl _)) as (x' & -> & Ex). pose proof (nr_na _ _ _ _ HY L (Rle_refl _)) as (y' & -> & Ey).
  apply nr_rnd. cbn [eadd]. pose proof v_pos. apply nr_w with (1.02 * (1.02 * m)); [|].
  - apply nr_delta; auto; [|lra]. replace (x' + y' - (x + y)) with ((x' - x) + (y' - y)) by ring. eapply Rle_trans; [apply Rabs_triang|]. nra.
  - assert (0 <= m). { pose proof (nr_k _ _ _ HX). pose proof (nr_k _ _ _ HY). pose proof (Rabs_pos x). pose proof (Rabs_pos y). pose proof (Rabs_pos_lt _ N). nra. } lra.
Qed.
Lemma nr_sub : forall x k X y l Y m, nr x k X -> nr y l Y -> x - y <> 0 -> Rabs x * k + Rabs y * l <= m * Rabs (x - y) -> k <= 1e12 -> l <= 1e12 -> m <= 9e11 ->
  nr (x - y) (1.05 * m + 1) (sub (FL rd) X Y).
Proof.
  intros x k X y l Y m HX HY N M K L B. pose proof (nr_na _ _ _ _ HX K (Rle_refl _)) as (x' & -> & Ex). pose proof (nr_na _ _ _ _ HY L (Rle_refl _)) as (y' & -> & Ey).
  apply nr_rnd. cbn [esub]. pose proof v_pos. apply nr_w with (1.02 * (1.02 * m)); [|].
  - apply nr_delta; auto; [|lra]. replace (x' - y' - (x - y)) with ((x' - x) + - (y' - y)) by ring. eapply Rle_trans; [apply Rabs_triang|]. rewrite Rabs_Ropp. nra.
  - assert (0 <= m). { pose proof (nr_k _ _ _ HX). pose proof (nr_k _ _ _ HY). pose proof (Rabs_pos x). pose proof (Rabs_pos y). pose proof (Rabs_pos_lt _ N). nra. } lra.
Qed.
(** difference of two exact numbers *)
Lemma nr_sub0 : forall x y, nr (x - y) 1 (sub (FL rd) (Fin x) (Fin y)).
Proof. intros x y. replace 1 with (0 + 1) by ring. apply nr_rnd. apply nr_exact. Qed.
Lemma nr_add0 : forall x y, nr (x + y) 1 (add (FL rd) (Fin x) (Fin y)).
Proof. intros x y. replace 1 with (0 + 1) by ring. apply nr_rnd. apply nr_exact. Qed.
Lemma nr_power : forall x k X y l Y, nr x k X -> nr y l Y -> 0 < x -> l <= 1e12 -> nr (Rpower x y) (1.03 * (Rabs y * k + Rabs (y * ln x) * l) + 1) (power (FL rd) X Y).
Proof.
  intros x k X y l Y (t & -> & H) (s & -> & S) P L. apply nr_rnd. pose proof v_pos. pose proof v_small. pose proof (exp_pos t).
  assert (0 <= k) by (pose proof (Rabs_pos t); nra). assert (0 <= l) by (pose proof (Rabs_pos s); nra).
  assert (l * v <= 0.01) by nra. pose proof (exp_m1 s (l * v) S ltac:(auto)) as M.
  exists (y * exp s * t + y * ln x * (exp s - 1)). split.
  - cbn [epower]. destruct (Rlt_dec 0 (x * exp t)) as [_|Q]; [|exfalso; apply Q; nra]. f_equal. unfold Rpower. rewrite ln_mult, ln_exp by lra. rewrite <- exp_plus. f_equal. ring.
  - eapply Rle_trans; [apply Rabs_triang|]. rewrite !Rabs_mult. rewrite <- (Rabs_mult y (ln x)). set (Y := Rabs (y * ln x)). assert (0 <= Y) by apply Rabs_pos.
    assert (E : Rabs (exp s) <= 1.03). { apply Rabs_le_inv in M. apply Rabs_le. lra. }
    pose proof (Rabs_pos y). pose proof (Rabs_pos t). pose proof (Rabs_pos (exp s)). pose proof (Rabs_pos (exp s - 1)).
    assert (A1 : Rabs y * Rabs (exp s) * Rabs t <= Rabs y * 1.03 * (k * v)). { apply Rmult_le_compat; try lra. apply Rmult_le_pos; lra. apply Rmult_le_compat_l; lra. }
    assert (A2 : Y * Rabs (exp s - 1) <= Y * (1.02 * (l * v))) by (apply Rmult_le_compat_l; lra).
    assert (0 <= Y * (l * v)) by (apply Rmult_le_pos; [lra|nra]). lra.
Qed.
Lemma nr_exp : forall x k X, nr x k X -> x <= 700 -> k <= 1e12 -> nr (exp x) (1.02 * (Rabs x * k) + 1) (bexp (FL rd) X).
Proof.
  intros x k X HX B K. pose proof (nr_na _ _ _ _ HX K (Rle_refl _)) as (x' & -> & E). apply nr_rnd. pose proof v_pos. pose proof v_small. pose proof (nr_k _ _ _ HX).
  assert (Q : x' <= exp_max).
  { unfold exp_max. destruct HX as (t & Et & Ht). injection Et as ->. destruct (Rle_dec x 0); [pose proof (exp_pos t); nra|].
    assert (k * v <= 0.01) by nra. pose proof (exp_m1 t (k * v) Ht ltac:(auto)) as M. apply Rabs_le_inv in M.
    assert (k * v <= 9e-4) by nra. nra. }
  exists (x' - x). split.
  - cbn [eexp]. destruct (Rle_dec x' exp_max); [|contradiction]. f_equal. rewrite <- exp_plus. f_equal. ring.
  - pose proof (Rabs_pos x). nra.
Qed.
Lemma nr_log : forall x k X m, nr x k X -> 0 < x -> ln x <> 0 -> k <= m * Rabs (ln x) -> m <= 1e12 -> nr (ln x) (1.02 * m + 1) (blog (FL rd) X).
Proof.
  intros x k X m (t & -> & H) P N K M. apply nr_rnd. pose proof (exp_pos t). pose proof v_pos. cbn [elog].
  destruct (Rlt_dec 0 (x * exp t)) as [_|Q]; [|exfalso; apply Q; nra]. rewrite ln_mult, ln_exp by lra. apply nr_delta; auto. replace (ln x + t - ln x) with t by ring. nra.
Qed.
(** functions with slope at most 1 *)
Lemma nr_lip : forall f o l x k X m, nr x k X -> (forall a b, Rabs (f a - f b) <= Rabs (a - b)) -> f x <> 0 -> k <= 1e12 -> Rabs x * k <= m * Rabs (f x) -> m <= 9e11 ->
  nr (f x) (1.05 * m + 1) (rnd rd o l (elift f X)).
Proof.
  intros f o l x k X m HX F N K M B. pose proof (nr_na _ _ _ _ HX K (Rle_refl _)) as (x' & -> & E). apply nr_rnd. pose proof v_pos. pose proof (nr_k _ _ _ HX). pose proof (Rabs_pos x).
  assert (0 <= m) by (pose proof (Rabs_pos_lt _ N); nra).
  apply nr_w with (1.02 * (1.02 * m)); [|lra]. cbn [elift]. apply nr_delta; auto; [|lra]. eapply Rle_trans; [apply F|]. nra.
Qed.
Lemma cos_lip : forall a b, Rabs (cos a - cos b) <= Rabs (a - b).
Proof.
  intros a b. destruct (Req_dec a b) as [->|N]; [replace (cos b - cos b) with 0 by ring; rewrite Rabs_R0; apply Rabs_pos|].
  destruct (MVT_gen cos b a (fun x => - sin x)) as (c & _ & E).
  - intros x _. auto_derive; auto; ring.
  - intros x _. apply continuity_cos.
  - rewrite E, Rabs_mult. pose proof (Rabs_pos (a - b)). assert (Rabs (- sin c) <= 1) by (apply Rabs_le; pose proof (SIN_bound c); lra). nra.
Qed.
Lemma sin_lip : forall a b, Rabs (sin a - sin b) <= Rabs (a - b).
Proof.
  intros a b. replace (sin a) with (cos (PI / 2 - a)) by apply cos_shift. replace (sin b) with (cos (PI / 2 - b)) by apply cos_shift.
  eapply Rle_trans; [apply cos_lip|]. replace (PI / 2 - a - (PI / 2 - b)) with (- (a - b)) by ring. rewrite Rabs_Ropp. lra.
Qed.
Lemma nr_cos : forall x k X m, nr x k X -> cos x <> 0 -> k <= 1e12 -> Rabs x * k <= m * Rabs (cos x) -> m <= 9e11 -> nr (cos x) (1.05 * m + 1) (bcos (FL rd) X).
Proof. intros. apply (nr_lip cos Ocos [X] x k X m); auto. exact cos_lip. Qed.
Lemma nr_sin : forall x k X m, nr x k X -> sin x <> 0 -> k <= 1e12 -> Rabs x * k <= m * Rabs (sin x) -> m <= 9e11 -> nr (sin x) (1.05 * m + 1) (bsin (FL rd) X).
Proof. intros. apply (nr_lip sin Osin [X] x k X m); auto. exact sin_lip. Qed.
End Calc.
Lemma nr_within : forall x k X e, nr x k X -> k <= 1e12 -> 1.02 * k * 9e-16 <= e -> within e (Fin x) X.
Proof.
  intros x k X e H K E. pose proof (nr_k _ _ _ H). destruct (nr_na _ _ _ _ H K (Rle_refl _)) as (y & -> & B). cbn. pose proof v_pos. pose proof v_small. pose proof (Rabs_pos x).
  eapply Rle_trans; [exact B|]. apply Rle_trans with (1.02 * k * 9e-16 * Rabs x); [|nra]. apply Rle_trans with (1.02 * k * Rabs x * 9e-16); [|lra]. apply Rmult_le_compat_l; [|lra]. apply Rmult_le_pos; lra.
Qed.
