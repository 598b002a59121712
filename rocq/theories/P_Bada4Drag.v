(** * Properties C100 and C102: drag of the BADA4 add-on (with the attribute [sci] present) *)
From Coq Require Import String List Bool Arith Lia.
From Coq Require Import Reals Lra Psatz FunctionalExtensionality.
From Coquelicot Require Import Coquelicot.
From Interval Require Import Tactic.
From Verif Require Import Num NumFacts SpecNum Py Aero AeroFacts GeoFacts Nd NdFacts Bada4 Bada4Facts P_Bada4.
Import ListNotations.
Open Scope list_scope.
Open Scope R_scope.

(** ** Specification *)
(** the Prandtl-Glauert factor *)
Definition pg (M : R) : R := / sqrt (1 - M * M).
(** coefficient [i] of the drag polynomial *)
Definition co (m : b4_drag) (i : nat) : R := nth i (d_d m) 0.
(** drag coefficient below the highest Mach number (BADA4 user manual, clean configuration) *)
Definition cd_low (m : b4_drag) (cl M : R) : R :=
  let s := pg M in
  d_scalar m *
  ((co m 0 + co m 1 * s + co m 2 * s ^ 2 + co m 3 * s ^ 3 + co m 4 * s ^ 4) +
   (co m 5 + co m 6 * s ^ 3 + co m 7 * s ^ 6 + co m 8 * s ^ 9 + co m 9 * s ^ 12) * cl ^ 2 +
   (co m 10 + co m 11 * s ^ 14 + co m 12 * s ^ 15 + co m 13 * s ^ 16 + co m 14 * s ^ 17) * cl ^ 6).
(** drag coefficient from the highest Mach number on *)
Definition cd_high (m : b4_drag) (cl M : R) : R :=
  let Mb := d_mmax m - 0.01 in
  cd_low m cl Mb + Rpower ((M - Mb) / 0.01) 1.5 * (cd_low m cl (d_mmax m) - cd_low m cl Mb).
(** drag coefficient *)
Definition cd_spec (m : b4_drag) (cl M : R) : R := if Rlt_dec M (d_mmax m) then cd_low m cl M else cd_high m cl M.
(** a complete set of coefficients: fifteen of them, highest Mach number between 0.01 and 1 *)
Definition usable_drag (m : b4_drag) : Prop := (15 <= length (d_d m))%nat /\ 0.01 <= d_mmax m < 1.
(** the drag coefficient the method [_cd] gives for numbers *)
Definition cd_of (m : b4_drag) (cl M : R) (x : ext) : Prop := b4_cd m (num_arg (Fin cl)) (num_arg (Fin M)) = num_arg x.

(** ** Lemmas *)
Lemma pg_power : forall M, -1 < M < 1 -> Rpower (1 - M * M) (-0.5) = pg M.
Proof.
  intros M H. assert (0 < 1 - M * M) by nra. unfold pg. replace (-0.5) with (- (/ 2)) by (qr; lra).
  rewrite Rpower_Ropp, Rpower_sqrt by assumption. reflexivity.
Qed.
Lemma part_nth : forall a b l, (b <= length l)%nat -> part a b l = map (fun i => nth i l 0) (seq a (b - a)).
Proof.
  intros a b l H. apply nth_ext with (d := 0) (d' := nth 0 l 0).
  - rewrite map_length, seq_length. apply (part_length 1 (le_n 1)). assumption.
  - intros i Hi. rewrite (part_length 1 (le_n 1)) in Hi by assumption. rewrite (map_nth (fun i => nth i l 0) (seq a (b - a)) 0%nat i).
    rewrite seq_nth by assumption. unfold part.
    rewrite <- (firstn_skipn a l) at 2. rewrite app_nth2; rewrite firstn_length; [|lia].
    replace (a + i - Nat.min a (length l))%nat with i by lia.
    rewrite <- (firstn_skipn (b - a) (skipn a l)) at 2. rewrite app_nth1; [reflexivity|]. rewrite firstn_length, skipn_length. lia.
Qed.
Lemma cdb_low : forall m cl M, usable_drag m -> -1 < M < 1 -> cdb_row m (Fin cl) (Fin M) = Fin (cd_low m cl M).
Proof.
  intros m cl M [L _] H. unfold cdb_row. cbn [epowi esub eneg eadd]. cbv zeta. rewrite epower_fin by nra.
  replace (1 - M ^ 2) with (1 - M * M) by ring. rewrite pg_power by assumption.
  rewrite !part_nth by lia. cbn [Nat.sub seq map]. unfold dotp. cbn [combine map fst snd nsum epowi emul eadd].
  f_equal. unfold cd_low, co. cbv zeta. ring.
Qed.
Lemma cd_row_spec : forall m cl M, usable_drag m -> -1 < M -> cd_row m (Fin cl) (Fin M) = Fin (cd_spec m cl M).
Proof.
  intros m cl M U H. pose proof U as [_ Hm]. unfold cd_row, cd_spec. cbv zeta. cbn [egt].
  rewrite (cdb_low m cl (d_mmax m)), (cdb_low m cl (d_mmax m - 0.01)) by (auto; qr; lra).
  destruct (Rlt_dec M (d_mmax m)) as [L|L].
  - rewrite Rltb_true by assumption. cbn [ewhere]. apply cdb_low; auto. lra.
  - rewrite Rltb_false by lra. cbn [ewhere esub eneg eadd]. rewrite ediv_fin by (qr; lra). cbn [emax].
    assert (P : 1 <= (M + - (d_mmax m - 0.01)) / 0.01) by (apply Rmult_le_reg_r with 0.01; [qr; lra|]; unfold Rdiv; rewrite Rmult_assoc, Rinv_l by (qr; lra); qr; lra).
    rewrite Rmax_left by lra. rewrite epower_fin by lra. cbn [emul eadd]. reflexivity.
Qed.
Lemma one_row : forall (x : T AB) b f, isc 1 (item x) (b, f) -> item x = num_arg (f 0%nat).
Proof.
  intros x b f K. rewrite <- item_idem. rewrite (isc_one 1 _ _ (b, f)); auto. destruct b; reflexivity.
Qed.
Lemma cd_of_spec : forall m cl M, usable_drag m -> -1 < M -> cd_of m cl M (Fin (cd_spec m cl M)).
Proof.
  intros m cl M U H. unfold cd_of. rewrite <- cd_row_spec by assumption.
  pose proof (cd_isc 1 (le_n 1) m _ _ _ _ (proj1 U) (num_isc 1 (Fin cl)) (num_isc 1 (Fin M))) as K.
  unfold b4_cd in *. cbv zeta in *. apply one_row in K. exact K.
Qed.
Lemma cd_of_unique : forall m cl M x y, cd_of m cl M x -> cd_of m cl M y -> x = y.
Proof. unfold cd_of, num_arg. intros m cl M x y E1 E2. rewrite E1 in E2. injection E2 as E2. apply (f_equal (fun f => f 0%nat 0%nat)) in E2. exact E2. Qed.

(** ** C100 *)
(** The drag coefficient is a finite number for every lift coefficient and every Mach number above -1, also in
    supersonic flight, and is given by the formulas above. *)
Theorem C100_coefficient : forall m cl M x, usable_drag m -> -1 < M -> (cd_of m cl M x <-> x = Fin (cd_spec m cl M)).
Proof.
  intros m cl M x U H. pose proof (cd_of_spec m cl M U H) as K. split; [|intros ->; auto]. intros E. apply (cd_of_unique m cl M); auto.
Qed.
Lemma pg_incr : forall M M', 0 <= M <= M' -> M' < 1 -> 1 <= pg M <= pg M'.
Proof.
  intros M M' H1 H2. unfold pg. assert (0 < 1 - M' * M') by nra. assert (1 - M' * M' <= 1 - M * M) by nra. assert (1 - M * M <= 1) by nra.
  assert (0 < sqrt (1 - M' * M')) by (apply sqrt_lt_R0; lra). assert (sqrt (1 - M' * M') <= sqrt (1 - M * M)) by (apply sqrt_le_1_alt; lra).
  assert (sqrt (1 - M * M) <= 1) by (apply Rle_trans with (sqrt 1); [apply sqrt_le_1_alt; lra|rewrite sqrt_1; lra]).
  split; [rewrite <- Rinv_1 at 1; apply Rinv_le_contravar; lra|apply Rinv_le_contravar; lra].
Qed.
Lemma cd_low_incr : forall m cl M M', 0 <= d_scalar m -> (forall i, 0 <= co m i) -> 0 <= M <= M' -> M' < 1 -> cd_low m cl M <= cd_low m cl M'.
Proof.
  intros m cl M M' Hs Hc H1 H2. destruct (pg_incr M M' H1 H2) as [P1 P2]. unfold cd_low. cbv zeta.
  assert (W : forall n, pg M ^ n <= pg M' ^ n) by (intros; apply pow_incr; lra).
  assert (WC : forall i n, co m i * pg M ^ n <= co m i * pg M' ^ n) by (intros; apply Rmult_le_compat_l; auto).
  apply Rmult_le_compat_l; auto.
  pose proof (WC 1%nat 1%nat) as W1. rewrite !pow_1 in W1.
  apply Rplus_le_compat; [apply Rplus_le_compat|].
  - pose proof (WC 2%nat 2%nat). pose proof (WC 3%nat 3%nat). pose proof (WC 4%nat 4%nat). lra.
  - apply Rmult_le_compat_r; [apply pow2_ge_0|]. pose proof (WC 6%nat 3%nat). pose proof (WC 7%nat 6%nat). pose proof (WC 8%nat 9%nat). pose proof (WC 9%nat 12%nat). lra.
  - apply Rmult_le_compat_r; [replace (cl ^ 6) with ((cl ^ 3) ^ 2) by ring; apply pow2_ge_0|].
    pose proof (WC 11%nat 14%nat). pose proof (WC 12%nat 15%nat). pose proof (WC 13%nat 16%nat). pose proof (WC 14%nat 17%nat). lra.
Qed.
Lemma cd_high_at : forall m cl, cd_high m cl (d_mmax m) = cd_low m cl (d_mmax m).
Proof.
  intros. unfold cd_high. cbv zeta. replace ((d_mmax m - (d_mmax m - 0.01)) / 0.01) with 1 by (qr; field). rewrite Rpower_one. ring.
Qed.
Lemma cd_high_incr : forall m cl M M', cd_low m cl (d_mmax m - 0.01) <= cd_low m cl (d_mmax m) -> d_mmax m <= M <= M' -> cd_high m cl M <= cd_high m cl M'.
Proof.
  intros m cl M M' H1 H2. unfold cd_high. cbv zeta. apply Rplus_le_compat_l. apply Rmult_le_compat_r; [lra|].
  apply Rpower_le_base; [|apply Rmult_le_compat_r; [|lra]; left; apply Rinv_0_lt_compat; qr; lra|qr; lra].
  apply Rdiv_lt_0_compat; qr; lra.
Qed.
(** Beyond the highest Mach number the coefficient does not fall, provided it does not fall over the last 0.01 before. *)
Theorem C100_divergence : forall m cl M M' x x', usable_drag m -> d_mmax m <= M <= M' ->
  fle (Fin (cd_low m cl (d_mmax m - 0.01))) (Fin (cd_low m cl (d_mmax m))) -> cd_of m cl M x -> cd_of m cl M' x' -> fle x x'.
Proof.
  intros m cl M M' x x' U H1 H2 E E'. pose proof U as [_ Hm]. apply C100_coefficient in E, E'; auto; try (qr; lra). subst. cbn in *. unfold cd_spec.
  destruct (Rlt_dec M (d_mmax m)); [lra|]. destruct (Rlt_dec M' (d_mmax m)); [lra|]. apply cd_high_incr; auto.
Qed.
(** With non-negative coefficients it never falls with the Mach number. *)
Theorem C100_mach_monotone : forall m cl M M' x x', usable_drag m -> 0 <= d_scalar m -> (forall i, 0 <= co m i) -> 0 <= M <= M' ->
  cd_of m cl M x -> cd_of m cl M' x' -> fle x x'.
Proof.
  intros m cl M M' x x' U Hs Hc H E E'. pose proof U as [_ Hm]. apply C100_coefficient in E, E'; auto; try lra. subst. cbn. unfold cd_spec.
  assert (HD : cd_low m cl (d_mmax m - 0.01) <= cd_low m cl (d_mmax m)) by (apply cd_low_incr; auto; qr; lra).
  destruct (Rlt_dec M (d_mmax m)), (Rlt_dec M' (d_mmax m)); try lra.
  - apply cd_low_incr; auto; lra.
  - apply Rle_trans with (cd_low m cl (d_mmax m)); [apply cd_low_incr; auto; lra|]. rewrite <- cd_high_at. apply cd_high_incr; auto; lra.
  - apply cd_high_incr; auto; lra.
Qed.
Lemma lift_parts : forall m cl cl' s s', (forall i, 0 <= co m i) -> 0 <= s <= s' -> 0 <= cl <= cl' ->
  let f := fun c x => (co m 0 + co m 1 * x + co m 2 * x ^ 2 + co m 3 * x ^ 3 + co m 4 * x ^ 4) +
     (co m 5 + co m 6 * x ^ 3 + co m 7 * x ^ 6 + co m 8 * x ^ 9 + co m 9 * x ^ 12) * c ^ 2 +
     (co m 10 + co m 11 * x ^ 14 + co m 12 * x ^ 15 + co m 13 * x ^ 16 + co m 14 * x ^ 17) * c ^ 6 in
  f cl s <= f cl' s /\ f cl s' - f cl s <= f cl' s' - f cl' s.
Proof.
  intros m cl cl' s s' Hc Hs Hl f.
  assert (W : forall n, 0 <= s ^ n <= s' ^ n) by (intros; split; [apply pow_le; lra|apply pow_incr; lra]).
  assert (WC : forall i n, 0 <= co m i * s ^ n /\ co m i * s ^ n <= co m i * s' ^ n).
  { intros i n. destruct (W n). split; [apply Rmult_le_pos; auto|apply Rmult_le_compat_l; auto]. }
  assert (L2 : cl ^ 2 <= cl' ^ 2) by (apply pow_incr; lra). assert (L6 : cl ^ 6 <= cl' ^ 6) by (apply pow_incr; lra).
  set (a x := co m 0 + co m 1 * x + co m 2 * x ^ 2 + co m 3 * x ^ 3 + co m 4 * x ^ 4) in *.
  set (b x := co m 5 + co m 6 * x ^ 3 + co m 7 * x ^ 6 + co m 8 * x ^ 9 + co m 9 * x ^ 12) in *.
  set (d x := co m 10 + co m 11 * x ^ 14 + co m 12 * x ^ 15 + co m 13 * x ^ 16 + co m 14 * x ^ 17) in *.
  assert (B : 0 <= b s <= b s').
  { unfold b. pose proof (Hc 5%nat). pose proof (WC 6%nat 3%nat). pose proof (WC 7%nat 6%nat). pose proof (WC 8%nat 9%nat). pose proof (WC 9%nat 12%nat). lra. }
  assert (D : 0 <= d s <= d s').
  { unfold d. pose proof (Hc 10%nat). pose proof (WC 11%nat 14%nat). pose proof (WC 12%nat 15%nat). pose proof (WC 13%nat 16%nat). pose proof (WC 14%nat 17%nat). lra. }
  assert (E : forall c x, f c x = a x + b x * c ^ 2 + d x * c ^ 6) by reflexivity. rewrite !E. clearbody a b d. clear f E W WC. split; nra.
Qed.
(** It never falls with the lift coefficient either. *)
Theorem C100_lift_monotone : forall m cl cl' M x x', usable_drag m -> 0 <= d_scalar m -> (forall i, 0 <= co m i) -> 0 <= M -> 0 <= cl <= cl' ->
  cd_of m cl M x -> cd_of m cl' M x' -> fle x x'.
Proof.
  intros m cl cl' M x x' U Hs Hc HM H E E'. pose proof U as [_ Hm]. apply C100_coefficient in E, E'; auto; try lra. subst. cbn. unfold cd_spec.
  destruct (Rlt_dec M (d_mmax m)) as [L|L].
  - unfold cd_low. cbv zeta. apply Rmult_le_compat_l; auto. destruct (pg_incr M M) as [P1 _]; [lra|lra|].
    exact (proj1 (lift_parts m cl cl' (pg M) (pg M) Hc ltac:(lra) H)).
  - unfold cd_high. cbv zeta. set (Mb := d_mmax m - 0.01). destruct (pg_incr Mb (d_mmax m)) as [P1 P2]; [unfold Mb; qr; lra|lra|].
    assert (P : 1 <= Rpower ((M - Mb) / 0.01) 1.5).
    { rewrite <- (Rpower_one 1.5). apply Rpower_le_base; [lra| |qr; lra]. apply Rmult_le_reg_r with 0.01; [qr; lra|]. unfold Rdiv. rewrite Rmult_assoc, Rinv_l by (qr; lra). unfold Mb. qr; lra. }
    pose proof (proj1 (lift_parts m cl cl' (pg (d_mmax m)) (pg (d_mmax m)) Hc ltac:(lra) H)) as Q1.
    pose proof (proj2 (lift_parts m cl cl' (pg Mb) (pg (d_mmax m)) Hc ltac:(lra) H)) as Q2. cbv zeta beta in Q1, Q2.
    unfold cd_low. cbv zeta. set (Pw := Rpower ((M - Mb) / 0.01) 1.5) in *. clearbody Pw.
    match type of Q1 with ?u <= ?v => set (A1 := u) in *; set (A2 := v) in * end.
    match type of Q2 with _ - ?u <= _ - ?v => set (A3 := u) in *; set (A4 := v) in * end.
    clearbody A1 A2 A3 A4. assert (0 <= (Pw - 1) * d_scalar m * ((A2 - A4) - (A1 - A3))) by (repeat apply Rmult_le_pos; lra).
    assert (0 <= d_scalar m * (A2 - A1)) by (apply Rmult_le_pos; lra). nra.
Qed.
Lemma cd_low_cont : forall m cl M, -1 < M < 1 -> continuous (cd_low m cl) M.
Proof.
  intros m cl M H. apply (ex_derive_continuous (K := R_AbsRing) (V := R_NormedModule)). unfold cd_low, pg. assert (0 < 1 - M * M) by nra.
  assert (0 < sqrt (1 - M * M)) by (apply sqrt_lt_R0; lra). auto_derive.
  repeat split; try (replace (1 + - (M * M)) with (1 - M * M) by ring); auto; try lra.
Qed.
Lemma cd_high_cont : forall m cl M, d_mmax m - 0.01 < M -> continuous (cd_high m cl) M.
Proof.
  intros m cl M H. apply (ex_derive_continuous (K := R_AbsRing) (V := R_NormedModule)). unfold cd_high, Rpower.
  assert (0 < (M - (d_mmax m - 0.01)) / 0.01) by (apply Rdiv_lt_0_compat; qr; lra). auto_derive. exact H0.
Qed.
(** Continuity: a small change of the Mach number changes the coefficient little, also at the highest Mach number. *)
Theorem C100_continuous : forall m cl M x, usable_drag m -> -1 < M -> cd_of m cl M x ->
  forall e, 0 < e -> exists d, 0 < d /\ forall M' x', Rabs (M' - M) < d -> cd_of m cl M' x' -> fclose e x x'.
Proof.
  intros m cl M x U H E e He. pose proof U as [_ Hm]. apply C100_coefficient in E; auto. subst x.
  assert (CL : M < 1 -> exists d, 0 < d /\ forall M', Rabs (M' - M) < d -> Rabs (cd_low m cl M' - cd_low m cl M) < e).
  { intros L. pose proof (cd_low_cont m cl M ltac:(lra)) as C. apply continuity_pt_filterlim in C. destruct (C e He) as (d & Hd & Q). exists d. split; auto.
    intros M' D. destruct (Req_dec M' M) as [->|N]; [rewrite Rminus_diag_eq, Rabs_R0 by auto; auto|]. apply (Q M'). split; [split; [exact I|auto]|exact D]. }
  assert (CH : d_mmax m - 0.01 < M -> exists d, 0 < d /\ forall M', Rabs (M' - M) < d -> Rabs (cd_high m cl M' - cd_high m cl M) < e).
  { intros L. pose proof (cd_high_cont m cl M L) as C. apply continuity_pt_filterlim in C. destruct (C e He) as (d & Hd & Q). exists d. split; auto.
    intros M' D. destruct (Req_dec M' M) as [->|N]; [rewrite Rminus_diag_eq, Rabs_R0 by auto; auto|]. apply (Q M'). split; [split; [exact I|auto]|exact D]. }
  assert (OK : forall d, 0 < d -> (forall M', Rabs (M' - M) < d -> Rabs (cd_spec m cl M' - cd_spec m cl M) < e) ->
    exists d, 0 < d /\ forall M' x', Rabs (M' - M) < d -> cd_of m cl M' x' -> fclose e (Fin (cd_spec m cl M)) x').
  { intros d Hd Q. exists (Rmin d (M + 1)). split; [apply Rmin_glb_lt; lra|]. intros M' x' D E'.
    pose proof (Rmin_l d (M + 1)). pose proof (Rmin_r d (M + 1)).
    apply C100_coefficient in E'; auto; [|apply Rabs_def2 in D; lra]. subst x'. cbn. rewrite Rabs_minus_sym. left. apply Q. lra. }
  destruct (Rtotal_order M (d_mmax m)) as [L|[EQ|G]].
  - destruct (CL ltac:(lra)) as (d & Hd & Q).
    apply (OK (Rmin d (d_mmax m - M))); [apply Rmin_glb_lt; lra|]. intros M' D. pose proof (Rmin_l d (d_mmax m - M)). pose proof (Rmin_r d (d_mmax m - M)).
    unfold cd_spec. destruct (Rlt_dec M (d_mmax m)); [|lra]. destruct (Rlt_dec M' (d_mmax m)); [apply Q; lra|]. exfalso. apply Rabs_def2 in D. lra.
  - destruct (CL ltac:(lra)) as (d & Hd & Q). destruct (CH ltac:(qr; lra)) as (d' & Hd' & Q').
    apply (OK (Rmin d d')); [apply Rmin_glb_lt; lra|]. intros M' D. pose proof (Rmin_l d d'). pose proof (Rmin_r d d').
    unfold cd_spec. destruct (Rlt_dec M (d_mmax m)); [lra|]. destruct (Rlt_dec M' (d_mmax m)); [|apply Q'; lra]. rewrite EQ, cd_high_at, <- EQ. apply Q; lra.
  - destruct (CH ltac:(qr; lra)) as (d' & Hd' & Q').
    apply (OK (Rmin d' (M - d_mmax m))); [apply Rmin_glb_lt; lra|]. intros M' D. pose proof (Rmin_l d' (M - d_mmax m)). pose proof (Rmin_r d' (M - d_mmax m)).
    unfold cd_spec. destruct (Rlt_dec M (d_mmax m)); [lra|]. destruct (Rlt_dec M' (d_mmax m)); [exfalso; apply Rabs_def2 in D; lra|]. apply Q'; lra.
Qed.

(** *** The force *)
(** air density and speed of sound at an altitude in ft *)
Definition air_at (alt rho a : R) : Prop :=
  density NP (Fin (alt * 0.3048)) (Fin 0) = Fin rho /\ vsound NP (Fin (alt * 0.3048)) (Fin 0) = Fin a.
(** dynamic pressure times wing area; speed in kt *)
Definition push (m : b4_drag) (rho tas : R) : R := 1 / 2 * rho * (tas * 0.514444) ^ 2 * d_S m.
(** what the method [clean] gives for numbers *)
Definition clean_of (m : b4_drag) (mass tas alt : R) (x : ext) : Prop :=
  b4_clean m (num_arg (Fin mass)) (num_arg (Fin tas)) (num_arg (Fin alt)) = num_arg x.

Lemma num_inj : forall x y, num_arg x = num_arg y -> x = y.
Proof. intros x y E. injection E as E. apply (f_equal (fun f => f 0%nat 0%nat)) in E. exact E. Qed.
Lemma air_unique : forall alt rho a, air_at alt rho a -> rho = rhoR (alt * ft) 0 /\ a = aR (alt * ft) 0.
Proof.
  intros alt rho a [E1 E2]. change 0.3048 with ft in *. rewrite density_NP in E1. rewrite vsound_NP in E2. injection E1 as E1. injection E2 as E2. auto.
Qed.
Lemma clean_num : forall m mass tas alt, (15 <= length (d_d m))%nat -> b4_clean m (num_arg mass) (num_arg tas) (num_arg alt) = num_arg (clean_row m mass tas alt).
Proof.
  intros m mass tas alt L. pose proof (clean_isc 1 (le_n 1) m _ _ _ _ _ _ L (num_isc 1 mass) (num_isc 1 tas) (num_isc 1 alt)) as K.
  unfold b4_clean in *. cbv zeta in *. apply one_row in K. exact K.
Qed.
Lemma clean_row_spec : forall m mass tas alt, usable_drag m -> 0 <= tas ->
  let q := push m (rhoR (alt * ft) 0) tas in
  clean_row m (Fin mass) (Fin tas) (Fin alt) = Fin (cd_spec m (mass * 9.80665 / Rmax q 0.001) (tas * 0.514444 / aR (alt * ft) 0) * q).
Proof.
  intros m mass tas alt U Ht q. unfold clean_row, mach_row, cl_row, qS_row. cbn [emul]. rewrite tas2mach_NP, density_NP. cbn [emul epowi emax].
  assert (Q : 0.5 * rhoR (alt * ft) 0 * (tas * kts) ^ 2 * d_S m = q) by (unfold q, push; change kts with 0.514444; replace 0.5 with (1 / 2) by (qr; lra); reflexivity). rewrite Q.
  assert (R0 : 0 < Rmax q 1e-3) by (apply Rlt_le_trans with 1e-3; [qr; lra|apply Rmax_r]).
  rewrite ediv_fin by lra. rewrite cd_row_spec; [| assumption |].
  - cbn [emul]. replace 0.001 with 1e-3 by (qr; lra). reflexivity.
  - pose proof (aR_pos (alt * ft) 0). apply Rlt_le_trans with 0; [lra|]. apply Rmult_le_pos; [change kts with 0.514444; qr; lra|left; apply Rinv_0_lt_compat; auto].
Qed.
(** Drag is the drag coefficient times dynamic pressure times area. *)
Theorem C100_drag : forall m mass tas alt rho a x, usable_drag m -> 0 <= tas -> air_at alt rho a ->
  let q := push m rho tas in
  (clean_of m mass tas alt x <-> x = Fin (cd_spec m (mass * 9.80665 / Rmax q 0.001) (tas * 0.514444 / a) * q)).
Proof.
  intros m mass tas alt rho a x U Ht A q. apply air_unique in A. destruct A as [-> ->]. unfold q, clean_of.
  rewrite clean_num by apply U. rewrite clean_row_spec by assumption. split; [intros E; apply num_inj in E; auto|intros ->; reflexivity].
Qed.
(** No drag at rest. *)
Theorem C100_rest : forall m mass alt x, usable_drag m -> clean_of m mass 0 alt x -> x = Fin 0.
Proof.
  intros m mass alt x U E. pose proof (C100_drag m mass 0 alt _ _ x U (Rle_refl 0) (conj (density_NP _ _) (vsound_NP _ _))) as K.
  apply K in E. rewrite E. unfold push. f_equal. rewrite !Rmult_0_l. ring.
Qed.
(** Drag does not fall with mass. *)
Theorem C100_mass_monotone : forall m mass mass' tas alt x x', usable_drag m -> 0 <= d_scalar m -> 0 <= d_S m -> (forall i, 0 <= co m i) ->
  0 <= tas -> 0 <= mass <= mass' -> clean_of m mass tas alt x -> clean_of m mass' tas alt x' -> fle x x'.
Proof.
  intros m mass mass' tas alt x x' U Hs HS Hc Ht Hm E E'.
  assert (A : air_at alt (rhoR (alt * ft) 0) (aR (alt * ft) 0)) by (split; [apply density_NP|apply vsound_NP]).
  apply (C100_drag m _ _ _ _ _ _ U Ht A) in E, E'. subst. set (q := push m (rhoR (alt * ft) 0) tas).
  assert (Q : 0 <= q).
  { unfold q, push. pose proof (rhoR_pos (alt * ft) 0). apply Rmult_le_pos; auto. apply Rmult_le_pos; [lra|apply pow2_ge_0]. }
  assert (R0 : 0 < Rmax q 0.001) by (apply Rlt_le_trans with 0.001; [qr; lra|apply Rmax_r]).
  assert (I0 : 0 < / Rmax q 0.001) by (apply Rinv_0_lt_compat; auto).
  assert (M0 : 0 <= tas * 0.514444 / aR (alt * ft) 0).
  { pose proof (aR_pos (alt * ft) 0). apply Rmult_le_pos; [qr; lra|left; apply Rinv_0_lt_compat; auto]. }
  cbn. apply Rmult_le_compat_r; auto.
  apply (C100_lift_monotone m (mass * 9.80665 / Rmax q 0.001) (mass' * 9.80665 / Rmax q 0.001) (tas * 0.514444 / aR (alt * ft) 0)
    (Fin (cd_spec m (mass * 9.80665 / Rmax q 0.001) _)) (Fin (cd_spec m (mass' * 9.80665 / Rmax q 0.001) _)) U Hs Hc M0); try (apply cd_of_spec; auto; lra).
  split; [apply Rmult_le_pos; [qr; lra|lra]|apply Rmult_le_compat_r; [lra|qr; lra]].
Qed.
(** It is never negative. *)
Theorem C100_nonnegative : forall m mass tas alt x, usable_drag m -> 0 <= d_scalar m -> 0 <= d_S m -> (forall i, 0 <= co m i) ->
  0 <= tas -> 0 <= mass -> clean_of m mass tas alt x -> fle (Fin 0) x.
Proof.
  intros m mass tas alt x U Hs HS Hc Ht Hm E. set (q := push m (rhoR (alt * 0.3048) 0) tas).
  pose proof (proj2 (C100_drag m 0 tas alt _ _ _ U Ht (conj (density_NP _ _) (vsound_NP _ _))) eq_refl) as E0. fold q in E0.
  pose proof (C100_mass_monotone m 0 mass tas alt _ _ U Hs HS Hc Ht (conj (Rle_refl 0) Hm) E0 E) as K. destruct x as [D| | |]; cbn in K |- *; try exact K.
  apply Rle_trans with (2 := K). apply Rmult_le_pos.
  - replace (0 * 9.80665 / Rmax q 0.001) with 0 by (unfold Rdiv; ring). pose proof (aR_pos (alt * 0.3048) 0) as Pa.
    assert (M0 : 0 <= tas * 0.514444 / aR (alt * 0.3048) 0) by (apply Rmult_le_pos; [qr; lra|left; apply Rinv_0_lt_compat; auto]).
    pose proof (C100_mach_monotone m 0 0 _ _ _ U Hs Hc (conj (Rle_refl 0) M0) (cd_of_spec m 0 0 U ltac:(lra)) (cd_of_spec m 0 _ U (Rlt_le_trans (-1) 0 _ ltac:(lra) M0))) as Q. cbn in Q.
    apply Rle_trans with (2 := Q). unfold cd_spec. destruct U as [_ Um].
    destruct (Rlt_dec 0 (d_mmax m)) as [_|Z]; [|exfalso; apply Z; apply Rlt_le_trans with (2 := proj1 Um); qr; lra].
    unfold cd_low, pg. cbv zeta. replace (1 - 0 * 0) with 1 by ring. rewrite sqrt_1, Rinv_1, !pow1. apply Rmult_le_pos; auto.
    pose proof (Hc 0%nat); pose proof (Hc 1%nat); pose proof (Hc 2%nat); pose proof (Hc 3%nat); pose proof (Hc 4%nat). lra.
  - unfold q, push. pose proof (rhoR_pos (alt * 0.3048) 0). apply Rmult_le_pos; auto. apply Rmult_le_pos; [lra|apply pow2_ge_0].
Qed.

(** ** C102, drag: points of a trajectory *)
(** a two-dimensional array with one column *)
Definition column_of (n : nat) (x : T AB) (f : nat -> ext) : Prop :=
  exists a, x = inr a /\ nd_dim a = 2%nat /\ nd_r a = n /\ nd_c a = 1%nat /\ forall i, (i < n)%nat -> nd_at a i 0%nat = f i.
(** a one-dimensional array *)
Definition array_of (n : nat) (x : T AB) (f : nat -> ext) : Prop :=
  exists a, x = inr a /\ nd_dim a = 1%nat /\ nd_r a = 1%nat /\ nd_c a = n /\ forall i, (i < n)%nat -> nd_at a 0%nat i = f i.
Definition is_number (x : T AB) : Prop := exists e, x = num_arg e.

Lemma col_idem : forall A (x : py (nd A)), col (col x) = col x.
Proof.
  intros A [e|a]; [reflexivity|]. cbn [col]. f_equal. unfold column. f_equal.
  - apply Nat.mul_1_r.
  - apply functional_extensionality. intros k. apply functional_extensionality. intros j. unfold flat at 1. cbn [nd_c nd_at]. rewrite Nat.div_1_r. reflexivity.
Qed.
Lemma points : forall n (x : T AB) b f, (1 < n)%nat -> isc n (item x) (b, f) -> b = true -> column_of n (item x) f.
Proof. intros n x b f Hn K ->. destruct (isc_full n _ _ f Hn K) as (a & Ha). exists a. exact Ha. Qed.
(** Drag of several points is a column with the drag of each point. *)
Theorem C102_drag : forall m n mass tas alt fm fv fa, (15 <= length (d_d m))%nat -> (1 < n)%nat ->
  argument n mass fm -> argument n tas fv -> argument n alt fa -> ~ (is_number mass /\ is_number tas /\ is_number alt) ->
  exists f, column_of n (b4_clean m mass tas alt) f /\
    forall i, (i < n)%nat -> b4_clean m (num_arg (fm i)) (num_arg (fv i)) (num_arg (fa i)) = num_arg (f i).
Proof.
  intros m n mass tas alt fm fv fa L Hn K1 K2 K3 N.
  destruct (arg_isc n _ _ ltac:(lia) K1) as (b1 & I1 & N1). destruct (arg_isc n _ _ ltac:(lia) K2) as (b2 & I2 & N2). destruct (arg_isc n _ _ ltac:(lia) K3) as (b3 & I3 & N3).
  exists (fun i => clean_row m (fm i) (fv i) (fa i)). split.
  - replace (b4_clean m mass tas alt) with (b4_clean m (col mass) (col tas) (col alt)) by (unfold b4_clean; rewrite !col_idem; reflexivity).
    pose proof (clean_isc n ltac:(lia) m _ _ _ _ _ _ L I1 I2 I3) as K. cbn [fst snd] in K. unfold b4_clean in *. cbv zeta in *. apply (points n _ _ _ Hn K).
    destruct b1; [reflexivity|]. destruct b2; [reflexivity|]. destruct b3; [reflexivity|]. exfalso. apply N.
    destruct (N1 eq_refl) as (e1 & E1 & _), (N2 eq_refl) as (e2 & E2 & _), (N3 eq_refl) as (e3 & E3 & _). repeat split; eexists; eassumption.
  - intros i Hi. apply clean_num. assumption.
Qed.
(** The result is never an array of the shape of the arguments. *)
Theorem C102_shape_refuted : forall m n mass tas alt fm fv fa, (15 <= length (d_d m))%nat -> (1 < n)%nat ->
  argument n mass fm -> argument n tas fv -> argument n alt fa -> ~ (is_number mass /\ is_number tas /\ is_number alt) ->
  forall f, ~ array_of n (b4_clean m mass tas alt) f.
Proof.
  intros m n mass tas alt fm fv fa L Hn K1 K2 K3 N f (a & E & D & _). destruct (C102_drag m n mass tas alt fm fv fa L Hn K1 K2 K3 N) as (g & (a' & E' & D' & _) & _).
  rewrite E in E'. injection E' as <-. lia.
Qed.

(** ** Examples *)
Definition d1 : b4_drag := mkB4d 1 [0.02; 0; 0; 0; 0; 0.03; 0; 0; 0; 0; 0; 0; 0; 0; 0.001] 0.82 122.6.
Example C100_ex : usable_drag d1 /\ 0 <= d_scalar d1 /\ 0 <= d_S d1 /\ (forall i, 0 <= co d1 i) /\ cd_low d1 0.5 0 = 0.027515625 /\
  (exists x, clean_of d1 60000 450 35000 x /\ finite x) /\ (exists x, cd_of d1 0.5 1.2 x /\ finite x).
Proof.
  assert (U : usable_drag d1) by (split; [cbn; lia|cbn; qr; lra]).
  split; [exact U|]. split; [cbn; lra|]. split; [cbn; qr; lra|]. split.
  { intros i. unfold co. do 15 (destruct i as [|i]; [cbn; qr; lra|]). destruct i; cbn; lra. }
  split; [unfold cd_low, pg, co; cbn [nth d_d d1 d_scalar]; replace (1 - 0 * 0) with 1 by ring; rewrite sqrt_1, Rinv_1; qr; field|]. split.
  - eexists. split; [apply (C100_drag d1 60000 450 35000 _ _ _ U ltac:(lra) (conj (density_NP _ _) (vsound_NP _ _))); reflexivity|]. eexists; reflexivity.
  - eexists. split; [apply (C100_coefficient d1 0.5 1.2 _ U ltac:(qr; lra)); reflexivity|]. eexists; reflexivity.
Qed.
Example C102_drag_ex : exists f, column_of 2 (b4_clean d1 (num_arg (Fin 60000)) (inr (vector NaN [Fin 250; Fin 450])) (inr (vector NaN [Fin 0; Fin 35000]))) f /\
  b4_clean d1 (num_arg (Fin 60000)) (num_arg (Fin 450)) (num_arg (Fin 35000)) = num_arg (f 1%nat).
Proof.
  destruct (C102_drag d1 2 (num_arg (Fin 60000)) (inr (vector NaN [Fin 250; Fin 450])) (inr (vector NaN [Fin 0; Fin 35000])) (fun _ => Fin 60000)
    (fun i => nth i [Fin 250; Fin 450] NaN) (fun i => nth i [Fin 0; Fin 35000] NaN)) as (f & K & V).
  - cbn; lia.
  - lia.
  - left. exists (Fin 60000). auto.
  - right. exists NaN, [Fin 250; Fin 450]. auto.
  - right. exists NaN, [Fin 0; Fin 35000]. auto.
  - intros (_ & (e & E) & _). discriminate E.
  - exists f. split; [exact K|]. apply (V 1%nat). lia.
Qed.
