(** * Properties C41-C45 and C64-C66: flight phase identification *)
From Coq Require Import Reals List Bool ZArith Lra Lia Psatz.
From Coquelicot Require Rcomplements.
From Interval Require Import Tactic.
From Verif Require Import Num NumFacts SpecNum Fuzzy FuzzyFacts Fuel Phase PhaseFacts PhaseFacts2.
Import ListNotations.
Open Scope R_scope.

(** ** C45 *)
Theorem C45_membership_functions :
  (forall x m s, s <> 0 -> flt (Fin 0) (gaussmf x m s) /\ fle (gaussmf x m s) (Fin 1) /\ gaussmf m m s = Fin 1) /\
  (forall x y m s, s <> 0 -> Rabs (x - m) <= Rabs (y - m) -> fle (gaussmf y m s) (gaussmf x m s)) /\
  (forall x a b, a < b ->
     fle (Fin 0) (zmf x a b) /\ fle (zmf x a b) (Fin 1) /\ fle (Fin 0) (smf x a b) /\ fle (smf x a b) (Fin 1) /\
     eadd (zmf x a b) (smf x a b) = Fin 1 /\
     (x <= a -> zmf x a b = Fin 1 /\ smf x a b = Fin 0) /\ (b <= x -> zmf x a b = Fin 0 /\ smf x a b = Fin 1)) /\
  (forall x y a b, a < b -> x <= y -> fle (zmf y a b) (zmf x a b) /\ fle (smf x a b) (smf y a b)).
Proof.
  split; [|split; [|split]].
  - intros x m s Hs. rewrite !gauss_eq by auto. cbn. pose proof (gaussR_range x m s Hs).
    repeat split; try lra. rewrite gaussR_center. auto.
  - intros. rewrite !gauss_eq by auto. cbn. apply gaussR_mono; auto.
  - intros x a b H. rewrite zmf_eq, smf_eq by auto. pose proof (zR_range x a b H). cbn.
    repeat split; try lra.
    + f_equal; lra.
    + f_equal. apply zR_lo; auto.
    + f_equal. rewrite zR_lo; lra.
    + f_equal. apply zR_hi; auto.
    + f_equal. rewrite zR_hi; lra.
  - intros x y a b H Hxy. rewrite !zmf_eq, !smf_eq by auto. cbn. pose proof (zR_mono x y a b H Hxy). lra.
Qed.
(** interpolation of a sampled membership function: at a sample its value, between two samples a
    convex combination of both *)
Theorem C45_interpolation : forall f a s n x, 0 < s -> a <= x <= a + INR n * s ->
  exists i u, (i <= n)%nat /\ 0 <= u <= 1 /\ x = a + INR i * s + u * s /\ (i = n -> u = 0) /\
    interp_membership (map (fun j => (a + INR j * s, f (a + INR j * s))) (seq 0 (S n))) x
      = (1 - u) * f (a + INR i * s) + u * f (a + INR (S i) * s).
Proof.
  intros f a s n x Hs Hx.
  destruct (interp_grid f a s n x Hs Hx) as (i & u & Hi & Hu & [(H1 & H2 & H3 & H4)|(H1 & H2 & H3 & H4)]).
  - exists i, u. repeat split; auto; try lra. intros; lia.
  - exists i, u. subst u. repeat split; auto; try lra.
    + rewrite H3. unfold gridpt. ring.
    + etransitivity; [apply H4|]. unfold gridpt. ring.
Qed.
(** The assertion in the code also admits a = b, where smf is not a number *)
Theorem C45_degenerate_refuted : smf 5 5 5 = NaN /\ zmf 5 5 5 = Fin 0.
Proof.
  assert (E : ediv (Fin (5 - 5)) (Fin (5 - 5)) = NaN) by (unfold ediv; destruct (Req_EM_T (5 - 5) 0); auto; lra).
  unfold smf, zmf. rewrite E. repeat rewrite Rleb_true by lra. auto.
Qed.
(** a quarter of the way *)
Example C45_ex : zmf 50 0 200 = Fin 0.875 /\ smf 50 0 200 = Fin 0.125.
Proof.
  rewrite zmf_eq, smf_eq by lra. unfold zR. destruct (Rle_dec 50 0); [lra|]. destruct (Rle_dec 200 50); [lra|].
  destruct (Rlt_dec 50 ((0 + 200) / 2)); [|lra]. split; f_equal; lra.
Qed.

(** ** C42 *)
Theorem C42_strongest_rule_wins : forall alt spd roc,
  exists k, (k < 5)%nat /\
    (forall j, (j < 5)%nat -> nth j (rules alt spd roc) 0 <= nth k (rules alt spd roc) 0) /\
    (forall j, (k < j < 5)%nat -> nth j (rules alt spd roc) 0 < nth k (rules alt spd roc) 0) /\
    0.01 <= nth k (rules alt spd roc) 0 /\
    Rabs (state_raw alt spd roc - INR (S k)) < 1 / 2 /\
    window_label alt spd roc = inr (nth k [GND; CL; DE; CR; LVL] NA).
Proof.
  intros alt spd roc. destruct (strongest_exists (rules alt spd roc)) as [k Hk]. exists k.
  pose proof (window_label_strongest _ _ _ k Hk) as [H1 H2]. pose proof Hk as (A & B & D).
  destruct (rules_some alt spd roc) as (j & Hj & Hr). pose proof (B j Hj). repeat split; auto. lra.
Qed.

(** readings of one membership *)
Lemma clamp_alt : forall v, 0 <= clamp v alt_range <= 39999.
Proof.
  intros. rewrite alt_range_eq. pose proof (clamp_range v 0 1 39999 ltac:(lia) ltac:(lra)) as H.
  rewrite gridpt_Z in H by lia. lra.
Qed.

Transparent alt_lo alt_hi alt_gnd roc_zero roc_plus roc_minus spd_lo spd_md spd_hi.
Lemma near : forall a b d, Rabs (a - b) <= d -> b - d <= a <= b + d.
Proof. intros a b d H. apply Rcomplements.Rabs_le_between in H. lra. Qed.

Transparent clamp.
Lemma clamp_lo : forall v c a s n, (0 <= n)%Z -> c <= v -> c <= a + IZR n * s -> c <= clamp v (arange a s (Z.succ n)).
Proof.
  intros. unfold clamp. rewrite arange_hd, arange_last by auto.
  eapply Rle_trans; [|apply Rmax_l]. apply Rmin_glb; auto.
Qed.
Lemma clamp_hi : forall v c a s n, (0 <= n)%Z -> v <= c -> a <= c -> clamp v (arange a s (Z.succ n)) <= c.
Proof.
  intros. unfold clamp. rewrite arange_hd, arange_last by auto.
  apply Rmax_lub; auto. eapply Rle_trans; [apply Rmin_l|auto].
Qed.
Opaque clamp.

(** memberships that vanish or are small *)
Lemma gnd_zero : forall v, 201 <= v -> interp_membership alt_gnd (clamp v alt_range) <= 0.
Proof.
  intros v Hv. mem. assert (201 <= clamp v (arange 0 1 (Z.succ 39999))) by (apply clamp_lo; [lia|lra|lra]).
  apply member_le; [lia|lra|]. intros y Hy Hn. apply near in Hn. rewrite zmf_eq by lra. cbn [fval].
  rewrite zR_hi; lra.
Qed.
Lemma plus_zero : forall v, v <= 9.9 -> interp_membership roc_plus (clamp v roc_range) <= 0.
Proof.
  intros v Hv. mem. assert (clamp v (arange (-4000) 0.1 (Z.succ 79999)) <= 9.9) by (apply clamp_hi; [lia|lra|lra]).
  apply member_le; [lia|lra|]. intros y Hy Hn. apply near in Hn. rewrite smf_eq by lra. cbn [fval].
  rewrite zR_lo; lra.
Qed.
Lemma minus_zero : forall v, -9.9 <= v -> interp_membership roc_minus (clamp v roc_range) <= 0.
Proof.
  intros v Hv. mem. assert (-9.9 <= clamp v (arange (-4000) 0.1 (Z.succ 79999))) by (apply clamp_lo; [lia|lra|lra]).
  apply member_le; [lia|lra|]. intros y Hy Hn. apply near in Hn. rewrite zmf_eq by lra. cbn [fval].
  rewrite zR_hi; lra.
Qed.
Lemma zero_small : forall v, 310 <= Rabs v -> interp_membership roc_zero (clamp v roc_range) <= 0.009.
Proof.
  intros v Hv. mem.
  assert (H : 310 <= clamp v (arange (-4000) 0.1 (Z.succ 79999)) \/ clamp v (arange (-4000) 0.1 (Z.succ 79999)) <= -310).
  { unfold Rabs in Hv. destruct (Rcase_abs v).
    - right. apply clamp_hi; [lia|lra|lra].
    - left. apply clamp_lo; [lia|lra|lra]. }
  apply member_le; [lia|lra|]. intros y Hy Hn. apply near in Hn. rewrite gauss_eq by lra. cbn [fval].
  apply Rle_trans with (gaussR 309.5 0 100); [|unfold gaussR; interval].
  apply gaussR_mono; [lra|]. rewrite (Rabs_pos_eq (309.5 - 0)) by lra. unfold Rabs; destruct (Rcase_abs _); lra.
Qed.
Lemma spd_hi_small : forall v, v <= 290 -> interp_membership spd_hi (clamp v spd_range) <= 0.009.
Proof.
  intros v Hv. mem. assert (clamp v (arange 0 1 (Z.succ 599)) <= 290) by (apply clamp_hi; [lia|lra|lra]).
  apply member_le; [lia|lra|]. intros y Hy Hn. apply near in Hn. rewrite gauss_eq by lra. cbn [fval].
  apply Rle_trans with (gaussR 291 600 100); [|unfold gaussR; interval].
  apply gaussR_mono; [lra|]. rewrite (Rabs_left1 (291 - 600)) by lra. unfold Rabs; destruct (Rcase_abs _); lra.
Qed.
Lemma spd_lo_small : forall v, 160 <= v -> interp_membership spd_lo (clamp v spd_range) <= 0.009.
Proof.
  intros v Hv. mem. assert (160 <= clamp v (arange 0 1 (Z.succ 599))) by (apply clamp_lo; [lia|lra|lra]).
  apply member_le; [lia|lra|]. intros y Hy Hn. apply near in Hn. rewrite gauss_eq by lra. cbn [fval].
  apply Rle_trans with (gaussR 159 0 50); [|unfold gaussR; interval].
  apply gaussR_mono; [lra|]. rewrite (Rabs_pos_eq (159 - 0)) by lra. unfold Rabs; destruct (Rcase_abs _); lra.
Qed.

Lemma Rmin3_le : forall a b c, Rmin (Rmin a b) c <= a /\ Rmin (Rmin a b) c <= b /\ Rmin (Rmin a b) c <= c.
Proof.
  intros. pose proof (Rmin_l (Rmin a b) c). pose proof (Rmin_r (Rmin a b) c). pose proof (Rmin_l a b). pose proof (Rmin_r a b). lra.
Qed.
Opaque alt_lo alt_hi alt_gnd roc_zero roc_plus roc_minus spd_lo spd_md spd_hi.

(** ** C66: what a label implies *)
Theorem C66_labels_plausible : forall alt spd roc,
  (window_label alt spd roc = inr CL -> 9.9 < roc) /\
  (window_label alt spd roc = inr DE -> roc < -9.9) /\
  (window_label alt spd roc = inr GND -> alt < 201 /\ spd < 160 /\ Rabs roc < 310) /\
  (window_label alt spd roc = inr CR -> 290 < spd /\ Rabs roc < 310) /\
  (window_label alt spd roc = inr LVL -> Rabs roc < 310) /\
  (310 <= roc -> window_label alt spd roc = inr CL) /\
  (roc <= -310 -> window_label alt spd roc = inr DE).
Proof.
  intros alt spd roc.
  destruct (C42_strongest_rule_wins alt spd roc) as (k & Hk & Hmax & _ & Hlo & _ & E). rewrite E. clear E.
  pose proof (gnd_zero alt) as G. pose proof (plus_zero roc) as P. pose proof (minus_zero roc) as M.
  pose proof (zero_small roc) as Z. pose proof (spd_hi_small spd) as SH. pose proof (spd_lo_small spd) as SL.
  clear Hmax. unfold rules in Hlo.
  set (x1 := interp_membership alt_gnd (clamp alt alt_range)) in *.
  set (x2 := interp_membership alt_lo (clamp alt alt_range)) in *.
  set (x3 := interp_membership alt_hi (clamp alt alt_range)) in *.
  set (x4 := interp_membership spd_hi (clamp spd spd_range)) in *.
  set (x5 := interp_membership spd_md (clamp spd spd_range)) in *.
  set (x6 := interp_membership spd_lo (clamp spd spd_range)) in *.
  set (x7 := interp_membership roc_zero (clamp roc roc_range)) in *.
  set (x8 := interp_membership roc_plus (clamp roc roc_range)) in *.
  set (x9 := interp_membership roc_minus (clamp roc roc_range)) in *.
  clearbody x1 x2 x3 x4 x5 x6 x7 x8 x9.
  assert (NG : forall a b : R, (b <= a -> False) -> a < b) by (intros; destruct (Rlt_dec a b); auto; exfalso; apply H; lra).
  destruct k as [|[|[|[|[|k]]]]]; [| | | | |lia]; cbn [nth] in *;
  match type of Hlo with _ <= Rmin (Rmin ?a ?b) ?c => pose proof (Rmin3_le a b c) as (? & ? & ?) end;
  refine (conj _ (conj _ (conj _ (conj _ (conj _ (conj _ _)))))); intros HH; try discriminate HH; repeat apply conj; try (apply NG; intros Hc);
  try (specialize (G Hc); lra); try (specialize (P Hc); lra); try (specialize (M Hc); lra);
  try (specialize (Z Hc); lra); try (specialize (SH Hc); lra); try (specialize (SL Hc); lra); auto; exfalso;
  try (assert (Z1 : 310 <= Rabs roc) by (unfold Rabs; destruct (Rcase_abs roc); lra); specialize (Z Z1); lra);
  try (specialize (P ltac:(lra)); lra); try (specialize (M ltac:(lra)); lra).
Qed.
(** a jet climbing at 2000 ft/min is in climb at any altitude and speed *)
Example C66_ex : window_label 37000 450 2000 = inr CL.
Proof. apply (C66_labels_plausible 37000 450 2000). lra. Qed.

(** ** C64: the ground label depends on altitude above sea level *)
Transparent alt_lo alt_hi alt_gnd roc_zero roc_plus roc_minus spd_lo spd_md spd_hi.
Lemma spd0_lo : interp_membership spd_lo (clamp 0 spd_range) = 1.
Proof.
  mem. rewrite (member_at _ 0 0 1 599 0); [|lia|lra|lra]. rewrite gauss_eq by lra. cbn [fval]. apply gaussR_center.
Qed.
Lemma roc0_zero : interp_membership roc_zero (clamp 0 roc_range) = 1.
Proof.
  mem. rewrite (member_at _ 0 (-4000) 0.1 79999 40000); [|lia|lra|lra]. rewrite gauss_eq by lra. cbn [fval]. apply gaussR_center.
Qed.
Lemma alt0_gnd : interp_membership alt_gnd (clamp 0 alt_range) = 1.
Proof.
  mem. rewrite (member_at _ 0 0 1 39999 0); [|lia|lra|lra]. rewrite zmf_eq by lra. cbn [fval]. apply zR_lo; lra.
Qed.
Lemma s_md_0 : interp_membership spd_md (clamp 0 spd_range) < 1.
Proof.
  mem. rewrite (member_at _ 0 0 1 599 0); [|lia|lra|lra]. rewrite gauss_eq by lra. cbn [fval]. unfold gaussR. interval.
Qed.
Opaque alt_lo alt_hi alt_gnd roc_zero roc_plus roc_minus spd_lo spd_md spd_hi.

Theorem C64_parked_aircraft :
  window_label 0 0 0 = inr GND /\
  (forall alt spd roc, 201 <= alt -> window_label alt spd roc <> inr GND) /\
  (forall alt, 201 <= alt -> window_label alt 0 0 = inr LVL).
Proof.
  split; [|split].
  - apply (window_label_strongest 0 0 0 0). pose proof spd0_lo as S. pose proof roc0_zero as Z. pose proof alt0_gnd as A.
    pose proof (plus_zero 0 ltac:(lra)) as P. pose proof (minus_zero 0 ltac:(lra)) as M.
    pose proof (spd_hi_small 0 ltac:(lra)) as SH. pose proof s_md_0 as SM.
    assert (K : forall j, (0 < j < 5)%nat -> nth j (rules 0 0 0) 0 < nth 0 (rules 0 0 0) 0).
    { intros j Hj. unfold rules. rewrite S, Z, A. 
      set (x2 := interp_membership alt_lo (clamp 0 alt_range)) in *.
      set (x3 := interp_membership alt_hi (clamp 0 alt_range)) in *.
      set (x4 := interp_membership spd_hi (clamp 0 spd_range)) in *.
      set (x5 := interp_membership spd_md (clamp 0 spd_range)) in *.
      set (x8 := interp_membership roc_plus (clamp 0 roc_range)) in *.
      set (x9 := interp_membership roc_minus (clamp 0 roc_range)) in *.
      clearbody x2 x3 x4 x5 x8 x9.
      assert (E1 : Rmin (Rmin 1 1) 1 = 1) by (unfold Rmin; repeat destruct (Rle_dec _ _); lra).
      destruct j as [|[|[|[|[|j]]]]]; [lia| | | | |lia]; cbn [nth]; rewrite E1;
      match goal with |- Rmin (Rmin ?a ?b) ?c < _ => pose proof (Rmin3_le a b c) as (? & ? & ?) end; lra. }
    split; [lia|]. split; auto. intros j Hj. destruct (Nat.eq_dec j 0) as [->|N]; [lra|]. left. apply K; lia.
  - intros alt spd roc Ha E. apply C66_labels_plausible in E. lra.
  - intros alt Ha.
    destruct (C42_strongest_rule_wins alt 0 0) as (k & Hk & _ & _ & _ & _ & E). rewrite E.
    destruct (C66_labels_plausible alt 0 0) as (L1 & L2 & L3 & L4 & L5 & _). rewrite E in *.
    destruct k as [|[|[|[|[|k]]]]]; [| | | | |lia]; cbn [nth] in *; auto; exfalso.
    + specialize (L3 eq_refl). lra. + specialize (L1 eq_refl). lra. + specialize (L2 eq_refl). lra. + specialize (L4 eq_refl). lra.
Qed.
(** an aircraft parked at an airport 1998 ft above sea level is "in level flight" *)
Example C64_ex : window_label 1998 0 0 = inr LVL.
Proof. apply C64_parked_aircraft. lra. Qed.

(** ** C41 *)
(** sample i lies in the k-th time window: k*w <= t_i - t_0 < (k+1)*w *)
Definition in_window (w : R) (tr : list sample) (k : Z) (s : sample) : Prop :=
  IZR k * w <= s_t s - s_t (hd (mkSample 0 0 0 0) tr) < (IZR k + 1) * w.
Definition sample_at (tr : list sample) (i : nat) : sample := nth i tr (mkSample 0 0 0 0).
Definition time_sorted (tr : list sample) : Prop :=
  forall i j, (i <= j < length tr)%nat -> s_t (sample_at tr i) <= s_t (sample_at tr j).

Lemma floor_window : forall w x k, 0 < w -> (Int_part (x / w) = k <-> IZR k * w <= x < (IZR k + 1) * w).
Proof.
  intros w x k Hw. destruct (base_Int_part (x / w)) as [B1 B2].
  assert (E : x = x / w * w) by (field; lra). split.
  - intros <-. rewrite E at 2 3. nra.
  - intros H. assert (IZR k <= x / w < IZR k + 1) by (rewrite E in H; nra).
    assert (IZR (Int_part (x / w)) < IZR k + 1 /\ IZR k < IZR (Int_part (x / w)) + 1) as [H1 H2] by lra.
    rewrite <- plus_IZR in H1, H2. apply lt_IZR in H1, H2. lia.
Qed.

Lemma tw_of_window : forall w tr i k, 0 < w -> (i < length tr)%nat ->
  (tw_of w tr i = k <-> in_window w tr k (sample_at tr i)).
Proof.
  intros w tr i k Hw Hi. unfold tw_of, in_window, twindows, sample_at. destruct tr as [|s0 tr]; [cbn in Hi; lia|].
  cbn [hd]. rewrite (nth_indep _ 0%Z (Int_part ((s_t (mkSample 0 0 0 0) - s_t s0) / w))) by (rewrite map_length; auto).
  rewrite (map_nth (fun s => Int_part ((s_t s - s_t s0) / w))). apply floor_window; auto.
Qed.

(** the samples of the k-th window *)
Definition window_members (w : R) (tr : list sample) (k : Z) : list sample :=
  filter (fun s => Rleb (IZR k * w) (s_t s - s_t (hd (mkSample 0 0 0 0) tr))
                   && Rltb (s_t s - s_t (hd (mkSample 0 0 0 0) tr)) ((IZR k + 1) * w)) tr.

Lemma win_label_members : forall w tr k, 0 < w ->
  win_label w tr k = window_label (mean (map s_alt (window_members w tr k)))
    (mean (map s_spd (window_members w tr k))) (mean (map s_roc (window_members w tr k))).
Proof.
  intros w tr k Hw. unfold win_label.
  assert (E : select (map (Z.eqb k) (twindows w tr)) tr = window_members w tr k).
  { unfold twindows, window_members. destruct tr as [|s0 tr]; auto. rewrite select_map. apply filter_ext.
    intros s. cbn [hd]. pose proof (floor_window w (s_t s - s_t s0) k Hw) as F.
    destruct (Z.eqb_spec k (Int_part ((s_t s - s_t s0) / w))) as [H|H].
    - symmetry in H. apply F in H. rewrite Rleb_true, Rltb_true by lra. auto.
    - symmetry. apply not_true_is_false. intros C. apply andb_prop in C. destruct C as [C1 C2]. apply H. symmetry. apply F.
      destruct (Rleb_spec (IZR k * w) (s_t s - s_t s0)); [|discriminate].
      destruct (Rltb_spec (s_t s - s_t s0) ((IZR k + 1) * w)); [|discriminate]. lra. }
  cbv zeta. rewrite E. reflexivity.
Qed.

Theorem C41_labels_per_window : forall w tr, 0 < w -> tr <> [] -> time_sorted tr ->
  exists labels, phaselabel w tr = inr labels /\ length labels = length tr /\
    forall i k, (i < length tr)%nat -> in_window w tr k (sample_at tr i) ->
      (in_window w tr k (sample_at tr (length tr - 1)) -> nth i labels NA = NA) /\
      (~ in_window w tr k (sample_at tr (length tr - 1)) ->
         In (nth i labels NA) [GND; CL; DE; CR; LVL] /\
         inr (nth i labels NA) = window_label (mean (map s_alt (window_members w tr k)))
            (mean (map s_spd (window_members w tr k))) (mean (map s_roc (window_members w tr k)))).
Proof.
  intros w tr Hw Hne Hs.
  assert (Hn : (0 < length tr)%nat) by (destruct tr; [tauto|cbn; lia]).
  assert (Hsorted : forall i j, (i <= j < length tr)%nat -> (tw_of w tr i <= tw_of w tr j)%Z).
  { intros i j Hij. pose proof (proj1 (tw_of_window w tr i _ Hw ltac:(lia)) eq_refl) as A.
    pose proof (proj1 (tw_of_window w tr j _ Hw ltac:(lia)) eq_refl) as B.
    unfold in_window in *. specialize (Hs i j Hij). apply Zlt_succ_le. apply lt_IZR. rewrite succ_IZR.
    apply (Rmult_lt_reg_r w); auto. lra. }
  assert (Hpos : forall i, (i < length tr)%nat -> (0 <= tw_of w tr i)%Z).
  { intros i Hi. assert (tw_of w tr 0 = 0)%Z as E.
    { apply tw_of_window; auto. unfold in_window, sample_at. destruct tr; [cbn in Hn; lia|]. cbn. lra. }
    rewrite <- E. apply Hsorted. lia. }
  destruct (phaselabel_spec w tr Hsorted) as (labels & E & L & H); auto.
  { intros k. rewrite win_label_members by auto.
    edestruct C42_strongest_rule_wins as (r & _ & _ & _ & _ & _ & Er). rewrite Er. eauto. }
  exists labels. split; auto. split; auto. intros i k Hi Hk.
  apply tw_of_window in Hk; auto. specialize (H i Hi). subst k.
  assert (Hd : in_window w tr (tw_of w tr i) (sample_at tr (length tr - 1)) <-> tw_of w tr i = tw_of w tr (length tr - 1)).
  { rewrite <- (tw_of_window w tr (length tr - 1) (tw_of w tr i)) by (auto; lia). split; auto. }
  rewrite Hd. split.
  - intros Ht. apply H; auto.
  - intros Ht. assert (tw_of w tr i < tw_of w tr (length tr - 1))%Z.
    { pose proof (Hsorted i (length tr - 1)%nat ltac:(lia)). lia. }
    pose proof (proj1 H H0) as HW. rewrite win_label_members in HW by auto. split; auto.
    edestruct C42_strongest_rule_wins as (r & Hr & _ & _ & _ & _ & Er). rewrite Er in HW.
    injection HW as <-. destruct r as [|[|[|[|[|r]]]]]; cbn; try lia; tauto.
Qed.
(** a trajectory shorter than one window gets no label at all *)
Corollary C41_short_trajectory_unlabelled : forall w tr, 0 < w -> tr <> [] -> time_sorted tr ->
  s_t (sample_at tr (length tr - 1)) - s_t (sample_at tr 0) < w ->
  phaselabel w tr = inr (repeat NA (length tr)).
Proof.
  intros w tr Hw Hne Hs Hd. destruct (C41_labels_per_window w tr Hw Hne Hs) as (labels & E & L & H).
  rewrite E. f_equal. rewrite <- L. assert (Hn : (0 < length tr)%nat) by (destruct tr; [tauto|cbn; lia]).
  assert (E0 : s_t (hd (mkSample 0 0 0 0) tr) = s_t (sample_at tr 0)) by (destruct tr; auto).
  assert (K : forall i, (i < length tr)%nat -> in_window w tr 0 (sample_at tr i)).
  { intros i Hi. unfold in_window. rewrite E0. pose proof (Hs 0%nat i ltac:(lia)). pose proof (Hs i (length tr - 1)%nat ltac:(lia)). lra. }
  assert (A : forall i, (i < length labels)%nat -> nth i labels NA = NA).
  { intros i Hi. rewrite L in Hi. apply (H i 0%Z Hi (K i Hi)). apply K. lia. }
  clear -A. induction labels as [|a l IH]; auto. cbn. f_equal; [apply (A 0%nat); cbn; lia|].
  apply IH. intros i Hi. apply (A (S i)). cbn; lia.
Qed.

(** concrete trajectory: one sample a minute; descending, then climbing, then stop *)
Definition dip : list sample :=
  [mkSample 0 10000 300 (-2000); mkSample 60 8000 300 2000; mkSample 120 10000 300 0].
Lemma dip_sorted : time_sorted dip.
Proof.
  intros i j H. cbn [length dip] in H. unfold sample_at, dip.
  destruct i as [|[|[|i]]]; destruct j as [|[|[|j]]]; cbn; try lra; lia.
Qed.
Lemma win_mem : forall w tr k s0, 0 < w -> hd (mkSample 0 0 0 0) tr = s0 ->
  window_members w tr k = filter (fun s => Rleb (IZR k * w) (s_t s - s_t s0) && Rltb (s_t s - s_t s0) ((IZR k + 1) * w)) tr.
Proof. intros. subst. reflexivity. Qed.

Example C41_ex : phaselabel 60 dip = inr [DE; CL; NA].
Proof.
  destruct (C41_labels_per_window 60 dip ltac:(lra) ltac:(discriminate) dip_sorted) as (labels & E & L & H).
  rewrite E. f_equal.
  assert (W0 : in_window 60 dip 0 (sample_at dip 0)) by (unfold in_window; cbn; lra).
  assert (W1 : in_window 60 dip 1 (sample_at dip 1)) by (unfold in_window; cbn; lra).
  assert (W2 : in_window 60 dip 2 (sample_at dip 2)) by (unfold in_window; cbn; lra).
  assert (M0 : window_members 60 dip 0 = [mkSample 0 10000 300 (-2000)]).
  { unfold window_members, dip. cbn [filter hd s_t].
    rewrite (Rleb_true (0 * 60) (0 - 0)), (Rltb_true (0 - 0)), (Rltb_false (60 - 0)), (Rltb_false (120 - 0)) by lra.
    rewrite !andb_false_r. reflexivity. }
  assert (M1 : window_members 60 dip 1 = [mkSample 60 8000 300 2000]).
  { unfold window_members, dip. cbn [filter hd s_t].
    rewrite (Rleb_false (1 * 60) (0 - 0)), (Rleb_true (1 * 60) (60 - 0)), (Rltb_true (60 - 0)), (Rltb_false (120 - 0)) by lra.
    rewrite !andb_false_r. reflexivity. }
  destruct (proj2 (H 0%nat 0%Z ltac:(cbn; lia) W0)) as [_ H0].
  { unfold in_window; cbn; lra. }
  destruct (proj2 (H 1%nat 1%Z ltac:(cbn; lia) W1)) as [_ H1].
  { unfold in_window; cbn; lra. }
  pose proof (proj1 (H 2%nat 2%Z ltac:(cbn; lia) W2) W2) as H2.
  rewrite M0 in H0. rewrite M1 in H1.
  assert (D : window_label (mean [10000]) (mean [300]) (mean [-2000]) = inr DE).
  { apply C66_labels_plausible. unfold mean; cbn. lra. }
  assert (U : window_label (mean [8000]) (mean [300]) (mean [2000]) = inr CL).
  { apply C66_labels_plausible. unfold mean; cbn. lra. }
  cbn [map s_alt s_spd s_roc] in H0, H1. rewrite D in H0. rewrite U in H1.
  destruct labels as [|a [|b [|c [|]]]]; cbn in L; try discriminate. cbn in H0, H1, H2. congruence.
Qed.

(** ** C65: reported phase starts need not be in flight order *)
Theorem C65_phase_order_refuted : exists tr idx cr de, time_sorted tr /\
  flight_phase_indices tr = inr idx /\ i_CR idx = Some cr /\ i_DE idx = Some de /\ (de < cr)%nat.
Proof.
  eexists dip, _, _, _. split; [apply dip_sorted|]. split.
  - unfold flight_phase_indices. rewrite C41_ex. reflexivity.
  - cbn. repeat split. lia.
Qed.
Example C65_ex : get_cl [DE; CL; NA] = Some (1, 1)%nat. Proof. reflexivity. Qed.

(** ** C43 *)
Theorem C43_unsorted_loses_alignment_refuted :
  exists tr labels, phaselabel 60 tr = inr labels /\ length tr = 4%nat /\ length labels = 3%nat.
Proof.
  set (tr := [mkSample 0 10000 300 0; mkSample 70 10000 300 0; mkSample 10 10000 300 0; mkSample 130 10000 300 0]).
  assert (T : twindows 60 tr = [0; 1; 0; 2]%Z).
  { assert (F : forall x k, IZR k * 60 <= x < (IZR k + 1) * 60 -> Int_part (x / 60) = k)
      by (intros; apply floor_window; lra).
    unfold twindows, tr. cbn [map s_t].
    rewrite (F (0 - 0) 0%Z), (F (70 - 0) 1%Z), (F (10 - 0) 0%Z), (F (130 - 0) 2%Z) by lra. reflexivity. }
  assert (W : forall a s r, exists lab, window_label a s r = inr lab).
  { intros a s r. destruct (C42_strongest_rule_wins a s r) as (k & _ & _ & _ & _ & _ & E). eauto. }
  exists tr. unfold phaselabel. rewrite T. cbn [zmaxl fold_left].
  change (Z.to_nat (Z.max (Z.max (Z.max 0 1) 0) 2)) with 2%nat. cbn [seq fold_left length tr].
  unfold label_window at 2. cbn [existsb Z.eqb orb Z.of_nat map].
  match goal with |- context [window_label ?a ?b ?c] => destruct (W a b c) as [l0 E0]; rewrite E0 end.
  cbn -[window_label mean].
  match goal with |- context [window_label ?a ?b ?c] => destruct (W a b c) as [l1 E1]; rewrite E1 end.
  eexists. repeat split.
Qed.

(** ** C44 *)
Lemma roll_back_start : forall tr m v lo, lo = roll_back tr (rev (seq 0 m)) v 0 ->
  lo = 0%nat \/ ((lo < m)%nat /\ forall i, (lo <= i < m)%nat -> 5 <= g tr s_spd i).
Proof.
  intros tr [|m] v lo E; [left; exact E|].
  rewrite seq_S, rev_app_distr in E. cbn [rev app Nat.add roll_back] in E.
  destruct (Rltb (g tr s_spd m) 30 && Rltb v (g tr s_spd m)); [auto|].
  destruct (Rltb_spec (g tr s_spd m) 5) as [L|L]; [auto|].
  destruct (roll_back_spec tr m m (g tr s_spd m) ltac:(lia) ltac:(auto) lo E) as [A B].
  right. split; [lia|]. intros i Hi. destruct (Nat.eq_dec i m); [subst; lra|apply B; lia].
Qed.

Theorem C44_takeoff_indices : forall tr a b c, tr <> [] -> get_to_ic tr = Some (a, b, c) ->
  (a + 5 <= b)%nat /\ (b + 2 <= c)%nat /\ (c <= length tr)%nat /\
  s_t (sample_at tr (c - 1)) - s_t (sample_at tr a) <= 300 /\
  (forall i, (i < c)%nat -> s_alt (sample_at tr i) < 1500) /\
  200 <= s_alt (sample_at tr (c - 1)) /\
  10 < Rabs (s_alt (sample_at tr b) - s_alt (sample_at tr (b - 1))) /\
  (forall i, (a < i < b)%nat -> Rabs (s_alt (sample_at tr i) - s_alt (sample_at tr (i - 1))) <= 10) /\
  (a = 0%nat \/ forall i, (a <= i < c - 1)%nat -> 5 <= s_spd (sample_at tr i)).
Proof.
  intros tr a b c Hne H. assert (Hn : (0 < length tr)%nat) by (destruct tr; [tauto|cbn; lia]).
  unfold get_to_ic in H.
  pose proof (run_up_spec tr (length tr) 0 0 ltac:(lia) ltac:(intros; lia) ltac:(auto) ltac:(lia) Hn) as (R1 & R2 & R3).
  set (iend := run_up tr (seq 0 (length tr)) 0) in *.
  remember (roll_back tr (rev (seq 0 iend)) (g tr s_spd iend) 0) as lo eqn:Elo.
  pose proof (roll_back_start tr iend _ lo Elo) as RB.
  destruct (Rltb_spec 300 (g tr s_t iend - g tr s_t lo)) as [L1|L1]; [discriminate|].
  destruct (Nat.ltb_spec (iend - lo) 10) as [L2|L2]; [discriminate|].
  destruct (Rltb_spec (g tr s_alt iend) 200) as [L3|L3]; [discriminate|].
  pose proof (first_jump_spec tr (iend - (lo + 1)) (lo + 1) lo) as FJ. cbv zeta in FJ.
  set (lof := first_jump tr (seq (lo + 1) (iend - (lo + 1))) lo) in *.
  destruct (Nat.ltb_spec (lof - lo) 5) as [L4|L4]; [discriminate|].
  injection H as <- <- <-. destruct FJ as [FJ|(F1 & F2 & F3)]; [lia|].
  replace (iend + 1 - 1)%nat with iend by lia. unfold sample_at. unfold g in *.
  refine (conj _ (conj _ (conj _ (conj _ (conj _ (conj _ (conj _ (conj _ _)))))))); try lia; try lra.
  - intros i Hi. destruct (Nat.eq_dec i iend) as [->|]; [destruct R3; [auto|lia]|apply R2; lia].
  - auto.
  - intros i Hi. apply F3. lia.
  - destruct RB as [->|[_ RB]]; auto.
Qed.

Theorem C44_landing_indices : forall tr a b c, tr <> [] -> get_fa_ld tr = Some (a, b, c) ->
  (a + 5 <= b)%nat /\ (b + 6 <= c)%nat /\ (c <= length tr)%nat /\
  100 <= s_alt (sample_at tr a) /\
  10 < Rabs (s_alt (sample_at tr b) - s_alt (sample_at tr (b + 1))) /\
  (forall i, (b < i < c - 2)%nat -> Rabs (s_alt (sample_at tr i) - s_alt (sample_at tr (i + 1))) <= 10) /\
  (forall i, (a <= i < c)%nat -> 30 <= s_spd (sample_at tr i)) /\
  (s_alt (sample_at tr (length tr - 1)) < 1500 -> forall i, (a <= i < length tr)%nat -> s_alt (sample_at tr i) < 1500).
Proof.
  intros tr a b c Hne H. assert (Hn : (0 < length tr)%nat) by (destruct tr; [tauto|cbn; lia]).
  unfold get_fa_ld in H.
  pose proof (run_down_spec tr (length tr) 0 ltac:(lia) ltac:(auto) ltac:(lia) ltac:(intros; lia)) as (R1 & R2).
  set (st := run_down tr (rev (seq 0 (length tr))) 0) in *.
  assert (Hst : (st < length tr)%nat) by lia.
  pose proof (decel_spec tr (length tr - st) st 0 (g tr s_spd st) ltac:(lia)) as (D1 & D2).
  set (en := decel tr (seq st (length tr - st)) (g tr s_spd st) 0) in *.
  destruct (Rltb_spec (g tr s_alt st) 100) as [L1|L1]; [discriminate|].
  pose proof (last_jump_spec tr (en - 1 - st) st en) as LJ. cbv zeta in LJ.
  set (ld := last_jump tr (rev (seq st (en - 1 - st))) en) in *.
  destruct ((Z.of_nat ld - Z.of_nat st <? 5)%Z || (Z.of_nat en - Z.of_nat ld <? 5)%Z) eqn:E; [discriminate|].
  apply orb_false_elim in E. destruct E as [E1 E2]. apply Z.ltb_ge in E1, E2.
  injection H as <- <- <-. destruct LJ as [LJ|(F1 & F2 & F3)]; [lia|].
  unfold sample_at. unfold g in *.
  refine (conj _ (conj _ (conj _ (conj _ (conj _ (conj _ (conj _ _))))))); try lia; try lra.
  - auto.
  - intros i Hi. apply F3. lia.
  - intros i Hi. destruct (D2 i ltac:(lia)); [lia|auto].
  - intros Hl i Hi. apply R2; auto.
Qed.

(** a flight that is still in cruise when the data ends is reported to land: the backward search never leaves index 0 *)
Definition cruising : list sample :=
  map (fun i => mkSample (INR i) (if (i <? 8)%nat then 35000 else 35020) 450 0) (seq 0 15).
Theorem C44_landing_at_cruise_refuted : exists tr a b c, get_fa_ld tr = Some (a, b, c) /\
  forall i, (i < length tr)%nat -> 35000 <= s_alt (sample_at tr i).
Proof.
  exists cruising, 0%nat, 7%nat, 15%nat. split.
  - unfold get_fa_ld, cruising. cbn [seq map length rev app Nat.ltb Nat.leb].
    assert (A1 : Rltb 35020 1500 = false) by (apply Rltb_false; lra).
    cbn [run_down g nth s_alt s_spd]. unfold g. cbn [nth s_alt s_spd]. rewrite A1.
    cbn [Nat.sub seq].
    assert (A2 : Rleb 450 50 = false) by (apply Rleb_false; lra).
    assert (A3 : Rltb 450 30 = false) by (apply Rltb_false; lra).
    assert (A4 : Rltb 35000 100 = false) by (apply Rltb_false; lra).
    cbn [decel]. unfold g. cbn [nth s_alt s_spd]. rewrite A2, A3. cbn [andb]. rewrite A4.
    cbn [Nat.sub seq rev app last_jump]. unfold g. cbn [nth s_alt Nat.add].
    assert (B0 : Rltb 10 (Rabs (35020 - 35020)) = false) by (apply Rltb_false; rewrite Rminus_diag_eq, Rabs_R0; lra).
    assert (B1 : Rltb 10 (Rabs (35000 - 35020)) = true) by (apply Rltb_true; rewrite Rabs_left; lra).
    rewrite B0, B1. reflexivity.
  - intros i Hi. unfold sample_at, cruising. cbn [seq map Nat.ltb Nat.leb].
    do 15 (destruct i as [|i]; [cbn [nth s_alt]; lra|]). cbn in Hi. lia.
Qed.

(** concrete departure: twelve samples of take-off roll, then a climb through 200 ft *)
Definition departure : list sample :=
  map (fun i => mkSample (INR i) 0 100 0) (seq 0 12) ++
  [mkSample 12 100 150 1000; mkSample 13 300 150 1000; mkSample 14 5000 200 1000].
Example C44_ex : get_to_ic departure = Some (0, 12, 14)%nat.
Proof.
  unfold get_to_ic, departure. cbn [seq map length app].
  assert (A1 : Rltb 0 1500 = true) by (apply Rltb_true; lra).
  assert (A2 : Rltb 100 1500 = true) by (apply Rltb_true; lra).
  assert (A3 : Rltb 300 1500 = true) by (apply Rltb_true; lra).
  assert (A4 : Rltb 5000 1500 = false) by (apply Rltb_false; lra).
  assert (A5 : Rltb 100 30 = false) by (apply Rltb_false; lra).
  assert (A6 : Rltb 150 30 = false) by (apply Rltb_false; lra).
  assert (A7 : Rltb 100 5 = false) by (apply Rltb_false; lra).
  assert (A8 : Rltb 150 5 = false) by (apply Rltb_false; lra).
  assert (A9 : Rltb 300 200 = false) by (apply Rltb_false; lra).
  cbn [run_up]. unfold g. cbn [nth s_alt s_spd s_t].
  rewrite A1, A2, A3, A4. cbn [seq rev app roll_back]. unfold g. cbn [nth s_alt s_spd s_t Nat.sub Nat.add].
  rewrite A5, A6, A7, A8. cbn [andb nth s_t INR].
  replace (Rltb 300 (13 - 0)) with false by (symmetry; apply Rltb_false; lra).
  cbn [Nat.sub Nat.ltb Nat.leb nth s_alt]. rewrite A9. cbn [Nat.add]. cbn [seq first_jump Nat.sub]. unfold g. cbn [nth s_alt Nat.sub].
  replace (Rltb 10 (Rabs (0 - 0))) with false by (symmetry; apply Rltb_false; rewrite Rminus_diag_eq, Rabs_R0; lra).
  replace (Rltb 10 (Rabs (100 - 0))) with true by (symmetry; apply Rltb_true; rewrite Rabs_right; lra).
  reflexivity.
Qed.
