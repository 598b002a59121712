(** Lemmas about the fuzzy phase labelling. *)
From Coq Require Import Reals List Bool ZArith Lra Lia Psatz.
From Coquelicot Require Rcomplements.
From Interval Require Import Tactic.
From Verif Require Import Num NumFacts Fuzzy FuzzyFacts Fuel Phase.
Import ListNotations.
Open Scope R_scope.

(** ** The universes *)
Lemma arange_hd : forall a s n, (0 <= n)%Z -> hd 0 (arange a s (Z.succ n)) = a.
Proof. intros. unfold arange. rewrite Z2Nat.inj_succ by auto. cbn. ring. Qed.

Lemma arange_gtab : forall f a s n, (0 <= n)%Z ->
  tab f (arange a s (Z.succ n)) = gtab (fun x => fval (f x)) a s 0 (S (Z.to_nat n)).
Proof. intros. unfold tab, arange, gtab, gridpt. rewrite Z2Nat.inj_succ by auto. rewrite map_map. reflexivity. Qed.

Lemma arange_last : forall a s n, (0 <= n)%Z -> last (arange a s (Z.succ n)) 0 = a + IZR n * s.
Proof.
  intros a s n Hn. unfold arange. rewrite Z2Nat.inj_succ by auto.
  rewrite seq_S, map_app. cbn [map]. rewrite last_last. cbn [Nat.add]. rewrite INR_IZR_INZ, Z2Nat.id by auto. reflexivity.
Qed.
Lemma gridpt_Z : forall a s n, (0 <= n)%Z -> gridpt a s (Z.to_nat n) = a + IZR n * s.
Proof. intros. unfold gridpt. rewrite INR_IZR_INZ, Z2Nat.id by auto. reflexivity. Qed.

Lemma clamp_range : forall v a s n, (0 <= n)%Z -> 0 < s ->
  a <= clamp v (arange a s (Z.succ n)) <= gridpt a s (Z.to_nat n).
Proof.
  intros v a s n Hn Hs. unfold clamp. rewrite arange_hd, arange_last by auto. rewrite gridpt_Z by auto.
  assert (0 <= IZR n) by (apply IZR_le; auto). assert (a <= a + IZR n * s) by nra.
  split; [apply Rmax_r|]. apply Rmax_lub; auto. apply Rmin_r.
Qed.
Lemma clamp_id : forall v a s n, (0 <= n)%Z -> 0 < s -> a <= v <= a + IZR n * s ->
  clamp v (arange a s (Z.succ n)) = v.
Proof.
  intros v a s n Hn Hs Hv. unfold clamp. rewrite arange_hd, arange_last by auto.
  rewrite Rmin_left by lra. apply Rmax_left; lra.
Qed.

(** membership read at a clamped value: bounds from the neighbouring samples *)
Lemma member_ge : forall f v a s n lo, (0 <= n)%Z -> 0 < s ->
  (forall y, a <= y <= a + IZR n * s -> Rabs (y - clamp v (arange a s (Z.succ n))) <= s -> lo <= fval (f y)) ->
  lo <= interp_membership (tab f (arange a s (Z.succ n))) (clamp v (arange a s (Z.succ n))).
Proof.
  intros. rewrite arange_gtab by auto. apply interp_grid_ge; auto using clamp_range.
  rewrite gridpt_Z by auto. auto.
Qed.
Lemma member_le : forall f v a s n hi, (0 <= n)%Z -> 0 < s ->
  (forall y, a <= y <= a + IZR n * s -> Rabs (y - clamp v (arange a s (Z.succ n))) <= s -> fval (f y) <= hi) ->
  interp_membership (tab f (arange a s (Z.succ n))) (clamp v (arange a s (Z.succ n))) <= hi.
Proof.
  intros. rewrite arange_gtab by auto. apply interp_grid_le; auto using clamp_range.
  rewrite gridpt_Z by auto. auto.
Qed.
(** exactly at a sample *)
Lemma member_at : forall f v a s n i, (0 <= i <= n)%Z -> 0 < s -> v = a + IZR i * s ->
  interp_membership (tab f (arange a s (Z.succ n))) (clamp v (arange a s (Z.succ n))) = fval (f v).
Proof.
  intros f v a s n i Hi Hs Hv. rewrite clamp_id; auto; try lia.
  - rewrite arange_gtab by lia. rewrite Hv. rewrite <- gridpt_Z by lia.
    rewrite (interp_grid_at (fun x => fval (f x))); auto. lia.
  - rewrite Hv. assert (0 <= IZR i <= IZR n) by (split; apply IZR_le; lia). nra.
Qed.

(** ** Rounding and the label of the winning state *)
Lemma py_round_near : forall x k, Rabs (x - IZR k) < 1 / 2 -> py_round x = k.
Proof.
  intros x k H. apply Rabs_def2 in H. unfold py_round.
  destruct (base_Int_part x) as [B1 B2]. set (f := Int_part x) in *.
  destruct (Rle_dec (IZR k) x) as [L|L].
  - assert (f = k).
    { assert (IZR f < IZR k + 1 /\ IZR k < IZR f + 1) as [H1 H2] by lra.
      rewrite <- plus_IZR in H1, H2. apply lt_IZR in H1, H2. lia. }
    subst k. rewrite Rltb_true by lra. auto.
  - assert (f = k - 1)%Z.
    { assert (IZR f < IZR k /\ IZR k < IZR f + 2) as [H1 H2] by lra.
      rewrite <- plus_IZR in H2. apply lt_IZR in H1, H2. lia. }
    rewrite H0. rewrite H0 in B1, B2. rewrite minus_IZR in *. rewrite Rltb_false by lra. rewrite Rltb_true by lra. lia.
Qed.

Lemma state_mf_eq : forall k x, state_mf k x = gaussR x (INR k) 0.1.
Proof. intros. unfold state_mf. rewrite gauss_eq by lra. reflexivity. Qed.

(** far from its centre a state's membership is below 0.00001 *)
Lemma state_mf_far : forall k x, 1 / 2 <= Rabs (x - INR k) -> state_mf k x < 0.00001.
Proof.
  intros k x H. rewrite state_mf_eq. apply Rle_lt_trans with (gaussR 0.5 0 0.1).
  - unfold gaussR. 
    assert (L : - (x - INR k) ^ 2 / (2 * 0.1 ^ 2) <= - (0.5 - 0) ^ 2 / (2 * 0.1 ^ 2)).
    { assert (0.5 ^ 2 <= (x - INR k) ^ 2) by (rewrite <- (pow2_abs (x - INR k)); apply pow_incr; lra).
      unfold Rdiv. replace (0.5 - 0) with 0.5 by lra. apply Rmult_le_compat_r; [left; apply Rinv_0_lt_compat; lra|lra]. }
    destruct L as [L|L]; [left; apply exp_increasing; auto|rewrite L; lra].
  - unfold gaussR. interval.
Qed.

Lemma in_states : forall k, (k < 5)%nat -> In (INR (S k)) states.
Proof.
  intros k Hk. unfold states, arange. apply in_map_iff. exists (100 * S k)%nat. split.
  - rewrite mult_INR, (INR_IZR_INZ 100). change (Z.of_nat 100) with 100%Z. lra.
  - apply in_seq. assert (Z.to_nat 600 = 600)%nat by reflexivity. rewrite H. lia.
Qed.

(** [k] is the strongest rule, the later one on ties *)
Definition strongest (rs : list R) (k : nat) : Prop :=
  (k < 5)%nat /\ (forall j, (j < 5)%nat -> nth j rs 0 <= nth k rs 0) /\
  (forall j, (k < j < 5)%nat -> nth j rs 0 < nth k rs 0).

Lemma strongest_exists : forall rs, exists k, strongest rs k.
Proof.
  intros rs. assert (forall n, (n <= 5)%nat -> (0 < n)%nat -> exists k, (k < n)%nat /\
    (forall j, (j < n)%nat -> nth j rs 0 <= nth k rs 0) /\ (forall j, (k < j < n)%nat -> nth j rs 0 < nth k rs 0)) as H.
  { induction n as [|n IH]; intros Hn Hp; [lia|]. destruct n as [|n].
    - exists 0%nat. repeat split; try lia; intros. replace j with 0%nat by lia. lra.
    - destruct IH as (k & H1 & H2 & H3); try lia. destruct (Rlt_dec (nth (S n) rs 0) (nth k rs 0)) as [L|L].
      + exists k. repeat split; try lia; intros.
        * destruct (Nat.eq_dec j (S n)); [subst; lra|apply H2; lia].
        * destruct (Nat.eq_dec j (S n)); [subst; lra|apply H3; lia].
      + exists (S n). repeat split; try lia; intros.
        * destruct (Nat.eq_dec j (S n)); [subst; lra|]. specialize (H2 j ltac:(lia)). lra. }
  destruct (H 5%nat) as (k & H1 & H2 & H3); try lia. exists k. repeat split; auto.
Qed.
Lemma strongest_unique : forall rs k j, strongest rs k -> strongest rs j -> k = j.
Proof.
  intros rs k j (A1 & A2 & A3) (B1 & B2 & B3).
  destruct (lt_eq_lt_dec k j) as [[L|L]|L]; auto; exfalso.
  - specialize (A3 j ltac:(lia)). specialize (B2 k A1). lra.
  - specialize (B3 k ltac:(lia)). specialize (A2 j B1). lra.
Qed.

Lemma agg_cases : forall rs x, exists k, (k < 5)%nat /\ aggregated rs x = Rmin (nth k rs 0) (state_mf (S k) x) /\
  forall j, (j < 5)%nat -> Rmin (nth j rs 0) (state_mf (S j) x) <= aggregated rs x.
Proof.
  intros rs x. unfold aggregated.
  assert (H : In (rmaxl (map (fun k => Rmin (nth k rs 0) (state_mf (S k) x)) (seq 0 5)))
                 (map (fun k => Rmin (nth k rs 0) (state_mf (S k) x)) (seq 0 5))) by (apply rmaxl_in; discriminate).
  apply in_map_iff in H. destruct H as (k & E & Hk). apply in_seq in Hk.
  exists k. split; [lia|]. split; auto. intros j Hj. apply rmaxl_ge.
  apply in_map_iff. exists j. split; auto. apply in_seq. lia.
Qed.

Lemma lom_near_strongest : forall rs k, strongest rs k -> nth k rs 0 <= 1 -> 0.00001 <= nth k rs 0 ->
  Rabs (defuzz_lom (map (fun x => (x, aggregated rs x)) states) - INR (S k)) < 1 / 2.
Proof.
  intros rs k (Hk & Hmax & Hlast) H1 Hlo.
  set (tbl := map (fun x => (x, aggregated rs x)) states).
  assert (Hne : tbl <> []).
  { unfold tbl. pose proof (in_states 0 ltac:(lia)) as Hin. destruct states; [destruct Hin|discriminate]. }
  destruct (defuzz_lom_spec tbl Hne) as (v & Hin & Hv & Hright).
  set (x0 := defuzz_lom tbl) in *.
  assert (Hv0 : v = aggregated rs x0).
  { unfold tbl in Hin. apply in_map_iff in Hin. destruct Hin as (x & E & _). congruence. }
  (* value at a centre *)
  assert (Hc : forall j, (j < 5)%nat -> nth j rs 0 = nth k rs 0 -> aggregated rs (INR (S j)) = nth k rs 0).
  { intros j Hj E. destruct (agg_cases rs (INR (S j))) as (i & Hi & Ei & Hge).
    apply Rle_antisym.
    - rewrite Ei. eapply Rle_trans; [apply Rmin_l|apply Hmax; auto].
    - specialize (Hge j Hj). rewrite state_mf_eq, gaussR_center, E, Rmin_left in Hge; auto. }
  assert (Hvk : v = nth k rs 0).
  { apply Rle_antisym.
    - rewrite Hv0. destruct (agg_cases rs x0) as (i & Hi & Ei & _). rewrite Ei.
      eapply Rle_trans; [apply Rmin_l|apply Hmax; auto].
    - rewrite <- (Hc k Hk eq_refl). apply Hv with (INR (S k)). unfold tbl. apply in_map_iff.
      exists (INR (S k)). split; auto. apply in_states; auto. }
  destruct (agg_cases rs x0) as (i & Hi & Ei & _). rewrite <- Hv0, Hvk in Ei.
  assert (Ri : nth i rs 0 = nth k rs 0).
  { apply Rle_antisym; [apply Hmax; auto|]. rewrite Ei. apply Rmin_l. }
  assert (Gi : 0.00001 <= state_mf (S i) x0).
  { eapply Rle_trans; [apply Hlo|]. rewrite Ei. apply Rmin_r. }
  assert (Near : Rabs (x0 - INR (S i)) < 1 / 2).
  { destruct (Rlt_dec (Rabs (x0 - INR (S i))) (1 / 2)); auto. exfalso.
    pose proof (state_mf_far (S i) x0 ltac:(lra)). lra. }
  assert (i <= k)%nat.
  { destruct (le_lt_dec i k); auto. exfalso. specialize (Hlast i ltac:(lia)). lra. }
  assert (INR (S k) <= x0).
  { apply Hright. rewrite Hvk. unfold tbl. apply in_map_iff. exists (INR (S k)). split; [|apply in_states; auto].
    rewrite (Hc k Hk eq_refl). auto. }
  apply Rabs_def2 in Near. destruct (Nat.eq_dec i k) as [->|N].
  - apply Rabs_def1; lra.
  - exfalso. assert (S i + 1 <= S k)%nat as L by lia. apply le_INR in L. rewrite plus_INR in L. change (INR 1) with 1 in L. lra.
Qed.

(** ** Lower bounds on the memberships *)
Lemma alt_range_eq : alt_range = arange 0 1 (Z.succ 39999). Proof. unfold alt_range. f_equal. Qed.
Lemma roc_range_eq : roc_range = arange (-4000) 0.1 (Z.succ 79999). Proof. unfold roc_range. f_equal. Qed.
Lemma spd_range_eq : spd_range = arange 0 1 (Z.succ 599). Proof. unfold spd_range. f_equal. Qed.
#[global] Opaque alt_range roc_range spd_range.
Ltac mem := 
  unfold alt_lo, alt_hi, alt_gnd, roc_zero, roc_plus, roc_minus, spd_lo, spd_md, spd_hi;
  rewrite ?alt_range_eq, ?roc_range_eq, ?spd_range_eq.
Lemma a_lo_ge : forall v, 0.011 <= interp_membership alt_lo (clamp v alt_range).
Proof.
  intros. mem; apply member_ge; [lia|lra|]. intros y Hy _. rewrite gauss_eq by lra. cbn [fval].
  unfold gaussR. interval with (i_bisect y).
Qed.
Lemma s_md_ge : forall v, 0.011 <= interp_membership spd_md (clamp v spd_range).
Proof.
  intros. mem; apply member_ge; [lia|lra|]. intros y Hy _. rewrite gauss_eq by lra. cbn [fval].
  unfold gaussR. interval with (i_bisect y).
Qed.
Lemma roc_some : forall v,
  0.01 <= interp_membership roc_zero (clamp v roc_range) \/
  0.01 <= interp_membership roc_plus (clamp v roc_range) \/
  0.01 <= interp_membership roc_minus (clamp v roc_range).
Proof.
  intros v. set (x := clamp v roc_range).
  destruct (Rle_dec x 300) as [H1|H1]; [destruct (Rle_dec (-300) x) as [H2|H2]|].
  - left. mem; apply member_ge; [lia|lra|]. intros y Hy Hn. rewrite <- roc_range_eq in Hn. fold x in Hn.
    apply Rcomplements.Rabs_le_between in Hn.
    rewrite gauss_eq by lra. cbn [fval]. unfold gaussR.
    assert (-300.1 <= y <= 300.1) by lra. interval with (i_bisect y).
  - right; right. mem; apply member_ge; [lia|lra|]. intros y Hy Hn. rewrite <- roc_range_eq in Hn. fold x in Hn.
    apply Rcomplements.Rabs_le_between in Hn. rewrite zmf_eq by lra. cbn [fval].
    apply Rle_trans with (zR (-299) (-1000) (-10)).
    + unfold zR. destruct (Rle_dec (-299) (-1000)); [lra|]. destruct (Rle_dec (-10) (-299)); [lra|].
      destruct (Rlt_dec (-299) ((-1000 + -10) / 2)); [lra|]. interval.
    + apply zR_mono; lra.
  - right; left. mem; apply member_ge; [lia|lra|]. intros y Hy Hn. rewrite <- roc_range_eq in Hn. fold x in Hn.
    apply Rcomplements.Rabs_le_between in Hn. rewrite smf_eq by lra. cbn [fval].
    assert (zR y 10 1000 <= zR 299 10 1000) by (apply zR_mono; lra).
    assert (zR 299 10 1000 <= 0.99); [|lra].
    unfold zR. destruct (Rle_dec 299 10); [lra|]. destruct (Rle_dec 1000 299); [lra|].
    destruct (Rlt_dec 299 ((10 + 1000) / 2)); [|lra]. interval.
Qed.
Lemma a_lo_le1 : forall v, interp_membership alt_lo (clamp v alt_range) <= 1.
Proof.
  intros. mem; apply member_le; [lia|lra|]. intros y Hy _. rewrite gauss_eq by lra. cbn [fval].
  apply gaussR_range; lra.
Qed.
Lemma a_gnd_le1 : forall v, interp_membership alt_gnd (clamp v alt_range) <= 1.
Proof.
  intros. mem; apply member_le; [lia|lra|]. intros y Hy _. rewrite zmf_eq by lra. cbn [fval].
  apply zR_range; lra.
Qed.
Lemma a_hi_le1 : forall v, interp_membership alt_hi (clamp v alt_range) <= 1.
Proof.
  intros. mem; apply member_le; [lia|lra|]. intros y Hy _. rewrite gauss_eq by lra. cbn [fval].
  apply gaussR_range; lra.
Qed.

#[global] Opaque alt_lo alt_hi alt_gnd roc_zero roc_plus roc_minus spd_lo spd_md spd_hi interp_membership clamp.

Lemma rules_le1 : forall alt spd roc k, (k < 5)%nat -> nth k (rules alt spd roc) 0 <= 1.
Proof.
  intros alt spd roc k Hk. unfold rules.
  destruct k as [|[|[|[|[|k]]]]]; [| | | | |lia]; cbn [nth];
  (eapply Rle_trans; [apply Rmin_l|]); (eapply Rle_trans; [apply Rmin_l|]);
  first [apply a_lo_le1 | apply a_gnd_le1 | apply a_hi_le1].
Qed.
Lemma rules_some : forall alt spd roc, exists k, (k < 5)%nat /\ 0.01 <= nth k (rules alt spd roc) 0.
Proof.
  intros alt spd roc. pose proof (a_lo_ge alt). pose proof (s_md_ge spd).
  destruct (roc_some roc) as [H1|[H1|H1]]; [exists 4%nat|exists 1%nat|exists 2%nat];
  (split; [lia|]); unfold rules; cbn [nth]; repeat apply Rmin_glb; lra.
Qed.

Lemma window_label_strongest : forall alt spd roc k, strongest (rules alt spd roc) k ->
  Rabs (state_raw alt spd roc - INR (S k)) < 1 / 2 /\
  window_label alt spd roc = inr (nth k [GND; CL; DE; CR; LVL] NA).
Proof.
  intros alt spd roc k Hs. pose proof Hs as (Hk & Hmax & _).
  destruct (rules_some alt spd roc) as (j & Hj & Hr).
  assert (N : Rabs (state_raw alt spd roc - INR (S k)) < 1 / 2).
  { apply lom_near_strongest; auto. apply rules_le1; auto. specialize (Hmax j Hj). lra. }
  split; auto. unfold window_label. rewrite INR_IZR_INZ in N. apply py_round_near in N. rewrite N.
  destruct k as [|[|[|[|[|k]]]]]; [| | | | |lia]; reflexivity.
Qed.
