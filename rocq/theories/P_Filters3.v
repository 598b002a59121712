(** * Property C93: the weights of the spline filter (openap/extra/filters.py:104-136) *)
From Coq Require Import List Bool ZArith Lia.
From Coq Require Import Reals Lra Psatz.
From Verif Require Import Num NumFacts SpecNum Py Filters P_Filters P_Filters2.
Import ListNotations.
Open Scope R_scope.

(** ** Specification *)
(** bell-shaped weight at distance [m] from the sample *)
Definition bell (sigma m : R) : R := exp (- m ^ 2 / (2 * sigma ^ 2)).
(** weighted mean of the 25 values [v 0 .. v 24] centred on [v 12] *)
Definition bell_mean (sigma : R) (v : nat -> R) : R :=
  Sum 25 (fun j => bell sigma (INR j - 12) * v j) / Sum 25 (fun j => bell sigma (INR j - 12)).
(** the series continued beyond both ends by mirroring, each end sample appearing twice *)
Definition mirrored (s : list R) (j : Z) : R :=
  let n := Z.of_nat (length s) in
  let r := (j mod (2 * n))%Z in
  nth (Z.to_nat (Z.min r (2 * n - 1 - r))) s 0.

Lemma bell_pos : forall sigma m, 0 < bell sigma m.
Proof. intros. apply exp_pos. Qed.
Lemma Sum_pos : forall n f, (0 < n)%nat -> (forall i, (i < n)%nat -> 0 < f i) -> 0 < Sum n f.
Proof.
  induction n; intros f H P; [lia|]. rewrite Sum_S. destruct n.
  - unfold Sum. cbn. specialize (P 0%nat ltac:(lia)). lra.
  - specialize (IHn f ltac:(lia) ltac:(intros; apply P; lia)). specialize (P (S n) ltac:(lia)). lra.
Qed.
Lemma Sum_le : forall n f g, (forall i, (i < n)%nat -> f i <= g i) -> Sum n f <= Sum n g.
Proof. induction n; intros f g H; [unfold Sum; cbn; lra|]. rewrite !Sum_S. specialize (IHn f g ltac:(auto)). specialize (H n ltac:(lia)). lra. Qed.
Lemma total_pos : forall sigma, 0 < Sum 25 (fun j => bell sigma (INR j - 12)).
Proof. intros. apply Sum_pos; [lia|]. intros. apply bell_pos. Qed.
Lemma bell_mean_between : forall sigma v lo hi, (forall j, (j < 25)%nat -> lo <= v j <= hi) -> lo <= bell_mean sigma v <= hi.
Proof.
  intros sigma v lo hi H. unfold bell_mean. pose proof (total_pos sigma) as T. set (t := Sum 25 (fun j => bell sigma (INR j - 12))) in *.
  assert (A : t * lo <= Sum 25 (fun j => bell sigma (INR j - 12) * v j)).
  { unfold t. rewrite <- Sum_scale_r. apply Sum_le. intros j Hj. apply Rmult_le_compat_l; [left; apply bell_pos|apply H; auto]. }
  assert (B : Sum 25 (fun j => bell sigma (INR j - 12) * v j) <= t * hi).
  { unfold t. rewrite <- Sum_scale_r. apply Sum_le. intros j Hj. apply Rmult_le_compat_l; [left; apply bell_pos|apply H; auto]. }
  split; apply (Rmult_le_reg_l t); auto; replace (t * (Sum 25 (fun j => bell sigma (INR j - 12) * v j) / t)) with (Sum 25 (fun j => bell sigma (INR j - 12) * v j)) by (field; lra); auto.
Qed.
Lemma bell_mean_pos : forall sigma v, (forall j, (j < 25)%nat -> 0 <= v j) -> bell_mean sigma v = 0 -> forall j, (j < 25)%nat -> v j = 0.
Proof.
  intros sigma v H E j Hj. unfold bell_mean in E. pose proof (total_pos sigma) as T.
  assert (Z : Sum 25 (fun j => bell sigma (INR j - 12) * v j) = 0).
  { apply Rmult_eq_reg_r with (/ Sum 25 (fun j => bell sigma (INR j - 12))); [unfold Rdiv in E; lra|]. apply Rinv_neq_0_compat. lra. }
  pose proof (Sum_nonneg_zero 25 _ (fun i Hi => Rmult_le_pos _ _ (Rlt_le _ _ (bell_pos sigma (INR i - 12))) (H i Hi)) Z j Hj) as Q. cbn beta in Q.
  pose proof (bell_pos sigma (INR j - 12)). apply Rmult_integral in Q. destruct Q; lra.
Qed.

Lemma reflect_mirrored : forall s j, s <> [] -> nth (reflect_index (length s) j) s 0 = mirrored s j.
Proof.
  intros s j N. unfold reflect_index, mirrored. cbv zeta.
  assert (P : (0 < 2 * Z.of_nat (length s))%Z) by (destruct s; [congruence|cbn [length]; lia]).
  pose proof (Z.mod_pos_bound j _ P). destruct (Z.ltb_spec (j mod (2 * Z.of_nat (length s))) (Z.of_nat (length s))); f_equal; lia.
Qed.
Lemma mirrored_in : forall s j, s <> [] -> In (mirrored s j) s.
Proof.
  intros s j N. unfold mirrored. apply nth_In.
  assert (P : (0 < 2 * Z.of_nat (length s))%Z) by (destruct s; [congruence|cbn [length]; lia]).
  pose proof (Z.mod_pos_bound j _ P). lia.
Qed.
Lemma mirrored_inside : forall s j, (0 <= j < Z.of_nat (length s))%Z -> mirrored s j = nth (Z.to_nat j) s 0.
Proof. intros s j H. unfold mirrored. rewrite Z.mod_small by lia. f_equal. lia. Qed.

Lemma gauss_nth : forall sigma k, sigma <> 0 -> (k < 25)%nat -> nth k (normalised (gauss25 sigma)) 0 = bell sigma (INR k - 12) / Sum 25 (fun j => bell sigma (INR j - 12)).
Proof.
  intros sigma k N H. assert (L : length (gauss25 sigma) = 25%nat) by reflexivity.
  assert (G : gauss25 sigma = map (fun j => bell sigma (INR j - 12)) (seq 0 25)).
  { unfold gauss25. apply map_ext. intros j. unfold bell. f_equal. field. auto. }
  unfold normalised. rewrite (nth_indep _ 0 ((fun x => x / rsum (gauss25 sigma)) 0)) by (rewrite map_length; lia).
  rewrite (map_nth (fun x => x / rsum (gauss25 sigma))). rewrite G. fold (Sum 25 (fun j => bell sigma (INR j - 12))).
  rewrite (nth_indep _ 0 ((fun j => bell sigma (INR j - 12)) 0%nat)) by (rewrite map_length, seq_length; lia).
  rewrite (map_nth (fun j => bell sigma (INR j - 12))), seq_nth by lia. auto.
Qed.
Lemma conv_nth : forall sigma s i, sigma <> 0 -> (i < length s)%nat ->
  nth i (convolve1d s (normalised (gauss25 sigma))) 0 = bell_mean sigma (fun j => mirrored s (Z.of_nat i - 12 + Z.of_nat j)).
Proof.
  intros sigma s i N H. assert (NS : s <> []) by (destruct s; [cbn in H; lia|discriminate]). unfold convolve1d.
  set (g := fun i => rsum (map (fun k => nth k (normalised (gauss25 sigma)) 0 * nth (reflect_index (length s) (Z.of_nat i + 12 - Z.of_nat k)) s 0) (seq 0 25))).
  rewrite (nth_indep _ 0 (g 0%nat)) by (rewrite map_length, seq_length; auto). rewrite (map_nth g), seq_nth by auto. cbn [Nat.add].
  unfold g. fold (Sum 25 (fun k => nth k (normalised (gauss25 sigma)) 0 * nth (reflect_index (length s) (Z.of_nat i + 12 - Z.of_nat k)) s 0)).
  rewrite Sum_rev. unfold bell_mean. unfold Rdiv. rewrite <- Sum_scale_r. apply Sum_ext. intros k Hk.
  rewrite gauss_nth by (auto; lia). rewrite reflect_mirrored by auto.
  replace (Z.of_nat i + 12 - Z.of_nat (25 - 1 - k))%Z with (Z.of_nat i - 12 + Z.of_nat k)%Z by lia.
  assert (B : bell sigma (INR (25 - 1 - k) - 12) = bell sigma (INR k - 12)).
  { unfold bell. f_equal. f_equal. f_equal. rewrite minus_INR by lia. replace (INR (25 - 1)) with 24 by (cbn; lra). ring. }
  rewrite B. unfold Rdiv. ring.
Qed.
Lemma conv_length : forall s b, length (convolve1d s b) = length s.
Proof. intros. unfold convolve1d. rewrite map_length, seq_length. auto. Qed.

(** ** C93 *)
(** squared differences between the samples and their averages *)
Definition deviations (s a : list R) (i : nat) : R := (nth i s 0 - nth i a 0) ^ 2.
(** What [kernel] returns: the bell-shaped moving average of the mirrored series, and the same average of
    the squared deviations, with 1 in place of 0. *)
Theorem C93_kernel : forall s sigma averages variances, sigma <> 0 -> spline_kernel s sigma = (averages, variances) ->
  length averages = length s /\ length variances = length s /\
  (forall i, (i < length s)%nat -> nth i averages 0 = bell_mean sigma (fun j => mirrored s (Z.of_nat i - 12 + Z.of_nat j))) /\
  (forall i, (i < length s)%nat ->
     let v := bell_mean sigma (fun j => mirrored (map (deviations s averages) (seq 0 (length s))) (Z.of_nat i - 12 + Z.of_nat j)) in
     (v <> 0 -> nth i variances 0 = v) /\ (v = 0 -> nth i variances 0 = 1)).
Proof.
  intros s sigma a v N E. unfold spline_kernel in E. cbv zeta in E.
  pose proof (f_equal fst E) as Ea. pose proof (f_equal snd E) as Ev. cbn [fst snd] in Ea, Ev. rewrite Ea in Ev.
  assert (La : length a = length s) by (rewrite <- Ea; apply conv_length).
  assert (D : map (fun p => (fst p - snd p) ^ 2) (combine s a) = map (deviations s a) (seq 0 (length s))).
  { clear - La. unfold deviations. revert a La. induction s as [|x s IH]; intros [|y a] L; cbn [length] in L; try discriminate; auto.
    cbn [combine map seq length]. f_equal. rewrite <- seq_shift, map_map. apply IH. lia. }
  rewrite D in Ev. set (dv := map (deviations s a) (seq 0 (length s))) in *.
  assert (Ld : length dv = length s) by (unfold dv; rewrite map_length, seq_length; auto).
  split; [auto|]. split; [rewrite <- Ev, map_length, conv_length; auto|]. split.
  - intros i Hi. rewrite <- Ea. apply conv_nth; auto.
  - intros i Hi w. set (f := fun v => if Req_EM_T v 0 then 1 else v) in Ev.
    assert (Q : nth i v 0 = f w).
    { rewrite <- Ev. rewrite (nth_indep _ 0 (f 0)) by (rewrite map_length, conv_length; lia). rewrite (map_nth f), conv_nth by (auto; lia). reflexivity. }
    rewrite Q. unfold f. destruct (Req_EM_T w 0); tauto.
Qed.
(** For samples away from the ends the moving average does not involve the mirroring. *)
Theorem C93_inside : forall s sigma averages variances i, sigma <> 0 -> spline_kernel s sigma = (averages, variances) ->
  (12 <= i)%nat -> (i + 12 < length s)%nat -> nth i averages 0 = bell_mean sigma (fun j => nth (i - 12 + j) s 0).
Proof.
  intros s sigma a v i N E H1 H2. destruct (C93_kernel s sigma a v N E) as (_ & _ & A & _). rewrite A by lia.
  unfold bell_mean. f_equal. apply Sum_ext. intros j Hj. rewrite mirrored_inside by lia. f_equal. f_equal. lia.
Qed.
(** Averages stay within the range of the samples. *)
Theorem C93_averages_in_range : forall s sigma averages variances lo hi, sigma <> 0 -> spline_kernel s sigma = (averages, variances) ->
  Forall (fun y => lo <= y <= hi) s -> Forall (fun y => lo <= y <= hi) averages.
Proof.
  intros s sigma a v lo hi N E F. destruct (C93_kernel s sigma a v N E) as (L & _ & A & _). rewrite Forall_forall in *. intros y I.
  apply (In_nth _ _ 0) in I. destruct I as (i & Hi & <-). rewrite L in Hi. rewrite A by auto. apply bell_mean_between. intros j Hj.
  apply F, mirrored_in. destruct s; [cbn in Hi; lia|discriminate].
Qed.
(** Every variance is positive and none exceeds the squared range, so the weights [1/sqrt(variance)]
    passed to the spline fit are defined and positive. *)
Theorem C93_variances_positive : forall s sigma averages variances lo hi, sigma <> 0 -> spline_kernel s sigma = (averages, variances) ->
  Forall (fun y => lo <= y <= hi) s -> Forall (fun v => 0 < v /\ (v = 1 \/ v <= (hi - lo) ^ 2) /\ 0 < 1 / sqrt v) variances.
Proof.
  intros s sigma a v lo hi N E F. pose proof (C93_averages_in_range s sigma a v lo hi N E F) as FA.
  destruct (C93_kernel s sigma a v N E) as (La & Lv & A & V). apply Forall_forall. intros x I.
  apply (In_nth _ _ 0) in I. destruct I as (i & Hi & <-). rewrite Lv in Hi. specialize (V i Hi). cbv zeta in V.
  set (dv := map (deviations s a) (seq 0 (length s))) in *. 
  assert (NS : dv <> []) by (unfold dv; destruct s; [cbn in Hi; lia|discriminate]).
  assert (B : 0 <= bell_mean sigma (fun j => mirrored dv (Z.of_nat i - 12 + Z.of_nat j)) <= (hi - lo) ^ 2).
  { apply bell_mean_between. intros j Hj. pose proof (mirrored_in dv (Z.of_nat i - 12 + Z.of_nat j) NS) as I. unfold dv in I at 2.
    apply in_map_iff in I. destruct I as (k & <- & Hk). apply in_seq in Hk. unfold deviations. split; [apply pow2_ge_0|].
    rewrite Forall_forall in F, FA. pose proof (F (nth k s 0) ltac:(apply nth_In; lia)). pose proof (FA (nth k a 0) ltac:(apply nth_In; lia)).
    rewrite <- !Rsqr_pow2. apply Rsqr_le_abs_1. rewrite (Rabs_right (hi - lo)) by lra. apply Rabs_le. lra. }
  destruct (Req_dec (bell_mean sigma (fun j => mirrored dv (Z.of_nat i - 12 + Z.of_nat j))) 0) as [Z|Z].
  - rewrite (proj2 V Z). repeat split; [lra|auto|]. rewrite sqrt_1. lra.
  - rewrite (proj1 V Z). repeat split; [lra|right; lra|]. apply Rdiv_lt_0_compat; [lra|]. apply sqrt_lt_R0. lra.
Qed.
(** A constant series is its own average and all variances are 1. *)
Theorem C93_constant : forall n c sigma, sigma <> 0 -> spline_kernel (repeat c n) sigma = (repeat c n, repeat 1 n).
Proof.
  intros n c sigma N. destruct (spline_kernel (repeat c n) sigma) as [a v] eqn:E.
  assert (FA : Forall (fun y => c <= y <= c) a).
  { apply (C93_averages_in_range _ _ _ _ c c N E). apply Forall_forall. intros y I. apply repeat_spec in I. lra. }
  destruct (C93_kernel _ _ _ _ N E) as (La & Lv & _ & V). rewrite repeat_length in *.
  assert (Ea : a = repeat c n).
  { rewrite <- La. clear - FA. induction FA as [|y a H F IH]; cbn; auto. rewrite <- IH. f_equal. lra. }
  f_equal; auto. subst a. apply nth_ext with 0 0; [rewrite repeat_length; auto|]. intros i Hi. rewrite Lv in Hi.
  rewrite (nth_indep (repeat 1 n) 0 1), nth_repeat by (rewrite repeat_length; auto). apply (proj2 (V i Hi)).
  assert (Z : forall j, mirrored (map (deviations (repeat c n) (repeat c n)) (seq 0 n)) j = 0).
  { intros j. assert (NS : map (deviations (repeat c n) (repeat c n)) (seq 0 n) <> []) by (destruct n; [lia|discriminate]).
    pose proof (mirrored_in _ j NS) as I. apply in_map_iff in I. destruct I as (k & <- & _). unfold deviations. ring. }
  apply Rle_antisym; apply (bell_mean_between sigma _ 0 0); intros; rewrite Z; lra.
Qed.
(** Adding an offset and changing the unit commute with the averages. *)
Theorem C93_units : forall s sigma averages variances c u a' v', sigma <> 0 ->
  spline_kernel s sigma = (averages, variances) -> spline_kernel (map (fun y => c + u * y) s) sigma = (a', v') ->
  a' = map (fun y => c + u * y) averages.
Proof.
  intros s sigma a v c u a' v' N E E'. destruct (C93_kernel _ _ _ _ N E) as (La & _ & A & _). destruct (C93_kernel _ _ _ _ N E') as (La' & _ & A' & _).
  rewrite map_length in *. apply nth_ext with 0 0; [rewrite map_length; lia|]. intros i Hi. rewrite La' in Hi.
  set (f := fun y => c + u * y) in *. rewrite (nth_indep (map f a) 0 (f 0)) by (rewrite map_length; lia). rewrite (map_nth f), A', A by auto. unfold f, bell_mean.
  assert (NS : s <> []) by (destruct s; [cbn in Hi; lia|discriminate]).
  rewrite (Sum_ext 25 _ (fun j => c * bell sigma (INR j - 12) + u * (bell sigma (INR j - 12) * mirrored s (Z.of_nat i - 12 + Z.of_nat j)))).
  - rewrite Sum_plus, !Sum_scale. pose proof (total_pos sigma). field. lra.
  - intros j Hj. replace (mirrored (map (fun y => c + u * y) s) (Z.of_nat i - 12 + Z.of_nat j)) with (c + u * mirrored s (Z.of_nat i - 12 + Z.of_nat j)); [ring|].
    unfold mirrored. rewrite map_length. fold f.
    assert (P : (0 < 2 * Z.of_nat (length s))%Z) by lia. pose proof (Z.mod_pos_bound (Z.of_nat i - 12 + Z.of_nat j) _ P).
    rewrite (nth_indep (map f s) 0 (f 0)) by (rewrite map_length; lia). rewrite (map_nth f). reflexivity.
Qed.

Example C93_ex : spline_kernel [5; 5; 5] 3 = ([5; 5; 5], [1; 1; 1]) /\ (3 <> 0)%R /\
  Forall (fun y => 0 <= y <= 2) [0; 1; 2] /\ mirrored [0; 1; 2] (-1) = 0 /\ mirrored [0; 1; 2] 3 = 2 /\ mirrored [0; 1; 2] 4 = 1.
Proof.
  split; [exact (C93_constant 3 5 3 ltac:(lra))|]. split; [lra|]. split; [repeat constructor; lra|]. repeat split; reflexivity.
Qed.
