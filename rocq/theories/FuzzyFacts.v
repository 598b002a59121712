(** Lemmas about the fuzzy-logic helpers. *)
From Coq Require Import Reals List Bool ZArith Lra Lia Psatz.
From Verif Require Import Num NumFacts Fuzzy.
Import ListNotations.
Open Scope R_scope.

Lemma pow2_gt_0 : forall s, s <> 0 -> 0 < s ^ 2.
Proof. intros s Hs. rewrite <- Rsqr_pow2. apply Rsqr_pos_lt; auto. Qed.

Definition gaussR (x m s : R) : R := exp (- (x - m) ^ 2 / (2 * s ^ 2)).
Lemma gauss_eq : forall x m s, s <> 0 -> gaussmf x m s = Fin (gaussR x m s).
Proof.
  intros x m s Hs. unfold gaussmf, gaussR. cbn [epowi eneg emul].
  assert (0 < s ^ 2) by (apply pow2_gt_0; auto).
  rewrite ediv_fin by lra. apply eexp_neg.
  apply (Rmult_le_reg_r (2 * s ^ 2)); [lra|]. unfold Rdiv. rewrite Rmult_assoc, Rinv_l by lra.
  pose proof (pow2_ge_0 (x - m)). lra.
Qed.
Lemma gaussR_range : forall x m s, s <> 0 -> 0 < gaussR x m s <= 1.
Proof.
  intros x m s Hs. unfold gaussR. split; [apply exp_pos|]. rewrite <- exp_0.
  assert (0 < / (2 * s ^ 2)) by (apply Rinv_0_lt_compat; pose proof (pow2_gt_0 s Hs); lra).
  pose proof (pow2_ge_0 (x - m)).
  assert (- (x - m) ^ 2 / (2 * s ^ 2) <= 0) by (unfold Rdiv; nra).
  destruct H1 as [H1|H1]; [left; apply exp_increasing; auto|rewrite H1; lra].
Qed.
(** closer to the centre is larger *)
Lemma gaussR_mono : forall x y m s, s <> 0 -> Rabs (x - m) <= Rabs (y - m) -> gaussR y m s <= gaussR x m s.
Proof.
  intros x y m s Hs H. unfold gaussR.
  assert (0 < / (2 * s ^ 2)) by (apply Rinv_0_lt_compat; pose proof (pow2_gt_0 s Hs); lra).
  assert ((x - m) ^ 2 <= (y - m) ^ 2) by (rewrite <- (pow2_abs (x - m)), <- (pow2_abs (y - m)); apply pow_incr; split; [apply Rabs_pos|auto]).
  assert (L : - (y - m) ^ 2 / (2 * s ^ 2) <= - (x - m) ^ 2 / (2 * s ^ 2)) by (unfold Rdiv; nra).
  destruct L as [L|L]; [left; apply exp_increasing; auto|rewrite L; lra].
Qed.
Lemma gaussR_center : forall m s, gaussR m m s = 1.
Proof. intros. unfold gaussR. replace (- (m - m) ^ 2 / (2 * s ^ 2)) with 0 by (unfold Rdiv; ring). apply exp_0. Qed.

(** Z shape, one formula per piece *)
Definition zR (x a b : R) : R :=
  if Rle_dec x a then 1
  else if Rle_dec b x then 0
  else if Rlt_dec x ((a + b) / 2) then 1 - 2 * ((x - a) / (b - a)) ^ 2
  else 2 * ((x - b) / (b - a)) ^ 2.

Lemma zmf_eq : forall x a b, a < b -> zmf x a b = Fin (zR x a b).
Proof.
  intros x a b H. unfold zmf, zR. rewrite !ediv_fin by lra. cbn [epowi emul esub].
  destruct (Rle_dec x a) as [H1|H1].
  - rewrite (Rleb_false b x) by lra. rewrite (Rleb_false ((a+b)/2) x) by lra. cbn [andb].
    destruct (Rleb_spec a x); cbn [andb]; auto. rewrite (Rltb_true x) by lra.
    assert (x = a) by lra. subst. f_equal. unfold Rdiv. ring.
  - destruct (Rle_dec b x) as [H2|H2].
    + rewrite (Rleb_true b x) by lra. auto.
    + rewrite (Rleb_false b x) by lra. rewrite (Rleb_true a x), (Rleb_true x b) by lra. cbn [andb].
      destruct (Rlt_dec x ((a + b) / 2)).
      * rewrite (Rltb_true x), (Rleb_false ((a + b) / 2)) by lra. reflexivity.
      * rewrite (Rltb_false x), (Rleb_true ((a + b) / 2)) by lra. reflexivity.
Qed.
Lemma smf_eq : forall x a b, a < b -> smf x a b = Fin (1 - zR x a b).
Proof.
  intros x a b H. unfold smf, zR. rewrite !ediv_fin by lra. cbn [epowi emul esub].
  destruct (Rle_dec x a) as [H1|H1].
  - rewrite (Rleb_false ((a+b)/2) x) by lra. cbn [andb]. rewrite (Rleb_true x a) by lra.
    destruct (Rleb_spec a x); cbn [andb].
    + rewrite (Rleb_true x ((a+b)/2)) by lra. assert (x = a) by lra. subst. f_equal. unfold Rdiv; ring.
    + f_equal; lra.
  - rewrite (Rleb_false x a) by lra. rewrite (Rleb_true a x) by lra. cbn [andb].
    destruct (Rle_dec b x) as [H2|H2].
    + rewrite (Rleb_false x ((a+b)/2)) by lra. rewrite (Rleb_true ((a+b)/2) x) by lra. cbn [andb].
      destruct (Rleb_spec x b); [|f_equal; lra]. assert (x = b) by lra. subst. f_equal. unfold Rdiv. ring.
    + rewrite (Rleb_true x b) by lra. rewrite andb_true_r.
      destruct (Rlt_dec x ((a + b) / 2)).
      * rewrite (Rleb_false ((a+b)/2)) by lra. rewrite (Rleb_true x ((a+b)/2)) by lra. f_equal. ring.
      * rewrite (Rleb_true ((a+b)/2)) by lra. f_equal.
Qed.

Lemma frac_range : forall u v, 0 <= u <= v / 2 -> 0 < v -> 0 <= u / v <= 1 / 2.
Proof.
  intros u v Hu Hv. split.
  - apply Rmult_le_pos; [lra|left; apply Rinv_0_lt_compat; auto].
  - apply (Rmult_le_reg_r v); auto. unfold Rdiv. rewrite Rmult_assoc, Rinv_l; lra.
Qed.

Lemma zR_range : forall x a b, a < b -> 0 <= zR x a b <= 1.
Proof.
  intros x a b H. unfold zR. destruct (Rle_dec x a); [lra|]. destruct (Rle_dec b x); [lra|].
  destruct (Rlt_dec x ((a + b) / 2)).
  - pose proof (frac_range (x - a) (b - a) ltac:(lra) ltac:(lra)). nra.
  - pose proof (frac_range (b - x) (b - a) ltac:(lra) ltac:(lra)) as F.
    replace ((x - b) / (b - a)) with (- ((b - x) / (b - a))) by (field; lra). nra.
Qed.
Lemma zR_mono : forall x y a b, a < b -> x <= y -> zR y a b <= zR x a b.
Proof.
  intros x y a b H Hxy. pose proof (zR_range x a b H) as Rx. pose proof (zR_range y a b H) as Ry.
  unfold zR in *.
  destruct (Rle_dec x a); [lra|]. destruct (Rle_dec y a); [lra|].
  destruct (Rle_dec b y); [lra|]. destruct (Rle_dec b x); [lra|].
  assert (Hi : 0 < / (b - a)) by (apply Rinv_0_lt_compat; lra).
  destruct (Rlt_dec x ((a + b) / 2)), (Rlt_dec y ((a + b) / 2)); try lra.
  - assert (0 <= (x - a) / (b - a) <= (y - a) / (b - a)) by (unfold Rdiv; split; [apply Rmult_le_pos; lra|apply Rmult_le_compat_r; lra]).
    nra.
  - pose proof (frac_range (x - a) (b - a) ltac:(lra) ltac:(lra)).
    pose proof (frac_range (b - y) (b - a) ltac:(lra) ltac:(lra)) as F.
    replace ((y - b) / (b - a)) with (- ((b - y) / (b - a))) by (field; lra). nra.
  - assert (0 <= (b - y) / (b - a) <= (b - x) / (b - a)) by (unfold Rdiv; split; [apply Rmult_le_pos; lra|apply Rmult_le_compat_r; lra]).
    replace ((y - b) / (b - a)) with (- ((b - y) / (b - a))) by (field; lra).
    replace ((x - b) / (b - a)) with (- ((b - x) / (b - a))) by (field; lra). nra.
Qed.
Lemma zR_lo : forall x a b, x <= a -> zR x a b = 1.
Proof. intros; unfold zR. destruct (Rle_dec x a); auto; lra. Qed.
Lemma zR_hi : forall x a b, a < b -> b <= x -> zR x a b = 0.
Proof. intros; unfold zR. destruct (Rle_dec x a); [lra|]. destruct (Rle_dec b x); auto; lra. Qed.

(** ** Interpolation on a uniform grid *)
Definition gridpt (a s : R) (i : nat) : R := a + INR i * s.
Definition gtab (f : R -> R) (a s : R) (k n : nat) : list (R * R) :=
  map (fun i => (gridpt a s i, f (gridpt a s i))) (seq k n).

Lemma gridpt_S : forall a s i, gridpt a s (S i) = gridpt a s i + s.
Proof. intros; unfold gridpt. rewrite S_INR. ring. Qed.

(** walking right from grid point k: result is a convex combination of two neighbours around x *)
Lemma interp_from_grid : forall f a s n k x, 0 < s ->
  gridpt a s k <= x <= gridpt a s (k + n) ->
  exists i u, (k <= i <= k + n)%nat /\ 0 <= u <= 1 /\
    ((i < k + n)%nat /\ gridpt a s i <= x < gridpt a s (S i) /\ x = gridpt a s i + u * s /\
     interp_from x (gridpt a s k) (f (gridpt a s k)) (gtab f a s (S k) n)
       = (1 - u) * f (gridpt a s i) + u * f (gridpt a s (S i))
     \/ i = (k + n)%nat /\ u = 0 /\ x = gridpt a s i /\
        interp_from x (gridpt a s k) (f (gridpt a s k)) (gtab f a s (S k) n) = f (gridpt a s i)).
Proof.
  intros f a s n; induction n as [|n IH]; intros k x Hs Hx.
  - exists k, 0. split; [lia|]. split; [lra|]. right. rewrite Nat.add_0_r in *. cbn. repeat split; auto; lra.
  - unfold gtab. cbn [seq map interp_from]. destruct (Rlt_dec x (gridpt a s (S k))) as [L|L].
    + exists k, ((x - gridpt a s k) / s). split; [lia|]. rewrite gridpt_S in *.
      split.
      { split. apply Rmult_le_pos; [lra|left; apply Rinv_0_lt_compat; auto].
        apply (Rmult_le_reg_r s); auto. unfold Rdiv. rewrite Rmult_assoc, Rinv_l by lra. lra. }
      left. repeat split; auto; try lra; try lia.
      * field; lra.
      * field; lra.
    + destruct (IH (S k) x Hs) as (i & u & Hi & Hu & HH).
      { split; [lra|]. replace (S k + n)%nat with (k + S n)%nat by lia. apply Hx. }
      exists i, u. split; [lia|]. split; [auto|].
      destruct HH as [(H1 & H2 & H3 & H4)|(H1 & H2 & H3 & H4)].
      * left. repeat split; auto; try lia; try lra.
      * right. repeat split; auto; try lia.
Qed.

Lemma gtab_last : forall f a s n k d, last (gtab f a s k (S n)) d = (gridpt a s (k + n), f (gridpt a s (k + n))).
Proof.
  intros f a s n. induction n as [|n IH]; intros k d.
  - cbn. rewrite Nat.add_0_r. auto.
  - change (gtab f a s k (S (S n))) with ((gridpt a s k, f (gridpt a s k)) :: gtab f a s (S k) (S n)).
    cbn [last]. unfold gtab at 1. cbn [seq map]. 
    change (last (gtab f a s (S k) (S n)) d = (gridpt a s (k + S n), f (gridpt a s (k + S n)))).
    rewrite IH. replace (S k + n)%nat with (k + S n)%nat by lia. auto.
Qed.

(** interpolated membership inside the universe *)
Lemma interp_grid : forall f a s n x, 0 < s -> a <= x <= gridpt a s n ->
  exists i u, (i <= n)%nat /\ 0 <= u <= 1 /\
    ((i < n)%nat /\ gridpt a s i <= x < gridpt a s (S i) /\ x = gridpt a s i + u * s /\
     interp_membership (gtab f a s 0 (S n)) x = (1 - u) * f (gridpt a s i) + u * f (gridpt a s (S i))
     \/ i = n /\ u = 0 /\ x = gridpt a s i /\ interp_membership (gtab f a s 0 (S n)) x = f (gridpt a s i)).
Proof.
  intros f a s n x Hs Hx.
  assert (E0 : gridpt a s 0 = a) by (unfold gridpt; cbn; ring).
  assert (E : interp_membership (gtab f a s 0 (S n)) x
              = interp_from x (gridpt a s 0) (f (gridpt a s 0)) (gtab f a s 1 n)).
  { unfold interp_membership. rewrite gtab_last. cbn [fst Nat.add].
    change (gtab f a s 0 (S n)) with ((gridpt a s 0, f (gridpt a s 0)) :: gtab f a s 1 n). cbn [hd fst np_interp].
    rewrite E0. rewrite (Rltb_false x a), (Rltb_false _ x) by lra. destruct (Rlt_dec x a); [lra|]. reflexivity. }
  rewrite E. destruct (interp_from_grid f a s n 0 x Hs) as (i & u & Hi & Hu & HH).
  { rewrite E0. exact Hx. }
  exists i, u. cbn [Nat.add] in *. split; [lia|]. split; auto.
Qed.

(** a bound valid at all grid points within one step of x is inherited *)
Lemma interp_grid_ge : forall f a s n x lo, 0 < s -> a <= x <= gridpt a s n ->
  (forall y, a <= y <= gridpt a s n -> Rabs (y - x) <= s -> lo <= f y) ->
  lo <= interp_membership (gtab f a s 0 (S n)) x.
Proof.
  intros f a s n x lo Hs Hx H. 
  assert (G : forall i, (i <= n)%nat -> a <= gridpt a s i <= gridpt a s n).
  { intros i Hi. unfold gridpt. apply le_INR in Hi. pose proof (pos_INR i). nra. }
  destruct (interp_grid f a s n x Hs Hx) as (i & u & Hi & Hu & [(H1 & H2 & H3 & H4)|(H1 & H2 & H3 & H4)]); rewrite H4.
  - rewrite gridpt_S in *. pose proof (G i ltac:(lia)). pose proof (G (S i) ltac:(lia)). rewrite gridpt_S in *.
    assert (lo <= f (gridpt a s i)) by (apply H; auto; rewrite Rabs_left1; lra).
    assert (lo <= f (gridpt a s i + s)) by (apply H; auto; rewrite Rabs_pos_eq; lra). nra.
  - apply H; auto. rewrite H3. rewrite Rminus_diag_eq, Rabs_R0; lra.
Qed.
Lemma interp_grid_le : forall f a s n x hi, 0 < s -> a <= x <= gridpt a s n ->
  (forall y, a <= y <= gridpt a s n -> Rabs (y - x) <= s -> f y <= hi) ->
  interp_membership (gtab f a s 0 (S n)) x <= hi.
Proof.
  intros f a s n x lo Hs Hx H. 
  assert (G : forall i, (i <= n)%nat -> a <= gridpt a s i <= gridpt a s n).
  { intros i Hi. unfold gridpt. apply le_INR in Hi. pose proof (pos_INR i). nra. }
  destruct (interp_grid f a s n x Hs Hx) as (i & u & Hi & Hu & [(H1 & H2 & H3 & H4)|(H1 & H2 & H3 & H4)]); rewrite H4.
  - rewrite gridpt_S in *. pose proof (G i ltac:(lia)). pose proof (G (S i) ltac:(lia)). rewrite gridpt_S in *.
    assert (f (gridpt a s i) <= lo) by (apply H; auto; rewrite Rabs_left1; lra).
    assert (f (gridpt a s i + s) <= lo) by (apply H; auto; rewrite Rabs_pos_eq; lra). nra.
  - apply H; auto. rewrite H3. rewrite Rminus_diag_eq, Rabs_R0; lra.
Qed.
Lemma interp_grid_at : forall f a s n i, 0 < s -> (i <= n)%nat ->
  interp_membership (gtab f a s 0 (S n)) (gridpt a s i) = f (gridpt a s i).
Proof.
  intros f a s n i Hs Hi.
  destruct (interp_grid f a s n (gridpt a s i) Hs) as (j & u & Hj & Hu & HH).
  { unfold gridpt. apply le_INR in Hi. pose proof (pos_INR i). nra. }
  assert (Q : forall p q, gridpt a s p <= gridpt a s q -> (p <= q)%nat).
  { intros p q Hpq. apply INR_le. unfold gridpt in Hpq. nra. }
  destruct HH as [(H1 & H2 & H3 & H4)|(H1 & H2 & H3 & H4)].
  - assert (j = i).
    { destruct H2 as [H2 H2']. apply Q in H2. assert (i < S j)%nat; [|lia].
      destruct (le_lt_dec (S j) i); auto. exfalso.
      assert (gridpt a s (S j) <= gridpt a s i); [|lra]. unfold gridpt. apply le_INR in l. nra. }
    subst j. assert (u = 0) by nra. subst u. rewrite H4. ring.
  - rewrite H4, <- H3. auto.
Qed.

(** ** Maximum of a list *)
Lemma fold_max_ge : forall l a, a <= fold_left Rmax l a.
Proof.
  induction l as [|b l IH]; intros a; cbn; [lra|]. eapply Rle_trans; [|apply IH]. apply Rmax_l.
Qed.
Lemma fold_max_in_ge : forall l a x, In x l -> x <= fold_left Rmax l a.
Proof.
  induction l as [|b l IH]; intros a x H; cbn in *; [tauto|]. destruct H as [->|H]; auto.
  eapply Rle_trans; [|apply fold_max_ge]. apply Rmax_r.
Qed.
Lemma fold_max_in : forall l a, In (fold_left Rmax l a) (a :: l).
Proof.
  induction l as [|b l IH]; intros a; cbn; auto. destruct (IH (Rmax a b)) as [H|H].
  - rewrite <- H. unfold Rmax. destruct (Rle_dec a b); auto.
  - auto.
Qed.
Lemma rmaxl_ge : forall l x, In x l -> x <= rmaxl l.
Proof.
  intros [|a l] x H; cbn in *; [tauto|]. destruct H as [->|H]; [apply fold_max_ge|apply fold_max_in_ge; auto].
Qed.
Lemma rmaxl_in : forall l, l <> [] -> In (rmaxl l) l.
Proof. intros [|a l] H; [tauto|]. apply fold_max_in. Qed.

(** last of maxima: attains the maximum and is to the right of every maximum *)
Lemma defuzz_lom_spec : forall tbl, tbl <> [] ->
  exists v, In (defuzz_lom tbl, v) tbl /\ (forall x y, In (x, y) tbl -> y <= v) /\
            (forall x, In (x, v) tbl -> x <= defuzz_lom tbl).
Proof.
  intros tbl H. set (m := rmaxl (map snd tbl)). exists m.
  assert (Hm : In m (map snd tbl)) by (apply rmaxl_in; destruct tbl; cbn; congruence).
  set (sel := map fst (filter (fun p => if Req_EM_T (snd p) m then true else false) tbl)).
  assert (Hs : forall x, In x sel <-> In (x, m) tbl).
  { intros x. unfold sel. rewrite in_map_iff. split.
    - intros ([x' y'] & E & Hin). cbn in E; subst x'. apply filter_In in Hin. cbn in Hin.
      destruct Hin as [Hin Hy]. destruct (Req_EM_T y' m); [subst; auto|discriminate].
    - intros Hin. exists (x, m). split; auto. apply filter_In. split; auto. cbn. destruct (Req_EM_T m m); auto. }
  assert (Hne : sel <> []).
  { apply in_map_iff in Hm. destruct Hm as ([x y] & E & Hin). cbn in E; subst y.
    apply Hs in Hin. intros E. rewrite E in Hin. destruct Hin. }
  change (defuzz_lom tbl) with (rmaxl sel). split; [|split].
  - apply Hs. apply rmaxl_in; auto.
  - intros x y Hin. apply rmaxl_ge. change y with (snd (x, y)). apply in_map; auto.
  - intros x Hin. apply rmaxl_ge. apply Hs; auto.
Qed.
