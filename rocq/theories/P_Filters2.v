(** * Property C92: the Savitzky-Golay filter (openap/extra/filters.py:47-101) *)
From Coq Require Import List Bool ZArith Lia Permutation Sorted.
From Coq Require Import Reals Lra Psatz.
From Verif Require Import Num NumFacts SpecNum Py Filters P_Filters.
Import ListNotations.
Open Scope R_scope.

(** ** Specification *)
(** sum of [f 0 .. f (n-1)] *)
Definition Sum (n : nat) (f : nat -> R) : R := rsum (map f (seq 0 n)).
Definition entry (a : list (list R)) (i j : nat) : R := nth j (nth i a []) 0.
(** [p] is the Moore-Penrose inverse of the [r] by [c] matrix [b] *)
Definition moore_penrose (r c : nat) (b p : list (list R)) : Prop :=
  length p = c /\ Forall (fun row => length row = r) p /\
  (forall i j, (i < r)%nat -> (j < c)%nat -> Sum c (fun k => Sum r (fun l => entry b i k * entry p k l * entry b l j)) = entry b i j) /\
  (forall i j, (i < c)%nat -> (j < r)%nat -> Sum r (fun k => Sum c (fun l => entry p i k * entry b k l * entry p l j)) = entry p i j) /\
  (forall i j, (i < r)%nat -> (j < r)%nat -> Sum c (fun k => entry b i k * entry p k j) = Sum c (fun k => entry b j k * entry p k i)) /\
  (forall i j, (i < c)%nat -> (j < c)%nat -> Sum r (fun k => entry p i k * entry b k j) = Sum r (fun k => entry p j k * entry b k i)).
(** value at [t] of the polynomial of degree at most [o] with coefficients [a] *)
Definition poly (o : nat) (a : nat -> R) (t : R) : R := Sum (o + 1) (fun l => a l * t ^ l).
(** sum of the squared differences between a polynomial and the [2h+1] samples around sample [i] *)
Definition misfit (Y : list R) (i h o : nat) (a : nat -> R) : R :=
  Sum (2 * h + 1) (fun j => (poly o a (INR j - INR h) - nth (i - h + j) Y 0) ^ 2).
(** [a] are the coefficients of the least-squares polynomial: any other one fits worse *)
Definition least_squares (Y : list R) (i h o : nat) (a : nat -> R) : Prop :=
  forall a', misfit Y i h o a <= misfit Y i h o a' /\
             (misfit Y i h o a' = misfit Y i h o a -> forall l, (l <= o)%nat -> a' l = a l).

(** ** Sums *)
Lemma Sum_S : forall n f, Sum (S n) f = Sum n f + f n.
Proof. intros. unfold Sum. rewrite seq_S, map_app, rsum_app. cbn. lra. Qed.
Lemma Sum_ext : forall n f g, (forall i, (i < n)%nat -> f i = g i) -> Sum n f = Sum n g.
Proof. intros n f g H. apply rsum_ext. intros j Hj. apply in_seq in Hj. apply H. lia. Qed.
Lemma Sum_plus : forall n f g, Sum n (fun i => f i + g i) = Sum n f + Sum n g.
Proof. intros. apply rsum_plus. Qed.
Lemma Sum_scale : forall n k f, Sum n (fun i => k * f i) = k * Sum n f.
Proof. intros. apply rsum_scale. Qed.
Lemma Sum_scale_r : forall n k f, Sum n (fun i => f i * k) = Sum n f * k.
Proof. intros. rewrite Rmult_comm, <- Sum_scale. apply Sum_ext. intros; lra. Qed.
Lemma Sum_zero : forall n f, (forall i, (i < n)%nat -> f i = 0) -> Sum n f = 0.
Proof. intros n f H. apply rsum_zero. intros j Hj. apply in_seq in Hj. apply H. lia. Qed.
Lemma Sum_minus : forall n f g, Sum n (fun i => f i - g i) = Sum n f - Sum n g.
Proof.
  intros. rewrite (Sum_ext n _ (fun i => f i + (-1) * g i)) by (intros; lra). rewrite Sum_plus, Sum_scale. lra.
Qed.
Lemma Sum_swap : forall n m f, Sum n (fun i => Sum m (fun j => f i j)) = Sum m (fun j => Sum n (fun i => f i j)).
Proof.
  induction n; intros m f.
  - unfold Sum at 1. cbn. symmetry. apply Sum_zero. reflexivity.
  - rewrite Sum_S, IHn, <- Sum_plus. apply Sum_ext. intros. rewrite Sum_S. auto.
Qed.
Lemma Sum_delta : forall n k f, (k < n)%nat -> Sum n (fun i => (if Nat.eqb i k then 1 else 0) * f i) = f k.
Proof.
  induction n; intros k f H; [lia|]. rewrite Sum_S. destruct (Nat.eq_dec k n) as [->|N].
  - rewrite Nat.eqb_refl. rewrite Sum_zero; [lra|]. intros i Hi. destruct (Nat.eqb_spec i n); [lia|lra].
  - rewrite IHn by lia. destruct (Nat.eqb_spec n k); [lia|]. lra.
Qed.
Lemma Sum_first : forall n f, Sum (S n) f = f 0%nat + Sum n (fun i => f (S i)).
Proof. intros. unfold Sum. cbn [seq map rsum]. rewrite <- seq_shift, map_map. auto. Qed.
Lemma Sum_rev : forall n f, Sum n f = Sum n (fun i => f (n - 1 - i)%nat).
Proof.
  induction n; intros f; [reflexivity|]. rewrite Sum_S. rewrite Sum_first. rewrite IHn.
  replace (S n - 1 - 0)%nat with n by lia. rewrite Rplus_comm. f_equal. apply Sum_ext. intros i Hi. f_equal. lia.
Qed.
Lemma Sum_nonneg : forall n f, (forall i, (i < n)%nat -> 0 <= f i) -> 0 <= Sum n f.
Proof.
  induction n; intros f H; [unfold Sum; cbn; lra|]. rewrite Sum_S. apply Rplus_le_le_0_compat; [apply IHn|apply H]; auto.
Qed.
Lemma Sum_nonneg_zero : forall n f, (forall i, (i < n)%nat -> 0 <= f i) -> Sum n f = 0 -> forall i, (i < n)%nat -> f i = 0.
Proof.
  induction n; intros f H E i Hi; [lia|]. rewrite Sum_S in E. pose proof (Sum_nonneg n f ltac:(auto)). pose proof (H n ltac:(lia)).
  destruct (Nat.eq_dec i n) as [->|N]; [lra|]. apply IHn; auto; try lia. lra.
Qed.

(** ** A polynomial of degree at most [o] with more than [o] roots is zero *)
Fixpoint ev (c : list R) (x : R) : R := match c with [] => 0 | a :: t => a + x * ev t x end.
Fixpoint quo (c : list R) (a : R) : list R := match c with [] => [] | _ :: t => match t with [] => [] | _ => ev t a :: quo t a end end.
Lemma quo_length : forall c a, length (quo c a) = (length c - 1)%nat.
Proof. induction c as [|c0 [|c1 c] IH]; intros a; auto. cbn [quo length] in *. rewrite IH. lia. Qed.
Lemma ev_quo : forall c a x, ev c x - ev c a = (x - a) * ev (quo c a) x.
Proof.
  induction c as [|c0 [|c1 c] IH]; intros a x; [cbn; lra|cbn; lra|].
  change (ev (c0 :: c1 :: c) x) with (c0 + x * ev (c1 :: c) x). change (ev (c0 :: c1 :: c) a) with (c0 + a * ev (c1 :: c) a).
  change (ev (quo (c0 :: c1 :: c) a) x) with (ev (c1 :: c) a + x * ev (quo (c1 :: c) a) x).
  specialize (IH a x). replace (ev (c1 :: c) x) with (ev (c1 :: c) a + (x - a) * ev (quo (c1 :: c) a) x) by lra. ring.
Qed.
Lemma ev_zeros : forall c x, Forall (fun y => y = 0) c -> ev c x = 0.
Proof. intros c x F. induction F as [|y c E F IH]; cbn; auto. rewrite E, IH. lra. Qed.
Lemma quo_zero : forall c a, Forall (fun y => y = 0) (quo c a) -> Forall (fun y => y = 0) (tl c).
Proof.
  induction c as [|c0 [|c1 c] IH]; intros a F; [constructor|constructor|].
  change (quo (c0 :: c1 :: c) a) with (ev (c1 :: c) a :: quo (c1 :: c) a) in F. inversion F as [|? ? E F']; subst.
  specialize (IH a F'). cbn [tl] in *. constructor; auto. cbn [ev] in E. rewrite (ev_zeros c a IH) in E. lra.
Qed.
Lemma many_roots : forall rs c, NoDup rs -> (length c <= length rs)%nat -> (forall r, In r rs -> ev c r = 0) -> Forall (fun y => y = 0) c.
Proof.
  induction rs as [|r rs IH]; intros c N L H.
  - destruct c; [constructor|cbn in L; lia].
  - inversion N as [|? ? NI N']; subst. destruct c as [|c0 c]; [constructor|].
    assert (Q : Forall (fun y => y = 0) (quo (c0 :: c) r)).
    { apply IH; auto.
      - rewrite quo_length. cbn in *. lia.
      - intros s Hs. pose proof (ev_quo (c0 :: c) r s) as E. rewrite (H s), (H r) in E by (cbn; auto).
        assert (s - r <> 0) by (intros Z; apply NI; replace r with s by lra; auto).
        apply Rmult_eq_reg_l with (s - r); auto. lra. }
    apply quo_zero in Q. cbn [tl] in Q. constructor; auto. pose proof (H r ltac:(cbn; auto)) as E. cbn in E. rewrite (ev_zeros c r Q) in E. lra.
Qed.
Lemma ev_map_seq : forall n s (a : nat -> R) x, ev (map a (seq s n)) x = Sum n (fun l => a (s + l)%nat * x ^ l).
Proof.
  induction n; intros s a x; [reflexivity|]. cbn [seq map ev]. rewrite IHn, Sum_first, Nat.add_0_r. cbn [pow].
  rewrite <- Sum_scale. f_equal; [lra|]. apply Sum_ext. intros i _. rewrite <- Nat.add_succ_comm. cbn [Nat.add]. ring.
Qed.
Lemma poly_zero : forall h o a, (o <= 2 * h)%nat -> (forall j, (j < 2 * h + 1)%nat -> poly o a (INR j - INR h) = 0) -> forall l, (l <= o)%nat -> a l = 0.
Proof.
  intros h o a Ho H l Hl.
  assert (F : Forall (fun y => y = 0) (map a (seq 0 (o + 1)))).
  { apply many_roots with (map (fun j => INR j - INR h) (seq 0 (2 * h + 1))).
    - apply FinFun.Injective_map_NoDup; [|apply seq_NoDup]. intros x y E. apply INR_eq. lra.
    - rewrite !map_length, !seq_length. lia.
    - intros r I. apply in_map_iff in I. destruct I as (j & <- & Hj). apply in_seq in Hj. rewrite ev_map_seq. apply H. lia. }
  rewrite Forall_forall in F. apply F. apply in_map_iff. exists l. split; auto. apply in_seq. lia.
Qed.

(** ** The matrix *)
Lemma zrange_nth : forall a b d k, (k < Z.to_nat (b - a))%nat -> nth k (zrange a b) d = (a + Z.of_nat k)%Z.
Proof.
  intros a b d k H. unfold zrange. rewrite (nth_indep _ d ((fun k => (a + Z.of_nat k)%Z) 0%nat)) by (rewrite map_length, seq_length; auto).
  rewrite (map_nth (fun k => (a + Z.of_nat k)%Z)), seq_nth by auto. auto.
Qed.
Lemma zrange_length : forall a b, length (zrange a b) = Z.to_nat (b - a).
Proof. intros. unfold zrange. rewrite map_length, seq_length. auto. Qed.
Lemma matrix_entry : forall h o j l, (j < 2 * h + 1)%nat -> (l < o + 1)%nat -> entry (sg_matrix h o) j l = (INR j - INR h) ^ l.
Proof.
  intros h o j l Hj Hl. unfold entry, sg_matrix.
  rewrite (nth_indep _ [] ((fun k => map (fun i => IZR (k ^ Z.of_nat i)) (seq 0 (o + 1))) 0%Z)) by (rewrite map_length, zrange_length; lia).
  rewrite (map_nth (fun k => map (fun i => IZR (k ^ Z.of_nat i)) (seq 0 (o + 1)))), zrange_nth by lia.
  rewrite (nth_indep _ 0 ((fun i => IZR ((- Z.of_nat h + Z.of_nat j) ^ Z.of_nat i)) 0%nat)) by (rewrite map_length, seq_length; lia).
  rewrite (map_nth (fun i => IZR ((- Z.of_nat h + Z.of_nat j) ^ Z.of_nat i))), seq_nth by lia. cbn [Nat.add].
  rewrite <- pow_IZR, plus_IZR, opp_IZR, <- !INR_IZR_INZ. f_equal. lra.
Qed.

Section Fit.
Context (h o : nat) (p : list (list R)).
Hypothesis Ho : (o <= 2 * h)%nat.
Hypothesis HP : moore_penrose (2 * h + 1) (o + 1) (sg_matrix h o) p.
Let r := (2 * h + 1)%nat.
Let c := (o + 1)%nat.
Let b := entry (sg_matrix h o).
Let P := entry p.
Lemma b_pow : forall j l, (j < r)%nat -> (l < c)%nat -> b j l = (INR j - INR h) ^ l.
Proof. intros. apply matrix_entry; auto. Qed.
Lemma b_poly : forall j a, (j < r)%nat -> Sum c (fun l => b j l * a l) = poly o a (INR j - INR h).
Proof. intros j a Hj. unfold poly. apply Sum_ext. intros l Hl. rewrite b_pow by auto. ring. Qed.
(** [p] is a left inverse *)
Lemma left_inverse : forall d l, (d < c)%nat -> (l < c)%nat -> Sum r (fun j => P d j * b j l) = if Nat.eqb d l then 1 else 0.
Proof.
  intros d l Hd Hl. destruct HP as (_ & _ & E1 & _).
  enough (Z : forall k, (k <= o)%nat -> Sum r (fun j => P k j * b j l) - (if Nat.eqb k l then 1 else 0) = 0).
  { specialize (Z d ltac:(unfold c in Hd; lia)). lra. }
  apply (poly_zero h o); auto. intros j Hj. rewrite <- b_poly by auto.
  rewrite (Sum_ext c _ (fun k => b j k * Sum r (fun i => P k i * b i l) - (if Nat.eqb k l then 1 else 0) * b j k)) by (intros; ring).
  rewrite Sum_minus, Sum_delta by auto.
  rewrite (Sum_ext c _ (fun k => Sum r (fun i => b j k * P k i * b i l))); [|intros k Hk; rewrite <- Sum_scale; apply Sum_ext; intros; ring].
  change (Sum c (fun k => Sum r (fun i => b j k * P k i * b i l)) - b j l = 0).
  assert (Q : Sum c (fun k => Sum r (fun i => b j k * P k i * b i l)) = b j l) by exact (E1 j l Hj Hl). rewrite Q. lra.
Qed.
(** normal equations *)
Lemma normal : forall l i, (l < c)%nat -> (i < r)%nat -> Sum r (fun j => b j l * Sum c (fun k => b j k * P k i)) = b i l.
Proof.
  intros l i Hl Hi. destruct HP as (_ & _ & E1 & _ & E3 & _).
  rewrite (Sum_ext r _ (fun j => Sum c (fun k => b i k * P k j) * b j l)).
  2: { intros j Hj. assert (Q : Sum c (fun k => b j k * P k i) = Sum c (fun k => b i k * P k j)) by exact (E3 j i Hj Hi). rewrite Q. ring. }
  rewrite (Sum_ext r _ (fun j => Sum c (fun k => b i k * P k j * b j l))) by (intros; rewrite <- Sum_scale_r; apply Sum_ext; intros; ring).
  rewrite Sum_swap. apply (E1 i l Hi Hl).
Qed.
(** the coefficients of the fit to the values [y] *)
Definition fit (y : nat -> R) (k : nat) : R := Sum r (fun j => P k j * y j).
Lemma residual_orthogonal : forall y l, (l < c)%nat -> Sum r (fun j => b j l * (Sum c (fun k => b j k * fit y k) - y j)) = 0.
Proof.
  intros y l Hl. rewrite (Sum_ext r _ (fun j => b j l * Sum c (fun k => b j k * fit y k) - b j l * y j)) by (intros; ring).
  rewrite Sum_minus. unfold fit.
  rewrite (Sum_ext r (fun j => b j l * Sum c (fun k => b j k * Sum r (fun i => P k i * y i))) (fun j => Sum r (fun i => b j l * Sum c (fun k => b j k * P k i) * y i))).
  - rewrite Sum_swap. rewrite (Sum_ext r _ (fun i => b i l * y i)); [lra|]. intros i Hi. rewrite Sum_scale_r, normal by auto. auto.
  - intros j Hj. rewrite (Sum_ext c _ (fun k => Sum r (fun i => b j k * P k i * y i))) by (intros; rewrite <- Sum_scale; apply Sum_ext; intros; ring).
    rewrite Sum_swap, <- Sum_scale. apply Sum_ext. intros i Hi. rewrite Sum_scale_r. ring.
Qed.
Lemma fit_best : forall y a,
  Sum r (fun j => (Sum c (fun k => b j k * a k) - y j) ^ 2) =
  Sum r (fun j => (Sum c (fun k => b j k * fit y k) - y j) ^ 2) + Sum r (fun j => Sum c (fun k => b j k * (a k - fit y k)) ^ 2).
Proof.
  intros y a. set (e := fun j => Sum c (fun k => b j k * fit y k) - y j). set (g := fun j => Sum c (fun k => b j k * (a k - fit y k))).
  assert (G : forall j, Sum c (fun k => b j k * a k) - y j = e j + g j).
  { intros j. unfold e, g. rewrite (Sum_ext c (fun k => b j k * (a k - fit y k)) (fun k => b j k * a k - b j k * fit y k)) by (intros; ring). rewrite Sum_minus. ring. }
  rewrite (Sum_ext r _ (fun j => (e j ^ 2 + g j ^ 2) + 2 * (e j * g j))) by (intros; rewrite G; ring).
  rewrite Sum_plus, Sum_plus, Sum_scale.
  assert (Z : Sum r (fun j => e j * g j) = 0).
  { unfold g. rewrite (Sum_ext r _ (fun j => Sum c (fun k => (a k - fit y k) * (b j k * e j)))) by (intros; rewrite <- Sum_scale; apply Sum_ext; intros; ring).
    rewrite Sum_swap. apply Sum_zero. intros k Hk. rewrite Sum_scale. unfold e. rewrite residual_orthogonal by auto. lra. }
  rewrite Z. unfold e, g. ring.
Qed.
End Fit.

(** ** Constructor *)
(** the arguments that are accepted, and what the object keeps *)
Theorem C92_arguments : forall window_size order,
  (Z.odd window_size = true /\ (Z.abs order + 2 <= Z.abs window_size)%Z ->
     sg_init window_size order = inr (Z.to_nat (Z.abs window_size), Z.to_nat (Z.abs order))) /\
  (~ (Z.odd window_size = true /\ (Z.abs order + 2 <= Z.abs window_size)%Z) -> sg_init window_size order = inl TypeError).
Proof.
  intros w o. unfold sg_init.
  assert (E : (Z.abs w mod 2 =? 1)%Z = Z.odd w).
  { rewrite Zmod_odd. replace (Z.odd (Z.abs w)) with (Z.odd w). { destruct (Z.odd w); reflexivity. }
    destruct (Z.abs_spec w) as [[_ ->]|[_ ->]]; [auto|rewrite Z.odd_opp; auto]. }
  rewrite E. split.
  - intros [-> H]. cbn [negb orb]. replace (Z.abs w <? 1)%Z with false by (symmetry; apply Z.ltb_ge; lia).
    replace (Z.abs w <? Z.abs o + 2)%Z with false by (symmetry; apply Z.ltb_ge; lia). auto.
  - intros N. destruct (Z.odd w) eqn:Od; [|reflexivity]. cbn [negb orb]. destruct (Z.abs w <? 1)%Z; auto.
    destruct (Z.ltb_spec (Z.abs w) (Z.abs o + 2)); auto. exfalso. apply N. split; auto.
Qed.
(** so the window kept is odd, at least 3, and larger than the degree plus one *)
Lemma init_window : forall ws order w o, sg_init ws order = inr (w, o) -> exists h, w = (2 * h + 1)%nat /\ (o + 1 <= 2 * h)%nat /\ half_window w = h.
Proof.
  intros ws order w o E. destruct (C92_arguments ws order) as [A B].
  destruct (Z.odd ws) eqn:Od.
  - destruct (Z_le_dec (Z.abs order + 2) (Z.abs ws)) as [L|L].
    + rewrite A in E by auto. injection E as <- <-. apply Z.odd_spec in Od. destruct Od as [k Hk].
      exists (Z.to_nat ((Z.abs ws - 1) / 2)).
      assert (Q : exists m, (Z.abs ws = 2 * m + 1 /\ 0 <= m)%Z). { destruct (Z.abs_spec ws) as [[P ->]|[P ->]]; [exists k|exists (- k - 1)%Z]; lia. }
      destruct Q as (m & Hm & Pm). rewrite Hm. replace ((2 * m + 1 - 1) / 2)%Z with m by (replace (2 * m + 1 - 1)%Z with (m * 2)%Z by lia; rewrite Z.div_mul; lia).
      assert (T : Z.to_nat (2 * m + 1) = (2 * Z.to_nat m + 1)%nat) by lia.
      split; [auto|split; [lia|]]. unfold half_window. rewrite T. replace (2 * Z.to_nat m + 1 - 1)%nat with (Z.to_nat m * 2)%nat by lia. apply Nat.div_mul. lia.
    + rewrite B in E by tauto. discriminate E.
  - rewrite B in E by (intros [H _]; discriminate H). discriminate E.
Qed.

(** ** Filter *)
(** the matrix with the powers of the offsets [-h .. h] *)
Definition vandermonde (h o : nat) (b : list (list R)) : Prop :=
  length b = (2 * h + 1)%nat /\ Forall (fun row => length row = (o + 1)%nat) b /\
  (forall j l, (j < 2 * h + 1)%nat -> (l < o + 1)%nat -> entry b j l = (INR j - INR h) ^ l).
Definition inverts (h o : nat) (pinv : list (list R) -> list (list R)) : Prop :=
  forall b, vandermonde h o b -> moore_penrose (2 * h + 1) (o + 1) b (pinv b).
(** the series that is filtered: sorted by time, and filled every second if asked to *)
Definition series (i : bool) (X Y : list R) : py (list R * list R) :=
  if i then match simplefill X Y with inl e => inl e | inr (Xf, Yf) => inr (map IZR Xf, Yf) end else sortxy X Y.

Lemma matrix_vandermonde : forall h o, vandermonde h o (sg_matrix h o).
Proof.
  intros h o. split; [|split].
  - unfold sg_matrix. rewrite map_length, zrange_length. lia.
  - apply Forall_forall. intros row I. unfold sg_matrix in I. apply in_map_iff in I. destruct I as (k & <- & _). rewrite map_length, seq_length. auto.
  - intros. apply matrix_entry; auto.
Qed.
Lemma filter_series : forall pinv w o d i X Y, sg_filter pinv w o d i X Y =
  match series i X Y with
  | inl e => inl e
  | inr (Xs, Ys) => match nth_error (pinv (sg_matrix (half_window w) o)) d with None => inl IndexError | Some m => inr (Xs, convolve_valid m (sg_pad (half_window w) Ys)) end
  end.
Proof.
  intros. unfold sg_filter, series. destruct i.
  - destruct (simplefill X Y) as [e|[Xf Yf]]; auto.
  - destruct (sortxy X Y) as [e|[Xs Ys]]; auto.
Qed.
(** lengths of the paddings *)
Lemma pad_length : forall h Y, Y <> [] -> length (sg_pad h Y) = (length Y + 2 * Nat.min h (length Y - 1))%nat.
Proof.
  intros h Y N. assert (length Y <> 0%nat) by (destruct Y; [congruence|cbn; lia]). unfold sg_pad.
  rewrite !app_length, !map_length, !rev_length, firstn_length, !skipn_length, firstn_length. lia.
Qed.
Lemma pad_middle : forall h Y k, (h < length Y)%nat -> (h <= k < h + length Y)%nat -> nth k (sg_pad h Y) 0 = nth (k - h) Y 0.
Proof.
  intros h Y k H Hk. unfold sg_pad.
  match goal with |- nth k (?a ++ _ ++ _) 0 = _ => assert (L : length a = h) by (rewrite map_length, rev_length, firstn_length, skipn_length; lia) end.
  rewrite app_nth2 by lia. rewrite L, app_nth1 by lia. auto.
Qed.
Lemma pad_first : forall h Y k, (h < length Y)%nat -> (k < h)%nat -> nth k (sg_pad h Y) 0 = nth 0 Y 0 - Rabs (nth (h - k) Y 0 - nth 0 Y 0).
Proof.
  intros h Y k H Hk. unfold sg_pad. set (f := fun y : R => hd 0 Y - Rabs (y - hd 0 Y)).
  assert (L : length (rev (firstn h (skipn 1 Y))) = h) by (rewrite rev_length, firstn_length, skipn_length; lia).
  rewrite app_nth1 by (rewrite map_length; lia).
  rewrite (nth_indep _ 0 (f 0)) by (rewrite map_length; lia). rewrite (map_nth f), rev_nth by (rewrite rev_length in L; lia).
  rewrite rev_length in L. rewrite L, nth_firstn_, nth_skipn_ by lia. unfold f. replace (1 + (h - S k))%nat with (h - k)%nat by lia.
  destruct Y; reflexivity.
Qed.
Lemma pad_last : forall h Y k, (h < length Y)%nat -> (k < h)%nat ->
  nth (h + length Y + k) (sg_pad h Y) 0 = nth (length Y - 1) Y 0 + Rabs (nth (length Y - 2 - k) Y 0 - nth (length Y - 1) Y 0).
Proof.
  intros h Y k H Hk. unfold sg_pad. set (f := fun y : R => last Y 0 + Rabs (y - last Y 0)).
  match goal with |- nth _ (?a ++ _ ++ map f (rev ?c)) 0 = _ => assert (La : length a = h) by (rewrite map_length, rev_length, firstn_length, skipn_length; lia);
    assert (Lc : length c = h) by (rewrite skipn_length, firstn_length; lia) end.
  rewrite app_nth2 by lia. rewrite La, app_nth2 by lia. replace (h + length Y + k - h - length Y)%nat with k by lia.
  rewrite (nth_indep _ 0 (f 0)) by (rewrite map_length, rev_length; lia). rewrite (map_nth f), rev_nth by lia. rewrite Lc, nth_skipn_.
  rewrite nth_firstn_ by lia. unfold f. replace (last Y 0) with (nth (length Y - 1) Y 0).
  - replace (length Y - 1 - h + (h - S k))%nat with (length Y - 2 - k)%nat by lia. auto.
  - clear. induction Y as [|x [|y Y] IH]; auto. cbn [length] in *. replace (S (S (length Y)) - 1)%nat with (S (S (length Y) - 1)) by lia. exact IH.
Qed.

(** the window of output [i], read backwards *)
Definition win (h : nat) (Ys : list R) (i j : nat) : R := nth (i + 2 * h - j) (sg_pad h Ys) 0.

Section Filter.
Context (pinv : list (list R) -> list (list R)) (h o d : nat).
Hypothesis Ho : (o <= 2 * h)%nat.
Hypothesis HP : inverts h o pinv.
Hypothesis Hd : (d <= o)%nat.
Let p := pinv (sg_matrix h o).
Lemma MP : moore_penrose (2 * h + 1) (o + 1) (sg_matrix h o) p.
Proof. apply HP, matrix_vandermonde. Qed.
(** output [i] is the fit to the padded signal around it, read backwards *)
Lemma output_fit : forall w i X Y Xs Ys, half_window w = h -> series i X Y = inr (Xs, Ys) -> (h < length Ys)%nat ->
  exists out, sg_filter pinv w o d i X Y = inr (Xs, out) /\ length out = length Ys /\
    (forall k, (k < length Ys)%nat -> nth k out 0 = fit h p (win h Ys k) d).
Proof.
  intros w i X Y Xs Ys Hw S Hn. rewrite filter_series, S, Hw. fold p. destruct MP as (L & F & _).
  destruct (nth_error p d) as [m|] eqn:E. 2: { apply nth_error_None in E. lia. }
  assert (Lm : length m = (2 * h + 1)%nat). { rewrite Forall_forall in F. apply F. apply nth_error_In in E. auto. }
  assert (Lp : length (sg_pad h Ys) = (length Ys + 2 * h)%nat). { rewrite pad_length; [lia|]. intros ->. cbn in Hn. lia. }
  exists (convolve_valid m (sg_pad h Ys)). split; [auto|]. unfold convolve_valid. rewrite Lm, Lp.
  replace (2 * h + 1 <=? length Ys + 2 * h)%nat with true by (symmetry; apply Nat.leb_le; lia).
  replace (length Ys + 2 * h - (2 * h + 1) + 1)%nat with (length Ys) by lia. split; [rewrite map_length, seq_length; auto|].
  intros k Hk. rewrite (nth_indep _ 0 (conv_at m (sg_pad h Ys) 0)) by (rewrite map_length, seq_length; auto).
  rewrite (map_nth (conv_at m (sg_pad h Ys))), seq_nth by auto. unfold conv_at. rewrite Lm. cbn [Nat.add].
  replace (2 * h + 1 - 1)%nat with (2 * h)%nat by lia. unfold fit, Sum. f_equal. apply map_ext. intros j. f_equal.
  unfold entry. apply nth_error_nth with (d := []) in E. rewrite E. auto.
Qed.
Definition alt (a : nat -> R) (l : nat) : R := (-1) ^ l * a l.
Lemma alt_poly : forall a t, poly o (alt a) t = poly o a (- t).
Proof.
  intros. unfold poly, alt. apply Sum_ext. intros l _. replace (- t) with ((-1) * t) by lra. rewrite Rpow_mult_distr. ring.
Qed.
Lemma alt_alt : forall a l, alt (alt a) l = a l.
Proof. intros. unfold alt. rewrite <- Rmult_assoc, <- Rpow_mult_distr. replace (-1 * -1) with 1 by lra. rewrite pow1. lra. Qed.
Lemma misfit_window : forall Ys i a, (h <= i)%nat -> (i + h < length Ys)%nat ->
  misfit Ys i h o a = Sum (2 * h + 1) (fun j => (Sum (o + 1) (fun k => entry (sg_matrix h o) j k * alt a k) - win h Ys i j) ^ 2).
Proof.
  intros Ys i a H1 H2. unfold misfit. rewrite Sum_rev. apply Sum_ext. intros j Hj. f_equal. f_equal.
  - rewrite b_poly by auto. rewrite alt_poly. f_equal. rewrite !minus_INR by lia. rewrite plus_INR, mult_INR. cbn [INR]. lra.
  - unfold win. rewrite pad_middle by lia. f_equal. lia.
Qed.
Lemma fit_least : forall Ys i, (h <= i)%nat -> (i + h < length Ys)%nat ->
  least_squares Ys i h o (alt (fit h p (win h Ys i))).
Proof.
  intros Ys i H1 H2 a'. rewrite !misfit_window by auto. set (y := win h Ys i).
  rewrite (fit_best h o p MP y (alt a')).
  set (E0 := Sum (2 * h + 1) (fun j => (Sum (o + 1) (fun k => entry (sg_matrix h o) j k * fit h p y k) - y j) ^ 2)).
  replace (Sum (2 * h + 1) (fun j => (Sum (o + 1) (fun k => entry (sg_matrix h o) j k * alt (alt (fit h p y)) k) - y j) ^ 2)) with E0.
  2: { unfold E0. apply Sum_ext. intros j _. f_equal. f_equal. apply Sum_ext. intros k _. rewrite alt_alt. auto. }
  split.
  - match goal with |- _ <= _ + ?q => assert (0 <= q) by (apply Sum_nonneg; intros; apply pow2_ge_0) end. lra.
  - intros E. assert (Z : forall j, (j < 2 * h + 1)%nat -> poly o (fun k => alt a' k - fit h p y k) (INR j - INR h) = 0).
    { intros j Hj. rewrite <- b_poly by auto.
      match type of E with _ + Sum _ ?g = _ => pose proof (Sum_nonneg_zero (2 * h + 1) g ltac:(intros; apply pow2_ge_0) ltac:(lra) j Hj) as Q end.
      cbn beta in Q. apply Rsqr_0_uniq. rewrite <- Q. unfold Rsqr. ring. }
    intros l Hl. pose proof (poly_zero h o _ Ho Z l Hl) as Q. cbn beta in Q. rewrite <- (alt_alt a' l). unfold alt at 1 3. f_equal. lra.
Qed.
End Filter.

(** ** C92 *)
(** Away from the ends, the filter returns the coefficient of order [deriv] of the polynomial that fits
    the surrounding samples best, with the sign [(-1)^deriv]; the series keeps its length. *)
Theorem C92_least_squares : forall pinv window_size order w o h d i X Y Xs Ys,
  sg_init window_size order = inr (w, o) -> w = (2 * h + 1)%nat -> inverts h o pinv -> (d <= o)%nat ->
  series i X Y = inr (Xs, Ys) -> (h < length Ys)%nat ->
  exists out, sg_filter pinv w o d i X Y = inr (Xs, out) /\ length out = length Ys /\
    (forall k, (h <= k)%nat -> (k + h < length Ys)%nat ->
       exists a, least_squares Ys k h o a /\ nth k out 0 = (-1) ^ d * a d).
Proof.
  intros pinv ws order w o h d i X Y Xs Ys E Hw HP Hd S Hn.
  destruct (init_window _ _ _ _ E) as (h' & W & L & HW). assert (Eh : h' = h) by lia. rewrite Eh in L, HW.
  destruct (output_fit pinv h o d ltac:(lia) HP Hd w i X Y Xs Ys HW S Hn) as (out & A & B & C).
  exists out. split; [auto|split; [auto|]]. intros k H1 H2.
  exists (alt (fit h (pinv (sg_matrix h o)) (win h Ys k))). split.
  - apply (fit_least pinv h o d); auto; lia.
  - rewrite C by lia. unfold alt. rewrite <- Rmult_assoc, <- Rpow_mult_distr. replace (-1 * -1) with 1 by lra. rewrite pow1. lra.
Qed.
(** Where the samples lie on a polynomial of degree at most [order], the filter returns its coefficient;
    without derivative, the sample itself. *)
Theorem C92_polynomials : forall pinv window_size order w o h d i X Y Xs Ys k a,
  sg_init window_size order = inr (w, o) -> w = (2 * h + 1)%nat -> inverts h o pinv -> (d <= o)%nat ->
  series i X Y = inr (Xs, Ys) -> (h <= k)%nat -> (k + h < length Ys)%nat ->
  (forall j, (j < 2 * h + 1)%nat -> nth (k - h + j) Ys 0 = poly o a (INR j - INR h)) ->
  exists out, sg_filter pinv w o d i X Y = inr (Xs, out) /\ nth k out 0 = (-1) ^ d * a d /\ (d = 0%nat -> nth k out 0 = nth k Ys 0).
Proof.
  intros pinv ws order w o h d i X Y Xs Ys k a E Hw HP Hd S H1 H2 HY.
  destruct (C92_least_squares pinv ws order w o h d i X Y Xs Ys E Hw HP Hd S ltac:(lia)) as (out & A & _ & C).
  exists out. split; [auto|]. destruct (C k H1 H2) as (a0 & LS & V).
  assert (Z : misfit Ys k h o a = 0). { apply Sum_zero. intros j Hj. rewrite HY by auto. rewrite Rminus_diag_eq by auto. ring. }
  assert (Z0 : misfit Ys k h o a0 = 0). { destruct (LS a) as [L _]. assert (0 <= misfit Ys k h o a0) by (apply Sum_nonneg; intros; apply pow2_ge_0). lra. }
  destruct (LS a) as [_ U]. specialize (U ltac:(lra)). rewrite V, U by auto. split; auto. intros ->. cbn [pow].
  specialize (HY h ltac:(lia)). replace (k - h + h)%nat with k in HY by lia. rewrite HY, Rminus_diag_eq by auto. unfold poly.
  replace (o + 1)%nat with (Datatypes.S o) by lia. rewrite Sum_first. cbn [pow]. rewrite Sum_zero; [rewrite U by lia; lra|]. intros; lra.
Qed.

Lemma padded_line : forall h Ys c s, (h < length Ys)%nat -> 0 <= s -> (forall k, (k < length Ys)%nat -> nth k Ys 0 = c + s * INR k) ->
  forall k, (k < length Ys + 2 * h)%nat -> nth k (sg_pad h Ys) 0 = c + s * (INR k - INR h).
Proof.
  intros h Ys c s Hn Hs HY k Hk. destruct (Nat.lt_ge_cases k h) as [L|G].
  - rewrite pad_first by auto. rewrite !HY by lia. cbn [INR]. rewrite minus_INR by lia.
    replace (c + s * (INR h - INR k) - (c + s * 0)) with (s * (INR h - INR k)) by ring.
    rewrite Rabs_right; [ring|]. apply Rle_ge. apply Rmult_le_pos; auto. apply lt_INR in L. lra.
  - destruct (Nat.lt_ge_cases k (h + length Ys)) as [L|G'].
    + rewrite pad_middle by lia. rewrite HY by lia. rewrite minus_INR by lia. auto.
    + replace k with (h + length Ys + (k - h - length Ys))%nat at 1 by lia. rewrite pad_last by lia. rewrite !HY by lia.
      replace (length Ys - 2 - (k - h - length Ys))%nat with (2 * length Ys + h - 2 - k)%nat by lia.
      rewrite !minus_INR by lia. rewrite plus_INR, mult_INR. cbn [INR].
      match goal with |- _ + Rabs ?q = _ => replace q with (- (s * (INR k - INR h - INR (length Ys) + 1))) by ring end.
      rewrite Rabs_Ropp, Rabs_right; [ring|]. apply Rle_ge. apply Rmult_le_pos; auto.
      apply le_INR in G'. rewrite plus_INR in G'. lra.
Qed.
(** A rising line is returned unchanged, including both ends. *)
Theorem C92_rising_line : forall pinv window_size order w o h i X Y Xs Ys c s,
  sg_init window_size order = inr (w, o) -> w = (2 * h + 1)%nat -> inverts h o pinv ->
  series i X Y = inr (Xs, Ys) -> (h < length Ys)%nat -> (1 <= o)%nat -> 0 <= s ->
  (forall k, (k < length Ys)%nat -> nth k Ys 0 = c + s * INR k) ->
  sg_filter pinv w o 0 i X Y = inr (Xs, Ys).
Proof.
  intros pinv ws order w o h i X Y Xs Ys c s E Hw HP S Hn Hord Hs HY.
  destruct (init_window _ _ _ _ E) as (h' & W & L & HW). assert (Eh : h' = h) by lia. rewrite Eh in L, HW.
  destruct (output_fit pinv h o 0 ltac:(lia) HP ltac:(lia) w i X Y Xs Ys HW S Hn) as (out & A & B & C). rewrite A. f_equal. f_equal.
  apply nth_ext with 0 0; auto. intros k Hk. rewrite B in Hk. rewrite C by auto. rewrite HY by auto. unfold fit.
  set (q := fun l => if Nat.eqb l 0 then c + s * INR k else if Nat.eqb l 1 then - s else 0).
  rewrite (Sum_ext _ _ (fun j => Sum (o + 1) (fun l => entry (pinv (sg_matrix h o)) 0 j * entry (sg_matrix h o) j l * q l))).
  - rewrite Sum_swap. rewrite (Sum_ext _ _ (fun l => (if Nat.eqb l 0 then 1 else 0) * q l)).
    + rewrite Sum_delta by lia. auto.
    + intros l Hl. rewrite Sum_scale_r. rewrite (left_inverse h o); auto; try lia.
      * destruct l; auto. * apply HP, matrix_vandermonde.
  - intros j Hj. unfold win. rewrite (padded_line h Ys c s) by (auto; lia).
    rewrite (Sum_ext (o + 1) _ (fun l => entry (pinv (sg_matrix h o)) 0 j * (entry (sg_matrix h o) j l * q l))) by (intros; ring).
    rewrite Sum_scale. f_equal. replace (o + 1)%nat with (Datatypes.S (Datatypes.S (o - 1))) by lia. rewrite !Sum_first.
    rewrite (Sum_zero (o - 1)) by (intros; unfold q; cbn; ring). unfold q. cbn [Nat.eqb].
    rewrite !matrix_entry by lia. rewrite minus_INR, plus_INR, mult_INR by lia. cbn [INR pow]. ring.
Qed.
(** A constant signal is returned unchanged for every order. *)
Theorem C92_constant : forall pinv window_size order w o h i X Y Xs Ys c,
  sg_init window_size order = inr (w, o) -> w = (2 * h + 1)%nat -> inverts h o pinv ->
  series i X Y = inr (Xs, Ys) -> (h < length Ys)%nat -> Forall (fun y => y = c) Ys ->
  sg_filter pinv w o 0 i X Y = inr (Xs, Ys).
Proof.
  intros pinv ws order w o h i X Y Xs Ys c E Hw HP S Hn HY.
  assert (HY' : forall k, (k < length Ys)%nat -> nth k Ys 0 = c + 0 * INR k).
  { intros k Hk. rewrite Forall_forall in HY. rewrite (HY (nth k Ys 0)); [lra|]. apply nth_In; auto. }
  destruct (init_window _ _ _ _ E) as (h' & W & L & HW). assert (Eh : h' = h) by lia. rewrite Eh in L, HW.
  destruct (output_fit pinv h o 0 ltac:(lia) HP ltac:(lia) w i X Y Xs Ys HW S Hn) as (out & A & B & C). rewrite A. f_equal. f_equal.
  apply nth_ext with 0 0; auto. intros k Hk. rewrite B in Hk. rewrite C by auto. rewrite HY' by auto. unfold fit.
  rewrite (Sum_ext _ _ (fun j => entry (pinv (sg_matrix h o)) 0 j * entry (sg_matrix h o) j 0 * c)).
  - rewrite Sum_scale_r. rewrite (left_inverse h o); auto; try lia; [cbn; lra|]. apply HP, matrix_vandermonde.
  - intros j Hj. unfold win. rewrite (padded_line h Ys c 0) by (auto; lra || lia). rewrite matrix_entry by lia. cbn [pow]. ring.
Qed.
(** a derivative beyond the degree is an IndexError *)
Theorem C92_derivative_too_high : forall pinv window_size order w o h d i X Y Xs Ys,
  sg_init window_size order = inr (w, o) -> w = (2 * h + 1)%nat -> inverts h o pinv -> (o < d)%nat ->
  series i X Y = inr (Xs, Ys) -> sg_filter pinv w o d i X Y = inl IndexError.
Proof.
  intros pinv ws order w o h d i X Y Xs Ys E Hw HP Hd S. destruct (init_window _ _ _ _ E) as (h' & W & L & HW). assert (Eh : h' = h) by lia. rewrite Eh in L, HW.
  rewrite filter_series, S, HW. destruct (HP _ (matrix_vandermonde h o)) as (Lp & _).
  replace (nth_error (pinv (sg_matrix h o)) d) with (@None (list R)); auto. symmetry. apply nth_error_None. lia.
Qed.
(** no sample is a ValueError *)
Theorem C92_empty : forall pinv w o d i, sg_filter pinv w o d i [] [] = inl ValueError.
Proof. intros. destruct i; reflexivity. Qed.

(** "[deriv=1] gives the derivative."  It gives its negative. *)
Theorem C92_derivative_sign_refuted : forall pinv, inverts 1 1 pinv ->
  sg_init 3 1 = inr (3%nat, 1%nat) /\
  exists out, sg_filter pinv 3 1 1 false [0; 1; 2] [0; 1; 2] = inr ([0; 1; 2], out) /\ nth 1 out 0 = -1.
Proof.
  intros pinv HP. split; [reflexivity|].
  assert (S : series false [0; 1; 2] [0; 1; 2] = inr ([0; 1; 2], [0; 1; 2])).
  { apply sortxy_increasing; auto; [discriminate|]. intros j Hj. cbn in Hj. destruct j as [|[|j]]; [unfold gap; cbn; lra|unfold gap; cbn; lra|lia]. }
  destruct (C92_polynomials pinv 3 1 3 1 1 1 false _ _ _ _ 1 (fun l => 1) eq_refl eq_refl HP ltac:(lia) S ltac:(lia) ltac:(cbn; lia)) as (out & A & B & _).
  { intros j Hj. unfold poly, Sum. cbn [Nat.add seq map rsum]. destruct j as [|[|[|j]]]; cbn; try lra. lia. }
  exists out. split; auto. rewrite B. cbn. lra.
Qed.
(** "A straight line is returned unchanged."  False for a falling one, at the ends. *)
Theorem C92_falling_line_refuted : forall pinv, inverts 1 1 pinv ->
  exists out, sg_filter pinv 3 1 0 false [0; 1; 2] [2; 1; 0] = inr ([0; 1; 2], out) /\ nth 0 out 0 = 4 / 3.
Proof.
  intros pinv HP.
  assert (S : series false [0; 1; 2] [2; 1; 0] = inr ([0; 1; 2], [2; 1; 0])).
  { apply sortxy_increasing; auto; [discriminate|]. intros j Hj. cbn in Hj. destruct j as [|[|j]]; [unfold gap; cbn; lra|unfold gap; cbn; lra|lia]. }
  destruct (output_fit pinv 1 1 0 ltac:(lia) HP ltac:(lia) 3 false _ _ _ _ eq_refl S ltac:(cbn; lia)) as (out & A & B & C).
  exists out. split; auto. rewrite (C 0%nat) by (cbn; lia).
  pose proof (residual_orthogonal 1 1 _ (HP _ (matrix_vandermonde 1 1)) (win 1 [2; 1; 0] 0) 0 ltac:(lia)) as Q.
  set (f0 := fit 1 (pinv (sg_matrix 1 1)) (win 1 [2; 1; 0] 0) 0) in *. set (f1 := fit 1 (pinv (sg_matrix 1 1)) (win 1 [2; 1; 0] 0) 1) in *.
  assert (W0 : win 1 [2; 1; 0] 0 0 = 1) by (unfold win; rewrite pad_middle by (cbn; lia); reflexivity).
  assert (W1 : win 1 [2; 1; 0] 0 1 = 2) by (unfold win; rewrite pad_middle by (cbn; lia); reflexivity).
  assert (W2 : win 1 [2; 1; 0] 0 2 = 1).
  { unfold win. rewrite pad_first by (cbn; lia). cbn. rewrite Rabs_left by lra. lra. }
  unfold Sum in Q. cbn [Nat.mul Nat.add seq map rsum] in Q. fold f0 f1 in Q. rewrite W0, W1, W2 in Q.
  rewrite !matrix_entry in Q by lia. cbn [INR pow] in Q. lra.
Qed.
(** "The output has one value per time stamp."  False for series shorter than half a window. *)
Theorem C92_short_series_refuted : forall pinv x y, inverts 5 2 pinv ->
  sg_init 11 2 = inr (11%nat, 2%nat) /\
  exists out, sg_filter pinv 11 2 0 false [x] [y] = inr ([x], out) /\ length out = 11%nat.
Proof.
  intros pinv x y HP. split; [reflexivity|]. rewrite filter_series. cbn [series sortxy sort_xy combine insert_xy map fst snd].
  change (half_window 11) with 5%nat. destruct (HP _ (matrix_vandermonde 5 2)) as (Lp & F & _).
  destruct (pinv (sg_matrix 5 2)) as [|m t] eqn:E; [discriminate Lp|]. cbn [nth_error]. inversion F as [|? ? Lm _]; subst.
  eexists. split; [reflexivity|]. unfold convolve_valid. rewrite pad_length by discriminate. cbn [length Nat.sub Nat.min Nat.mul Nat.add] in *.
  rewrite Lm. cbn. reflexivity.
Qed.

(** the inverse for a window of three samples and degree one *)
Definition pinv31 (_ : list (list R)) : list (list R) := [[1 / 3; 1 / 3; 1 / 3]; [- (1 / 2); 0; 1 / 2]].
Example C92_ex : inverts 1 1 pinv31 /\ sg_init 3 1 = inr (3%nat, 1%nat) /\ sg_init (-11) (-2) = inr (11%nat, 2%nat) /\ sg_init 11 10 = inl TypeError /\
  sg_init 10 2 = inl TypeError /\
  (exists out, sg_filter pinv31 3 1 0 false [0; 1; 2] [0; 3; 0] = inr ([0; 1; 2], out) /\ nth 1 out 0 = 1).
Proof.
  assert (I : inverts 1 1 pinv31).
  { intros b (Lb & Fb & B). unfold moore_penrose. 
    assert (E : forall j l, (j < 3)%nat -> (l < 2)%nat -> entry b j l = (INR j - 1) ^ l) by (intros j l Hj Hl; apply (B j l); lia).
    split; [reflexivity|]. split; [repeat constructor|].
    unfold Sum. cbn [Nat.mul Nat.add seq map rsum].
    repeat split; intros i j Hi Hj; rewrite ?E by lia;
      (destruct i as [|[|[|i]]]; try lia); (destruct j as [|[|[|j]]]; try lia); rewrite ?E by lia; unfold entry, pinv31; cbn [nth INR pow]; field. }
  split; [exact I|]. repeat (split; [reflexivity|]).
  assert (S : series false [0; 1; 2] [0; 3; 0] = inr ([0; 1; 2], [0; 3; 0])).
  { apply sortxy_increasing; auto; [discriminate|]. intros j Hj. cbn in Hj. destruct j as [|[|j]]; [unfold gap; cbn; lra|unfold gap; cbn; lra|lia]. }
  destruct (output_fit pinv31 1 1 0 ltac:(lia) I ltac:(lia) 3 false _ _ _ _ eq_refl S ltac:(cbn; lia)) as (out & A & _ & C).
  exists out. split; auto. rewrite C by (cbn; lia). unfold fit, Sum, win. cbn [Nat.mul Nat.add seq map rsum].
  rewrite !pad_middle by (cbn; lia). unfold entry, pinv31. cbn. lra.
Qed.
