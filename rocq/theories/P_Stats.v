(** * C116: what statistics.fit does with the data *)
From Coq Require Import String Reals List Bool Lra Lia Permutation Sorted.
From Verif Require Import Num Py Stats.
Import ListNotations.
Open Scope R_scope.

(** ** Specification, by counting *)
Definition rltb (x y : R) : bool := if Rlt_dec x y then true else false.
(** how many values are below x, above x *)
Definition n_below (x : R) (l : list R) : nat := length (filter (fun y => rltb y x) l).
Definition n_above (x : R) (l : list R) : nat := length (filter (fun y => rltb x y) l).
(** x survives the lower cut of l: more than one value in 4000 pairs of ranks lies below it *)
Definition keep_low (l : list R) : list R := filter (fun x => (length l - 1 <? 4000 * n_below x l)%nat) l.
Definition keep_high (l : list R) : list R := filter (fun x => (length l - 1 <? 4000 * n_above x l)%nat) l.
(** the finite values of the input, in order *)
Definition finite_values (data : list ext) : list R := flat_map (fun e => match e with Fin x => [x] | _ => [] end) data.
(** the data that are fitted *)
Definition used (data : list ext) : list R := keep_high (keep_low (finite_values data)).

Lemma rltb_iff x y : rltb x y = true <-> x < y.
Proof. unfold rltb; destruct (Rlt_dec x y); split; intros; auto; discriminate || contradiction. Qed.

(** ** Sorting *)
Lemma insert_perm x l : Permutation (x :: l) (insert_r x l).
Proof.
  induction l as [|y t IH]; [reflexivity|]. simpl. destruct (Rle_dec x y); [reflexivity|].
  rewrite perm_swap. apply perm_skip; exact IH.
Qed.
Lemma sort_perm l : Permutation l (sort_r l).
Proof. induction l as [|x t IH]; [reflexivity|]. simpl. rewrite <- insert_perm. apply perm_skip; exact IH. Qed.
Lemma insert_sorted x l : StronglySorted Rle l -> StronglySorted Rle (insert_r x l).
Proof.
  induction 1 as [|y t Ht IH Hy]; [repeat constructor|]. simpl. destruct (Rle_dec x y).
  - constructor; [constructor; auto|]. constructor; [auto|]. eapply Forall_impl; [|exact Hy]. cbv beta; intros; lra.
  - constructor; [exact IH|]. eapply Permutation_Forall; [apply insert_perm|]. constructor; [lra|auto].
Qed.
Lemma sort_sorted l : StronglySorted Rle (sort_r l).
Proof. induction l; [constructor|]. simpl. apply insert_sorted; auto. Qed.

Lemma filter_len_perm f (l l' : list R) : Permutation l l' -> length (filter f l) = length (filter f l').
Proof.
  induction 1; simpl; auto.
  - destruct (f x); simpl; auto.
  - destruct (f x), (f y); simpl; auto.
  - congruence.
Qed.
Lemma filter_all {A} (f : A -> bool) l : (forall x, In x l -> f x = false) -> filter f l = [].
Proof. induction l; intros H; [reflexivity|]. simpl. rewrite (H a (or_introl eq_refl)). apply IHl; intros; apply H; right; auto. Qed.
Lemma filter_len_le {A} (f : A -> bool) l : (length (filter f l) <= length l)%nat.
Proof. induction l; simpl; [lia|]. destruct (f a); simpl; lia. Qed.

Lemma below_nth x s d : StronglySorted Rle s ->
  (forall j, (j < n_below x s)%nat -> nth j s d < x) /\
  (forall j, (n_below x s <= j < length s)%nat -> x <= nth j s d).
Proof.
  induction 1 as [|y t Ht [I1 I2] Hy]; [split; unfold n_below; simpl; intros; lia|].
  unfold n_below in *; simpl. destruct (rltb y x) eqn:E; simpl.
  - apply rltb_iff in E. split; intros [|j] Hj; simpl; try lia; [exact E|apply I1; lia|apply I2; lia].
  - assert (Hx : x <= y) by (destruct (Rlt_dec y x) as [H|H]; [apply rltb_iff in H; congruence|lra]).
    assert (Hz : forall z, In z t -> x <= z) by (intros z Hz; rewrite Forall_forall in Hy; specialize (Hy z Hz); lra).
    rewrite filter_all in I1, I2 |- *.
    2,3,4: intros z Hz'; destruct (rltb z x) eqn:E'; auto; apply rltb_iff in E'; specialize (Hz z Hz'); lra.
    simpl. split; intros j Hj; [lia|]. destruct j as [|j]; simpl; [exact Hx|]. apply Hz. apply nth_In. lia.
Qed.
Lemma above_nth x s d : StronglySorted Rle s ->
  (forall j, (j < length s - n_above x s)%nat -> nth j s d <= x) /\
  (forall j, (length s - n_above x s <= j < length s)%nat -> x < nth j s d).
Proof.
  induction 1 as [|y t Ht [I1 I2] Hy]; [split; unfold n_above; simpl; intros; lia|].
  unfold n_above in *; cbn [filter length]. pose proof (filter_len_le (fun y => rltb x y) t) as HL.
  destruct (rltb x y) eqn:E.
  - apply rltb_iff in E.
    assert (Hf : filter (fun y => rltb x y) t = t).
    { clear -Hy E. induction Hy as [|z t Hz Hy IH]; [reflexivity|]. simpl.
      assert (Hxz : rltb x z = true) by (apply rltb_iff; lra). rewrite Hxz, IH; auto. }
    cbn [length]. rewrite Hf in I1, I2 |- *. split; intros j Hj; [lia|].
    destruct j as [|j]; simpl; [exact E|]. apply I2. simpl in Hj. lia.
  - assert (Hx : y <= x) by (destruct (Rlt_dec x y) as [H|H]; [apply rltb_iff in H; congruence|lra]).
    split; intros [|j] Hj; simpl; [exact Hx|apply I1; lia|lia|apply I2; lia].
Qed.
Lemma sorted_nth s d i j : StronglySorted Rle s -> (i <= j < length s)%nat -> nth i s d <= nth j s d.
Proof.
  intros H; revert i j. induction H as [|y t Ht IH Hy]; intros i j Hij; simpl in Hij; [lia|].
  destruct i, j; simpl; try lra; try lia.
  - rewrite Forall_forall in Hy. apply Hy. apply nth_In. lia.
  - apply IH. lia.
Qed.

(** ** The percentile against a value of the list *)
Lemma int_part_spec h : 0 <= h -> INR (Z.to_nat (Int_part h)) <= h < INR (Z.to_nat (Int_part h)) + 1.
Proof.
  intros H. pose proof (base_Int_part h) as [H1 H2].
  assert (H0 : (0 <= Int_part h)%Z) by (apply Z.lt_succ_r; apply lt_IZR; rewrite succ_IZR; lra).
  rewrite INR_IZR_INZ, Z2Nat.id by exact H0. lra.
Qed.
Lemma percentile_shape l q p : percentile l q = inr p -> 0 <= q < 1 ->
  exists s i d, sort_r l = s /\ s <> [] /\ i = Z.to_nat (Int_part (INR (length s - 1) * q)) /\
    (i <= length s - 1)%nat /\
    INR i <= INR (length s - 1) * q < INR i + 1 /\
    p = nth i s d + (nth (i + 1) s (nth i s d) - nth i s d) * (INR (length s - 1) * q - INR i).
Proof.
  unfold percentile. intros H Hq. destruct (sort_r l) as [|s0 t] eqn:Es; [discriminate|].
  injection H as <-. exists (s0 :: t), (Z.to_nat (Int_part (INR (length (s0 :: t) - 1) * q))), s0.
  assert (Hn : 0 <= INR (length (s0 :: t) - 1)) by apply pos_INR.
  pose proof (int_part_spec (INR (length (s0 :: t) - 1) * q) ltac:(apply Rmult_le_pos; lra)) as Hi.
  repeat apply conj; try reflexivity; try discriminate; try tauto.
  apply INR_le. destruct Hi as [Hi _]. eapply Rle_trans; [exact Hi|].
  rewrite <- (Rmult_1_r (INR _)) at 2. apply Rmult_le_compat_l; lra.
Qed.

Lemma percentile_below l q p x : percentile l q = inr p -> 0 <= q < 1 -> In x l ->
  (p < x <-> INR (length l - 1) * q < INR (n_below x l)).
Proof.
  intros H Hq Hin. destruct (percentile_shape _ _ _ H Hq) as (s & i & d & Es & Hne & _ & Hil & Hi & ->).
  pose proof (sort_perm l) as Pm. rewrite Es in Pm.
  pose proof (sort_sorted l) as Ss. rewrite Es in Ss.
  assert (EL : length l = length s) by (apply Permutation_length; exact Pm).
  assert (EB : n_below x l = n_below x s) by (apply filter_len_perm; exact Pm).
  rewrite EL, EB. set (h := INR (length s - 1) * q) in *.
  assert (Hls : (0 < length s)%nat) by (destruct s; [congruence|simpl; lia]).
  destruct (below_nth x s d Ss) as [B1 B2]. set (k := n_below x s) in *.
  apply (Permutation_in _ Pm) in Hin. apply (In_nth _ _ d) in Hin. destruct Hin as (j & Hj & Ej).
  assert (Hkj : (k <= j)%nat) by (destruct (Nat.lt_ge_cases j k) as [C|C]; [specialize (B1 j C); lra|exact C]).
  assert (Hk : nth k s d <= x) by (rewrite <- Ej; apply sorted_nth; auto; lia).
  set (lo := nth i s d) in *.
  assert (Hhi : lo <= nth (i + 1) s lo).
  { destruct (Nat.lt_ge_cases (i + 1) (length s)).
    - rewrite (nth_indep s lo d) by lia. apply sorted_nth; auto; lia.
    - rewrite nth_overflow by lia. lra. }
  set (hi := nth (i + 1) s lo) in *. split.
  - intros Hp. destruct (Rlt_le_dec h (INR k)) as [C|C]; [exact C|exfalso].
    assert (Hki : (k <= i)%nat).
    { assert (INR k < INR (S i)) by (rewrite S_INR; lra). apply INR_lt in H0. lia. }
    assert (x <= lo) by (apply B2; lia).
    assert (0 <= (hi - lo) * (h - INR i)) by (apply Rmult_le_pos; lra). lra.
  - intros Hh. assert (Hki : (i < k)%nat) by (apply INR_lt; lra).
    assert (Hlo : lo < x) by (apply B1; lia).
    assert (Hhx : hi <= x).
    { unfold hi. rewrite (nth_indep s lo d) by lia. eapply Rle_trans; [apply (sorted_nth s d (i+1) k); auto; lia|exact Hk]. }
    assert ((hi - lo) * (h - INR i) <= (x - lo) * (h - INR i)) by (apply Rmult_le_compat_r; lra).
    assert ((x - lo) * (h - INR i) < (x - lo) * 1) by (apply Rmult_lt_compat_l; lra). lra.
Qed.

Lemma percentile_above l q p x : percentile l q = inr p -> 0 <= q < 1 -> In x l ->
  (x < p <-> INR (length l - 1) * (1 - q) < INR (n_above x l)).
Proof.
  intros H Hq Hin. destruct (percentile_shape _ _ _ H Hq) as (s & i & d & Es & Hne & _ & Hil & Hi & ->).
  pose proof (sort_perm l) as Pm. rewrite Es in Pm.
  pose proof (sort_sorted l) as Ss. rewrite Es in Ss.
  assert (EL : length l = length s) by (apply Permutation_length; exact Pm).
  assert (EB : n_above x l = n_above x s) by (apply filter_len_perm; exact Pm).
  rewrite EL, EB.
  replace (INR (length s - 1) * (1 - q)) with (INR (length s - 1) - INR (length s - 1) * q) by ring.
  set (h := INR (length s - 1) * q) in *.
  assert (Hls : (0 < length s)%nat) by (destruct s; [congruence|simpl; lia]).
  destruct (above_nth x s d Ss) as [B1 B2]. set (a := n_above x s) in *.
  assert (Ha : (a <= length s)%nat) by apply filter_len_le.
  apply (Permutation_in _ Pm) in Hin. apply (In_nth _ _ d) in Hin. destruct Hin as (j & Hj & Ej).
  assert (Hkj : (j < length s - a)%nat).
  { destruct (Nat.lt_ge_cases j (length s - a)) as [C|C]; [exact C|]. specialize (B2 j ltac:(lia)). lra. }
  set (k := (length s - 1 - a)%nat).
  assert (Hk : x <= nth k s d) by (rewrite <- Ej; apply sorted_nth; auto; unfold k; lia).
  assert (EK : INR k = INR (length s - 1) - INR a) by (unfold k; rewrite minus_INR by lia; reflexivity).
  set (lo := nth i s d) in *.
  assert (Hhi : lo <= nth (i + 1) s lo).
  { destruct (Nat.lt_ge_cases (i + 1) (length s)).
    - rewrite (nth_indep s lo d) by lia. apply sorted_nth; auto; lia.
    - rewrite nth_overflow by lia. lra. }
  set (hi := nth (i + 1) s lo) in *. split.
  - intros Hp. destruct (Rlt_le_dec (INR k) h) as [C|C]; [lra|exfalso].
    assert (Hki : (i <= k)%nat) by (apply INR_le; lra).
    assert (Hlo : lo <= x) by (apply B1; unfold k in *; lia).
    destruct (Req_dec h (INR i)) as [Eh|Eh].
    + rewrite Eh in Hp. replace (INR i - INR i) with 0 in Hp by ring. lra.
    + assert (Hki' : (i + 1 <= k)%nat).
      { destruct (Nat.eq_dec i k) as [->|]; [lra|lia]. }
      assert (Hhx : hi <= x).
      { unfold hi. rewrite (nth_indep s lo d) by (unfold k in *; lia). apply B1. unfold k in *; lia. }
      assert ((hi - lo) * (h - INR i) <= (x - lo) * (h - INR i)) by (apply Rmult_le_compat_r; lra).
      assert ((x - lo) * (h - INR i) <= (x - lo) * 1) by (apply Rmult_le_compat_l; lra). lra.
  - intros Hh. assert (Hki : (k <= i)%nat).
    { assert (INR k < INR (S i)) by (rewrite S_INR; lra). apply INR_lt in H0. lia. }
    destruct (Nat.eq_dec k i) as [Eki|Eki].
    + assert (Hlo : x <= lo) by (unfold lo; rewrite <- Eki; exact Hk).
      assert (Hi1 : (i + 1 < length s)%nat).
      { apply INR_lt. rewrite plus_INR. simpl (INR 1).
        assert (Hhn : h <= INR (length s - 1)).
        { unfold h. rewrite <- Rmult_1_r. apply Rmult_le_compat_l; [apply pos_INR|lra]. }
        rewrite minus_INR in Hhn by lia. simpl (INR 1) in Hhn. subst i. lra. }
      assert (Hhx : x < hi).
      { unfold hi. rewrite (nth_indep s lo d) by lia. apply B2. unfold k in *; lia. }
      assert (0 < h - INR i) by (subst i; lra).
      assert ((x - lo) * (h - INR i) < (hi - lo) * (h - INR i)) by (apply Rmult_lt_compat_r; lra).
      assert ((x - lo) * 1 <= (x - lo) * (h - INR i)).
      { replace ((x - lo) * 1) with (- ((lo - x) * 1)) by ring.
        replace ((x - lo) * (h - INR i)) with (- ((lo - x) * (h - INR i))) by ring.
        apply Ropp_le_contravar. apply Rmult_le_compat_l; lra. }
      lra.
    + assert (Hlo : x < lo) by (apply B2; unfold k in *; lia).
      assert (0 <= (hi - lo) * (h - INR i)) by (apply Rmult_le_pos; lra). lra.
Qed.

Lemma cut_nat n k : (INR n * 0.00025 < INR k) <-> (n <? 4000 * k)%nat = true.
Proof.
  rewrite Nat.ltb_lt. assert (E : INR (4000 * k) = 4000 * INR k) by (rewrite mult_INR; f_equal; rewrite INR_IZR_INZ; reflexivity).
  split; intros H; [apply INR_lt; lra|apply lt_INR in H; lra].
Qed.
Lemma percentile_some l q : l <> [] -> exists p, percentile l q = inr p.
Proof.
  intros H. unfold percentile. pose proof (sort_perm l) as Pm. destruct (sort_r l) eqn:E.
  - apply Permutation_sym, Permutation_nil in Pm. congruence.
  - eexists; reflexivity.
Qed.
Lemma trim_low_spec l : l <> [] -> trim_low l = inr (keep_low l).
Proof.
  intros H. destruct (percentile_some l 0.00025 H) as [p Ep]. unfold trim_low. rewrite Ep. f_equal.
  apply filter_ext_in. intros x Hx. pose proof (percentile_below l _ p x Ep ltac:(lra) Hx) as E.
  rewrite cut_nat in E. destruct (Rlt_dec p x); destruct (_ <? _)%nat; auto; try tauto.
  symmetry; apply E; auto.
Qed.
Lemma trim_high_spec l : l <> [] -> trim_high l = inr (keep_high l).
Proof.
  intros H. destruct (percentile_some l 0.99975 H) as [p Ep]. unfold trim_high. rewrite Ep. f_equal.
  apply filter_ext_in. intros x Hx. pose proof (percentile_above l _ p x Ep ltac:(lra) Hx) as E.
  replace (INR (length l - 1) * (1 - 0.99975)) with (INR (length l - 1) * 0.00025) in E by lra.
  rewrite cut_nat in E. destruct (Rlt_dec x p); destruct (_ <? _)%nat; auto; try tauto.
  symmetry; apply E; auto.
Qed.
Lemma finite_only_spec data : finite_only data = finite_values data.
Proof. induction data as [|e t IH]; [reflexivity|]. destruct e; simpl; rewrite IH; reflexivity. Qed.
Lemma trimmed_spec data d : trimmed data = inr d -> d = used data.
Proof.
  unfold trimmed. rewrite finite_only_spec. destruct (finite_values data) as [|x t] eqn:E; [discriminate|].
  rewrite <- E at 1. rewrite trim_low_spec by (rewrite E; discriminate). unfold used. rewrite E.
  destruct (keep_low (x :: t)) as [|y u] eqn:E'.
  - discriminate.
  - rewrite <- E' at 1. rewrite trim_high_spec by (rewrite E'; discriminate). rewrite E'. congruence.
Qed.
Lemma trimmed_ok data : used data <> [] -> trimmed data = inr (used data).
Proof.
  unfold used, trimmed. rewrite finite_only_spec. intros H.
  assert (H1 : keep_low (finite_values data) <> []) by (intros C; rewrite C in H; apply H; reflexivity).
  assert (H2 : finite_values data <> []) by (intros C; rewrite C in H1; apply H1; reflexivity).
  rewrite trim_low_spec by exact H2. apply trim_high_spec; exact H1.
Qed.

Lemma fold_min t : forall x, In (fold_left Rmin t x) (x :: t) /\ forall y, In y (x :: t) -> fold_left Rmin t x <= y.
Proof.
  induction t as [|z t IH]; intros x; simpl; [split; [auto|intros y [->|[]]; lra]|].
  destruct (IH (Rmin x z)) as [I1 I2]. split.
  - destruct I1 as [I1|I1]; [rewrite <- I1; unfold Rmin; destruct (Rle_dec x z); auto|auto].
  - pose proof (I2 (Rmin x z) (or_introl eq_refl)). pose proof (Rmin_l x z). pose proof (Rmin_r x z).
    intros y [<-|[<-|Hy]]; [lra|lra|apply I2; right; exact Hy].
Qed.
Lemma fold_max t : forall x, In (fold_left Rmax t x) (x :: t) /\ forall y, In y (x :: t) -> y <= fold_left Rmax t x.
Proof.
  induction t as [|z t IH]; intros x; simpl; [split; [auto|intros y [->|[]]; lra]|].
  destruct (IH (Rmax x z)) as [I1 I2]. split.
  - destruct I1 as [I1|I1]; [rewrite <- I1; unfold Rmax; destruct (Rle_dec x z); auto|auto].
  - pose proof (I2 (Rmax x z) (or_introl eq_refl)). pose proof (Rmax_l x z). pose proof (Rmax_r x z).
    intros y [<-|[<-|Hy]]; [lra|lra|apply I2; right; exact Hy].
Qed.

(** ** Specification of the result *)
(** a smallest and a largest value of a list *)
Definition is_min (l : list R) (a : R) : Prop := In a l /\ forall x, In x l -> a <= x.
Definition is_max (l : list R) (a : R) : Prop := In a l /\ forall x, In x l -> x <= a.
(** location and scale that are not fitted: none for norm, the location for gamma, both otherwise *)
Definition pinned (m : string) (a w : R) : option R * option R :=
  match m with "norm"%string => (None, None) | "gamma"%string => (Some a, None) | _ => (Some a, Some w) end.
(** names in order of their first occurrence *)
Fixpoint firsts (seen ms : list string) : list string :=
  match ms with
  | [] => []
  | m :: t => if in_dec string_dec m seen then firsts seen t else m :: firsts (seen ++ [m]) t
  end.

Lemma lin_len a b : length (linspace1000 a b) = 1000%nat.
Proof. unfold linspace1000. rewrite map_length, seq_length. reflexivity. Qed.
Lemma lin_nth a b i : (i < 1000)%nat -> nth i (linspace1000 a b) 0 = a * (1 - INR i / 999) + b * (INR i / 999).
Proof.
  intros Hi. unfold linspace1000.
  set (g := fun i => a + INR i * ((b - a) / 999)).
  rewrite (nth_indep _ 0 (g 0%nat)) by (rewrite map_length, seq_length; exact Hi).
  rewrite map_nth, seq_nth by exact Hi. unfold g. change (0 + i)%nat with i. field.
Qed.
Local Opaque linspace1000.

Section Scipy.
Context (P : Type) (known : string -> bool)
  (dist_fit : string -> list R -> option R -> option R -> st_err + P)
  (kstest : list R -> string -> P -> st_err + R)
  (dist_interval : string -> R -> P -> st_err + (R * R))
  (dist_pdf : string -> R -> P -> R).
Notation fit' := (fit P known dist_fit kstest dist_interval dist_pdf).
Notation fit_one' := (fit_one P known dist_fit kstest dist_interval dist_pdf).
Notation fit_loop' := (fit_loop P known dist_fit kstest dist_interval dist_pdf).
Arguments f_param {P}. Arguments f_pdfx {P}. Arguments f_pdfy {P}. Arguments f_error {P}.

Lemma fit_call_pinned m l a w : fit_call P dist_fit m l a w = dist_fit m l (fst (pinned m a w)) (snd (pinned m a w)).
Proof.
  unfold fit_call. destruct (String.eqb_spec m "norm"); [subst; reflexivity|].
  destruct (String.eqb_spec m "gamma"); [subst; reflexivity|]. unfold pinned.
  repeat (match goal with
  | |- context [match ?x with EmptyString => _ | String _ _ => _ end] => destruct x
  | |- context [match ?x with Ascii.Ascii _ _ _ _ _ _ _ _ => _ end] => destruct x
  | |- context [if ?x then _ else _] => destruct x
  | |- context [match ?x with true => _ | false => _ end] => destruct x
  end; try reflexivity; try congruence).
Qed.

Lemma get_set {A} m k (v : A) d : dict_get m (dict_set k v d) = if String.eqb m k then Some v else dict_get m d.
Proof.
  induction d as [|[k' v'] t IH]; simpl.
  - destruct (String.eqb m k); reflexivity.
  - destruct (String.eqb_spec k k') as [->|N]; simpl.
    + destruct (String.eqb m k'); reflexivity.
    + rewrite IH. destruct (String.eqb_spec m k') as [->|N']; [|reflexivity].
      destruct (String.eqb_spec k' k); [congruence|reflexivity].
Qed.
Lemma keys_set {A} k (v : A) d : map fst (dict_set k v d) = if in_dec string_dec k (map fst d) then map fst d else map fst d ++ [k].
Proof.
  induction d as [|[k' v'] t IH]; [reflexivity|]. cbn [dict_set map fst].
  destruct (String.eqb_spec k k') as [->|N]; cbn [map fst].
  - destruct (in_dec string_dec k' (k' :: map fst t)) as [|C]; [reflexivity|exfalso; apply C; left; reflexivity].
  - rewrite IH. destruct (in_dec string_dec k (map fst t)) as [I|I], (in_dec string_dec k (k' :: map fst t)) as [J|J]; try reflexivity.
    + exfalso; apply J; right; exact I.
    + exfalso; destruct J as [J|J]; [congruence|tauto].
Qed.
Lemma loop_get d a w ms : forall acc r, fit_loop' d a w ms acc = inr r ->
  (forall m, In m ms -> exists f, fit_one' d a w m = inr f /\ dict_get m r = Some f) /\
  (forall m, ~ In m ms -> dict_get m r = dict_get m acc) /\
  map fst r = map fst acc ++ firsts (map fst acc) ms.
Proof.
  induction ms as [|m t IH]; simpl; intros acc r H.
  - injection H as <-. repeat apply conj; [intros _ []|reflexivity|symmetry; apply app_nil_r].
  - destruct (fit_one' d a w m) as [e|f] eqn:E; [discriminate|].
    destruct (IH _ _ H) as (I1 & I2 & I3). repeat apply conj.
    + intros m' [<-|Hm'].
      * destruct (in_dec string_dec m t) as [J|J]; [apply I1; exact J|].
        exists f. split; [exact E|]. rewrite (I2 m J), get_set, String.eqb_refl. reflexivity.
      * apply I1; exact Hm'.
    + intros m' Hm'. rewrite I2 by tauto. rewrite get_set.
      destruct (String.eqb_spec m' m); [exfalso; apply Hm'; left; congruence|reflexivity].
    + rewrite I3, keys_set. destruct (in_dec string_dec m (map fst acc)); [reflexivity|].
      rewrite <- app_assoc. reflexivity.
Qed.
Lemma loop_ok d a w ms : forall acc, (forall m, In m ms -> exists f, fit_one' d a w m = inr f) ->
  exists r, fit_loop' d a w ms acc = inr r.
Proof.
  induction ms as [|m t IH]; simpl; intros acc H; [eexists; reflexivity|].
  destruct (H m (or_introl eq_refl)) as [f ->]. apply IH. intros; apply H; right; auto.
Qed.

(** the names a call asks for *)
Definition names (ms : models_arg) : option (list string) := match ms with MStr m => Some [m] | MList l => Some l | MOther => None end.
Lemma fit_inv data ms r : fit' data ms = inr r -> exists l lo hi, names ms = Some l /\
  is_min (used data) lo /\ is_max (used data) hi /\
  fit_loop' (used data) (lo - 1e-8) ((hi + 1e-8) - (lo - 1e-8)) l [] = inr r.
Proof.
  intros H.
  assert (G : exists l, names ms = Some l /\
    match trimmed data with inl e => inl e | inr d => match py_min d, py_max d with
      | inr mn, inr mx => fit_loop' d (mn - 1e-8) ((mx + 1e-8) - (mn - 1e-8)) l []
      | inl e, _ => inl e | _, inl e => inl e end end = inr r).
  { destruct ms as [m|l|]; [exists [m]|exists l|discriminate]; (split; [reflexivity|exact H]). }
  destruct G as (l & Hn & G). destruct (trimmed data) as [e|d] eqn:E; [discriminate|]. apply trimmed_spec in E.
  destruct d as [|x t]; [discriminate|]. simpl in G. rewrite <- E.
  exists l, (fold_left Rmin t x), (fold_left Rmax t x).
  split; [exact Hn|]. split; [apply fold_min|]. split; [apply fold_max|exact G].
Qed.
Lemma fit_run data ms l lo hi : names ms = Some l -> is_min (used data) lo -> is_max (used data) hi ->
  fit' data ms = fit_loop' (used data) (lo - 1e-8) ((hi + 1e-8) - (lo - 1e-8)) l [].
Proof.
  intros Hn [Hlo1 Hlo2] [Hhi1 Hhi2].
  assert (Hne : used data <> []) by (intros C; rewrite C in Hlo1; destruct Hlo1).
  pose proof (trimmed_ok data Hne) as E.
  assert (Em : py_min (used data) = inr lo /\ py_max (used data) = inr hi).
  { destruct (used data) as [|x t]; [congruence|]. simpl. destruct (fold_min t x) as [A1 A2], (fold_max t x) as [B1 B2].
    split; f_equal; apply Rle_antisym; auto. }
  destruct Em as [E1' E2].
  unfold fit. rewrite E, E1', E2. destruct ms; simpl in Hn; try discriminate; injection Hn as <-; reflexivity.
Qed.

(** *** What is fitted, and what the error is *)
Theorem C116_data data ms r m f : fit' data ms = inr r -> dict_get m r = Some f ->
  exists lo hi train last test ptrain ci,
    is_min (used data) lo /\ is_max (used data) hi /\
    let a := lo - 1e-8 in let w := (hi - lo) + 2e-8 in
    (* all the used data lie strictly inside the pinned interval *)
    (forall x, In x (used data) -> a < x < a + w) /\
    dist_fit m (used data) (fst (pinned m a w)) (snd (pinned m a w)) = inr (f_param f) /\
    (* the error is a Kolmogorov-Smirnov statistic on values that were all used for training *)
    used data = train ++ [last] /\ (test = tl train) /\
    dist_fit m train (fst (pinned m a w)) (snd (pinned m a w)) = inr ptrain /\
    kstest test m ptrain = inr (f_error f) /\
    (* the example density: 1000 equidistant points over the 99.9 per cent interval and 5 per cent of the width beyond *)
    dist_interval m 0.999 (f_param f) = inr ci /\
    length (f_pdfx f) = 1000%nat /\
    (forall i, (i < 1000)%nat -> nth i (f_pdfx f) 0 =
       (fst ci - w / 20) * (1 - INR i / 999) + (snd ci + w / 20) * (INR i / 999)) /\
    f_pdfy f = map (fun x => dist_pdf m x (f_param f)) (f_pdfx f).
Proof.
  intros H Hg. destruct (fit_inv _ _ _ H) as (l & lo & hi & Hn & Hlo & Hhi & HL).
  destruct (loop_get _ _ _ _ _ _ HL) as (G1 & G2 & _).
  assert (Hm : In m l).
  { destruct (in_dec string_dec m l) as [I|I]; [exact I|]. rewrite (G2 m I) in Hg. discriminate. }
  destruct (G1 m Hm) as (f' & Ef & Eg). rewrite Eg in Hg. injection Hg as ->.
  replace (hi + 1e-8 - (lo - 1e-8)) with (hi - lo + 2e-8) in Ef by lra.
  assert (Hne : used data <> []) by (destruct Hlo as [Hl _]; intros C; rewrite C in Hl; destruct Hl).
  unfold fit_one in Ef. destruct (known m); [|discriminate].
  rewrite !fit_call_pinned in Ef. unfold bind_st in Ef.
  set (a := lo - 1e-8) in *. set (w := hi - lo + 2e-8) in *.
  assert (Et : used data = train_of (used data) ++ [List.last (used data) 0]).
  { rewrite (app_removelast_last 0 Hne) at 1. f_equal. unfold train_of.
    rewrite (app_removelast_last 0 Hne) at 2 3. rewrite app_length. simpl.
    replace (length (removelast (used data)) + 1 - 1)%nat with (length (removelast (used data))) by lia.
    rewrite firstn_app, firstn_all, Nat.sub_diag. simpl. symmetry; apply app_nil_r. }
  set (train := train_of (used data)) in *.
  assert (Es : test_of (used data) = tl train) by (unfold test_of, train, train_of; destruct (firstn _ _); reflexivity).
  rewrite Es in Ef.
  destruct (dist_fit m train _ _) as [|ptrain] eqn:D1; [discriminate|].
  destruct (kstest (tl train) m ptrain) as [|e] eqn:D2; [discriminate|].
  destruct (dist_fit m (used data) _ _) as [|p] eqn:D3; [discriminate|].
  destruct (dist_interval m 0.999 p) as [|ci] eqn:D4; [discriminate|].
  apply (f_equal (fun z => match z with inr g => g | inl _ => f end)) in Ef. cbv beta iota in Ef.
  exists lo, hi, train, (List.last (used data) 0), (tl train), ptrain, ci.
  split; [exact Hlo|]. split; [exact Hhi|]. rewrite <- Ef. cbn [f_param f_error f_pdfx f_pdfy].
  repeat apply conj; [|exact D3|exact Et|reflexivity|exact D1|exact D2|exact D4| | |reflexivity].
  - intros x Hx. destruct Hlo as [_ Hlo], Hhi as [_ Hhi]. specialize (Hlo x Hx). specialize (Hhi x Hx). unfold a, w. lra.
  - apply lin_len.
  - intros i Hi. rewrite lin_nth by exact Hi. fold w.
    replace (w * 0.05) with (w / 20) by lra. reflexivity.
Qed.

(** *** Models do not influence each other *)
Theorem C116_models data l r : fit' data (MList l) = inr r ->
  map fst r = firsts [] l /\
  forall m, In m l -> exists r1 f, fit' data (MStr m) = inr r1 /\ dict_get m r1 = Some f /\ dict_get m r = Some f.
Proof.
  intros H. destruct (fit_inv _ _ _ H) as (l' & lo & hi & Hn & Hlo & Hhi & HL). injection Hn as <-.
  destruct (loop_get _ _ _ _ _ _ HL) as (G1 & G2 & G3). split; [exact G3|].
  intros m Hm. destruct (G1 m Hm) as (f & Ef & Eg).
  rewrite (fit_run data (MStr m) [m] lo hi eq_refl Hlo Hhi). simpl. rewrite Ef.
  exists [(m, f)], f. repeat apply conj; auto. simpl. rewrite String.eqb_refl. reflexivity.
Qed.
Theorem C116_models_ok data l m0 : In m0 l -> (forall m, In m l -> exists r1, fit' data (MStr m) = inr r1) ->
  exists r, fit' data (MList l) = inr r.
Proof.
  intros H0 H. destruct (H m0 H0) as (r0 & Hr0). destruct (fit_inv _ _ _ Hr0) as (_ & lo & hi & _ & Hlo & Hhi & _).
  rewrite (fit_run data (MList l) l lo hi eq_refl Hlo Hhi). apply loop_ok.
  intros m Hm. destruct (H m Hm) as (r1 & Hr1). rewrite (fit_run data (MStr m) [m] lo hi eq_refl Hlo Hhi) in Hr1.
  simpl in Hr1. destruct (fit_one' _ _ _ m) as [|f]; [discriminate|]. exists f; reflexivity.
Qed.

(** *** What raises *)
Theorem C116_raises data ms :
  fit' data MOther = inl RuntimeError /\
  (forall l m, names ms = Some l -> In m l -> known m = false -> exists e, fit' data ms = inl e) /\
  (* at most two different finite values *)
  ((forall x y z, In (Fin x) data -> In (Fin y) data -> In (Fin z) data -> x = y \/ y = z \/ x = z) -> exists e, fit' data ms = inl e).
Proof.
  repeat apply conj; [reflexivity| |].
  - intros l m Hn Hm Hk. destruct (fit' data ms) as [e|r] eqn:H; [exists e; reflexivity|exfalso].
    destruct (fit_inv _ _ _ H) as (l' & lo & hi & Hn' & _ & _ & HL). rewrite Hn in Hn'. injection Hn' as <-.
    destruct (loop_get _ _ _ _ _ _ HL) as (G1 & _). destruct (G1 m Hm) as (f & Ef & _).
    unfold fit_one in Ef. rewrite Hk in Ef. discriminate.
  - intros H2. destruct (fit' data ms) as [e|r] eqn:H; [exists e; reflexivity|exfalso].
    destruct (fit_inv _ _ _ H) as (_ & lo & _ & _ & [Hlo _] & _).
    unfold used, keep_high in Hlo. apply filter_In in Hlo. destruct Hlo as [Hlo Ha].
    apply Nat.ltb_lt in Ha. assert (Ha' : (0 < n_above lo (keep_low (finite_values data)))%nat) by lia.
    unfold n_above in Ha'. destruct (filter _ (keep_low (finite_values data))) as [|z t] eqn:Ez; [simpl in Ha'; lia|].
    assert (Iz : In z (keep_low (finite_values data)) /\ rltb lo z = true) by (apply (filter_In (fun y => rltb lo y)); rewrite Ez; left; reflexivity).
    destruct Iz as [Iz Lz]. apply rltb_iff in Lz.
    unfold keep_low in Hlo, Iz. apply filter_In in Hlo, Iz. destruct Hlo as [Ilo Hb], Iz as [Iz _].
    apply Nat.ltb_lt in Hb. assert (Hb' : (0 < n_below lo (finite_values data))%nat) by lia.
    unfold n_below in Hb'. destruct (filter _ (finite_values data)) as [|y u] eqn:Ey; [simpl in Hb'; lia|].
    assert (Iy : In y (finite_values data) /\ rltb y lo = true) by (apply (filter_In (fun y => rltb y lo)); rewrite Ey; left; reflexivity).
    destruct Iy as [Iy Ly]. apply rltb_iff in Ly.
    assert (F : forall v, In v (finite_values data) -> In (Fin v) data).
    { intros v Hv. unfold finite_values in Hv. apply in_flat_map in Hv. destruct Hv as (e & He & Hv). destruct e; simpl in Hv; try tauto.
      destruct Hv as [->|[]]. exact He. }
    destruct (H2 y lo z (F _ Iy) (F _ Ilo) (F _ Iz)) as [E|[E|E]]; lra.
Qed.

(** *** Values that are not finite change nothing *)
Theorem C116_nonfinite l1 e l2 ms : (forall x, e <> Fin x) -> fit' (l1 ++ e :: l2) ms = fit' (l1 ++ l2) ms.
Proof.
  intros He. unfold fit, trimmed. rewrite !finite_only_spec.
  assert (E : finite_values (l1 ++ e :: l2) = finite_values (l1 ++ l2)).
  { unfold finite_values. rewrite !flat_map_app. simpl. destruct e; [exfalso; eapply He; reflexivity|reflexivity..]. }
  rewrite E. reflexivity.
Qed.
End Scipy.

Lemma in_finite_values data v : In v (finite_values data) <-> In (Fin v) data.
Proof.
  unfold finite_values. rewrite in_flat_map. split.
  - intros (e & He & Hv). destruct e; simpl in Hv; try tauto. destruct Hv as [->|[]]. exact He.
  - intros H. exists (Fin v). split; [exact H|left; reflexivity].
Qed.
Lemma n_below_pos x l : (0 < n_below x l)%nat <-> exists y, In y l /\ y < x.
Proof.
  unfold n_below. split.
  - intros H. destruct (filter _ l) as [|y t] eqn:E; [simpl in H; lia|]. exists y.
    assert (I : In y (filter (fun y => rltb y x) l)) by (rewrite E; left; reflexivity).
    apply filter_In in I. destruct I as [I1 I2]. apply rltb_iff in I2. auto.
  - intros (y & Hy & Hlt). assert (I : In y (filter (fun y => rltb y x) l)) by (apply filter_In; split; [auto|apply rltb_iff; auto]).
    destruct (filter _ l); [destruct I|simpl; lia].
Qed.
Lemma n_above_pos x l : (0 < n_above x l)%nat <-> exists y, In y l /\ x < y.
Proof.
  unfold n_above. split.
  - intros H. destruct (filter _ l) as [|y t] eqn:E; [simpl in H; lia|]. exists y.
    assert (I : In y (filter (fun y => rltb x y) l)) by (rewrite E; left; reflexivity).
    apply filter_In in I. destruct I as [I1 I2]. apply rltb_iff in I2. auto.
  - intros (y & Hy & Hlt). assert (I : In y (filter (fun y => rltb x y) l)) by (apply filter_In; split; [auto|apply rltb_iff; auto]).
    destruct (filter _ l); [destruct I|simpl; lia].
Qed.

(** *** Up to 4000 finite values: all copies of the smallest and of the largest value are dropped, nothing else *)
Theorem C116_small data x : (length (finite_values data) <= 4000)%nat ->
  In x (used data) <-> In (Fin x) data /\ exists y z, In (Fin y) data /\ In (Fin z) data /\ y < x < z.
Proof.
  intros HL. set (l := finite_values data) in *.
  assert (K : forall v, In v (keep_low l) <-> In v l /\ exists y, In y l /\ y < v).
  { intros v. unfold keep_low. rewrite filter_In, Nat.ltb_lt, <- n_below_pos.
    assert (In v l -> (1 <= length l)%nat) by (destruct l; simpl; [tauto|lia]). split; intros [H1 H2]; (split; [exact H1|]); specialize (H H1); lia. }
  assert (HL' : (length (keep_low l) <= 4000)%nat) by (unfold keep_low; etransitivity; [apply filter_len_le|exact HL]).
  unfold used. fold l. unfold keep_high. rewrite filter_In, Nat.ltb_lt.
  rewrite <- !in_finite_values. fold l. setoid_rewrite <- in_finite_values. fold l. split.
  - intros [H1 H2]. assert (Ha : (0 < n_above x (keep_low l))%nat) by lia. apply n_above_pos in Ha.
    destruct Ha as (z & Hz & Hxz). apply K in H1, Hz. destruct H1 as [H1 (y & Hy & Hyx)]. split; [exact H1|].
    exists y, z. tauto.
  - intros [H1 (y & z & Hy & Hz & Hyx & Hxz)].
    assert (Kx : In x (keep_low l)) by (apply K; split; [exact H1|exists y; auto]).
    split; [exact Kx|].
    assert (Ha : (0 < n_above x (keep_low l))%nat).
    { apply n_above_pos. exists z. split; [|exact Hxz]. apply K. split; [exact Hz|]. exists y. split; [exact Hy|lra]. }
    assert ((1 <= length (keep_low l))%nat) by (destruct (keep_low l); [destruct Kx|simpl; lia]). lia.
Qed.

(** *** The comment "split data in training and testing 50-50" is wrong *)
Definition toy_fit : string -> list R -> option R -> option R -> st_err + list R := fun _ l _ _ => inr l.
Definition toy_ks : list R -> string -> list R -> st_err + R := fun test _ train => inr (INR (length test + length train)).
Definition toy_ci : string -> R -> list R -> st_err + (R * R) := fun _ _ _ => inr (0, 1).
Definition toy_pdf : string -> R -> list R -> R := fun _ _ _ => 0.
Definition toy_data : list ext := [Fin 1; Fin 2; Fin 3; NaN; Fin 4; Fin 5; PInf; Fin 6].

Lemma rltb_IZR a b : rltb (IZR a) (IZR b) = (a <? b)%Z.
Proof.
  destruct (Z.ltb_spec a b) as [H|H]; [apply rltb_iff, IZR_lt; exact H|].
  destruct (rltb (IZR a) (IZR b)) eqn:E; [apply rltb_iff, lt_IZR in E; lia|reflexivity].
Qed.
Lemma small_low l : (1 <= length l <= 4000)%nat -> keep_low l = filter (fun x => (0 <? n_below x l)%nat) l.
Proof. intros H. apply filter_ext. intros x. apply eq_iff_eq_true. rewrite !Nat.ltb_lt. lia. Qed.
Lemma small_high l : (1 <= length l <= 4000)%nat -> keep_high l = filter (fun x => (0 <? n_above x l)%nat) l.
Proof. intros H. apply filter_ext. intros x. apply eq_iff_eq_true. rewrite !Nat.ltb_lt. lia. Qed.
Lemma toy_used : used toy_data = [2; 3; 4; 5].
Proof.
  unfold used, finite_values, toy_data. cbn [flat_map app].
  assert (E : keep_low [1; 2; 3; 4; 5; 6] = [2; 3; 4; 5; 6]).
  { rewrite small_low by (cbn [length]; lia). unfold n_below. cbn [filter]. rewrite !rltb_IZR. reflexivity. }
  rewrite E, small_high by (cbn [length]; lia). unfold n_above. cbn [filter]. rewrite !rltb_IZR. reflexivity.
Qed.
Lemma toy_result m : exists r f, fit (list R) (fun _ => true) toy_fit toy_ks toy_ci toy_pdf toy_data (MStr m) = inr r /\
  dict_get m r = Some f /\ f_error _ f = 5 /\ f_param _ f = [2; 3; 4; 5].
Proof.
  rewrite (fit_run _ _ _ _ _ _ toy_data (MStr m) [m] 2 5 eq_refl).
  2,3: rewrite toy_used; split; [simpl; auto|intros x H; simpl in H; lra].
  rewrite toy_used. simpl. unfold fit_one, fit_call, toy_fit.
  exists [(m, mkFitted (list R) [2; 3; 4; 5] (linspace1000 (0 - (5 + 1e-8 - (2 - 1e-8)) * 0.05) (1 + (5 + 1e-8 - (2 - 1e-8)) * 0.05))
     (map (fun _ => 0) (linspace1000 (0 - (5 + 1e-8 - (2 - 1e-8)) * 0.05) (1 + (5 + 1e-8 - (2 - 1e-8)) * 0.05))) 5)].
  eexists. split; [|split; [simpl; rewrite String.eqb_refl; reflexivity|split; reflexivity]].
  assert (E : INR 5 = 5) by (rewrite INR_IZR_INZ; reflexivity).
  destruct (String.eqb m "norm"), (String.eqb m "gamma"); unfold bind_st, toy_ks, test_of, train_of, toy_ci, toy_pdf;
    cbn [length firstn skipn Nat.sub Nat.add fst snd]; rewrite E; reflexivity.
Qed.
Theorem C116_split_refuted :
  ~ (forall (P : Type) known dfit ks ci pdf data m r f,
       fit P known dfit ks ci pdf data (MStr m) = inr r -> dict_get m r = Some f ->
       exists train test ptrain a w, Permutation (train ++ test) (used data) /\
         dfit m train a w = inr ptrain /\ ks test m ptrain = inr (f_error P f)).
Proof.
  intros H. destruct (toy_result "norm") as (r & f & Hr & Hg & He & _).
  destruct (H _ _ _ _ _ _ _ _ _ _ Hr Hg) as (train & test & pt & a & w & Pm & Hf & Hk).
  rewrite toy_used in Pm. apply Permutation_length in Pm. rewrite app_length in Pm. simpl in Pm.
  unfold toy_fit in Hf. injection Hf as <-. unfold toy_ks in Hk. injection Hk as Hk. rewrite He in Hk.
  rewrite Nat.add_comm, Pm in Hk. rewrite INR_IZR_INZ in Hk. simpl in Hk. lra.
Qed.
Example C116_ex : used toy_data = [2; 3; 4; 5] /\
  (exists r f, fit (list R) (fun _ => true) toy_fit toy_ks toy_ci toy_pdf toy_data (MStr "beta") = inr r /\
    dict_get "beta"%string r = Some f /\ f_error _ f = 5 /\ f_param _ f = [2; 3; 4; 5]) /\
  (exists e, fit (list R) (fun _ => true) toy_fit toy_ks toy_ci toy_pdf [Fin 1; Fin 2; Fin 2; NaN] (MStr "beta") = inl e).
Proof.
  split; [exact toy_used|]. split; [apply toy_result|].
  apply C116_raises. simpl. intros x y z Hx Hy Hz.
  repeat match goal with H : _ \/ _ |- _ => destruct H as [H|H] | H : Fin _ = Fin _ |- _ => injection H as H | H : False |- _ => destruct H | H : NaN = _ |- _ => discriminate H end; subst; auto.
Qed.
