(** * Property C80 and completions of C42, C44 and C45: phase identification, exactly *)
From Coq Require Import String.
From Coq Require Import Reals List Bool ZArith Lra Lia Psatz.
From Coquelicot Require Rcomplements.
From Interval Require Import Tactic.
From Verif Require Import Num NumFacts SpecNum Py Str Fuzzy FuzzyFacts Fuzzy2 Phase PhaseFacts PhaseFacts2 P_Phase.
Import ListNotations.
Open Scope R_scope.

(** ** C45, exact shapes *)
(** a bell of height 1 with standard deviation s, and the quadratic-spline Z shape *)
Definition bell (m s x : R) : R := exp (- (((x - m) / s) ^ 2 / 2)).
Definition zshape (a b x : R) : R :=
  let u := (x - a) / (b - a) in
  if Rle_dec u 0 then 1 else if Rle_dec u (1 / 2) then 1 - 2 * u ^ 2 else if Rle_dec u 1 then 2 * (1 - u) ^ 2 else 0.

Lemma zR_zshape : forall x a b, a < b -> zR x a b = zshape a b x.
Proof.
  intros x a b H. unfold zR, zshape. set (u := (x - a) / (b - a)).
  assert (X : x = a + u * (b - a)) by (unfold u; field; lra).
  destruct (Rle_dec u 0), (Rle_dec u (1/2)), (Rle_dec u 1); try lra;
  destruct (Rle_dec x a), (Rle_dec b x), (Rlt_dec x ((a + b) / 2)); try nra;
  try (replace ((x - a) / (b - a)) with u by reflexivity);
  try (replace ((x - b) / (b - a)) with (u - 1) by (unfold u; field; lra)); try ring; try nra.
Qed.
Lemma gaussR_bell : forall x m s, s <> 0 -> gaussR x m s = bell m s x.
Proof. intros. unfold gaussR, bell. f_equal. field. auto. Qed.

Theorem C45_exact_shapes :
  (forall x m s, s <> 0 -> gaussmf x m s = Fin (bell m s x)) /\
  (forall x a b, a < b -> zmf x a b = Fin (zshape a b x) /\ smf x a b = Fin (1 - zshape a b x)).
Proof.
  split; intros.
  - rewrite gauss_eq, gaussR_bell by auto. auto.
  - rewrite zmf_eq, smf_eq, zR_zshape by auto. auto.
Qed.
(** one standard deviation away the bell is at exp(-1/2); halfway the spline is at 1/2 *)
Example C45_shapes_ex : gaussmf 20000 10000 10000 = Fin (exp (- (1 / 2))) /\ zmf 100 0 200 = Fin (1 / 2).
Proof.
  split.
  - rewrite (proj1 C45_exact_shapes) by lra. unfold bell. do 2 f_equal. lra.
  - rewrite (proj1 (proj2 C45_exact_shapes 100 0 200 ltac:(lra))). unfold zshape.
    replace ((100 - 0) / (200 - 0)) with (1 / 2) by lra.
    destruct (Rle_dec (1/2) 0); [lra|]. destruct (Rle_dec (1 / 2) (1 / 2)); [|lra]. f_equal. lra.
Qed.

Transparent interp_membership.
(** outside the table: zero by default, else the nearest end value *)
Lemma interp_from_right : forall tl x x0 y0, x0 <= x -> (forall p, In p tl -> fst p <= x) ->
  interp_from x x0 y0 tl = snd (last ((x0, y0) :: tl) (0, 0)).
Proof.
  induction tl as [|[x1 y1] tl IH]; intros x x0 y0 H0 H; [reflexivity|].
  cbn [interp_from]. pose proof (H (x1, y1) ltac:(left; auto)). cbn in H1.
  destruct (Rlt_dec x x1); [lra|]. rewrite IH; auto. intros p Hp. apply H. right; auto.
Qed.
Theorem C45_outside_table : forall tbl x, tbl <> [] ->
  (x < fst (hd (0, 0) tbl) ->
     interp_membership_z true tbl x = Some 0 /\ interp_membership_z false tbl x = Some (snd (hd (0, 0) tbl))) /\
  ((forall p, In p tbl -> fst p < x) ->
     interp_membership_z true tbl x = Some 0 /\ interp_membership_z false tbl x = Some (snd (last tbl (0, 0)))).
Proof.
  intros [|[x0 y0] tl] x Hne; [tauto|]. split.
  - cbn [hd fst snd]. intros H. cbn [interp_membership_z]. unfold interp_membership. cbn [hd fst].
    rewrite Rltb_true by auto. split; auto. cbn [np_interp]. destruct (Rlt_dec x x0); [auto|lra].
  - intros H. cbn [interp_membership_z]. pose proof (H (x0, y0) ltac:(left; auto)) as H0. cbn in H0.
    assert (HL : fst (last ((x0, y0) :: tl) (0, 0)) < x).
    { apply H. apply last_in. discriminate. }
    unfold interp_membership. cbn [hd fst]. rewrite (Rltb_false x x0) by lra. rewrite Rltb_true by auto.
    split; auto. cbn [np_interp]. destruct (Rlt_dec x x0); [lra|]. f_equal. apply interp_from_right; [lra|].
    intros p Hp. left. apply H. right; auto.
Qed.

(** defuzzification: what each mode returns, and when it raises *)
Definition maximal (x mfx : list R) (v : R) : Prop :=
  exists i, (i < length x)%nat /\ nth i x 0 = v /\ forall j, (j < length x)%nat -> nth j mfx 0 <= nth i mfx 0.

Lemma in_combine_nth : forall (x m : list R) u v, length x = length m ->
  In (u, v) (combine x m) <-> exists i, (i < length x)%nat /\ nth i x 0 = u /\ nth i m 0 = v.
Proof.
  intros x m u v HL. split.
  - intros H. apply In_nth with (d := (0, 0)) in H. destruct H as (i & Hi & E).
    rewrite combine_length, <- HL, Nat.min_id in Hi. rewrite combine_nth in E by auto. injection E as <- <-. eauto.
  - intros (i & Hi & <- & <-). rewrite <- combine_nth by auto. apply nth_In.
    rewrite combine_length, <- HL, Nat.min_id. auto.
Qed.
Lemma fold_min_le : forall l a, fold_left Rmin l a <= a.
Proof. induction l as [|x l IH]; intros a; cbn; [lra|]. eapply Rle_trans; [apply IH|]. apply Rmin_l. Qed.
Lemma fold_min_in_le : forall l a x, In x l -> fold_left Rmin l a <= x.
Proof.
  induction l as [|y l IH]; intros a x H; [destruct H|]. cbn. destruct H as [->|H]; [|apply IH; auto].
  eapply Rle_trans; [apply fold_min_le|]. apply Rmin_r.
Qed.
Lemma fold_min_in : forall l a, In (fold_left Rmin l a) (a :: l).
Proof.
  induction l as [|y l IH]; intros a; cbn; auto. specialize (IH (Rmin a y)). cbn in IH.
  destruct IH as [E|H]; [|auto]. rewrite <- E. unfold Rmin. destruct (Rle_dec a y); auto.
Qed.

(** the selected abscissae are exactly the maximal ones *)
Definition sel (tbl : list (R * R)) : list R :=
  map fst (filter (fun p => if Req_EM_T (snd p) (rmaxl (map snd tbl)) then true else false) tbl).
Lemma sel_spec : forall x m v, x <> [] -> length x = length m -> In v (sel (combine x m)) <-> maximal x m v.
Proof.
  intros x m v Hne HL. set (tbl := combine x m).
  assert (Ht : tbl <> []) by (unfold tbl; destruct x, m; cbn in *; congruence).
  assert (Hm : In (rmaxl (map snd tbl)) (map snd tbl)) by (apply rmaxl_in; destruct tbl; cbn; congruence).
  assert (Hge : forall j, (j < length x)%nat -> nth j m 0 <= rmaxl (map snd tbl)).
  { intros j Hj. apply rmaxl_ge. apply in_map_iff. exists (nth j x 0, nth j m 0). split; auto.
    apply in_combine_nth; eauto. }
  unfold sel. rewrite in_map_iff. split.
  - intros ([u w] & E & Hin). cbn in E. subst u. apply filter_In in Hin. destruct Hin as [Hin Hw]. cbn in Hw.
    destruct (Req_EM_T w (rmaxl (map snd tbl))); [|discriminate]. subst w.
    apply in_combine_nth in Hin; auto. destruct Hin as (i & Hi & E1 & E2). exists i. split; auto. split; auto.
    intros j Hj. rewrite E2. auto.
  - intros (i & Hi & E & Hmax). exists (v, nth i m 0). split; auto. apply filter_In. split.
    + apply in_combine_nth; eauto.
    + cbn. destruct (Req_EM_T (nth i m 0) (rmaxl (map snd tbl))); auto. exfalso. apply n. apply Rle_antisym; auto.
      apply in_map_iff in Hm. destruct Hm as ([u w] & E1 & Hin). cbn in E1. rewrite <- E1.
      apply in_combine_nth in Hin; auto. destruct Hin as (j & Hj & _ & E2). rewrite <- E2. auto.
Qed.
Lemma sel_ne : forall x m, x <> [] -> length x = length m -> sel (combine x m) <> [].
Proof.
  intros x m Hne HL E.
  assert (Ht : combine x m <> []) by (destruct x, m; cbn in *; congruence).
  assert (Hm : In (rmaxl (map snd (combine x m))) (map snd (combine x m))) by (apply rmaxl_in; destruct (combine x m); cbn; congruence).
  apply in_map_iff in Hm. destruct Hm as ([u w] & E1 & Hin). cbn in E1.
  assert (In u (sel (combine x m))); [|rewrite E in H; destruct H].
  unfold sel. apply in_map_iff. exists (u, w). split; auto. apply filter_In. split; auto. cbn.
  destruct (Req_EM_T w (rmaxl (map snd (combine x m)))); auto.
Qed.
Lemma mean_range : forall l lo hi, l <> [] -> (forall v, In v l -> lo <= v <= hi) ->
  lo <= fold_right Rplus 0 l / INR (length l) <= hi.
Proof.
  intros l lo hi Hne H.
  assert (S : INR (length l) * lo <= fold_right Rplus 0 l <= INR (length l) * hi).
  { clear Hne. induction l as [|a l IH]; [cbn; lra|]. cbn [fold_right length]. rewrite S_INR.
    pose proof (H a ltac:(left; auto)). specialize (IH ltac:(intros; apply H; right; auto)). lra. }
  assert (0 < INR (length l)) by (destruct l; [tauto|]; cbn [length]; apply lt_0_INR; lia).
  split; [apply (Rmult_le_reg_r (INR (length l))); auto|apply (Rmult_le_reg_r (INR (length l))); auto];
  unfold Rdiv; rewrite Rmult_assoc, Rinv_l by lra; lra.
Qed.

Theorem C45_defuzz : forall x mfx mode,
  (defuzz x mfx mode = inl ValueError <->
     length x <> length mfx \/ x = [] \/
     (contains "mom" (lower mode) = false /\ contains "som" (lower mode) = false /\ contains "lom" (lower mode) = false)) /\
  (forall e, defuzz x mfx mode = inl e -> e = ValueError) /\
  (forall v, defuzz x mfx mode = inr v ->
     (contains "mom" (lower mode) = true ->
        (forall lo hi, (forall w, maximal x mfx w -> lo <= w <= hi) -> lo <= v <= hi)) /\
     (contains "mom" (lower mode) = false -> contains "som" (lower mode) = true ->
        maximal x mfx v /\ forall w, maximal x mfx w -> v <= w) /\
     (contains "mom" (lower mode) = false -> contains "som" (lower mode) = false ->
        maximal x mfx v /\ forall w, maximal x mfx w -> w <= v)).
Proof.
  intros x mfx mode. unfold defuzz. destruct (Nat.eqb_spec (length x) (length mfx)) as [HL|HL]; cbn [negb].
  2:{ split; [split; auto|]. split; [intros e E; injection E as <-; auto|discriminate]. }
  set (mm := contains "mom" (lower mode)). set (ms := contains "som" (lower mode)). set (ml := contains "lom" (lower mode)).
  destruct x as [|x0 x'] eqn:Ex.
  { split; [split; [auto|]|].
    - intros _. destruct mm, ms, ml; auto.
    - split; [|intros v]; destruct mm, ms, ml; congruence. }
  rewrite <- Ex in *. assert (Hne : x <> []) by congruence. clear Ex x0 x'.
  assert (M : mm = true -> forall v, v = defuzz_mom (combine x mfx) ->
     (forall lo hi, (forall w, maximal x mfx w -> lo <= w <= hi) -> lo <= v <= hi)).
  { intros _ v -> lo hi H. change (defuzz_mom (combine x mfx)) with
      (fold_right Rplus 0 (sel (combine x mfx)) / INR (length (sel (combine x mfx)))).
    apply mean_range; [apply sel_ne; auto|]. intros w Hw. apply H. apply sel_spec; auto. }
  assert (S : maximal x mfx (defuzz_som (combine x mfx)) /\ forall w, maximal x mfx w -> defuzz_som (combine x mfx) <= w).
  { change (defuzz_som (combine x mfx)) with (rminl (sel (combine x mfx))).
    pose proof (sel_ne x mfx Hne HL) as Hs. split.
    - apply sel_spec; auto. unfold rminl. destruct (sel (combine x mfx)); [tauto|]. apply fold_min_in.
    - intros w Hw. apply sel_spec in Hw; auto. unfold rminl. destruct (sel (combine x mfx)); [tauto|].
      destruct Hw as [->|Hw]; [apply fold_min_le|apply fold_min_in_le; auto]. }
  assert (L : maximal x mfx (defuzz_lom (combine x mfx)) /\ forall w, maximal x mfx w -> w <= defuzz_lom (combine x mfx)).
  { change (defuzz_lom (combine x mfx)) with (rmaxl (sel (combine x mfx))).
    pose proof (sel_ne x mfx Hne HL) as Hs. split.
    - apply sel_spec; auto. apply rmaxl_in; auto.
    - intros w Hw. apply rmaxl_ge. apply sel_spec; auto. }
  destruct x as [|x0 x']; [tauto|]. set (x := x0 :: x') in *.
  split; [|split].
  - destruct mm, ms, ml; split; intros H; try discriminate; auto;
    destruct H as [H|[H|(H1 & H2 & H3)]]; congruence.
  - destruct mm, ms, ml; congruence.
  - intros v Hv.
    destruct mm; [injection Hv as <-; split; [intros _; apply M; auto|split; discriminate]|].
    destruct ms; [injection Hv as <-; split; [discriminate|split; [auto|discriminate]]|].
    destruct ml; [injection Hv as <-; split; [discriminate|split; [discriminate|auto]]|discriminate].
Qed.
(** three samples with a two-point plateau: 'lom' gives its right end, whatever the letter case *)
Example C45_defuzz_ex : defuzz [1; 2; 3] [0; 1; 1] "LOM" = inr 3 /\ defuzz [1; 2; 3] [0; 1; 1] "centroid" = inl ValueError.
Proof.
  split; [|reflexivity].
  destruct (C45_defuzz [1; 2; 3] [0; 1; 1] "LOM") as (E & _ & H).
  destruct (defuzz [1; 2; 3] [0; 1; 1] "LOM") as [e|v] eqn:D.
  - cbn in D. discriminate.
  - destruct (H v eq_refl) as (_ & _ & L). destruct (L eq_refl eq_refl) as [(i & Hi & E1 & Hm) Hw].
    f_equal. apply Rle_antisym.
    + cbn in Hi. destruct i as [|[|[|i]]]; [| | |lia]; cbn in E1; lra.
    + apply Hw. exists 2%nat. split; [cbn; lia|]. split; [reflexivity|]. intros [|[|[|j]]] Hj; cbn in *; try lra; lia.
Qed.

(** ** C42: the strengths of the five rules *)
(** reading a curve sampled at a, a+s, ..., a+n*s at a value limited to that range *)
Definition sampled (f : R -> R) (a s : R) (n : Z) (v m : R) : Prop :=
  exists (i : nat) u, (Z.of_nat i <= n)%Z /\ 0 <= u <= 1 /\ (Z.of_nat i = n -> u = 0) /\
    Rmax a (Rmin v (a + IZR n * s)) = a + INR i * s + u * s /\
    m = (1 - u) * f (a + INR i * s) + u * f (a + INR i * s + s).

Transparent clamp alt_lo alt_hi alt_gnd roc_zero roc_plus roc_minus spd_lo spd_md spd_hi.
Lemma sampled_ok : forall f F v a s n, (0 <= n)%Z -> 0 < s -> (forall x, f x = Fin (F x)) ->
  sampled F a s n v (interp_membership (tab f (arange a s (Z.succ n))) (clamp v (arange a s (Z.succ n)))).
Proof.
  intros f F v a s n Hn Hs HF. pose proof (clamp_range v a s n Hn Hs) as C.
  assert (EC : clamp v (arange a s (Z.succ n)) = Rmax a (Rmin v (a + IZR n * s))).
  { unfold clamp. rewrite arange_hd, arange_last by auto. apply Rmax_comm. }
  rewrite arange_gtab by auto. unfold gridpt in C.
  destruct (C45_interpolation (fun x => fval (f x)) a s (Z.to_nat n) _ Hs C) as (i & u & Hi & Hu & E1 & E2 & E3).
  exists i, u. split; [lia|]. split; [auto|]. split; [intros; apply E2; lia|]. split; [rewrite <- EC; auto|].
  unfold gtab, gridpt. rewrite E3. rewrite !HF. cbn [fval]. rewrite S_INR.
  replace (a + (INR i + 1) * s) with (a + INR i * s + s) by ring. reflexivity.
Qed.

Theorem C42_rule_strengths : forall alt spd roc,
  exists gnd lo hi slow medium fast level up down,
    sampled (zshape 0 200) 0 1 39999 alt gnd /\
    sampled (bell 10000 10000) 0 1 39999 alt lo /\
    sampled (bell 35000 20000) 0 1 39999 alt hi /\
    sampled (bell 0 50) 0 1 599 spd slow /\
    sampled (bell 300 100) 0 1 599 spd medium /\
    sampled (bell 600 100) 0 1 599 spd fast /\
    sampled (bell 0 100) (-4000) 0.1 79999 roc level /\
    sampled (fun x => 1 - zshape 10 1000 x) (-4000) 0.1 79999 roc up /\
    sampled (zshape (-1000) (-10)) (-4000) 0.1 79999 roc down /\
    rules alt spd roc = [ Rmin (Rmin gnd level) slow; Rmin (Rmin lo up) medium; Rmin (Rmin lo down) medium;
                          Rmin (Rmin hi level) fast; Rmin (Rmin lo level) medium ].
Proof.
  intros. unfold rules. cbv zeta.
  assert (B : forall m s, s <> 0 -> forall x, gaussmf x m s = Fin (bell m s x)) by (intros; apply C45_exact_shapes; auto).
  assert (Z : forall a b, a < b -> forall x, zmf x a b = Fin (zshape a b x)) by (intros; apply C45_exact_shapes; auto).
  assert (S : forall a b, a < b -> forall x, smf x a b = Fin (1 - zshape a b x)) by (intros; apply C45_exact_shapes; auto).
  do 9 eexists. repeat match goal with |- _ /\ _ => split end; [..|reflexivity]; mem;
  (apply sampled_ok; [lia|lra|]); solve [apply B; lra | apply Z; lra | apply S; lra].
Qed.

(** a jet at FL350, 450 kt, level: the cruise rule reads its memberships at the samples themselves *)
Example C42_rule_strengths_ex : nth 3 (rules 35000 450 0) 0 = exp (- (((450 - 600) / 100) ^ 2 / 2)).
Proof.
  assert (P : forall f F v a s n i, (0 <= i <= n)%Z -> 0 < s -> v = a + IZR i * s -> (forall x, f x = Fin (F x)) ->
    interp_membership (tab f (arange a s (Z.succ n))) (clamp v (arange a s (Z.succ n))) = F v).
  { intros. rewrite (member_at f v a s n i) by auto. rewrite H2. reflexivity. }
  assert (B : forall m s, s <> 0 -> forall x, gaussmf x m s = Fin (bell m s x)) by (intros; apply C45_exact_shapes; auto).
  unfold rules. cbn [nth]. cbv zeta. mem.
  rewrite (P _ (bell 35000 20000) 35000 0 1 39999%Z 35000%Z) by (try lia; try lra; apply B; lra).
  rewrite (P _ (bell 600 100) 450 0 1 599%Z 450%Z) by (try lia; try lra; apply B; lra).
  rewrite (P _ (bell 0 100) 0 (-4000) 0.1 79999%Z 40000%Z) by (try lia; try lra; apply B; lra).
  assert (B1 : bell 35000 20000 35000 = 1) by (unfold bell; rewrite <- exp_0; f_equal; lra).
  assert (B2 : bell 0 100 0 = 1) by (unfold bell; rewrite <- exp_0; f_equal; lra).
  rewrite B1, B2. rewrite (Rmin_left 1 1) by lra. apply Rmin_right. unfold bell. interval.
Qed.

(** ** C44: take-off and landing chunks, exactly *)
Definition alt_at (tr : list sample) (i : nat) : R := s_alt (sample_at tr i).
Definition spd_at (tr : list sample) (i : nat) : R := s_spd (sample_at tr i).
Definition time_at (tr : list sample) (i : nat) : R := s_t (sample_at tr i).
(** e is the last sample of the initial run below 1500 ft (the first sample if there is no such run) *)
Definition low_run_end (tr : list sample) (e : nat) : Prop :=
  (e < length tr)%nat /\
  ((e = 0%nat /\ 1500 <= alt_at tr 0) \/
   ((forall i, (i <= e)%nat -> alt_at tr i < 1500) /\ (S e = length tr \/ 1500 <= alt_at tr (S e)))).
(** going backwards the aircraft still rolls: at least 5 kt, and below 30 kt no faster than a sample later *)
Definition rolling (tr : list sample) (i : nat) : Prop :=
  5 <= spd_at tr i /\ (spd_at tr i < 30 -> spd_at tr i <= spd_at tr (S i)).
(** a is the first sample of the rolling stretch before e; the first sample of all if there is no such stretch *)
Definition roll_start (tr : list sample) (e a : nat) : Prop :=
  ((a < e)%nat /\ (forall i, (a <= i < e)%nat -> rolling tr i) /\ (a = 0%nat \/ ~ rolling tr (a - 1))) \/
  (a = 0%nat /\ (e = 0%nat \/ ~ rolling tr (e - 1))).
Definition jump (tr : list sample) (i j : nat) : Prop := 10 < Rabs (alt_at tr i - alt_at tr j).
Definition takeoff_chunk (tr : list sample) (a b c : nat) : Prop :=
  exists e, c = S e /\ low_run_end tr e /\ roll_start tr e a /\
    time_at tr e - time_at tr a <= 300 /\ (a + 10 <= e)%nat /\ 200 <= alt_at tr e /\
    (a + 5 <= b < e)%nat /\ jump tr b (b - 1) /\ (forall i, (a < i < b)%nat -> ~ jump tr i (i - 1)).

Section Exact.
Context (tr : list sample).
Lemma g_alt : forall i, g tr s_alt i = alt_at tr i. Proof. reflexivity. Qed.
Lemma g_spd : forall i, g tr s_spd i = spd_at tr i. Proof. reflexivity. Qed.
Lemma g_t : forall i, g tr s_t i = time_at tr i. Proof. reflexivity. Qed.

Lemma run_up_end : forall m k, (k + m = length tr)%nat -> (0 < k)%nat -> (forall i, (i < k)%nat -> alt_at tr i < 1500) ->
  low_run_end tr (run_up tr (seq k m) (k - 1)).
Proof.
  induction m as [|m IH]; intros k Hk H0 Ha; cbn [seq run_up].
  - split; [lia|]. right. split; [intros; apply Ha; lia|]. left; lia.
  - rewrite g_alt. destruct (Rltb_spec (alt_at tr k) 1500) as [L|L].
    + replace k with (S k - 1)%nat at 2 by lia. apply IH; [lia|lia|].
      intros i Hi. destruct (Nat.eq_dec i k); [subst; auto|apply Ha; lia].
    + split; [lia|]. right. split; [intros; apply Ha; lia|]. right. replace (S (k - 1)) with k by lia. lra.
Qed.
Lemma run_up_low : tr <> [] -> low_run_end tr (run_up tr (seq 0 (length tr)) 0).
Proof.
  intros Hne. destruct (length tr) as [|n] eqn:E; [destruct tr; [tauto|discriminate]|].
  cbn [seq run_up]. rewrite g_alt. destruct (Rltb_spec (alt_at tr 0) 1500) as [L|L].
  - replace 0%nat with (1 - 1)%nat at 2 by lia. apply run_up_end; [lia|lia|]. intros i Hi. replace i with 0%nat by lia. auto.
  - split; [lia|]. left. split; auto. lra.
Qed.
Lemma low_unique : forall e e', low_run_end tr e -> low_run_end tr e' -> e = e'.
Proof.
  intros e e' [H0 H] [H0' H'].
  destruct H as [[H1 H2]|[H1 H2]], H' as [[H1' H2']|[H1' H2']].
  - lia.
  - pose proof (H1' 0%nat ltac:(lia)). lra.
  - pose proof (H1 0%nat ltac:(lia)). lra.
  - destruct (lt_eq_lt_dec e e') as [[L|L]|L]; auto; exfalso.
    + destruct H2 as [H2|H2]; [lia|]. pose proof (H1' (S e) ltac:(lia)). lra.
    + destruct H2' as [H2'|H2']; [lia|]. pose proof (H1 (S e') ltac:(lia)). lra.
Qed.

Lemma rolling_dec : forall i, {rolling tr i} + {~ rolling tr i}.
Proof.
  intros i. unfold rolling. destruct (Rle_dec 5 (spd_at tr i)); [|right; tauto].
  destruct (Rlt_dec (spd_at tr i) 30); [|left; tauto].
  destruct (Rle_dec (spd_at tr i) (spd_at tr (S i))); [left; tauto|right; tauto].
Qed.
Lemma roll_step : forall i is d, roll_back tr (i :: is) (g tr s_spd (S i)) d =
  if rolling_dec i then roll_back tr is (g tr s_spd i) i else d.
Proof.
  intros. cbn [roll_back]. rewrite !g_spd. destruct (rolling_dec i) as [[H1 H2]|H].
  - rewrite (Rltb_false (spd_at tr i) 5) by lra.
    destruct (Rltb_spec (spd_at tr i) 30) as [L|L]; cbn [andb]; auto. rewrite Rltb_false by (specialize (H2 L); lra). auto.
  - unfold rolling in H. destruct (Rltb_spec (spd_at tr i) 30); cbn [andb].
    + destruct (Rltb_spec (spd_at tr (S i)) (spd_at tr i)); auto. rewrite Rltb_true; auto.
      apply Rnot_le_lt. intros C. apply H. split; [auto|]. intros. lra.
    + destruct (Rltb_spec (spd_at tr i) 5); auto. exfalso. apply H. split; [lra|]. intros; lra.
Qed.
Lemma roll_back_gen : forall m e, (m < e)%nat -> (forall i, (m <= i < e)%nat -> rolling tr i) ->
  roll_start tr e (roll_back tr (rev (seq 0 m)) (g tr s_spd m) m).
Proof.
  induction m as [|m IH]; intros e Hm H.
  - cbn. left. auto.
  - rewrite seq_S, rev_app_distr. cbn [rev app Nat.add]. rewrite roll_step. destruct (rolling_dec m) as [R|R].
    + apply IH; [lia|]. intros i Hi. destruct (Nat.eq_dec i m); [subst; auto|apply H; lia].
    + left. split; auto. split; auto. right. replace (S m - 1)%nat with m by lia. auto.
Qed.
Lemma roll_back_ok : forall e, roll_start tr e (roll_back tr (rev (seq 0 e)) (g tr s_spd e) 0).
Proof.
  intros [|m]; [cbn; right; auto|]. rewrite seq_S, rev_app_distr. cbn [rev app Nat.add]. rewrite roll_step.
  destruct (rolling_dec m) as [R|R].
  - apply roll_back_gen; [lia|]. intros i Hi. replace i with m by lia. auto.
  - right. split; auto. right. replace (S m - 1)%nat with m by lia. auto.
Qed.
Lemma roll_unique : forall e a a', roll_start tr e a -> roll_start tr e a' -> a = a'.
Proof.
  intros e a a' H H'.
  destruct H as [(H1 & H2 & H3)|(H1 & H2)], H' as [(H1' & H2' & H3')|(H1' & H2')].
  - destruct (lt_eq_lt_dec a a') as [[L|L]|L]; auto; exfalso.
    + destruct H3' as [|H3']; [lia|]. apply H3'. apply H2. lia.
    + destruct H3 as [|H3]; [lia|]. apply H3. apply H2'. lia.
  - destruct H2' as [|H2']; [lia|]. exfalso. apply H2'. apply H2. lia.
  - destruct H2 as [|H2]; [lia|]. exfalso. apply H2. apply H2'. lia.
  - lia.
Qed.

Lemma first_jump_found : forall m k d b, (k <= b < k + m)%nat -> jump tr b (b - 1) ->
  (forall i, (k <= i < b)%nat -> ~ jump tr i (i - 1)) -> first_jump tr (seq k m) d = b.
Proof.
  induction m as [|m IH]; intros k d b Hb J N; [lia|]. cbn [seq first_jump]. rewrite !g_alt.
  destruct (Nat.eq_dec k b) as [->|].
  - rewrite Rltb_true; auto.
  - rewrite Rltb_false by (apply Rnot_lt_le, (N k); lia). apply IH; [lia|auto|]. intros i Hi. apply N. lia.
Qed.

Theorem takeoff_iff : tr <> [] -> forall a b c, get_to_ic tr = Some (a, b, c) <-> takeoff_chunk tr a b c.
Proof.
  intros Hne a b c. pose proof (run_up_low Hne) as RU. set (e := run_up tr (seq 0 (length tr)) 0) in *.
  pose proof (roll_back_ok e) as RB. set (s := roll_back tr (rev (seq 0 e)) (g tr s_spd e) 0) in *.
  assert (EQ : get_to_ic tr =
    if Rltb 300 (time_at tr e - time_at tr s) then None else if (e - s <? 10)%nat then None
    else if Rltb (alt_at tr e) 200 then None
    else let ilof := first_jump tr (seq (s + 1) (e - (s + 1))) s in
         if (ilof - s <? 5)%nat then None else Some (s, ilof, e + 1)%nat) by reflexivity.
  rewrite EQ. clear EQ. cbv zeta. split.
  - destruct (Rltb_spec 300 (time_at tr e - time_at tr s)) as [|L1]; [discriminate|].
    destruct (Nat.ltb_spec (e - s) 10) as [|L2]; [discriminate|].
    destruct (Rltb_spec (alt_at tr e) 200) as [|L3]; [discriminate|].
    pose proof (first_jump_spec tr (e - (s + 1)) (s + 1) s) as FJ. cbv zeta in FJ.
    set (j := first_jump tr (seq (s + 1) (e - (s + 1))) s) in *.
    destruct (Nat.ltb_spec (j - s) 5) as [|L4]; [discriminate|]. intros H. injection H as <- <- <-.
    destruct FJ as [FJ|(F1 & F2 & F3)]; [lia|].
    exists e. split; [lia|]. split; auto. split; auto. split; [lra|]. split; [lia|]. split; [lra|]. split; [lia|].
    split; [exact F2|]. intros i Hi J. specialize (F3 i ltac:(lia)). unfold jump in J. rewrite !g_alt in F3. lra.
  - intros (e' & -> & H1 & H2 & H3 & H4 & H5 & H6 & H7 & H8).
    pose proof (low_unique _ _ H1 RU) as ->. pose proof (roll_unique _ _ _ H2 RB) as ->.
    rewrite Rltb_false by lra. destruct (Nat.ltb_spec (e - s) 10); [lia|]. rewrite Rltb_false by lra.
    rewrite (first_jump_found _ _ _ b) by (auto; try lia; intros i Hi; apply H8; lia).
    destruct (Nat.ltb_spec (b - s) 5); [lia|]. repeat f_equal. lia.
Qed.

(** a is the first sample of the final run below 1500 ft; the very first sample when the data ends above *)
Definition low_run_start (a : nat) : Prop :=
  (a < length tr)%nat /\
  ((a = 0%nat /\ 1500 <= alt_at tr (length tr - 1)) \/
   ((forall i, (a <= i < length tr)%nat -> alt_at tr i < 1500) /\ (a = 0%nat \/ 1500 <= alt_at tr (a - 1)))).
(** still decelerating: above 50 kt at the start; later at least 30 kt and, from 50 kt down, slower than a sample before *)
Definition braking (a i : nat) : Prop :=
  if Nat.eq_dec i a then 50 < spd_at tr i
  else 30 <= spd_at tr i /\ (spd_at tr i <= 50 -> spd_at tr i < spd_at tr (i - 1)).
Definition landing_chunk (a b c : nat) : Prop :=
  exists e, c = S e /\ low_run_start a /\ (e < length tr)%nat /\
    (forall i, (a <= i <= e)%nat -> braking a i) /\ (S e = length tr \/ ~ braking a (S e)) /\
    100 <= alt_at tr a /\ (a + 5 <= b)%nat /\ (b + 5 <= e)%nat /\
    jump tr b (S b) /\ (forall i, (b < i < e - 1)%nat -> ~ jump tr i (S i)).

Lemma run_down_gen : forall m, (m < length tr)%nat -> (forall i, (m <= i < length tr)%nat -> alt_at tr i < 1500) ->
  low_run_start (run_down tr (rev (seq 0 m)) m).
Proof.
  induction m as [|m IH]; intros Hm H.
  - cbn. split; auto.
  - rewrite seq_S, rev_app_distr. cbn [rev app Nat.add run_down]. rewrite g_alt.
    destruct (Rltb_spec (alt_at tr m) 1500) as [L|L].
    + apply IH; [lia|]. intros i Hi. destruct (Nat.eq_dec i m); [subst; auto|apply H; lia].
    + split; auto. right. split; auto. right. replace (S m - 1)%nat with m by lia. lra.
Qed.
Lemma run_down_low : tr <> [] -> low_run_start (run_down tr (rev (seq 0 (length tr))) 0).
Proof.
  intros Hne. destruct (length tr) as [|n] eqn:E; [destruct tr; [tauto|discriminate]|].
  rewrite seq_S, rev_app_distr. cbn [rev app Nat.add run_down]. rewrite g_alt.
  destruct (Rltb_spec (alt_at tr n) 1500) as [L|L].
  - apply run_down_gen; [lia|]. intros i Hi. replace i with n by lia. auto.
  - split; [lia|]. left. split; auto. rewrite E. replace (S n - 1)%nat with n by lia. lra.
Qed.
Lemma low_start_unique : forall a a', low_run_start a -> low_run_start a' -> a = a'.
Proof.
  intros a a' [H0 H] [H0' H'].
  destruct H as [[H1 H2]|[H1 H2]], H' as [[H1' H2']|[H1' H2']].
  - lia.
  - pose proof (H1' (length tr - 1)%nat ltac:(lia)). lra.
  - pose proof (H1 (length tr - 1)%nat ltac:(lia)). lra.
  - destruct (lt_eq_lt_dec a a') as [[L|L]|L]; auto; exfalso.
    + destruct H2' as [|H2']; [lia|]. pose proof (H1 (a' - 1)%nat ltac:(lia)). lra.
    + destruct H2 as [|H2]; [lia|]. pose proof (H1' (a - 1)%nat ltac:(lia)). lra.
Qed.

Lemma braking_dec : forall a i, {braking a i} + {~ braking a i}.
Proof.
  intros a i. unfold braking. destruct (Nat.eq_dec i a); [apply Rlt_dec|].
  destruct (Rle_dec 30 (spd_at tr i)); [|right; tauto].
  destruct (Rle_dec (spd_at tr i) 50); [|left; tauto].
  destruct (Rlt_dec (spd_at tr i) (spd_at tr (i - 1))); [left; tauto|right; tauto].
Qed.
Lemma decel_step : forall a i is d v, (a <= i)%nat -> v = spd_at tr (if Nat.eq_dec i a then i else (i - 1)) ->
  decel tr (i :: is) v d = if braking_dec a i then decel tr is (spd_at tr i) i else d.
Proof.
  intros a i is d v Hi ->. cbn [decel]. rewrite !g_spd. destruct (braking_dec a i) as [H|H]; unfold braking in H;
  destruct (Nat.eq_dec i a).
  - rewrite (Rleb_false _ 50) by lra. cbn [andb]. rewrite Rltb_false by lra. auto.
  - destruct H as [H1 H2]. rewrite (Rltb_false _ 30) by lra. destruct (Rleb_spec (spd_at tr i) 50) as [L|L]; cbn [andb]; auto.
    rewrite Rleb_false by (specialize (H2 L); lra). auto.
  - rewrite (Rleb_true (spd_at tr i) 50), (Rleb_true _ (spd_at tr i)) by lra. auto.
  - destruct (Rleb_spec (spd_at tr i) 50) as [L|L]; cbn [andb].
    + destruct (Rleb_spec (spd_at tr (i - 1)) (spd_at tr i)); auto. rewrite Rltb_true; auto.
      apply Rnot_le_lt. intros C. apply H. split; [auto|]. intros; lra.
    + rewrite Rltb_true; auto. apply Rnot_le_lt. intros C. apply H. split; auto. intros; lra.
Qed.
(** what the deceleration loop returns *)
Lemma decel_gen : forall m k a, (k + m = length tr)%nat -> (a < k)%nat -> (forall i, (a <= i < k)%nat -> braking a i) ->
  let e := decel tr (seq k m) (spd_at tr (k - 1)) (k - 1) in
  (k - 1 <= e < length tr)%nat /\ (forall i, (a <= i <= e)%nat -> braking a i) /\ (S e = length tr \/ ~ braking a (S e)).
Proof.
  induction m as [|m IH]; intros k a Hk Ha H; cbv zeta.
  - cbn. split; [lia|]. split; [intros; apply H; lia|]. left; lia.
  - cbn [seq]. rewrite (decel_step a) by first [lia | destruct (Nat.eq_dec k a); [lia|auto]].
    destruct (braking_dec a k) as [B|B].
    + specialize (IH (S k) a ltac:(lia) ltac:(lia)). cbv zeta in IH. replace (S k - 1)%nat with k in IH by lia.
      destruct IH as (I1 & I2 & I3); [|split; [lia|auto]].
      intros i Hi. destruct (Nat.eq_dec i k); [subst; auto|apply H; lia].
    + split; [lia|]. split; [intros; apply H; lia|]. right. replace (S (k - 1)) with k by lia. auto.
Qed.
Lemma decel_ok : forall a, (a < length tr)%nat -> let e := decel tr (seq a (length tr - a)) (g tr s_spd a) 0 in
  (~ braking a a /\ e = 0%nat) \/
  ((a <= e < length tr)%nat /\ (forall i, (a <= i <= e)%nat -> braking a i) /\ (S e = length tr \/ ~ braking a (S e))).
Proof.
  intros a Ha. cbv zeta. destruct (length tr - a)%nat as [|m] eqn:E; [lia|]. cbn [seq].
  rewrite (decel_step a) by first [lia | destruct (Nat.eq_dec a a); [auto|tauto]].
  destruct (braking_dec a a) as [B|B]; [right|left; auto].
  pose proof (decel_gen m (S a) a ltac:(lia) ltac:(lia)) as D. cbv zeta in D. replace (S a - 1)%nat with a in D by lia.
  apply D. intros i Hi. replace i with a by lia. auto.
Qed.
Lemma last_jump_found : forall m k d b, (k <= b < k + m)%nat -> jump tr b (S b) ->
  (forall i, (b < i < k + m)%nat -> ~ jump tr i (S i)) -> last_jump tr (rev (seq k m)) d = b.
Proof.
  induction m as [|m IH]; intros k d b Hb J N; [lia|]. rewrite seq_S, rev_app_distr. cbn [rev app last_jump].
  rewrite !g_alt. replace (k + m + 1)%nat with (S (k + m)) by lia.
  destruct (Nat.eq_dec (k + m) b) as [<-|].
  - rewrite Rltb_true; auto.
  - rewrite Rltb_false by (apply Rnot_lt_le, (N (k + m)%nat); lia). apply IH; [lia|auto|]. intros i Hi. apply N. lia.
Qed.

Theorem landing_iff : tr <> [] -> forall a b c, get_fa_ld tr = Some (a, b, c) <-> landing_chunk a b c.
Proof.
  intros Hne a b c. pose proof (run_down_low Hne) as RD. set (s := run_down tr (rev (seq 0 (length tr))) 0) in *.
  pose proof (decel_ok s (proj1 RD)) as DE. cbv zeta in DE.
  set (e := decel tr (seq s (length tr - s)) (g tr s_spd s) 0) in *.
  assert (EQ : get_fa_ld tr =
    if Rltb (alt_at tr s) 100 then None
    else let ild := last_jump tr (rev (seq s (e - 1 - s))) e in
         if (Z.of_nat ild - Z.of_nat s <? 5)%Z || (Z.of_nat e - Z.of_nat ild <? 5)%Z then None
         else Some (s, ild, e + 1)%nat) by reflexivity.
  rewrite EQ. clear EQ. cbv zeta. split.
  - destruct (Rltb_spec (alt_at tr s) 100) as [|L1]; [discriminate|].
    pose proof (last_jump_spec tr (e - 1 - s) s e) as LJ. cbv zeta in LJ.
    set (j := last_jump tr (rev (seq s (e - 1 - s))) e) in *.
    destruct ((Z.of_nat j - Z.of_nat s <? 5)%Z || (Z.of_nat e - Z.of_nat j <? 5)%Z) eqn:E; [discriminate|].
    apply orb_false_elim in E. destruct E as [E1 E2]. apply Z.ltb_ge in E1, E2.
    intros H. injection H as <- <- <-. destruct LJ as [LJ|(F1 & F2 & F3)]; [lia|].
    destruct DE as [[_ D]|(D1 & D2 & D3)]; [lia|].
    exists e. split; [lia|]. split; auto. split; [lia|]. split; auto. split; auto. split; [lra|]. split; [lia|]. split; [lia|].
    rewrite !g_alt in F2. replace (j + 1)%nat with (S j) in F2 by lia. split; [exact F2|].
    intros i Hi J. specialize (F3 i ltac:(lia)). unfold jump in J. rewrite !g_alt in F3. replace (i + 1)%nat with (S i) in F3 by lia. lra.
  - intros (e' & -> & H1 & H2 & H3 & H4 & H5 & H6 & H7 & H8 & H9).
    pose proof (low_start_unique _ _ H1 RD) as ->.
    assert (e' = e).
    { destruct DE as [[D _]|(D1 & D2 & D3)]; [exfalso; apply D, H3; lia|].
      destruct (lt_eq_lt_dec e e') as [[L|L]|L]; auto; exfalso.
      - destruct D3 as [|D3]; [lia|]. apply D3, H3. lia.
      - destruct H4 as [|H4]; [lia|]. apply H4, D2. lia. }
    subst e'. rewrite Rltb_false by lra.
    rewrite (last_jump_found _ _ _ b) by (auto; try lia; intros i Hi; apply H9; lia).
    destruct (Z.ltb_spec (Z.of_nat b - Z.of_nat s) 5); [lia|]. destruct (Z.ltb_spec (Z.of_nat e - Z.of_nat b) 5); [lia|].
    cbn [orb]. repeat f_equal. lia.
Qed.
End Exact.

(** a take-off is reported with exactly these indices, and only then *)
Theorem C44_takeoff_exact : forall tr a b c, tr <> [] ->
  get_to_ic tr = Some (a, b, c) <-> takeoff_chunk tr a b c.
Proof. intros. apply takeoff_iff; auto. Qed.
Theorem C44_landing_exact : forall tr a b c, tr <> [] ->
  get_fa_ld tr = Some (a, b, c) <-> landing_chunk tr a b c.
Proof. intros. apply landing_iff; auto. Qed.
Example C44_exact_ex : takeoff_chunk departure 0 12 14.
Proof. apply C44_takeoff_exact; [discriminate|apply C44_ex]. Qed.

(** ** C80: start indices, continuous descent, cruise stretch *)
Definition first_with (x : label) (labels : list label) (i : nat) : Prop :=
  nth_error labels i = Some x /\ forall j, (j < i)%nat -> nth_error labels j <> Some x.
Definition last_with (x : label) (labels : list label) (i : nat) : Prop :=
  nth_error labels i = Some x /\ forall j, (i < j)%nat -> nth_error labels j <> Some x.

Lemma label_eqb_eq : forall a b, label_eqb a b = true <-> a = b.
Proof. intros [] []; cbn; split; congruence. Qed.
Lemma where_gen : forall x labels k i,
  In i (map snd (filter (fun p => label_eqb x (fst p)) (combine labels (seq k (length labels))))) <->
  (k <= i)%nat /\ nth_error labels (i - k) = Some x.
Proof.
  intros x. induction labels as [|l labels IH]; intros k i; cbn [combine seq length filter map].
  - cbn. split; [tauto|]. intros [_ H]. destruct (i - k)%nat; discriminate.
  - cbn [fst]. assert (T : In i (map snd (filter (fun p => label_eqb x (fst p)) (combine labels (seq (S k) (length labels))))) <->
      (k < i)%nat /\ nth_error (l :: labels) (i - k) = Some x).
    { rewrite IH. split; intros [H1 H2]; split; try lia.
      - replace (i - k)%nat with (S (i - S k)) by lia. auto.
      - replace (i - k)%nat with (S (i - S k)) in H2 by lia. auto. }
    destruct (label_eqb x l) eqn:E.
    + apply label_eqb_eq in E. subst l. cbn [map snd In]. rewrite T. split.
      * intros [<-|[H1 H2]]; [split; [lia|]; rewrite Nat.sub_diag; auto|split; [lia|auto]].
      * intros [H1 H2]. destruct (Nat.eq_dec k i); [left; auto|right; split; [lia|auto]].
    + rewrite T. split; intros [H1 H2]; split; auto; try lia.
      destruct (Nat.eq_dec k i); [|lia]. subst. rewrite Nat.sub_diag in H2. cbn in H2. injection H2 as H2. subst.
      rewrite (proj2 (label_eqb_eq _ _) eq_refl) in E. discriminate.
Qed.
Lemma where_in : forall x labels i, In i (where_label x labels) <-> nth_error labels i = Some x.
Proof. intros. unfold where_label. rewrite where_gen, Nat.sub_0_r. split; [tauto|]. intros; split; [lia|auto]. Qed.
Lemma where_sorted : forall x labels k, let l := map snd (filter (fun p => label_eqb x (fst p)) (combine labels (seq k (length labels)))) in
  forall a l', l = a :: l' -> (forall i, In i l -> (a <= i)%nat) /\ (forall i, In i l -> (i <= last l 0)%nat).
Proof.
  intros x. induction labels as [|y labels IH]; intros k; cbv zeta; intros a l' E; [discriminate|].
  assert (G : forall i, In i (map snd (filter (fun p => label_eqb x (fst p)) (combine labels (seq (S k) (length labels))))) -> (S k <= i)%nat)
    by (intros i Hi; apply where_gen in Hi; lia).
  specialize (IH (S k)). cbv zeta in IH. cbn [combine seq length filter fst] in E |- *.
  set (l := map snd (filter (fun p => label_eqb x (fst p)) (combine labels (seq (S k) (length labels))))) in *.
  destruct (label_eqb x y); [|apply (IH a l' E)].
  cbn [map snd] in *. fold l in E |- *. injection E as <- E. split.
  - intros i [<-|Hi]; [lia|]. specialize (G i Hi). lia.
  - intros i Hi. destruct l as [|b l0] eqn:El.
    + destruct Hi as [<-|[]]. cbn. lia.
    + destruct (IH b l0 eq_refl) as [I1 I2]. change (last (k :: b :: l0) 0%nat) with (last (b :: l0) 0%nat).
      destruct Hi as [<-|Hi]; [|auto]. specialize (I2 b ltac:(left; auto)). specialize (G b ltac:(left; auto)). lia.
Qed.
Lemma where_first : forall x labels i l, where_label x labels = i :: l ->
  first_with x labels i /\ last_with x labels (last (i :: l) 0%nat).
Proof.
  intros x labels i l E. destruct (where_sorted x labels 0 i l E) as [S1 S2]. fold (where_label x labels) in S1, S2.
  split; split.
  - apply where_in. rewrite E. left; auto.
  - intros j Hj C. apply where_in in C. apply S1 in C. lia.
  - apply where_in. rewrite E. apply last_in. discriminate.
  - intros j Hj C. apply where_in in C. apply S2 in C. rewrite E in C. lia.
Qed.
Lemma where_none : forall x labels, where_label x labels = [] -> forall i, ~ first_with x labels i /\ ~ last_with x labels i.
Proof. intros x labels E i. split; intros [C _]; apply where_in in C; rewrite E in C; destruct C. Qed.
Lemma first_unique : forall x labels i j, first_with x labels i -> first_with x labels j -> i = j.
Proof.
  intros x labels i j [A1 A2] [B1 B2]. destruct (lt_eq_lt_dec i j) as [[L|L]|L]; auto; exfalso; [apply (B2 i)|apply (A2 j)]; auto.
Qed.
Lemma last_unique : forall x labels i j, last_with x labels i -> last_with x labels j -> i = j.
Proof.
  intros x labels i j [A1 A2] [B1 B2]. destruct (lt_eq_lt_dec i j) as [[L|L]|L]; auto; exfalso; [apply (A2 j)|apply (B2 i)]; auto.
Qed.

Lemma cl_iff : forall labels i j, get_cl labels = Some (i, j) <-> first_with CL labels i /\ last_with CL labels j.
Proof.
  intros labels i j. unfold get_cl. destruct (where_label CL labels) as [|a l] eqn:E.
  - split; [discriminate|]. intros [H _]. apply (where_none _ _ E i) in H. tauto.
  - destruct (where_first _ _ _ _ E) as [F L]. split.
    + intros H. injection H as <- <-. auto.
    + intros [H1 H2]. rewrite (first_unique _ _ _ _ H1 F), (last_unique _ _ _ _ H2 L). auto.
Qed.
Lemma cl_none : forall labels, get_cl labels = None <-> forall i, nth_error labels i <> Some CL.
Proof.
  intros labels. unfold get_cl. destruct (where_label CL labels) as [|a l] eqn:E.
  - split; auto. intros _ i C. apply where_in in C. rewrite E in C. destruct C.
  - split; [discriminate|]. intros H. exfalso. apply (H a). apply where_in. rewrite E. left; auto.
Qed.
Lemma de_none : forall labels, get_de labels = None <-> forall i, nth_error labels i <> Some DE.
Proof.
  intros labels. unfold get_de. destruct (where_label DE labels) as [|a l] eqn:E.
  - split; auto. intros _ i C. apply where_in in C. rewrite E in C. destruct C.
  - split; [discriminate|]. intros H. exfalso. apply (H a). apply where_in. rewrite E. left; auto.
Qed.
Lemma nth_error_skipn' : forall {A} (l : list A) i k, nth_error (skipn i l) k = nth_error l (i + k).
Proof. induction l as [|x l IH]; intros [|i] k; cbn; auto. destruct k; auto. Qed.
Lemma nth_error_firstn' : forall {A} (l : list A) n k, (k < n)%nat -> nth_error (firstn n l) k = nth_error l k.
Proof. induction l as [|x l IH]; intros [|n] [|k] H; cbn; auto; try lia. apply IH. lia. Qed.
Lemma firstn_skipn_in : forall {A} (l : list A) i n x, In x (firstn n (skipn i l)) <-> exists k, (i <= k < i + n)%nat /\ nth_error l k = Some x.
Proof.
  intros A l i n x. split.
  - intros H. apply In_nth_error in H. destruct H as [k H].
    assert (L : (k < n)%nat).
    { assert (N : nth_error (firstn n (skipn i l)) k <> None) by congruence. apply nth_error_Some in N.
      rewrite firstn_length in N. lia. }
    exists (i + k)%nat. split; [lia|]. rewrite <- nth_error_skipn', <- (nth_error_firstn' _ n) by auto. auto.
  - intros (k & Hk & H). apply nth_error_In with (n := (k - i)%nat).
    rewrite nth_error_firstn', nth_error_skipn' by lia. replace (i + (k - i))%nat with k by lia. auto.
Qed.
Lemma de_iff : forall labels i j cda, get_de labels = Some (i, j, cda) <->
  first_with DE labels i /\ last_with DE labels j /\
  (cda = true <-> forall k, (i <= k < j)%nat -> nth_error labels k <> Some LVL).
Proof.
  intros labels i j cda. unfold get_de. destruct (where_label DE labels) as [|a l] eqn:E.
  - split; [discriminate|]. intros [H _]. apply (where_none _ _ E i) in H. tauto.
  - destruct (where_first _ _ _ _ E) as [F L]. set (e := last (a :: l) 0%nat) in *.
    assert (Hae : (a <= e)%nat).
    { destruct (le_lt_dec a e); auto. exfalso. apply (proj2 L a); auto. apply F. }
    assert (C : negb (existsb (label_eqb LVL) (firstn (e - a) (skipn a labels))) = true <->
      forall k, (a <= k < e)%nat -> nth_error labels k <> Some LVL).
    { rewrite negb_true_iff. split.
      - intros H k Hk C. assert (existsb (label_eqb LVL) (firstn (e - a) (skipn a labels)) = true); [|congruence].
        apply existsb_exists. exists LVL. split; auto. apply firstn_skipn_in. exists k. split; [lia|auto].
      - intros H. apply not_true_is_false. intros C. apply existsb_exists in C. destruct C as (x & Hx & Ex).
        apply label_eqb_eq in Ex. subst x. apply firstn_skipn_in in Hx. destruct Hx as (k & Hk & Ek). apply (H k); auto. lia. }
    split.
    + intros H. injection H as <- <- <-. split; auto.
    + intros (H1 & H2 & H3). pose proof (first_unique _ _ _ _ H1 F) as ->. pose proof (last_unique _ _ _ _ H2 L) as ->.
      f_equal. f_equal. apply eq_true_iff_eq. rewrite C, H3. tauto.
Qed.

(** the label list is the one of [phaselabel] with its default window of 60 s *)
Theorem C80_start_indices : forall tr labels, tr <> [] -> phaselabel 60 tr = inr labels ->
  exists idx, flight_phase_indices tr = inr idx /\
  (forall a b c, takeoff_chunk tr a b c -> i_TO idx = Some a /\ i_IC idx = Some b /\ i_CL idx = Some c) /\
  ((forall a b c, ~ takeoff_chunk tr a b c) ->
     i_TO idx = None /\ i_IC idx = None /\ forall i, i_CL idx = Some i <-> first_with CL labels i) /\
  (forall i, i_CR idx = Some i <-> last_with CL labels i) /\
  (forall i, i_DE idx = Some i <-> first_with DE labels i) /\
  (forall a b c, landing_chunk tr a b c -> i_FA idx = Some a /\ i_LD idx = Some b /\ i_END idx = c) /\
  ((forall a b c, ~ landing_chunk tr a b c) ->
     i_LD idx = None /\ i_END idx = length tr /\ forall i, i_FA idx = Some i <-> last_with DE labels i).
Proof.
  intros tr labels Hne E. unfold flight_phase_indices. rewrite E. eexists. split; [reflexivity|]. cbn.
  assert (CLf : forall i, option_map fst (get_cl labels) = Some i <-> first_with CL labels i).
  { intros i. destruct (get_cl labels) as [[a e]|] eqn:C; cbn.
    - apply cl_iff in C. split; [intros H; injection H as <-; tauto|]. intros H. f_equal. eapply first_unique; [apply C|auto].
    - split; [discriminate|]. intros [H _]. rewrite cl_none in C. apply C in H. tauto. }
  assert (CLl : forall i, option_map snd (get_cl labels) = Some i <-> last_with CL labels i).
  { intros i. destruct (get_cl labels) as [[a e]|] eqn:C; cbn.
    - apply cl_iff in C. split; [intros H; injection H as <-; tauto|]. intros H. f_equal. eapply last_unique; [apply C|auto].
    - split; [discriminate|]. intros [H _]. rewrite cl_none in C. apply C in H. tauto. }
  assert (DEf : forall i, option_map (fun x => fst (fst x)) (get_de labels) = Some i <-> first_with DE labels i).
  { intros i. destruct (get_de labels) as [[[a e] f]|] eqn:C; cbn.
    - apply de_iff in C. split; [intros H; injection H as <-; tauto|]. intros H. f_equal. eapply first_unique; [apply C|auto].
    - split; [discriminate|]. intros [H _]. rewrite de_none in C. apply C in H. tauto. }
  assert (DEl : forall i, option_map (fun x => snd (fst x)) (get_de labels) = Some i <-> last_with DE labels i).
  { intros i. destruct (get_de labels) as [[[a e] f]|] eqn:C; cbn.
    - apply de_iff in C. split; [intros H; injection H as <-; tauto|]. intros H. f_equal. eapply last_unique; [apply C|auto].
    - split; [discriminate|]. intros [H _]. rewrite de_none in C. apply C in H. tauto. }
  refine (conj _ (conj _ (conj CLl (conj DEf (conj _ _))))).
  - intros a b c H. apply takeoff_iff in H; auto. rewrite H. auto.
  - intros H. destruct (get_to_ic tr) as [[[a b] c]|] eqn:T; [|cbn; auto].
    apply takeoff_iff in T; auto. apply H in T. tauto.
  - intros a b c H. apply landing_iff in H; auto. rewrite H. auto.
  - intros H. destruct (get_fa_ld tr) as [[[a b] c]|] eqn:T; [|cbn; auto].
    apply landing_iff in T; auto. apply H in T. tauto.
Qed.
(** the descent is reported continuous exactly when no sample between its ends is labelled level *)
Theorem C80_continuous_descent : forall labels i j cda, get_de labels = Some (i, j, cda) <->
  first_with DE labels i /\ last_with DE labels j /\
  (cda = true <-> forall k, (i <= k < j)%nat -> nth_error labels k <> Some LVL).
Proof. exact de_iff. Qed.
(** the cruise stretch runs from the last climb sample to the first descent sample, if at least 200 samples *)
Theorem C80_cruise_stretch : forall labels i j, get_cr labels = Some (i, j) <->
  last_with CL labels i /\ first_with DE labels j /\ (i + 200 <= j)%nat.
Proof.
  intros labels i j. unfold get_cr. destruct (get_cl labels) as [[a e]|] eqn:C.
  - apply cl_iff in C. destruct C as [C1 C2]. destruct (get_de labels) as [[[s d] f]|] eqn:D.
    + apply de_iff in D. destruct D as [D1 D2].
      destruct (Z.ltb_spec (Z.of_nat s - Z.of_nat e) 200) as [L|L].
      * split; [discriminate|]. intros (H1 & H2 & H3). rewrite (last_unique _ _ _ _ H1 C2), (first_unique _ _ _ _ H2 D1) in H3. lia.
      * split; [intros H; injection H as <- <-; repeat split; try apply C2; try apply D1; lia|].
        intros (H1 & H2 & H3). rewrite (last_unique _ _ _ _ H1 C2), (first_unique _ _ _ _ H2 D1). auto.
    + split; [discriminate|]. intros (_ & [H _] & _). rewrite de_none in D. apply D in H. tauto.
  - split; [discriminate|]. intros ([H _] & _). rewrite cl_none in C. apply C in H. tauto.
Qed.
(** a descent with a level-off is not continuous; 300 cruise samples make a cruise stretch *)
Example C80_ex : get_de [CL; DE; LVL; DE; GND] = Some (1, 3, false)%nat /\
  get_cr (CL :: repeat CR 300 ++ [DE]) = Some (0, 301)%nat.
Proof. split; reflexivity. Qed.
