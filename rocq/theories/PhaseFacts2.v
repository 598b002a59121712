(** Lemmas about the window loop of phaselabel and the index functions. *)
From Coq Require Import Reals List Bool ZArith Lra Lia Psatz Permutation.
From Verif Require Import Num NumFacts Fuzzy FuzzyFacts Fuel Phase PhaseFacts.
Import ListNotations.
Open Scope R_scope.

(** ** Boolean-mask selection of indices *)
Lemma select_idx_gen : forall (p : Z -> bool) (tws : list Z) k,
  select (map p tws) (seq k (length tws)) = filter (fun i => p (nth (i - k) tws 0%Z)) (seq k (length tws)).
Proof.
  intros p tws. unfold select. induction tws as [|t tws IH]; intros k; auto.
  cbn [length seq map combine filter fst].
  replace (k - k)%nat with 0%nat by lia. cbn [nth].
  erewrite (filter_ext_in _ (fun i => p (nth (i - S k) tws 0%Z)) (seq (S k) (length tws))).
  2: { intros i Hi. apply in_seq in Hi. cbv beta.
    replace (i - k)%nat with (S (i - S k)) by lia. reflexivity. }
  rewrite <- IH. destruct (p t); cbn [map snd]; auto.
Qed.
Lemma select_idx : forall (p : Z -> bool) (tws : list Z),
  select (map p tws) (seq 0 (length tws)) = filter (fun i => p (nth i tws 0%Z)) (seq 0 (length tws)).
Proof.
  intros. rewrite select_idx_gen. apply filter_ext. intros. rewrite Nat.sub_0_r. auto.
Qed.

Lemma select_map : forall {A B} (p : B -> bool) (f : A -> B) (l : list A),
  select (map p (map f l)) l = filter (fun a => p (f a)) l.
Proof.
  intros A B p f l. unfold select. induction l as [|a l IH]; auto. cbn.
  destruct (p (f a)); cbn; rewrite IH; auto.
Qed.

Lemma last_in : forall {A} (l : list A) d, l <> [] -> In (last l d) l.
Proof.
  intros A l d. induction l as [|a l IH]; intros H; [tauto|]. destruct l as [|b l]; [left; auto|].
  right. apply IH. discriminate.
Qed.
Lemma hd_in : forall {A} (l : list A) d, l <> [] -> In (hd d l) l.
Proof. intros A [|a l] d H; [tauto|left; auto]. Qed.

Lemma filter_seq_hd : forall p n k d x, In x (filter p (seq k n)) -> (hd d (filter p (seq k n)) <= x)%nat.
Proof.
  intros p n. induction n as [|n IH]; intros k d x H; cbn in *; [tauto|].
  destruct (p k) eqn:E; cbn in *.
  - destruct H as [->|H]; auto. apply filter_In in H. destruct H as [H _]. apply in_seq in H. lia.
  - apply IH; auto.
Qed.
Lemma filter_seq_last : forall p n k d x, In x (filter p (seq k n)) -> (x <= last (filter p (seq k n)) d)%nat.
Proof.
  intros p n. induction n as [|n IH]; intros k d x H.
  - cbn in H. tauto.
  - rewrite seq_S, filter_app in *. cbn [filter] in *. destruct (p (k + n)%nat) eqn:E.
    + rewrite last_last. apply in_app_or in H. destruct H as [H|[->|[]]]; auto.
      apply filter_In in H. destruct H as [H _]. apply in_seq in H. lia.
    + rewrite app_nil_r in *. auto.
Qed.

(** a monotone list: the indices carrying a value form an interval *)
Lemma run_interval : forall (tws : list Z) (tw : Z) idx,
  (forall i j, (i <= j < length tws)%nat -> (nth i tws 0 <= nth j tws 0)%Z) ->
  idx = filter (fun i => Z.eqb tw (nth i tws 0%Z)) (seq 0 (length tws)) -> idx <> [] ->
  (hd 0 idx <= last idx 0 < length tws)%nat /\
  (forall i, (i < length tws)%nat -> (nth i tws 0%Z = tw <-> (hd 0 idx <= i <= last idx 0)%nat)) /\
  length idx = (last idx 0 + 1 - hd 0 idx)%nat.
Proof.
  intros tws tw idx Hm E Hne.
  assert (Hin : forall i, In i idx <-> (i < length tws)%nat /\ nth i tws 0%Z = tw).
  { intros i. rewrite E, filter_In, in_seq, Z.eqb_eq. split; intros [H1 H2]; split; auto; lia. }
  assert (Hh := proj1 (Hin _) (hd_in idx 0%nat Hne)). assert (Hl := proj1 (Hin _) (last_in idx 0%nat Hne)).
  assert (Hhl : (hd 0 idx <= last idx 0)%nat).
  { rewrite E. apply filter_seq_hd. rewrite <- E. apply last_in; auto. }
  assert (Hiff : forall i, (i < length tws)%nat -> (nth i tws 0%Z = tw <-> (hd 0 idx <= i <= last idx 0)%nat)).
  { intros i Hi. split.
    - intros Ht. assert (In i idx) by (apply Hin; auto). split.
      + rewrite E. apply filter_seq_hd. rewrite <- E; auto.
      + rewrite E. apply filter_seq_last. rewrite <- E; auto.
    - intros [H1 H2]. destruct Hh as [Hh1 Hh2]. destruct Hl as [Hl1 Hl2].
      pose proof (Hm (hd 0%nat idx) i ltac:(lia)). pose proof (Hm i (last idx 0%nat) ltac:(lia)). lia. }
  split; [lia|]. split; auto.
  assert (P : Permutation idx (seq (hd 0%nat idx) (last idx 0 + 1 - hd 0 idx)%nat)).
  { apply NoDup_Permutation.
    - rewrite E. apply NoDup_filter, seq_NoDup.
    - apply seq_NoDup.
    - intros i. rewrite in_seq, Hin. split.
      + intros [H1 H2]. apply Hiff in H2; auto. lia.
      + intros H. assert (i < length tws)%nat by lia. split; auto. apply Hiff; auto. lia. }
  rewrite (Permutation_length P), seq_length. auto.
Qed.

(** a slice assignment that keeps the length writes exactly the slice *)
Lemma slice_assign_nth : forall {A} i j (x d : A) l k, (i <= j <= length l)%nat ->
  length (slice_assign i j (repeat x (j - i)) l) = length l /\
  nth k (slice_assign i j (repeat x (j - i)) l) d = if ((i <=? k) && (k <? j))%nat then x else nth k l d.
Proof.
  intros A i j x d l k H. unfold slice_assign. rewrite Nat.max_r by lia. split.
  - rewrite !app_length, firstn_length_le, repeat_length, skipn_length by lia. lia.
  - destruct (le_lt_dec i k) as [Hk|Hk].
    + rewrite app_nth2 by (rewrite firstn_length_le; lia). rewrite firstn_length_le by lia.
      destruct (lt_dec k j) as [Hj|Hj].
      * rewrite app_nth1 by (rewrite repeat_length; lia).
        replace ((i <=? k) && (k <? j))%nat with true by (symmetry; apply andb_true_intro; split; [apply Nat.leb_le|apply Nat.ltb_lt]; lia).
        destruct (nth_in_or_default (k - i) (repeat x (j - i)) d) as [Hin|E].
        -- apply repeat_spec in Hin; auto.
        -- rewrite (nth_indep _ d x) by (rewrite repeat_length; lia). apply nth_repeat.
      * rewrite app_nth2 by (rewrite repeat_length; lia). rewrite repeat_length.
        replace ((i <=? k) && (k <? j))%nat with false by (symmetry; apply andb_false_intro2; apply Nat.ltb_ge; lia).
        rewrite <- (firstn_skipn j l) at 2. rewrite app_nth2 by (rewrite firstn_length_le; lia).
        rewrite firstn_length_le by lia. f_equal. lia.
    + rewrite app_nth1 by (rewrite firstn_length_le; lia).
      replace ((i <=? k) && (k <? j))%nat with false by (symmetry; apply andb_false_intro1; apply Nat.leb_gt; lia).
      rewrite <- (firstn_skipn i l) at 2. rewrite app_nth1 by (rewrite firstn_length_le; lia). auto.
Qed.

Lemma zmaxl_fold : forall l a, (a <= fold_left Z.max l a)%Z /\ (forall x, In x l -> (x <= fold_left Z.max l a)%Z) /\
  In (fold_left Z.max l a) (a :: l).
Proof.
  induction l as [|b l IH]; intros a; cbn [fold_left].
  - split; [lia|]. split; [intros ? []|left; auto].
  - destruct (IH (Z.max a b)) as (H1 & H2 & H3). split; [lia|]. split.
    + intros x [->|H]; auto. lia.
    + destruct H3 as [H3|H3]; [|right; right; auto]. rewrite <- H3.
      destruct (Z.max_spec a b) as [[_ ->]|[_ ->]]; [right; left; auto|left; auto].
Qed.
(** on a non-decreasing list the maximum is the last element *)
Lemma zmaxl_sorted : forall l, l <> [] ->
  (forall i j, (i <= j < length l)%nat -> (nth i l 0 <= nth j l 0)%Z) -> zmaxl l = nth (length l - 1) l 0%Z.
Proof.
  intros l Hne Hm. destruct l as [|a l]; [tauto|]. unfold zmaxl.
  destruct (zmaxl_fold l a) as (H1 & H2 & H3).
  apply Z.le_antisymm.
  - destruct (In_nth _ _ 0%Z H3) as (i & Hi & Ei). rewrite <- Ei. apply Hm. cbn [length] in *. lia.
  - assert (In (nth (length (a :: l) - 1) (a :: l) 0%Z) (a :: l)) as [H|H] by (apply nth_In; cbn; lia).
    + rewrite <- H. auto.
    + apply H2; auto.
Qed.

(** ** The loop *)
Section Loop.
Context (w : R) (tr : list sample).
Definition tw_of (i : nat) : Z := nth i (twindows w tr) 0%Z.
Definition win_label (k : Z) : py label :=
  let chk := select (map (Z.eqb k) (twindows w tr)) tr in
  window_label (mean (map s_alt chk)) (mean (map s_spd chk)) (mean (map s_roc chk)).

Lemma twindows_length : length (twindows w tr) = length tr.
Proof. unfold twindows. destruct tr; auto. apply map_length. Qed.

Context (Hsorted : forall i j, (i <= j < length tr)%nat -> (tw_of i <= tw_of j)%Z).
Context (Hlab : forall k, exists lab, win_label k = inr lab).

Definition loop (ks : list nat) (acc : py (list label)) : py (list label) :=
  fold_left (fun acc k => match acc with inl e => inl e | inr labels => label_window tr (twindows w tr) (Z.of_nat k) labels end)
            ks acc.

Lemma label_window_step : forall k labels, length labels = length tr ->
  exists labels', label_window tr (twindows w tr) k labels = inr labels' /\ length labels' = length tr /\
    forall i, (i < length tr)%nat ->
      (tw_of i = k -> win_label k = inr (nth i labels' NA)) /\
      (tw_of i <> k -> nth i labels' NA = nth i labels NA).
Proof.
  intros k labels Hlen. unfold label_window.
  destruct (existsb (Z.eqb k) (twindows w tr)) eqn:Ex.
  - cbv zeta. fold (win_label k). destruct (Hlab k) as [lab El]. rewrite El.
    assert (S0 : select (map (Z.eqb k) (twindows w tr)) (seq 0 (length tr))
                 = filter (fun i => Z.eqb k (nth i (twindows w tr) 0%Z)) (seq 0 (length (twindows w tr)))).
    { pose proof (select_idx (Z.eqb k) (twindows w tr)) as S1. rewrite twindows_length in *. exact S1. }
    rewrite S0.
    set (idx := filter (fun i => Z.eqb k (nth i (twindows w tr) 0%Z)) (seq 0 (length (twindows w tr)))).
    assert (Hne : idx <> []).
    { apply existsb_exists in Ex. destruct Ex as (x & Hx & E). apply Z.eqb_eq in E. subst x.
      destruct (In_nth _ _ 0%Z Hx) as (i & Hi & Ei). intros E.
      assert (In i idx) as Hin; [|rewrite E in Hin; destruct Hin].
      apply filter_In. split; [apply in_seq; lia|apply Z.eqb_eq; auto]. }
    destruct (run_interval (twindows w tr) k idx) as (H1 & H2 & H3); auto.
    { intros i j Hij. apply Hsorted. rewrite twindows_length in Hij. auto. }
    rewrite twindows_length in *.
    eexists. split; [reflexivity|]. rewrite H3.
    split; [rewrite (proj1 (slice_assign_nth (hd 0%nat idx) (last idx 0 + 1)%nat lab NA labels 0 ltac:(lia))); auto|]. intros i Hi.
    rewrite (proj2 (slice_assign_nth (hd 0%nat idx) (last idx 0 + 1)%nat lab NA labels i ltac:(lia))).
    specialize (H2 i Hi). fold (tw_of i) in H2. split; intros Ht.
    + apply H2 in Ht. replace ((hd 0 idx <=? i) && (i <? last idx 0 + 1))%nat with true; auto.
      symmetry. apply andb_true_intro. split; [apply Nat.leb_le|apply Nat.ltb_lt]; lia.
    + replace ((hd 0 idx <=? i) && (i <? last idx 0 + 1))%nat with false; auto.
      symmetry. apply not_true_is_false. intros C. apply andb_prop in C. destruct C as [C1 C2].
      apply Nat.leb_le in C1. apply Nat.ltb_lt in C2. apply Ht, H2. lia.
  - exists labels. split; auto. split; auto. intros i Hi. split; auto. intros E.
    exfalso. assert (existsb (Z.eqb k) (twindows w tr) = true); [|congruence].
    apply existsb_exists. exists (tw_of i). split; [|apply Z.eqb_eq; auto]. apply nth_In. rewrite twindows_length; auto.
Qed.

Lemma loop_spec : forall n labels, length labels = length tr ->
  exists labels', loop (seq 0 n) (inr labels) = inr labels' /\ length labels' = length tr /\
    forall i, (i < length tr)%nat ->
      ((0 <= tw_of i < Z.of_nat n)%Z -> win_label (tw_of i) = inr (nth i labels' NA)) /\
      (~ (0 <= tw_of i < Z.of_nat n)%Z -> nth i labels' NA = nth i labels NA).
Proof.
  induction n as [|n IH]; intros labels Hlen.
  - exists labels. split; auto. split; auto. intros i Hi. split; auto. lia.
  - destruct (IH labels Hlen) as (l1 & E1 & L1 & H1). unfold loop in *. rewrite seq_S, fold_left_app, E1.
    cbn [fold_left Nat.add]. destruct (label_window_step (Z.of_nat n) l1 L1) as (l2 & E2 & L2 & H2).
    exists l2. split; auto. split; auto. intros i Hi. specialize (H1 i Hi). specialize (H2 i Hi).
    destruct (Z.eq_dec (tw_of i) (Z.of_nat n)) as [E|N].
    + split; [|lia]. intros _. rewrite E at 1. apply H2; auto.
    + rewrite (proj2 H2 N). split; intros; apply H1; lia.
Qed.

Lemma phaselabel_spec : tr <> [] ->
  (forall i, (i < length tr)%nat -> (0 <= tw_of i)%Z) ->
  exists labels, phaselabel w tr = inr labels /\ length labels = length tr /\
    forall i, (i < length tr)%nat ->
      ((tw_of i < tw_of (length tr - 1))%Z -> win_label (tw_of i) = inr (nth i labels NA)) /\
      (tw_of i = tw_of (length tr - 1) -> nth i labels NA = NA).
Proof.
  intros Hne Hpos. unfold phaselabel.
  assert (Hmax : zmaxl (twindows w tr) = tw_of (length tr - 1)).
  { unfold tw_of. rewrite <- twindows_length. apply zmaxl_sorted.
    - intros E. apply Hne. apply length_zero_iff_nil. rewrite <- twindows_length, E. auto.
    - intros i j Hij. apply Hsorted. rewrite twindows_length in Hij. auto. }
  assert (Hn : (0 < length tr)%nat) by (destruct tr; [tauto|cbn; lia]).
  destruct (loop_spec (Z.to_nat (zmaxl (twindows w tr))) (repeat NA (length tr))) as (l & E & L & H).
  { apply repeat_length. }
  exists l. split; [exact E|]. split; auto. intros i Hi. specialize (H i Hi).
  pose proof (Hpos i Hi). pose proof (Hpos (length tr - 1)%nat ltac:(lia)). rewrite Hmax in H. rewrite Z2Nat.id in H by auto.
  split; intros.
  - apply H. lia.
  - rewrite (proj2 H) by lia. apply nth_repeat.
Qed.
End Loop.

(** ** Index functions *)
Section Idx.
Context (tr : list sample).
Notation n := (length tr).
Notation alt i := (g tr s_alt i).
Notation spd i := (g tr s_spd i).

Lemma run_up_spec : forall m k e, (k + m = n)%nat -> (forall i, (i < k)%nat -> alt i < 1500) ->
  (k = 0%nat -> e = 0%nat) -> ((0 < k)%nat -> e = (k - 1)%nat) ->
  let r := run_up tr (seq k m) e in
  (0 < n)%nat -> (r < n)%nat /\ (forall i, (i < r)%nat -> alt i < 1500) /\ (alt r < 1500 \/ r = 0%nat).
Proof.
  induction m as [|m IH]; intros k e Hk Ha H0 H1; cbn [seq run_up]; intros Hn.
  - assert (0 < k)%nat by lia. rewrite H1 by auto. split; [lia|]. split; [intros; apply Ha; lia|]. left; apply Ha; lia.
  - destruct (Rltb_spec (alt k) 1500) as [L|L].
    + apply IH; auto; try lia. intros i Hi. destruct (Nat.eq_dec i k); [subst; auto|apply Ha; lia].
    + destruct k as [|k].
      * rewrite H0 by auto. split; [lia|]. split; [lia|]. auto.
      * rewrite H1 by lia. split; [lia|]. split; [intros; apply Ha; lia|]. left. apply Ha; lia.
Qed.

Lemma roll_back_spec : forall m s v, (m <= s)%nat -> (s = m \/ m = s)%nat \/ True ->
  forall lo, lo = roll_back tr (rev (seq 0 m)) v s -> 
  (lo = s \/ (lo < m)%nat) /\ (forall i, (lo <= i < m)%nat -> 5 <= spd i).
Proof.
  induction m as [|m IH]; intros s v Hs _ lo E.
  - cbn in E. subst. split; [auto|lia].
  - rewrite seq_S in E. rewrite rev_app_distr in E. cbn [rev app Nat.add roll_back] in E.
    destruct (Rltb_spec (spd m) 30) as [L|L]; destruct (Rltb_spec v (spd m)) as [L'|L']; cbn [andb] in E;
    try (subst lo; split; [auto|intros; lia]).
    all: destruct (Rltb_spec (spd m) 5) as [L2|L2]; [subst lo; split; [auto|intros; lia]|].
    all: destruct (IH m (spd m) ltac:(lia) ltac:(auto) lo E) as [A B]; split; [right; destruct A; lia|];
         intros i Hi; destruct (Nat.eq_dec i m); [subst; lra|apply B; lia].
Qed.

Lemma first_jump_spec : forall m k d, let r := first_jump tr (seq k m) d in
  r = d \/ ((k <= r < k + m)%nat /\ 10 < Rabs (alt r - alt (r - 1)) /\
            forall i, (k <= i < r)%nat -> Rabs (alt i - alt (i - 1)) <= 10).
Proof.
  induction m as [|m IH]; intros k d; cbn [seq first_jump]; auto.
  destruct (Rltb_spec 10 (Rabs (alt k - alt (k - 1)))) as [L|L].
  - right. split; [lia|]. split; auto. lia.
  - destruct (IH (S k) d) as [E|(H1 & H2 & H3)]; auto. right. split; [lia|]. split; auto.
    intros i Hi. destruct (Nat.eq_dec i k); [subst; lra|apply H3; lia].
Qed.

Lemma run_down_spec : forall m s, (m <= n)%nat ->
  (m = n -> s = 0%nat) -> ((m < n)%nat -> s = m) -> (forall i, (m <= i < n)%nat -> alt i < 1500) ->
  let r := run_down tr (rev (seq 0 m)) s in
  (r = 0%nat \/ (r < n)%nat) /\ (alt (n - 1) < 1500 -> (0 < n)%nat -> forall i, (r <= i < n)%nat -> alt i < 1500).
Proof.
  induction m as [|m IH]; intros s Hm H0 H1 Ha.
  - cbn. split; [|intros _ _ i Hi; apply Ha; lia].
    destruct (Nat.eq_dec n 0) as [E|N]; [left; apply H0; lia|right; rewrite H1; lia].
  - rewrite seq_S, rev_app_distr. cbn [rev app Nat.add run_down].
    destruct (Rltb_spec (alt m) 1500) as [L|L].
    + apply IH; try lia. intros i Hi. destruct (Nat.eq_dec i m); [subst; auto|apply Ha; lia].
    + destruct (Nat.eq_dec (S m) n) as [E|N].
      * rewrite (H0 E). split; auto. intros Hl _ i Hi. exfalso. apply L. replace m with (n - 1)%nat by lia. auto.
      * rewrite H1 by lia. split; [right; lia|]. intros _ _ i Hi. apply Ha; lia.
Qed.

Lemma decel_spec : forall m k e v, (k + m = n)%nat -> let r := decel tr (seq k m) v e in
  (r = e \/ (k <= r < n)%nat) /\ (forall i, (k <= i <= r)%nat -> r = e \/ 30 <= spd i).
Proof.
  induction m as [|m IH]; intros k e v Hk; cbn [seq decel]; [split; auto|].
  destruct (Rleb_spec (spd k) 50) as [L|L]; destruct (Rleb_spec v (spd k)) as [L'|L']; cbn [andb]; try (split; auto; fail).
  all: destruct (Rltb_spec (spd k) 30) as [L2|L2]; [split; auto|].
  all: destruct (IH (S k) k (spd k) ltac:(lia)) as [A B]; split; [right; destruct A; lia|];
       intros i Hi; right; destruct (Nat.eq_dec i k); [subst; lra|];
       destruct (B i ltac:(lia)) as [E|]; auto; exfalso; lia.
Qed.

Lemma last_jump_spec : forall m k d, let r := last_jump tr (rev (seq k m)) d in
  r = d \/ ((k <= r < k + m)%nat /\ 10 < Rabs (alt r - alt (r + 1)) /\
            forall i, (r < i < k + m)%nat -> Rabs (alt i - alt (i + 1)) <= 10).
Proof.
  induction m as [|m IH]; intros k d; cbn [seq last_jump]; auto.
  change (k :: seq (S k) m) with (seq k (S m)). rewrite seq_S, rev_app_distr. cbn [rev app last_jump].
  destruct (Rltb_spec 10 (Rabs (alt (k + m) - alt (k + m + 1)))) as [L|L].
  - right. split; [lia|]. split; auto. lia.
  - destruct (IH k d) as [E|(H1 & H2 & H3)]; auto. right. split; [lia|]. split; auto.
    intros i Hi. destruct (Nat.eq_dec i (k + m)); [subst; lra|apply H3; lia].
Qed.
End Idx.
