(** * Properties C91, C92, C93: filters (openap/extra/filters.py) *)
From Coq Require Import List Bool ZArith Lia Permutation Sorted.
From Coq Require Import Reals Lra Psatz.
From Verif Require Import Num NumFacts SpecNum Py Filters.
Import ListNotations.
Open Scope R_scope.

(** ** Specification *)
(** samples in time order, ties in input order *)
Definition at_time (t : R) (p : R * R) : bool := if Req_EM_T (fst p) t then true else false.
Definition time_sorted (l l' : list (R * R)) : Prop :=
  Permutation l l' /\ StronglySorted (fun p q => fst p <= fst q) l' /\ (forall t, filter (at_time t) l' = filter (at_time t) l).
(** [y] is the value of the first of the samples [l] taken at time [t] *)
Definition first_value (l : list (R * R)) (t y : R) : Prop :=
  exists l1 l2, l = l1 ++ (t, y) :: l2 /\ (forall p, In p l1 -> fst p <> t).
Definition no_sample (l : list (R * R)) (t : R) : Prop := forall p, In p l -> fst p <> t.

(** ** Sorting *)
Lemma insert_perm : forall p l, Permutation (p :: l) (insert_xy p l).
Proof.
  intros p. induction l as [|q l IH]; cbn; auto. destruct (Rleb (fst p) (fst q)); auto.
  eapply perm_trans; [apply perm_swap|]. auto.
Qed.
Lemma sort_perm : forall l, Permutation l (sort_xy l).
Proof. induction l as [|p l IH]; cbn; auto. eapply perm_trans; [|apply insert_perm]. auto. Qed.
Lemma insert_sorted : forall p l, StronglySorted (fun p q => fst p <= fst q) l -> StronglySorted (fun p q => fst p <= fst q) (insert_xy p l).
Proof.
  intros p. induction l as [|q l IH]; cbn; intros S; [repeat constructor|]. inversion S as [|? ? S' F]; subst.
  destruct (Rleb_spec (fst p) (fst q)) as [L|L].
  - constructor; auto. constructor; auto. eapply Forall_impl; [|exact F]. cbn. intros; lra.
  - constructor; auto. apply (Permutation_Forall (insert_perm p l)). constructor; auto. lra.
Qed.
Lemma sort_sorted : forall l, StronglySorted (fun p q => fst p <= fst q) (sort_xy l).
Proof. induction l; cbn; [constructor|apply insert_sorted; auto]. Qed.
Lemma insert_stable : forall t p l, filter (at_time t) (insert_xy p l) = filter (at_time t) (p :: l).
Proof.
  intros t p. induction l as [|q l IH]; cbn; auto. destruct (Rleb_spec (fst p) (fst q)) as [L|L]; cbn; auto.
  rewrite IH. cbn. unfold at_time. destruct (Req_EM_T (fst p) t), (Req_EM_T (fst q) t); auto. lra.
Qed.
Lemma sort_stable : forall t l, filter (at_time t) (sort_xy l) = filter (at_time t) l.
Proof. intros t. induction l as [|p l IH]; cbn; auto. rewrite insert_stable. cbn. rewrite IH. auto. Qed.
Lemma sort_time_sorted : forall l, time_sorted l (sort_xy l).
Proof. intros l. split; [apply sort_perm|split; [apply sort_sorted|intros; apply sort_stable]]. Qed.
Lemma time_sorted_unique : forall l a b, time_sorted l a -> time_sorted l b -> a = b.
Proof.
  intros l a b (Pa & Sa & Fa) (Pb & Sb & Fb).
  assert (F : forall t, filter (at_time t) a = filter (at_time t) b) by (intros; rewrite Fa, Fb; auto).
  clear Fa Fb. assert (P : Permutation a b) by (eapply perm_trans; [apply Permutation_sym|]; eauto). clear Pa Pb l.
  revert b P Sb F. induction a as [|p a IH]; intros b P Sb F.
  - apply Permutation_nil in P. auto.
  - destruct b as [|q b]; [apply Permutation_sym, Permutation_nil in P; discriminate|].
    inversion Sa as [|? ? Sa' Fa]; subst. inversion Sb as [|? ? Sb' Fb]; subst.
    assert (E : fst p = fst q).
    { apply Rle_antisym.
      - assert (I : In q (p :: a)) by (apply (Permutation_in _ (Permutation_sym P)); cbn; auto).
        destruct I as [->|I]; [lra|]. rewrite Forall_forall in Fa. apply Fa; auto.
      - assert (I : In p (q :: b)) by (apply (Permutation_in _ P); cbn; auto).
        destruct I as [->|I]; [lra|]. rewrite Forall_forall in Fb. apply Fb; auto. }
    assert (E' : p = q).
    { pose proof (F (fst p)) as H. cbn in H. unfold at_time in H. rewrite <- E in H. destruct (Req_EM_T (fst p) (fst p)); [|congruence]. injection H; auto. }
    subst q. f_equal. apply IH; auto.
    + apply Permutation_cons_inv in P. auto.
    + intros t. specialize (F t). cbn in F. destruct (at_time t p); [injection F|]; auto.
Qed.
Lemma nodup_filter : forall l l' t, NoDup (map fst l) -> Permutation l l' -> filter (at_time t) l = filter (at_time t) l'.
Proof.
  intros l l' t N P. assert (H : forall m, NoDup (map fst m) -> (length (filter (at_time t) m) <= 1)%nat).
  { induction m as [|p m IH]; cbn; intros Nm; auto. inversion Nm as [|? ? Q Nm']; subst. specialize (IH Nm').
    unfold at_time at 1. destruct (Req_EM_T (fst p) t) as [E|E]; auto. cbn.
    destruct (filter (at_time t) m) as [|q r] eqn:Ef; auto. exfalso. apply Q.
    assert (I : In q (filter (at_time t) m)) by (rewrite Ef; cbn; auto). apply filter_In in I. destruct I as [I1 I2].
    unfold at_time in I2. destruct (Req_EM_T (fst q) t); [|discriminate]. rewrite E, <- e. apply in_map; auto. }
  assert (PF : Permutation (filter (at_time t) l) (filter (at_time t) l')).
  { clear N H. induction P; cbn; auto; try (destruct (at_time t x); auto); try (destruct (at_time t y); auto).
    - apply perm_swap. - eapply perm_trans; eauto. }
  pose proof (H l N) as H1. destruct (filter (at_time t) l) as [|p [|q r]].
  - apply Permutation_nil in PF. auto.
  - apply Permutation_length_1_inv in PF. auto.
  - cbn in H1. lia.
Qed.

Lemma combine_fst_snd : forall (l : list (R * R)), combine (map fst l) (map snd l) = l.
Proof. induction l as [|[x y] l IH]; cbn; congruence. Qed.

(** ** C91: sorting, filling, time-weighted filter *)
Theorem C91_sortxy : forall X Y,
  (sortxy X Y = inl ValueError <-> X = [] \/ Y = []) /\
  (forall Xs Ys, sortxy X Y = inr (Xs, Ys) <->
     (X <> [] /\ Y <> [] /\ exists l, time_sorted (combine X Y) l /\ Xs = map fst l /\ Ys = map snd l)).
Proof.
  intros X Y. unfold sortxy. pose proof (sort_time_sorted (combine X Y)) as T.
  assert (E : combine X Y = [] <-> X = [] \/ Y = []).
  { destruct X, Y; cbn; split; intros H; auto; try discriminate; try (destruct H; discriminate). }
  destruct (sort_xy (combine X Y)) as [|p l].
  - destruct T as (P & _). apply Permutation_sym, Permutation_nil in P. rewrite E in P. split; [tauto|].
    intros Xs Ys. split; [discriminate|]. intros (A & B & _). tauto.
  - assert (N : ~ (X = [] \/ Y = [])). { rewrite <- E. intros H. rewrite H in T. destruct T as (P & _). apply Permutation_nil in P. discriminate. }
    split; [split; [discriminate|tauto]|]. intros Xs Ys. split.
    + intros H. injection H as <- <-. split; [tauto|split; [tauto|]]. exists (p :: l). auto.
    + intros (_ & _ & l' & T' & -> & ->). rewrite (time_sorted_unique _ _ _ T' T). auto.
Qed.

(** the order in which samples with different time stamps are given does not matter to any filter *)
Theorem C91_input_order_irrelevant : forall l l', NoDup (map fst l) -> Permutation l l' ->
  let X := map fst l in let Y := map snd l in let X' := map fst l' in let Y' := map snd l' in
  sortxy X Y = sortxy X' Y' /\ simplefill X Y = simplefill X' Y' /\
  (forall w, twf_filter w X Y = twf_filter w X' Y') /\
  (forall pinv w o d i, sg_filter pinv w o d i X Y = sg_filter pinv w o d i X' Y').
Proof.
  intros l l' N P X Y X' Y'.
  assert (E : sort_xy l = sort_xy l').
  { apply time_sorted_unique with l; [apply sort_time_sorted|]. destruct (sort_time_sorted l') as (A & B & C).
    split; [eapply perm_trans; eauto|split; auto]. intros t. rewrite C. symmetry. apply nodup_filter; auto. }
  assert (E1 : sortxy X Y = sortxy X' Y') by (unfold sortxy, X, Y, X', Y'; rewrite !combine_fst_snd, E; auto).
  assert (E2 : simplefill X Y = simplefill X' Y') by (unfold simplefill, X, Y, X', Y'; rewrite !combine_fst_snd, E; auto).
  split; [auto|split; [auto|split]].
  - intros w. unfold twf_filter. rewrite E1. auto.
  - intros. unfold sg_filter. rewrite E1, E2. auto.
Qed.

Lemma value_at_filter : forall l x, value_at l x = match filter (at_time x) l with [] => None | p :: _ => Some (snd p) end.
Proof.
  induction l as [|[t y] l IH]; intros x; cbn; auto. unfold at_time at 1. cbn. destruct (Req_EM_T t x); auto.
Qed.
Lemma value_at_first : forall l x y, value_at l x = Some y <-> first_value l x y.
Proof.
  induction l as [|[t v] l IH]; intros x y; cbn.
  - split; [discriminate|]. intros (l1 & l2 & E & _). destruct l1; discriminate.
  - destruct (Req_EM_T t x) as [->|N].
    + split.
      * intros H. injection H as ->. exists [], l. cbn. tauto.
      * intros (l1 & l2 & E & H). destruct l1 as [|p l1]; cbn in E.
        { injection E as E1 E2. congruence. } { injection E as E1 E2. subst p. exfalso. apply (H (x, v)); cbn; auto. }
    + rewrite IH. split.
      * intros (l1 & l2 & -> & H). exists ((t, v) :: l1), l2. split; auto. intros p [<-|I]; auto.
      * intros (l1 & l2 & E & H). destruct l1 as [|p l1]; cbn in E.
        { injection E as E1 E2. congruence. } { injection E as E1 E2. subst l. exists l1, l2. split; auto. intros q I. apply H. cbn; auto. }
Qed.
Lemma value_at_none : forall l x, value_at l x = None <-> no_sample l x.
Proof.
  induction l as [|[t v] l IH]; intros x; cbn; unfold no_sample.
  - split; auto.
  - destruct (Req_EM_T t x) as [E|N].
    + split; [discriminate|]. intros H. exfalso. apply (H (t, v)); cbn; auto.
    + rewrite IH. unfold no_sample. split; [intros H p [<-|I]; auto|intros H p I; apply H; cbn; auto].
Qed.
Lemma value_at_sort : forall l x, value_at (sort_xy l) x = value_at l x.
Proof. intros. rewrite !value_at_filter, sort_stable. auto. Qed.

Lemma zrange_nth : forall a b k, (k < length (zrange a b))%nat -> nth k (zrange a b) 0%Z = (a + Z.of_nat k)%Z.
Proof.
  intros a b k H. unfold zrange in *. rewrite map_length, seq_length in H.
  rewrite (nth_indep _ 0%Z (a + Z.of_nat 0)%Z) by (rewrite map_length, seq_length; auto).
  rewrite (map_nth (fun k => (a + Z.of_nat k)%Z)), seq_nth by auto. auto.
Qed.
Lemma fill_length : forall l xs y, length (fill l y xs) = length xs.
Proof. induction xs; intros; cbn; auto. Qed.
(** the value at second [a + k] is that of the latest second with a sample, or the initial one *)
Lemma fill_spec : forall l n a y k, (k < n)%nat ->
  let v := nth k (fill l y (map (fun k => (a + Z.of_nat k)%Z) (seq 0 n))) 0 in
  (exists z, (a <= z <= a + Z.of_nat k)%Z /\ value_at l (IZR z) = Some v /\
     forall z', (z < z' <= a + Z.of_nat k)%Z -> value_at l (IZR z') = None) \/
  (v = y /\ forall z', (a <= z' <= a + Z.of_nat k)%Z -> value_at l (IZR z') = None).
Proof.
  intros l. induction n as [|n IH]; intros a y k H; [lia|]. 
  assert (S1 : map (fun k => (a + Z.of_nat k)%Z) (seq 1 n) = map (fun k => (a + 1 + Z.of_nat k)%Z) (seq 0 n)).
  { rewrite <- seq_shift, map_map. apply map_ext. intros; lia. }
  cbn [seq map fill]. rewrite S1. set (y' := match value_at l (IZR (a + Z.of_nat 0)) with Some v => v | None => y end).
  destruct k as [|k]; cbn [nth].
  - unfold y'. replace (a + Z.of_nat 0)%Z with a by lia. destruct (value_at l (IZR a)) as [v|] eqn:E.
    + left. exists a. split; [lia|split; [auto|lia]].
    + right. split; auto. intros z' Hz. replace z' with a by lia. auto.
  - destruct (IH (a + 1)%Z y' k) as [(z & Hz & Ez & Nz)|(Ev & Nz)]; [lia| |].
    + left. exists z. split; [lia|split; [auto|]]. intros z' Hz'. apply Nz. lia.
    + cbv zeta in Ev. rewrite Ev. unfold y'. replace (a + Z.of_nat 0)%Z with a by lia. destruct (value_at l (IZR a)) as [v|] eqn:E.
      * left. exists a. split; [lia|split; [auto|]]. intros z' Hz'. apply Nz. lia.
      * right. split; auto. intros z' Hz'. destruct (Z.eq_dec z' a) as [->|]; auto. apply Nz. lia.
Qed.

(** earliest and latest time stamp *)
Definition first_time (l : list (R * R)) (t : R) : Prop := In t (map fst l) /\ forall p, In p l -> t <= fst p.
Definition last_time (l : list (R * R)) (t : R) : Prop := In t (map fst l) /\ forall p, In p l -> fst p <= t.
Lemma sort_first : forall l p r, sort_xy l = p :: r -> first_time l (fst p).
Proof.
  intros l p r E. destruct (sort_time_sorted l) as (P & S & _). rewrite E in *. split.
  - apply in_map. apply (Permutation_in _ (Permutation_sym P)). cbn; auto.
  - intros q I. apply (Permutation_in _ P) in I. inversion S as [|? ? _ F]; subst. destruct I as [<-|I]; [lra|].
    rewrite Forall_forall in F. auto.
Qed.
Lemma sorted_last : forall l d, l <> [] -> StronglySorted (fun p q : R * R => fst p <= fst q) l -> forall q, In q l -> fst q <= fst (last l d).
Proof.
  induction l as [|p l IH]; intros d N S q I; [congruence|]. inversion S as [|? ? S' F]; subst.
  destruct l as [|p' l]; [destruct I as [<-|[]]; cbn; lra|]. change (last (p :: p' :: l) d) with (last (p' :: l) d).
  destruct I as [<-|I]; [|apply IH; auto; discriminate].
  apply Rle_trans with (fst p'); [rewrite Forall_forall in F; apply F; cbn; auto|]. apply IH; cbn; auto. discriminate.
Qed.
Lemma last_in : forall {A} (l : list A) d, l <> [] -> In (last l d) l.
Proof. induction l as [|p l IH]; intros d N; [congruence|]. destruct l; [cbn; auto|]. right. apply IH. discriminate. Qed.
Lemma sort_last : forall l p r d, sort_xy l = p :: r -> last_time l (fst (last (p :: r) d)).
Proof.
  intros l p r d E. destruct (sort_time_sorted l) as (P & S & _). rewrite E in *. split.
  - apply in_map. apply (Permutation_in _ (Permutation_sym P)). apply last_in. discriminate.
  - intros q I. apply (Permutation_in _ P) in I. apply sorted_last; auto. discriminate.
Qed.

(** towards zero *)
Definition truncated (x : R) (z : Z) : Prop :=
  (0 <= x /\ IZR z <= x < IZR z + 1) \/ (x < 0 /\ IZR z - 1 < x <= IZR z).
Lemma Int_range : forall x, IZR (Int_part x) <= x < IZR (Int_part x) + 1.
Proof. intros x. destruct (base_Int_part x). lra. Qed.
Lemma trunc_spec : forall x, truncated x (Rtrunc x).
Proof.
  intros x. unfold Rtrunc, truncated. destruct (Rle_dec 0 x); [left|right].
  - pose proof (Int_range x). lra.
  - pose proof (Int_range (- x)). rewrite opp_IZR. lra.
Qed.

(** one value per second: the value of the latest sample taken exactly at a whole second, 0 before the first *)
Theorem C91_simplefill : forall X Y Xf Yf, simplefill X Y = inr (Xf, Yf) ->
  exists ta tb a b, first_time (combine X Y) ta /\ last_time (combine X Y) tb /\ truncated ta a /\ truncated (tb + 1) b /\
    length Xf = Z.to_nat (b - a) /\ length Yf = length Xf /\
    forall k, (k < length Xf)%nat -> nth k Xf 0%Z = (a + Z.of_nat k)%Z /\
      ((exists z, (a <= z <= a + Z.of_nat k)%Z /\ first_value (combine X Y) (IZR z) (nth k Yf 0) /\
          forall z', (z < z' <= a + Z.of_nat k)%Z -> no_sample (combine X Y) (IZR z')) \/
       (nth k Yf 0 = 0 /\ forall z', (a <= z' <= a + Z.of_nat k)%Z -> no_sample (combine X Y) (IZR z'))).
Proof.
  intros X Y Xf Yf H. unfold simplefill in H. destruct (sort_xy (combine X Y)) as [|p r] eqn:E; [discriminate|].
  injection H as <- <-. set (a := Rtrunc (fst p)). set (tb := fst (last (p :: r) p)) in *. set (b := Rtrunc (tb + 1)).
  exists (fst p), tb, a, b. split; [eapply sort_first; eauto|split; [eapply sort_last; eauto|split; [apply trunc_spec|split; [apply trunc_spec|]]]].
  rewrite fill_length. split; [unfold zrange; rewrite map_length, seq_length; auto|split; [auto|]].
  intros k Hk. split; [apply zrange_nth; auto|].
  assert (Hn : (k < Z.to_nat (b - a))%nat) by (unfold zrange in Hk; rewrite map_length, seq_length in Hk; auto).
  pose proof (fill_spec (p :: r) (Z.to_nat (b - a)) a 0 k Hn) as Q. cbv zeta in Q. fold (zrange a b) in Q.
  assert (V : forall x, value_at (p :: r) x = value_at (combine X Y) x) by (intros; rewrite <- E; apply value_at_sort).
  destruct Q as [(z & Hz & Ez & Nz)|(Ev & Nz)].
  - left. exists z. split; [auto|split].
    + apply value_at_first. rewrite <- V. exact Ez.
    + intros z' Hz'. apply value_at_none. rewrite <- V. auto.
  - right. split; auto. intros z' Hz'. apply value_at_none. rewrite <- V. auto.
Qed.

(** with whole-second time stamps every second between the first and the last gets the closest previous value *)
Theorem C91_simplefill_whole_seconds : forall X Y, X <> [] -> Y <> [] -> (forall p, In p (combine X Y) -> exists z, fst p = IZR z) ->
  exists a b Xf Yf, simplefill X Y = inr (Xf, Yf) /\ first_time (combine X Y) (IZR a) /\ last_time (combine X Y) (IZR b) /\
    length Xf = S (Z.to_nat (b - a)) /\ length Yf = length Xf /\
    forall k, (k < length Xf)%nat -> nth k Xf 0%Z = (a + Z.of_nat k)%Z /\
      exists t, t <= IZR (a + Z.of_nat k) /\ first_value (combine X Y) t (nth k Yf 0) /\
        forall p, In p (combine X Y) -> fst p <= IZR (a + Z.of_nat k) -> fst p <= t.
Proof.
  intros X Y NX NY W. destruct (simplefill X Y) as [e|[Xf Yf]] eqn:E.
  { exfalso. unfold simplefill in E. destruct (sort_xy (combine X Y)) as [|p r] eqn:S; [|discriminate].
    pose proof (sort_perm (combine X Y)) as P. rewrite S in P. apply Permutation_sym, Permutation_nil in P. destruct X, Y; try congruence; discriminate. }
  destruct (C91_simplefill _ _ _ _ E) as (ta & tb & a & b & Fa & Lb & Ta & Tb & L1 & L2 & H).
  destruct Fa as [Ia Fa]. destruct Lb as [Ib Lb].
  apply in_map_iff in Ia. destruct Ia as (pa & Ea & Ia). destruct (W _ Ia) as (za & Za).
  apply in_map_iff in Ib. destruct Ib as (pb & Eb & Ib). destruct (W _ Ib) as (zb & Zb).
  assert (a = za). { unfold truncated in Ta. rewrite <- Ea, Za in Ta. destruct Ta as [Ta|Ta]; assert (a < za + 1 /\ za < a + 1)%Z; try lia; split; apply lt_IZR; rewrite plus_IZR; lra. }
  assert (b = (zb + 1)%Z).
  { unfold truncated in Tb. rewrite <- Eb, Zb in Tb. destruct Tb as [Tb|Tb]; assert (b < zb + 2 /\ zb < b)%Z; try lia; split; apply lt_IZR; rewrite ?plus_IZR; lra. }
  subst za b. assert (Hab : (a <= zb)%Z). { apply le_IZR. specialize (Fa _ Ib). lra. }
  exists a, zb, Xf, Yf. split; [auto|split; [|split; [|split; [lia|split; [auto|]]]]].
  - rewrite <- Za. split; [apply in_map; auto|]. intros. rewrite Ea. auto.
  - rewrite <- Zb. split; [apply in_map; auto|]. intros. rewrite Eb. auto.
  - intros k Hk. destruct (H k Hk) as [N [(z & Hz & Vz & Mz)|(V0 & Mz)]]; split; auto.
    + exists (IZR z). split; [apply IZR_le; lia|split; [auto|]]. intros p Ip Lp. apply Rnot_lt_le. intros Q.
      destruct (W _ Ip) as (zp & Zp). rewrite Zp in Lp, Q. apply le_IZR in Lp. apply lt_IZR in Q. apply (Mz zp) in Zp; auto.
    + exfalso. apply (Mz a) in Za; auto. lia.
Qed.

(** samples between whole seconds are dropped *)
Theorem C91_closest_previous_refuted :
  ~ (forall X Y Xf Yf k, simplefill X Y = inr (Xf, Yf) -> (k < length Xf)%nat ->
       (exists p, In p (combine X Y) /\ fst p <= IZR (nth k Xf 0%Z)) -> exists t, In (t, nth k Yf 0) (combine X Y)).
Proof.
  assert (E : simplefill [0.5; 1.5] [7; 8] = inr ([0; 1]%Z, [0; 0])).
  { unfold simplefill. cbn. destruct (Rleb_spec 0.5 1.5) as [_|N]; [|exfalso; lra]. cbn [last fst].
    assert (E1 : Rtrunc 0.5 = 0%Z). { destruct (trunc_spec 0.5) as [[_ H]|[H _]]; [|lra]. assert (Rtrunc 0.5 < 1 /\ -1 < Rtrunc 0.5)%Z; [|lia]. split; apply lt_IZR; lra. }
    assert (E2 : Rtrunc (1.5 + 1) = 2%Z). { destruct (trunc_spec (1.5 + 1)) as [[_ H]|[H _]]; [|lra]. assert (Rtrunc (1.5 + 1) < 3 /\ 1 < Rtrunc (1.5 + 1))%Z; [|lia]. split; apply lt_IZR; lra. }
    rewrite E1, E2. change (zrange 0 2) with [0; 1]%Z. cbn [fill value_at].
    destruct (Req_EM_T 0.5 0) as [?|_]; [exfalso; lra|]. destruct (Req_EM_T 1.5 0) as [?|_]; [exfalso; lra|].
    destruct (Req_EM_T 0.5 1) as [?|_]; [exfalso; lra|]. destruct (Req_EM_T 1.5 1) as [?|_]; [exfalso; lra|]. auto. }
  intros H. destruct (H _ _ _ _ 1%nat E) as (t & I).
  - cbn. lia.
  - exists (0.5, 7). cbn. split; [auto|lra].
  - cbn in I. destruct I as [I|[I|[]]]; injection I; intros; lra.
Qed.

(** *** Time-weighted filter *)
Definition gap (X : list R) (j : nat) : R := nth (S j) X 0 - nth j X 0.
(** strictly increasing time stamps *)
Definition increasing_times (X : list R) : Prop := forall j, (S j < length X)%nat -> 0 < gap X j.
(** the inverse gaps in the window of sample [i] do not add up to 1 *)
Definition weights_defined (w : nat) (X : list R) : Prop :=
  forall i, (w <= i < length X)%nat -> rsum (map (fun j => 1 / gap X j) (seq (i - w) (w - 2))) <> 1.
(** weighted sum of the values *)
Definition weighted (a : nat -> R) (Y : list R) : R := rsum (map (fun j => a j * nth j Y 0) (seq 0 (length Y))).

Lemma rsum_app : forall a b, rsum (a ++ b) = rsum a + rsum b.
Proof. induction a; intros; cbn; [|rewrite IHa]; lra. Qed.
Lemma rsum_rev : forall a, rsum (rev a) = rsum a.
Proof. induction a; cbn; auto. rewrite rsum_app, IHa. cbn. lra. Qed.
Lemma rsum_scale : forall k {A} (f : A -> R) l, rsum (map (fun x => k * f x) l) = k * rsum (map f l).
Proof. intros k A f. induction l; cbn; [|rewrite IHl]; lra. Qed.
Lemma rsum_plus : forall {A} (f g : A -> R) l, rsum (map (fun x => f x + g x) l) = rsum (map f l) + rsum (map g l).
Proof. intros A f g. induction l; cbn; [|rewrite IHl]; lra. Qed.
Lemma rsum_repeat : forall x n, rsum (repeat x n) = INR n * x.
Proof. induction n; [cbn; lra|]. rewrite S_INR. cbn [repeat rsum]. rewrite IHn. lra. Qed.
Lemma rsum_ext : forall {A} (f g : A -> R) l, (forall x, In x l -> f x = g x) -> rsum (map f l) = rsum (map g l).
Proof. intros A f g l H. f_equal. apply map_ext_in. auto. Qed.
Lemma rsum_zero : forall {A} (f : A -> R) l, (forall x, In x l -> f x = 0) -> rsum (map f l) = 0.
Proof. intros A f l H. induction l; cbn; auto. rewrite H, IHl by (cbn; auto; intros; apply H; cbn; auto). lra. Qed.
Lemma esum_fin : forall l, esum (map Fin l) = Fin (rsum l).
Proof. induction l; cbn; auto. rewrite IHl. auto. Qed.

Definition dot (c y : list R) : R := rsum (map (fun p => fst p * snd p) (combine c y)).
Lemma dot_app : forall a b c d, length a = length c -> dot (a ++ b) (c ++ d) = dot a c + dot b d.
Proof.
  unfold dot. induction a as [|x a IH]; intros b [|y c] d H; cbn in *; try discriminate; [lra|]. rewrite IH by lia. lra.
Qed.
Lemma dot_rev : forall a b, length a = length b -> dot (rev a) (rev b) = dot a b.
Proof.
  induction a as [|x a IH]; intros [|y b] H; cbn [length] in H; try discriminate; [reflexivity|]. cbn [rev].
  rewrite dot_app by (rewrite !rev_length; lia). rewrite IH by lia. unfold dot. cbn. lra.
Qed.
Lemma dot_zero : forall n y, dot (repeat 0 n) y = 0.
Proof. unfold dot. induction n; intros [|a y]; cbn; auto. rewrite IHn. lra. Qed.
Lemma dot_const : forall x n y, (length y <= n)%nat -> dot (repeat x n) y = x * rsum y.
Proof. unfold dot. induction n; intros [|a y] H; cbn in *; try lia; try lra. rewrite IHn by lia. lra. Qed.
Lemma dot_scale : forall k a y, dot (map (fun x => k * x) a) y = k * dot a y.
Proof. unfold dot. induction a; intros [|b y]; cbn; try lra. rewrite IHa. lra. Qed.

Lemma diffs_length : forall l, length (diffs l) = (length l - 1)%nat.
Proof.
  intros [|x l]; [reflexivity|]. revert x. induction l as [|y l IH]; intros x; [reflexivity|].
  change (diffs (x :: y :: l)) with ((y - x) :: diffs (y :: l)). cbn [length]. rewrite IH. cbn. lia.
Qed.
Lemma diffs_nth : forall l j, (S j < length l)%nat -> nth j (diffs l) 0 = gap l j.
Proof.
  unfold gap. induction l as [|x [|y l] IH]; intros j H; cbn [length] in H; try lia. destruct j as [|j]; [reflexivity|].
  change (nth (S j) (diffs (x :: y :: l)) 0) with (nth j (diffs (y :: l)) 0). rewrite IH by (cbn; lia). reflexivity.
Qed.
Lemma slice_length : forall {A} a b (l : list A), (b <= length l)%nat -> (a <= b)%nat -> length (slice a b l) = (b - a)%nat.
Proof. intros. unfold slice. rewrite firstn_length, skipn_length. lia. Qed.
Lemma nth_skipn_ : forall {A} a (l : list A) d j, nth j (skipn a l) d = nth (a + j) l d.
Proof. induction a; intros [|x l] d j; cbn; auto. destruct j; auto. Qed.
Lemma nth_firstn_ : forall {A} n (l : list A) d j, (j < n)%nat -> nth j (firstn n l) d = nth j l d.
Proof. induction n; intros [|x l] d [|j] H; cbn; auto; try lia. apply IHn. lia. Qed.
Lemma slice_nth : forall {A} a b (l : list A) d j, (j < b - a)%nat -> nth j (slice a b l) d = nth (a + j) l d.
Proof. intros. unfold slice. rewrite nth_firstn_, nth_skipn_ by auto. auto. Qed.
Lemma slice_map : forall {A B} (f : A -> B) a b l, slice a b (map f l) = map f (slice a b l).
Proof. intros. unfold slice. rewrite skipn_map, firstn_map. auto. Qed.

(** inverse differences of the reversed window *)
Definition win_inv (w : nat) (X : list R) (i : nat) : list R := map (fun d => 1 / d) (diffs (rev (slice (i - w) (i - 1) X))).
Lemma win_nth : forall w X i j, (2 <= w <= i)%nat -> (i < length X)%nat -> (j < w - 2)%nat ->
  nth j (diffs (rev (slice (i - w) (i - 1) X))) 0 = - gap X (i - 3 - j).
Proof.
  intros w X i j H1 H2 H3. assert (L : length (slice (i - w) (i - 1) X) = (w - 1)%nat) by (rewrite slice_length; lia).
  rewrite diffs_nth by (rewrite rev_length, L; lia). unfold gap. rewrite !rev_nth by (rewrite L; lia). rewrite L, !slice_nth by lia.
  replace (i - w + (w - 1 - S (S j)))%nat with (i - 3 - j)%nat by lia. replace (i - w + (w - 1 - S j))%nat with (S (i - 3 - j))%nat by lia. lra.
Qed.
Lemma win_inv_length : forall w X i, (2 <= w <= i)%nat -> (i < length X)%nat -> length (win_inv w X i) = (w - 2)%nat.
Proof. intros. unfold win_inv. rewrite map_length, diffs_length, rev_length, slice_length; lia. Qed.
Lemma list_seq : forall (l : list R), l = map (fun j => nth j l 0) (seq 0 (length l)).
Proof.
  induction l as [|x l IH]; cbn; auto. f_equal. rewrite <- seq_shift, map_map. exact IH.
Qed.
Lemma win_inv_sum : forall w X i, (2 <= w <= i)%nat -> (i < length X)%nat -> increasing_times X ->
  rsum (win_inv w X i) = - rsum (map (fun j => 1 / gap X j) (seq (i - w) (w - 2))).
Proof.
  intros w X i H1 H2 HI. 
  assert (E : win_inv w X i = rev (map (fun j => - (1 / gap X j)) (seq (i - w) (w - 2)))).
  { apply nth_ext with 0 0.
    - rewrite win_inv_length, rev_length, map_length, seq_length by auto. auto.
    - intros j Hj. rewrite win_inv_length in Hj by auto. rewrite rev_nth by (rewrite map_length, seq_length; auto). rewrite map_length, seq_length.
      unfold win_inv. rewrite (nth_indep _ 0 ((fun d => 1 / d) 0)) by (rewrite map_length, diffs_length, rev_length, slice_length; lia).
      rewrite (map_nth (fun d => 1 / d)), win_nth by auto.
      rewrite (nth_indep _ 0 ((fun j => - (1 / gap X j)) 0%nat)) by (rewrite map_length, seq_length; lia).
      rewrite (map_nth (fun j => - (1 / gap X j))), seq_nth by lia.
      replace (i - w + (w - 2 - S j))%nat with (i - 3 - j)%nat by lia.
      assert (0 < gap X (i - 3 - j)) by (apply HI; lia). field. lra. }
  rewrite E, rsum_rev. rewrite (rsum_ext _ (fun j => (-1) * (1 / gap X j))) by (intros; lra). rewrite (rsum_scale (-1)). lra.
Qed.

(** the coefficients of the earlier outputs in output [i] *)
Definition coef (w : nat) (X : list R) (i : nat) : list R :=
  if (i <? w)%nat then repeat (1 / INR (i - 1)) (i - 1) ++ [0]
  else repeat 0 (i - w) ++ rev (map (fun x => 1 / (1 + rsum (win_inv w X i)) * x) (1 :: win_inv w X i)) ++ [0].
Lemma coef_length : forall w X i, (2 <= i)%nat -> (2 <= w)%nat -> (i < length X)%nat -> length (coef w X i) = i.
Proof.
  intros w X i H1 H2 H3. unfold coef. destruct (Nat.ltb_spec i w).
  - rewrite app_length, repeat_length. cbn. lia.
  - rewrite !app_length, repeat_length, rev_length, map_length. cbn [length]. rewrite win_inv_length by lia. lia.
Qed.
Section Step.
Context (w : nat) (X : list R).
Hypothesis Hw : (2 <= w)%nat.
Hypothesis HI : increasing_times X.
Hypothesis HD : weights_defined w X.
Lemma denom : forall i, (w <= i < length X)%nat -> 1 + rsum (win_inv w X i) <> 0.
Proof. intros i H. rewrite win_inv_sum by (auto; lia). pose proof (HD i H). lra. Qed.
Lemma coef_sum : forall i, (2 <= i < length X)%nat -> rsum (coef w X i) = 1.
Proof.
  intros i H. unfold coef. destruct (Nat.ltb_spec i w) as [L|L].
  - rewrite rsum_app, rsum_repeat. cbn. field. apply not_0_INR. lia.
  - rewrite !rsum_app, rsum_rev, rsum_repeat. rewrite (rsum_scale _ (fun x => x)), map_id. cbn.
    pose proof (denom i ltac:(lia)). field. auto.
Qed.
Lemma coef_prev : forall i, (2 <= i < length X)%nat -> nth (i - 1) (coef w X i) 0 = 0.
Proof.
  intros i H. pose proof (coef_length w X i ltac:(lia) Hw ltac:(lia)) as L. unfold coef in *. destruct (i <? w)%nat.
  - rewrite app_nth2 by (rewrite repeat_length; lia). rewrite repeat_length, Nat.sub_diag. auto.
  - rewrite app_assoc in *. rewrite app_length in L. cbn [length] in L. rewrite app_nth2 by lia.
    match goal with |- nth ?q _ _ = _ => replace q with 0%nat by lia end. auto.
Qed.
Lemma step_eq : forall i yf y, (2 <= i < length X)%nat -> length yf = i ->
  twf_step w X y i (map Fin yf) = inr (Fin ((dot (coef w X i) yf + y) / 2)).
Proof.
  intros i yf y H L. unfold twf_step, coef. destruct (Nat.ltb_spec i w) as [Lt|Le].
  - cbv zeta. rewrite slice_map, esum_fin, map_length, slice_length by lia. replace (i - 1 - 0)%nat with (i - 1)%nat by lia.
    assert (N : INR (i - 1) <> 0) by (apply not_0_INR; lia).
    rewrite (ediv_fin _ (INR (i - 1))) by auto. cbn [eadd]. rewrite ediv_fin by lra. f_equal. f_equal. f_equal. f_equal.
    assert (E : yf = slice 0 (i - 1) yf ++ [nth (i - 1) yf 0]).
    { unfold slice. cbn [skipn]. rewrite Nat.sub_0_r. rewrite <- (firstn_skipn (i - 1) yf) at 1. f_equal.
      apply nth_ext with 0 0; [rewrite skipn_length; cbn; lia|]. intros j Hj. rewrite skipn_length in Hj. replace j with 0%nat by lia.
      rewrite nth_skipn_, Nat.add_0_r. auto. }
    rewrite E at 2. rewrite dot_app by (rewrite repeat_length, slice_length; lia). rewrite dot_const by (rewrite slice_length; lia).
    unfold dot. cbn. field. auto.
  - cbv zeta. rewrite slice_map, <- map_rev. set (win := slice (i - w) (i - 1) yf).
    assert (Lw : length win = (w - 1)%nat) by (unfold win; rewrite slice_length; lia).
    destruct (rev win) as [|y0 yr] eqn:Er. { apply (f_equal (@length R)) in Er. rewrite rev_length in Er. cbn in Er. lia. }
    assert (Lr : length yr = (w - 2)%nat). { apply (f_equal (@length R)) in Er. rewrite rev_length in Er. cbn in Er. lia. }
    cbn [map].
    assert (E1 : map (fun d => ediv (Fin 1) (Fin d)) (diffs (rev (slice (i - w) (i - 1) X))) = map Fin (win_inv w X i)).
    { unfold win_inv. rewrite map_map. apply map_ext_in. intros d Id. apply ediv_fin.
      apply (In_nth _ _ 0) in Id. destruct Id as (j & Hj & <-). rewrite diffs_length, rev_length, slice_length in Hj by lia.
      rewrite win_nth by lia. assert (0 < gap X (i - 3 - j)) by (apply HI; lia). lra. }
    rewrite E1.
    assert (E2 : forall a b, map (fun p => emul (fst p) (snd p)) (combine (map Fin a) (map Fin b)) = map Fin (map (fun p => fst p * snd p) (combine a b))).
    { induction a as [|u a IHa]; intros [|v b]; cbn; auto. rewrite IHa. auto. }
    rewrite E2, !esum_fin. cbn [eadd]. pose proof (denom i ltac:(lia)) as Dn. rewrite (ediv_fin _ (1 + rsum (win_inv w X i))) by auto.
    cbn [eadd]. rewrite ediv_fin by lra. f_equal. f_equal. f_equal. f_equal.
    fold (dot (win_inv w X i) yr).
    assert (E : yf = firstn (i - w) yf ++ win ++ [nth (i - 1) yf 0]).
    { rewrite <- (firstn_skipn (i - w) yf) at 1. f_equal. unfold win, slice.
      rewrite <- (firstn_skipn (i - 1 - (i - w)) (skipn (i - w) yf)) at 1. f_equal.
      apply nth_ext with 0 0; [rewrite !skipn_length; cbn; lia|]. intros j Hj. rewrite !skipn_length in Hj. replace j with 0%nat by lia.
      rewrite !nth_skipn_. cbn [nth]. f_equal. lia. }
    rewrite E. rewrite dot_app by (rewrite repeat_length, firstn_length; lia). rewrite dot_zero.
    rewrite dot_app by (rewrite rev_length; cbn [length]; rewrite map_length, win_inv_length; lia).
    rewrite <- (rev_involutive win), Er. rewrite dot_rev by (cbn [length]; rewrite map_length, win_inv_length; lia).
    change (1 / (1 + rsum (win_inv w X i)) * 1 :: map (fun x : R => 1 / (1 + rsum (win_inv w X i)) * x) (win_inv w X i))
      with (map (fun x : R => 1 / (1 + rsum (win_inv w X i)) * x) (1 :: win_inv w X i)).
    rewrite dot_scale. unfold dot. cbn. fold (dot (win_inv w X i) yr). field. auto.
Qed.

(** weights of the inputs *)
Definition new_row (i : nat) (rows : list (nat -> R)) : nat -> R :=
  fun j => (dot (coef w X i) (map (fun r => r j) rows) + (if Nat.eqb j i then 1 else 0)) / 2.
Fixpoint rows (k : nat) : list (nat -> R) :=
  match k with
  | O => [(fun j => if Nat.eqb j 0 then 1 else 0); (fun j => if Nat.eqb j 1 then 1 else 0)]
  | S k => rows k ++ [new_row (k + 2) (rows k)]
  end.
Lemma rows_length : forall k, length (rows k) = (k + 2)%nat.
Proof. clear. induction k; cbn; auto. rewrite app_length, IHk. cbn. lia. Qed.
Lemma dot_map_plus : forall c {A} (f g : A -> R) l, dot c (map (fun r => f r + g r) l) = dot c (map f l) + dot c (map g l).
Proof. intros c A f g l. revert c. induction l as [|r l IH]; intros [|x c]; unfold dot in *; cbn; try lra. rewrite IH. lra. Qed.
Lemma dot_zeros : forall c {A} (l : list A), dot c (map (fun _ => 0) l) = 0.
Proof. intros c A l. revert c. induction l as [|r l IH]; intros [|x c]; unfold dot in *; cbn; try lra. rewrite IH. lra. Qed.
Lemma dot_map_scale : forall c {A} k (f : A -> R) l, dot c (map (fun r => f r * k) l) = dot c (map f l) * k.
Proof. intros c A k f l. revert c. induction l as [|r l IH]; intros [|x c]; unfold dot in *; cbn; try lra. rewrite IH. lra. Qed.
Lemma lin_dot : forall c (rs : list (nat -> R)) (v : nat -> R) js,
  rsum (map (fun j => dot c (map (fun r => r j) rs) * v j) js) = dot c (map (fun r => rsum (map (fun j => r j * v j) js)) rs).
Proof.
  intros c rs v js. induction js as [|j js IH]; cbn.
  - rewrite dot_zeros. auto.
  - rewrite IH, dot_map_plus, dot_map_scale. auto.
Qed.
Lemma delta_sum : forall (v : nat -> R) i n a, (a <= i < a + n)%nat -> rsum (map (fun j => (if Nat.eqb j i then 1 else 0) * v j) (seq a n)) = v i.
Proof.
  induction n as [|n IH]; intros a H; [lia|]. cbn. destruct (Nat.eqb_spec a i) as [->|N].
  - rewrite rsum_zero; [lra|]. intros j Hj. apply in_seq in Hj. destruct (Nat.eqb_spec j i); [lia|lra].
  - rewrite IH by lia. lra.
Qed.
Lemma new_row_lin : forall i rs v n, (i < n)%nat ->
  rsum (map (fun j => new_row i rs j * v j) (seq 0 n)) = (dot (coef w X i) (map (fun r => rsum (map (fun j => r j * v j) (seq 0 n))) rs) + v i) / 2.
Proof.
  intros i rs v n H. rewrite <- lin_dot, <- (delta_sum v i n 0) by lia. 
  rewrite <- rsum_plus. unfold Rdiv. rewrite Rmult_comm, <- rsum_scale. apply rsum_ext. intros j _. unfold new_row. field.
Qed.
Lemma new_row_weighted : forall i rs Y, (i < length Y)%nat ->
  weighted (new_row i rs) Y = (dot (coef w X i) (map (fun r => weighted r Y) rs) + nth i Y 0) / 2.
Proof. intros. unfold weighted. rewrite (new_row_lin i rs (fun j => nth j Y 0)) by auto. auto. Qed.
Lemma row0 : forall Y, (2 <= length Y)%nat -> map (fun r => weighted r Y) (rows 0) = firstn 2 Y.
Proof.
  intros [|y0 [|y1 Y]] H; cbn in H; try lia. cbn [rows map firstn]. unfold weighted. 
  rewrite (delta_sum (fun j => nth j (y0 :: y1 :: Y) 0)), (delta_sum (fun j => nth j (y0 :: y1 :: Y) 0)) by (cbn; lia). auto.
Qed.
Lemma loop_eq : forall m k Y, (k + 2 + m = length Y)%nat -> length Y = length X ->
  twf_loop w X (skipn (k + 2) Y) (k + 2) (map Fin (map (fun r => weighted r Y) (rows k))) = inr (map Fin (map (fun r => weighted r Y) (rows (k + m)))).
Proof.
  induction m as [|m IH]; intros k Y H1 H2.
  - rewrite skipn_all2 by lia. cbn. rewrite Nat.add_0_r. auto.
  - assert (E : skipn (k + 2) Y = nth (k + 2) Y 0 :: skipn (S k + 2) Y).
    { clear - H1. assert (G : forall a (l : list R), (a < length l)%nat -> skipn a l = nth a l 0 :: skipn (S a) l).
      { induction a; intros [|x l] H; cbn in *; try lia; auto. rewrite IHa by lia. auto. }
      rewrite G by lia. auto. }
    rewrite E. cbn [twf_loop]. rewrite step_eq by (rewrite ?map_length, ?rows_length; lia).
    rewrite <- new_row_weighted by lia.
    specialize (IH (S k) Y ltac:(lia) H2). cbn [rows] in IH. rewrite !map_app in IH. cbn [map] in IH.
    replace (S (k + 2)) with (S k + 2)%nat by lia. rewrite IH. f_equal. f_equal. f_equal. f_equal. lia.
Qed.
Lemma rows_props : forall k i, (i < k + 2)%nat -> (k + 2 <= length X)%nat ->
  let a := nth i (rows k) (fun _ => 0) in
  (forall j, (i < j)%nat -> a j = 0) /\ (forall n, (i < n)%nat -> rsum (map a (seq 0 n)) = 1) /\
  ((2 <= i)%nat -> a i = 1 / 2 /\ a (i - 1)%nat = 0).
Proof.
  induction k as [|k IH]; intros i Hi HX; cbv zeta.
  - assert (D : forall i0 n, (i0 < n)%nat -> rsum (map (fun j => if Nat.eqb j i0 then 1 else 0) (seq 0 n)) = 1).
    { intros i0 n Hn. transitivity (rsum (map (fun j => (if Nat.eqb j i0 then 1 else 0) * (fun _ => 1) j) (seq 0 n))); [|apply delta_sum; lia].
      apply rsum_ext. intros j _. lra. }
    destruct i as [|[|i]]; [| |exfalso; lia]; cbn [rows nth]; (split; [intros j Hj; destruct j as [|[|j]]; cbn; auto; exfalso; lia|split; [intros; apply D; auto|intros; exfalso; lia]]).
  - cbn [rows]. destruct (Nat.lt_ge_cases i (k + 2)) as [L|G].
    + rewrite app_nth1 by (rewrite rows_length; auto). apply IH; lia.
    + assert (i = k + 2)%nat by lia. subst i. rewrite app_nth2 by (rewrite rows_length; lia). rewrite rows_length, Nat.sub_diag. cbn [nth].
      assert (Z : forall j, (k + 2 <= j)%nat -> map (fun r => r j) (rows k) = map (fun _ => 0) (rows k)).
      { intros j Hj. apply map_ext_in. intros r Ir. apply (In_nth _ _ (fun _ => 0)) in Ir. destruct Ir as (q & Hq & <-). rewrite rows_length in Hq.
        destruct (IH q Hq ltac:(lia)) as [A _]. apply A. lia. }
      split; [|split].
      * intros j Hj. unfold new_row. rewrite Z, dot_zeros by lia. destruct (Nat.eqb_spec j (k + 2)); [lia|lra].
      * intros n Hn. pose proof (new_row_lin (k + 2) (rows k) (fun _ => 1) n Hn) as Q.
        rewrite (rsum_ext _ (fun j => new_row (k + 2) (rows k) j * 1)) by (intros; lra). rewrite Q.
        rewrite (map_ext_in _ (fun _ => 1) (rows k)).
        { assert (Ones : forall c {A} (l : list A), length c = length l -> dot c (map (fun _ => 1) l) = rsum c).
          { intros c A l. revert c. induction l as [|r l IHl]; intros [|x c] Hc; cbn in Hc; try discriminate; auto. specialize (IHl c ltac:(lia)). unfold dot in *. cbn. rewrite IHl. lra. }
          rewrite Ones by (rewrite coef_length, rows_length by lia; lia). rewrite coef_sum by lia. lra. }
        intros r Ir. apply (In_nth _ _ (fun _ => 0)) in Ir. destruct Ir as (q & Hq & <-). rewrite rows_length in Hq.
        destruct (IH q Hq ltac:(lia)) as (_ & B & _). rewrite (rsum_ext _ (nth q (rows k) (fun _ => 0))) by (intros; lra). apply B. lia.
      * intros _. unfold new_row. split.
        { rewrite Z, dot_zeros by lia. rewrite Nat.eqb_refl. lra. }
        { destruct (Nat.eqb_spec (k + 2 - 1) (k + 2)); [lia|].
          (* only the previous row has a weight at i-1, and its coefficient is 0 *)
          pose proof (coef_prev (k + 2) ltac:(lia)) as P. pose proof (coef_length w X (k + 2) ltac:(lia) Hw ltac:(lia)) as L.
          assert (S1 : rows k = firstn (k + 1) (rows k) ++ [nth (k + 1) (rows k) (fun _ => 0)]).
          { rewrite <- (firstn_skipn (k + 1) (rows k)) at 1. f_equal. apply nth_ext with (fun _ => 0) (fun _ => 0).
            - rewrite skipn_length, rows_length. cbn. lia.
            - intros q Hq. rewrite skipn_length, rows_length in Hq. replace q with 0%nat by lia. rewrite nth_skipn_. cbn. f_equal. lia. }
          assert (S2 : coef w X (k + 2) = firstn (k + 1) (coef w X (k + 2)) ++ [0]).
          { rewrite <- (firstn_skipn (k + 1) (coef w X (k + 2))) at 1. f_equal. apply nth_ext with 0 0.
            - rewrite skipn_length, L. cbn. lia.
            - intros q Hq. rewrite skipn_length, L in Hq. replace q with 0%nat by lia. rewrite nth_skipn_. cbn [nth]. replace (k + 1 + 0)%nat with (k + 2 - 1)%nat by lia. exact P. }
          rewrite S1, S2, map_app, dot_app by (rewrite map_length, !firstn_length, L, rows_length; lia).
          rewrite (map_ext_in _ (fun _ => 0) (firstn (k + 1) (rows k))).
          - rewrite dot_zeros. unfold dot. cbn. lra.
          - intros r Ir. apply (In_nth _ _ (fun _ => 0)) in Ir. destruct Ir as (q & Hq & <-). rewrite firstn_length, rows_length in Hq.
            rewrite nth_firstn_ by lia. destruct (IH q ltac:(lia) ltac:(lia)) as (A & _). apply A. lia. }
Qed.
End Step.

Lemma increasing_le : forall X, increasing_times X -> forall i j, (i <= j < length X)%nat -> nth i X 0 <= nth j X 0.
Proof.
  intros X HI i j. induction j as [|j IH]; intros H.
  - replace i with 0%nat by lia. lra.
  - destruct (Nat.eq_dec i (S j)) as [->|N]; [lra|]. specialize (IH ltac:(lia)). pose proof (HI j ltac:(lia)) as G. unfold gap in G. lra.
Qed.
Lemma increasing_sorted : forall X Y, length X = length Y -> increasing_times X -> sort_xy (combine X Y) = combine X Y.
Proof.
  intros X Y L HI. apply time_sorted_unique with (combine X Y); [apply sort_time_sorted|].
  split; [auto|split; [|auto]]. revert Y L HI. induction X as [|x X IH]; intros [|y Y] L HI; cbn in L; try discriminate; [constructor|].
  cbn [combine]. constructor.
  - apply IH; [lia|]. intros j Hj. specialize (HI (S j) ltac:(cbn; lia)). exact HI.
  - apply Forall_forall. intros [a b] I. apply in_combine_l in I. apply (In_nth _ _ 0) in I. destruct I as (j & Hj & <-). cbn.
    exact (increasing_le (x :: X) HI 0 (S j) ltac:(cbn; lia)).
Qed.
Lemma sortxy_increasing : forall X Y, length X = length Y -> X <> [] -> increasing_times X -> sortxy X Y = inr (X, Y).
Proof.
  intros X Y L N HI. unfold sortxy. rewrite increasing_sorted by auto.
  assert (E : map fst (combine X Y) = X /\ map snd (combine X Y) = Y).
  { clear N HI. revert Y L. induction X as [|x X IH]; intros [|y Y] L; cbn in L; try discriminate; auto. destruct (IH Y ltac:(lia)) as [A B]. cbn. rewrite A, B. auto. }
  destruct E as [E1 E2]. destruct (combine X Y) eqn:Ec.
  - destruct X; [congruence|]. destruct Y; discriminate.
  - rewrite E1, E2. auto.
Qed.

(** The filter is linear and causal: with increasing time stamps each output is a weighted sum of the
    inputs up to that time, with weights that depend on the time stamps only and add up to 1; the newest
    sample has weight one half and the sample before it has none. *)
Theorem C91_twf_weights : forall w X, (2 <= w)%nat -> (2 <= length X)%nat -> increasing_times X -> weights_defined w X ->
  exists a : nat -> nat -> R,
    (forall Y, length Y = length X -> twf_filter w X Y = inr (X, map (fun i => Fin (weighted (a i) Y)) (seq 0 (length X)))) /\
    (forall i, (i < length X)%nat -> rsum (map (a i) (seq 0 (length X))) = 1) /\
    (forall i j, (i < j)%nat -> a i j = 0) /\
    (forall i, (2 <= i < length X)%nat -> a i i = 1 / 2 /\ a i (i - 1)%nat = 0) /\
    a 0%nat 0%nat = 1 /\ a 1%nat 1%nat = 1.
Proof.
  intros w X Hw H2 HI HD. set (n := length X) in *. set (rs := rows w X (n - 2)).
  assert (Lrs : length rs = n) by (unfold rs; rewrite rows_length; lia).
  exists (fun i => nth i rs (fun _ => 0)).
  assert (P : forall i, (i < n)%nat -> let a := nth i rs (fun _ => 0) in
    (forall j, (i < j)%nat -> a j = 0) /\ (forall n, (i < n)%nat -> rsum (map a (seq 0 n)) = 1) /\ ((2 <= i)%nat -> a i = 1 / 2 /\ a (i - 1)%nat = 0)).
  { intros i Hi. apply rows_props; auto; fold n; lia. }
  assert (Early : forall k i, (i < 2)%nat -> nth i (rows w X k) (fun _ => 0) = nth i (rows w X 0) (fun _ => 0)).
  { induction k; intros i Hi; auto. cbn [rows]. rewrite app_nth1 by (rewrite rows_length; lia). apply IHk; auto. }
  split; [|split; [|split; [|split; [|split]]]].
  - intros Y LY. unfold twf_filter. assert (NX : X <> []) by (intros ->; unfold n in H2; cbn in H2; lia).
    rewrite sortxy_increasing by (auto; symmetry; exact LY).
    destruct Y as [|y0 [|y1 Yt]]; [cbn in LY; lia|cbn in LY; lia|]. set (Y := y0 :: y1 :: Yt) in *.
    pose proof (loop_eq w X Hw HI HD (n - 2) 0 Y ltac:(lia) LY) as Q. rewrite row0 in Q by (cbn; lia). cbn [Nat.add skipn firstn map Y] in Q. rewrite Q.
    f_equal. f_equal. rewrite map_map. fold rs. rewrite <- Lrs. clear. revert rs.
    intros rs. transitivity (map (fun a => Fin (weighted a Y)) (map (fun i => nth i rs (fun _ => 0)) (seq 0 (length rs)))); [|rewrite map_map; auto].
    f_equal. induction rs as [|r rs IH]; cbn; auto. f_equal. rewrite <- seq_shift, map_map. exact IH.
  - intros i Hi. apply (P i Hi). auto.
  - intros i j Hij. destruct (Nat.lt_ge_cases i n) as [L|G]; [apply (P i L); auto|]. rewrite nth_overflow by lia. auto.
  - intros i Hi. apply (P i); lia.
  - unfold rs. rewrite Early by lia. auto.
  - unfold rs. rewrite Early by lia. auto.
Qed.
(** a constant signal is returned unchanged *)
Theorem C91_twf_constant : forall w X c, (2 <= w)%nat -> (2 <= length X)%nat -> increasing_times X -> weights_defined w X ->
  twf_filter w X (repeat c (length X)) = inr (X, repeat (Fin c) (length X)).
Proof.
  intros w X c Hw H2 HI HD. destruct (C91_twf_weights w X Hw H2 HI HD) as (a & A & B & _).
  rewrite A by apply repeat_length. f_equal. f_equal. rewrite (map_ext_in _ (fun _ => Fin c)).
  - generalize (length X) 0%nat. clear. induction n as [|n IH]; intros s; cbn; auto. f_equal. apply IH.
  - intros i Hi. apply in_seq in Hi. f_equal. unfold weighted. rewrite repeat_length.
    rewrite (rsum_ext _ (fun j => c * a i j)). { rewrite rsum_scale, B by lia. lra. }
    intros j Hj. apply in_seq in Hj. rewrite (nth_indep _ 0 c), nth_repeat by (rewrite repeat_length; lia). lra.
Qed.
(** no sample: ValueError; one sample: IndexError *)
Theorem C91_twf_too_short : forall w x y, twf_filter w [] [] = inl ValueError /\ twf_filter w [x] [y] = inl IndexError.
Proof. intros. split; reflexivity. Qed.
(** a window of less than two samples cannot be used once three samples are given *)
Theorem C91_twf_window_one : forall w X Y, (w < 2)%nat -> length X = length Y -> (3 <= length X)%nat -> twf_filter w X Y = inl IndexError.
Proof.
  intros w X Y Hw L H3. unfold twf_filter. destruct (C91_sortxy X Y) as [E Q].
  destruct (sortxy X Y) as [e|[Xs Ys]] eqn:S.
  - exfalso. unfold sortxy in S. destruct (sort_xy (combine X Y)) eqn:Z; [|discriminate S].
    pose proof (sort_perm (combine X Y)) as P. rewrite Z in P. apply Permutation_length in P. rewrite combine_length in P. cbn in P. lia.
  - destruct (proj1 (Q Xs Ys) eq_refl) as (_ & _ & l & (P & _) & -> & ->).
    apply Permutation_length in P. rewrite combine_length in P.
    destruct l as [|p0 [|p1 [|p2 l]]]; cbn in P; try lia. cbn [map twf_loop]. unfold twf_step at 1.
    replace (2 <? w)%nat with false by (symmetry; apply Nat.ltb_ge; lia).
    destruct w as [|[|w]]; [|reflexivity|lia]. reflexivity.
Qed.

(** with samples one second apart *)
Definition seconds (n : nat) : list R := map INR (seq 0 n).
Lemma seconds_nth : forall n j, (j < n)%nat -> nth j (seconds n) 0 = INR j.
Proof.
  intros. unfold seconds. rewrite (nth_indep _ 0 (INR 0)) by (rewrite map_length, seq_length; auto). rewrite (map_nth INR), seq_nth by auto. auto.
Qed.
Lemma seconds_gap : forall n j, (S j < n)%nat -> gap (seconds n) j = 1.
Proof. intros. unfold gap. rewrite !seconds_nth by lia. rewrite S_INR. lra. Qed.
Lemma seconds_length : forall n, length (seconds n) = n.
Proof. intros. unfold seconds. rewrite map_length, seq_length. auto. Qed.
Lemma seconds_ok : forall w n, (2 <= w)%nat -> w <> 3%nat -> increasing_times (seconds n) /\ weights_defined w (seconds n).
Proof.
  intros w n Hw H3. split.
  - intros j Hj. rewrite seconds_length in Hj. rewrite seconds_gap by auto. lra.
  - intros i Hi. rewrite seconds_length in Hi. rewrite (rsum_ext _ (fun _ => 1)).
    + rewrite <- (seq_length (w - 2) (i - w)) at 1. 
      assert (G : forall l : list nat, rsum (map (fun _ => 1) l) = INR (length l)).
      { induction l; [reflexivity|]. cbn [map rsum length]. rewrite S_INR, IHl. lra. }
      rewrite G, !seq_length. change 1 with (INR 1). intros E. apply INR_eq in E. lia.
    + intros j Hj. apply in_seq in Hj. rewrite seconds_gap by lia. lra.
Qed.

Lemma dot_seq : forall c y, length c = length y -> dot c y = rsum (map (fun j => nth j c 0 * nth j y 0) (seq 0 (length y))).
Proof.
  induction c as [|x c IH]; intros [|z y] H; cbn [length] in H; try discriminate; [reflexivity|].
  unfold dot in *. cbn [combine map rsum length seq fst snd]. rewrite <- seq_shift, map_map, IH by lia. reflexivity.
Qed.
Lemma coef_nth : forall w X i j, (2 <= w <= i)%nat -> (i < length X)%nat -> increasing_times X ->
  let D := 1 - rsum (map (fun j => 1 / gap X j) (seq (i - w) (w - 2))) in
  ((j < i - w)%nat -> nth j (coef w X i) 0 = 0) /\
  ((i - w <= j < i - 2)%nat -> nth j (coef w X i) 0 = - (1 / D * (1 / gap X j))) /\
  (j = (i - 2)%nat -> nth j (coef w X i) 0 = 1 / D).
Proof.
  intros w X i j Hw HX HI. pose proof (win_inv_sum w X i Hw HX HI) as S. pose proof (win_inv_length w X i Hw HX) as L.
  unfold coef. replace (i <? w)%nat with false by (symmetry; apply Nat.ltb_ge; lia).
  rewrite S. set (G := rsum (map (fun j => 1 / gap X j) (seq (i - w) (w - 2)))). cbv zeta. replace (1 + - G) with (1 - G) by lra.
  set (u := map (fun x => 1 / (1 - G) * x) (1 :: win_inv w X i)).
  assert (Lu : length u = (w - 1)%nat) by (unfold u; rewrite map_length; cbn [length]; lia).
  split; [|split]; intros H.
  - rewrite app_nth1 by (rewrite repeat_length; auto). apply nth_repeat.
  - rewrite app_nth2 by (rewrite repeat_length; lia). rewrite repeat_length.
    rewrite app_nth1 by (rewrite rev_length; lia). rewrite rev_nth by lia. rewrite Lu.
    replace (w - 1 - Datatypes.S (j - (i - w)))%nat with (Datatypes.S (i - 3 - j)) by lia. unfold u. cbn [map nth].
    rewrite (nth_indep _ 0 ((fun x => 1 / (1 - G) * x) 0)) by (rewrite map_length; lia). rewrite (map_nth (fun x => 1 / (1 - G) * x)).
    unfold win_inv. rewrite (nth_indep _ 0 ((fun d => 1 / d) 0)) by (rewrite map_length, diffs_length, rev_length, slice_length; lia).
    rewrite (map_nth (fun d => 1 / d)), win_nth by lia. replace (i - 3 - (i - 3 - j))%nat with j by lia.
    assert (0 < gap X j) by (apply HI; lia). replace (1 / - gap X j) with (- (1 / gap X j)) by (field; lra). ring.
  - subst j. rewrite app_nth2 by (rewrite repeat_length; lia). rewrite repeat_length.
    rewrite app_nth1 by (rewrite rev_length; lia). rewrite rev_nth by lia. rewrite Lu.
    replace (w - 1 - Datatypes.S (i - 2 - (i - w)))%nat with 0%nat by lia. unfold u. cbn [map nth]. ring.
Qed.
Lemma rows_prefix : forall w X k m, (m <= k)%nat -> rows w X m = firstn (m + 2) (rows w X k).
Proof.
  intros w X. induction k as [|k IH]; intros m H.
  - replace m with 0%nat by lia. reflexivity.
  - destruct (Nat.eq_dec m (S k)) as [->|N].
    + rewrite <- (rows_length w X (S k)), firstn_all. auto.
    + rewrite (IH m) by lia. cbn [rows]. rewrite firstn_app, rows_length. replace (m + 2 - (k + 2))%nat with 0%nat by lia. cbn. rewrite app_nil_r. auto.
Qed.
Lemma rows_nth : forall w X k i, (2 <= i < k + 2)%nat -> nth i (rows w X k) (fun _ => 0) = new_row w X i (firstn i (rows w X k)).
Proof.
  intros w X k i H. assert (E : firstn i (rows w X k) = rows w X (i - 2)) by (rewrite (rows_prefix w X k (i - 2)) by lia; f_equal; lia).
  rewrite E, <- (nth_firstn_ (Datatypes.S i) (rows w X k)) by lia. replace (Datatypes.S i) with (i - 1 + 2)%nat by lia.
  rewrite <- rows_prefix by lia.
  replace (i - 1)%nat with (Datatypes.S (i - 2)) by lia. cbn [rows]. rewrite app_nth2 by (rewrite rows_length; lia). rewrite rows_length.
  replace (i - (i - 2 + 2))%nat with 0%nat by lia. cbn [nth]. f_equal. lia.
Qed.

(** The values of the filter, written out. *)
Theorem C91_twf_values : forall w X Y, (2 <= w)%nat -> (2 <= length X)%nat -> length Y = length X -> increasing_times X -> weights_defined w X ->
  exists f : nat -> R, twf_filter w X Y = inr (X, map (fun i => Fin (f i)) (seq 0 (length X))) /\
    f 0%nat = nth 0 Y 0 /\ f 1%nat = nth 1 Y 0 /\
    (forall i, (2 <= i < w)%nat -> (i < length X)%nat ->
       f i = (rsum (map f (seq 0 (i - 1))) / INR (i - 1) + nth i Y 0) / 2) /\
    (forall i, (w <= i)%nat -> (2 <= i < length X)%nat ->
       f i = ((f (i - 2)%nat - rsum (map (fun j => f j / gap X j) (seq (i - w) (w - 2)))) /
              (1 - rsum (map (fun j => 1 / gap X j) (seq (i - w) (w - 2)))) + nth i Y 0) / 2).
Proof.
  intros w X Y Hw H2 LY HI HD. set (n := length X) in *. set (rs := rows w X (n - 2)).
  assert (Lrs : length rs = n) by (unfold rs; rewrite rows_length; lia).
  exists (fun i => weighted (nth i rs (fun _ => 0)) Y).
  assert (Early : forall i, (i < 2)%nat -> weighted (nth i rs (fun _ => 0)) Y = nth i Y 0).
  { intros i Hi. rewrite <- (nth_firstn_ 2 rs) by auto. unfold rs. change 2%nat with (0 + 2)%nat at 1. rewrite <- (rows_prefix w X (n - 2) 0) by lia.
    pose proof (row0 w X Hw Y ltac:(lia)) as Q. rewrite <- (nth_firstn_ 2 Y) by auto. rewrite <- Q. cbn [rows map].
    destruct i as [|[|i]]; [reflexivity|reflexivity|lia]. }
  assert (Step : forall i, (2 <= i < n)%nat -> weighted (nth i rs (fun _ => 0)) Y =
     (rsum (map (fun j => nth j (coef w X i) 0 * weighted (nth j rs (fun _ => 0)) Y) (seq 0 i)) + nth i Y 0) / 2).
  { intros i Hi. unfold rs at 1. rewrite rows_nth by lia. fold rs. rewrite new_row_weighted by lia.
    rewrite dot_seq by (rewrite coef_length, map_length, firstn_length by (auto; lia); lia).
    rewrite map_length, firstn_length, Nat.min_l by lia. f_equal. f_equal. apply rsum_ext. intros j Hj. apply in_seq in Hj. f_equal.
    rewrite (nth_indep _ 0 (weighted (fun _ => 0) Y)) by (rewrite map_length, firstn_length; lia).
    rewrite (map_nth (fun r => weighted r Y)), nth_firstn_ by lia. auto. }
  split; [|split; [|split; [|split]]].
  - unfold twf_filter. assert (NX : X <> []) by (intros ->; unfold n in H2; cbn in H2; lia).
    rewrite sortxy_increasing by (auto; symmetry; exact LY).
    destruct Y as [|y0 [|y1 Yt]]; [cbn in LY; lia|cbn in LY; lia|]. set (Y := y0 :: y1 :: Yt) in *.
    pose proof (loop_eq w X Hw HI HD (n - 2) 0 Y ltac:(lia) LY) as Q. rewrite row0 in Q by (cbn; lia). cbn [Nat.add skipn firstn map Y] in Q. rewrite Q.
    f_equal. f_equal. rewrite map_map. fold rs. rewrite <- Lrs. clear. revert rs.
    intros rs. transitivity (map (fun a => Fin (weighted a Y)) (map (fun i => nth i rs (fun _ => 0)) (seq 0 (length rs)))); [|rewrite map_map; auto].
    f_equal. induction rs as [|r rs IH]; cbn; auto. f_equal. rewrite <- seq_shift, map_map. exact IH.
  - apply Early. lia.
  - apply Early. lia.
  - intros i Hi Hin. rewrite Step by lia. f_equal. f_equal.
    replace (seq 0 i) with (seq 0 (i - 1) ++ [(i - 1)%nat]) by (rewrite <- seq_S; f_equal; lia).
    rewrite map_app, rsum_app. cbn [map rsum]. rewrite coef_prev by (auto; lia).
    rewrite (rsum_ext _ (fun j => 1 / INR (i - 1) * weighted (nth j rs (fun _ => 0)) Y)).
    + rewrite (rsum_scale _ (fun j => weighted (nth j rs (fun _ => 0)) Y)). field. apply not_0_INR. lia.
    + intros j Hj. apply in_seq in Hj. f_equal. unfold coef. replace (i <? w)%nat with true by (symmetry; apply Nat.ltb_lt; lia).
      rewrite app_nth1 by (rewrite repeat_length; lia). rewrite (nth_indep _ 0 (1 / INR (i - 1))) by (rewrite repeat_length; lia). apply nth_repeat.
  - intros i Hw' Hi. rewrite Step by lia. f_equal. f_equal.
    pose proof (HD i ltac:(lia)) as Hd.
    replace (seq 0 i) with (seq 0 (i - w) ++ seq (i - w) (w - 2) ++ [(i - 2)%nat; (i - 1)%nat]).
    2: { replace [(i - 2)%nat; (i - 1)%nat] with (seq (i - 2) 2) by (cbn; do 2 f_equal; lia).
         replace (i - 2)%nat with (i - w + (w - 2))%nat at 1 by lia. rewrite <- seq_app. rewrite <- (seq_app (i - w)). f_equal. lia. }
    rewrite !map_app, !rsum_app. cbn [map rsum]. rewrite coef_prev by (auto; lia).
    pose proof (fun j => coef_nth w X i j ltac:(lia) ltac:(lia) HI) as CN. cbv zeta in CN.
    destruct (CN (i - 2)%nat) as (_ & _ & C2). rewrite (C2 eq_refl).
    rewrite (rsum_zero (A := nat)). 2: { intros j Hj. apply in_seq in Hj. destruct (CN j) as (C0 & _). rewrite C0 by lia. lra. }
    set (D := 1 - rsum (map (fun j => 1 / gap X j) (seq (i - w) (w - 2)))) in *.
    rewrite (rsum_ext _ (fun j => - (1 / D) * (weighted (nth j rs (fun _ => 0)) Y / gap X j))).
    + rewrite (rsum_scale _ (fun j => weighted (nth j rs (fun _ => 0)) Y / gap X j)). field. unfold D. lra.
    + intros j Hj. apply in_seq in Hj. destruct (CN j) as (_ & C1 & _). rewrite C1 by lia. unfold Rdiv. ring.
Qed.

(** with one sample per second the last-but-one sample counts with the opposite sign of the older ones *)
Theorem C91_twf_every_second : forall w n Y, (4 <= w <= n)%nat -> length Y = n ->
  exists f : nat -> R, twf_filter w (seconds n) Y = inr (seconds n, map (fun i => Fin (f i)) (seq 0 n)) /\
    (forall i, (w <= i < n)%nat ->
       f i = ((rsum (map f (seq (i - w) (w - 2))) - f (i - 2)%nat) / INR (w - 3) + nth i Y 0) / 2).
Proof.
  intros w n Y Hw LY. destruct (seconds_ok w n ltac:(lia) ltac:(lia)) as [HI HD].
  destruct (C91_twf_values w (seconds n) Y ltac:(lia) ltac:(rewrite seconds_length; lia) ltac:(rewrite seconds_length; auto) HI HD) as (f & A & _ & _ & _ & B).
  rewrite seconds_length in *. exists f. split; auto. intros i Hi. rewrite B by lia. f_equal. f_equal.
  assert (G : forall g : nat -> R, rsum (map (fun j => g j / gap (seconds n) j) (seq (i - w) (w - 2))) = rsum (map g (seq (i - w) (w - 2)))).
  { intros g. apply rsum_ext. intros j Hj. apply in_seq in Hj. rewrite seconds_gap by lia. field. }
  rewrite (G f), (G (fun _ => 1)).
  assert (O : rsum (map (fun _ => 1) (seq (i - w) (w - 2))) = INR (w - 3) + 1).
  { assert (O' : forall l : list nat, rsum (map (fun _ => 1) l) = INR (length l)).
    { induction l; [reflexivity|]. cbn [map rsum length]. rewrite S_INR, IHl. lra. }
    rewrite O', seq_length, <- S_INR. f_equal. lia. }
  rewrite O. field. assert (INR (w - 3) <> 0) by (apply not_0_INR; lia). split; lra.
Qed.

(** "The smoothed signal stays within the range of the signal."  False with the default window. *)
Theorem C91_twf_range_refuted : exists X Y out v, length X = length Y /\ increasing_times X /\
  Forall (fun y => 0 <= y <= 1) Y /\ twf_filter 10 X Y = inr (X, out) /\ In (Fin v) out /\ 1 < v.
Proof.
  set (Y := [1;1;1;1;1;1;1;1;0;1;1] : list R).
  destruct (seconds_ok 10 11 ltac:(lia) ltac:(lia)) as [HI HD].
  destruct (C91_twf_values 10 (seconds 11) Y ltac:(lia) ltac:(rewrite seconds_length; lia) ltac:(rewrite seconds_length; auto) HI HD) as (f & A & F0 & F1 & F2 & F3).
  rewrite seconds_length in *.
  exists (seconds 11), Y, (map (fun i => Fin (f i)) (seq 0 11)), (f 10%nat).
  split; [reflexivity|]. split; [auto|]. split; [repeat (constructor; [lra|]); constructor|]. split; [auto|].
  split; [apply in_map_iff; exists 10%nat; split; [reflexivity|apply in_seq; lia]|].
  assert (G : forall j, (j < 10)%nat -> gap (seconds 11) j = 1) by (intros; apply seconds_gap; lia).
  pose proof (F2 2%nat ltac:(lia) ltac:(lia)) as E2. pose proof (F2 3%nat ltac:(lia) ltac:(lia)) as E3.
  pose proof (F2 4%nat ltac:(lia) ltac:(lia)) as E4. pose proof (F2 5%nat ltac:(lia) ltac:(lia)) as E5.
  pose proof (F2 6%nat ltac:(lia) ltac:(lia)) as E6. pose proof (F2 7%nat ltac:(lia) ltac:(lia)) as E7.
  pose proof (F2 8%nat ltac:(lia) ltac:(lia)) as E8. pose proof (F2 9%nat ltac:(lia) ltac:(lia)) as E9.
  pose proof (F3 10%nat ltac:(lia) ltac:(lia)) as E10.
  cbn [Nat.sub seq map rsum nth Y] in *. rewrite !G in E10 by lia. rewrite !S_INR in *. cbn [INR] in *.
  rewrite F0, F1 in *.
  assert (f 2%nat = 1) as V2 by (rewrite E2; field). rewrite V2 in *.
  assert (f 3%nat = 1) as V3 by (rewrite E3; field). rewrite V3 in *.
  assert (f 4%nat = 1) as V4 by (rewrite E4; field). rewrite V4 in *.
  assert (f 5%nat = 1) as V5 by (rewrite E5; field). rewrite V5 in *.
  assert (f 6%nat = 1) as V6 by (rewrite E6; field). rewrite V6 in *.
  assert (f 7%nat = 1) as V7 by (rewrite E7; field). rewrite V7 in *.
  assert (f 8%nat = 1 / 2) as V8 by (rewrite E8; field). rewrite V8 in *.
  rewrite E10. lra.
Qed.
(** "Every window size from 2 works on any series."  With a window of 3 and one sample per second the
    filter divides by zero. *)
Theorem C91_twf_window_three_refuted : forall c, exists out,
  twf_filter 3 (seconds 4) [c; c; c; c] = inr (seconds 4, out) /\ nth 3 out (Fin 0) = NaN.
Proof.
  intros c. destruct (seconds_ok 2 4 ltac:(lia) ltac:(lia)) as [HI _].
  unfold twf_filter. rewrite sortxy_increasing by (auto; discriminate).
  cbn [twf_loop twf_step Nat.ltb Nat.leb]. unfold twf_step. cbn [Nat.ltb Nat.leb].
  cbn [slice Nat.sub firstn skipn esum length INR app eadd].
  rewrite (ediv_fin _ 1) by lra. cbn [eadd]. rewrite ediv_fin by lra.
  unfold seconds. cbn [seq map slice Nat.sub skipn firstn rev app diffs INR combine].
  unfold slice. cbn [Nat.sub skipn firstn rev app diffs map combine fst snd].
  rewrite !(ediv_fin 1 (0 - 1)) by lra. cbn [emul esum eadd]. unfold ediv at 2.
  eexists. split; [reflexivity|]. cbn [nth].
  match goal with |- context [Req_EM_T ?a 0] => destruct (Req_EM_T a 0) as [_|N]; [reflexivity|exfalso; apply N; field] end.
Qed.

(** the hypotheses are met by a series sampled every second or every two seconds *)
Example C91_ex :
  (increasing_times (seconds 20) /\ weights_defined 10 (seconds 20)) /\
  (increasing_times [0; 2; 4; 8] /\ weights_defined 3 [0; 2; 4; 8]) /\
  twf_filter 3 [4; 0; 2] [3; 1; 1] = inr ([0; 2; 4], [Fin 1; Fin 1; Fin 2]) /\
  first_value [(1, 2); (0, 3); (1, 4)] 1 2 /\
  time_sorted [(1, 2); (0, 3); (1, 4)] [(0, 3); (1, 2); (1, 4)].
Proof.
  split; [apply seconds_ok; lia|]. split; [split|split; [|split]].
  - intros j H. unfold gap. cbn in H. destruct j as [|[|[|j]]]; cbn; try lra. lia.
  - intros i H. cbn in H. destruct i as [|[|[|[|i]]]]; try lia. cbn. unfold gap. cbn. lra.
  - unfold twf_filter, sortxy. cbn [combine sort_xy insert_xy fst snd].
    repeat match goal with |- context [Rleb ?a ?b] => destruct (Rleb_spec a b); [try lra|try lra]; cbn [insert_xy fst snd] end.
    cbn [map fst snd twf_loop]. unfold twf_step, slice. cbn [Nat.ltb Nat.leb Nat.sub skipn firstn length esum INR eadd].
    rewrite (ediv_fin _ 1) by lra. cbn [eadd]. rewrite ediv_fin by lra. cbn [app]. do 2 f_equal. do 3 f_equal. f_equal. field.
  - exists [], [(0, 3); (1, 4)]. split; auto.
  - split; [apply perm_swap|split].
    + repeat constructor; cbn; lra.
    + intros t. cbn. unfold at_time. cbn. destruct (Req_EM_T 1 t), (Req_EM_T 0 t); auto; lra.
Qed.
