(** * Properties C101 and C102: thrust of the BADA4 add-on (with the attribute [sci] present) *)
From Coq Require Import String List Bool Arith Lia.
From Coq Require Import Reals Lra Psatz.
From Verif Require Import Num NumFacts SpecNum Py Str Aero AeroFacts GeoFacts Nd NdFacts Bada4 Bada4Facts P_Bada4 P_Bada4Drag.
Import ListNotations.
Open Scope list_scope.
Open Scope R_scope.

(** ** Specification *)
(** [f 0 + ... + f (n - 1)] *)
Definition total (n : nat) (f : nat -> R) : R := fold_right Rplus 0 (map f (seq 0 n)).
(** the sum over [i < r], [j < c] of entry [(i, j)] of the table [l] times [x j] times [y i] *)
Definition form (l : list R) (r c : nat) (x y : nat -> R) : R :=
  total r (fun i => total c (fun j => nth (i * c + j) l 0 * x j * y i)).
(** throttle parameter: flat-rated up to the kink, temperature-rated above *)
Definition throttle (r : b4_rating) (dT M d t : R) : R :=
  if Rle_dec dT (r_kink r) then form (r_b r) 6 6 (pow M) (pow d)
  else let tt := t * (1 + M ^ 2 * 0.4 / 2) in
       form (r_c r) 9 5 (pow M) (fun i => if (i <? 5)%nat then tt ^ i else d ^ (i - 4)).
(** thrust with a rating: pressure ratio times reference weight times coefficient *)
Definition rated_force (m : b4_thrust) (r : b4_rating) (dT M d t : R) : R :=
  d * (t_mref m * 9.80665) * form (t_a m) 6 6 (pow M) (pow (throttle r dT M d t)).
(** idle thrust *)
Definition idle_force (m : b4_thrust) (M d : R) : R :=
  d * (t_mref m * 9.80665) * form (t_ti m) 3 4 (fun j => match j with O => / d | S k => d ^ k end) (pow M).
(** pressure ratio, temperature ratio and speed of sound at an altitude in ft *)
Definition ratios (alt d t a : R) : Prop :=
  pressure NP (Fin (alt * 0.3048)) (Fin 0) = Fin (d * 101325) /\ temperature NP (Fin (alt * 0.3048)) (Fin 0) = Fin (t * 288.15) /\
  vsound NP (Fin (alt * 0.3048)) (Fin 0) = Fin a.
(** as many coefficients as the model needs *)
Definition complete (m : b4_thrust) : Prop :=
  length (t_a m) = 36%nat /\ length (t_ti m) = 12%nat /\
  forall r, r = t_mcrz m \/ r = t_mcmb m -> length (r_b r) = 36%nat /\ length (r_c r) = 45%nat.
(** the public methods *)
Inductive method := Climb | Cruise | Takeoff | Idle.
Definition call (k : method) : b4_thrust -> T AB -> T AB -> T AB -> T AB :=
  match k with Climb => b4_climb true | Cruise => b4_cruise true | Takeoff => b4_takeoff true | Idle => b4_idle true end.
Definition rating_of (m : b4_thrust) (k : method) : option b4_rating :=
  match k with Climb | Takeoff => Some (t_mcmb m) | Cruise => Some (t_mcrz m) | Idle => None end.
(** what a method gives for numbers *)
Definition gives (k : method) (m : b4_thrust) (tas alt dT : R) (x : ext) : Prop :=
  call k m (num_arg (Fin tas)) (num_arg (Fin alt)) (num_arg (Fin dT)) = num_arg x.
(** a two-dimensional array *)
Definition table_of (n k : nat) (x : T AB) (f : nat -> nat -> ext) : Prop :=
  exists a, x = inr a /\ nd_dim a = 2%nat /\ nd_r a = n /\ nd_c a = k /\ forall i j, (i < n)%nat -> (j < k)%nat -> nd_at a i j = f i j.
(** an array with one row *)
Definition row_of (n : nat) (x : T AB) (f : nat -> ext) : Prop :=
  exists a, x = inr a /\ nd_r a = 1%nat /\ nd_c a = n /\ forall j, (j < n)%nat -> nd_at a 0%nat j = f j.

(** ** Lemmas *)
Lemma nsum_fin : forall (l : list nat) f, nsum (map (fun i => Fin (f i)) l) = Fin (fold_right Rplus 0 (map f l)).
Proof. induction l as [|x l IH]; intros f; cbn [map nsum fold_right]; [reflexivity|]. rewrite IH. reflexivity. Qed.
Lemma poly_fin : forall l r c x y, poly (mat l c) r c (fun j => Fin (x j)) (fun i => Fin (y i)) = Fin (form l r c x y).
Proof.
  intros. unfold poly, form, total, mat. rewrite <- nsum_fin. f_equal. apply map_ext. intros i. rewrite <- nsum_fin. reflexivity.
Qed.
Lemma poly_fin' : forall l r c p q x y, (forall j, (j < c)%nat -> p j = Fin (x j)) -> (forall i, (i < r)%nat -> q i = Fin (y i)) ->
  poly (mat l c) r c p q = Fin (form l r c x y).
Proof. intros l r c p q x y E E'. rewrite <- poly_fin. apply (poly_ext 1 (le_n 1)); assumption. Qed.
Lemma ratios_unique : forall alt d t a, ratios alt d t a -> delta_row (Fin alt) = Fin d /\ theta_row (Fin alt) = Fin t /\ 0 < d /\ a = aR (alt * ft) 0.
Proof.
  intros alt d t a (E1 & E2 & E3). change 0.3048 with ft in *. rewrite vsound_NP in E3. injection E3 as E3. unfold delta_row, theta_row. cbn [emul]. rewrite E1, E2.
  rewrite !ediv_fin by (unfold p0, T0; qr; lra). rewrite pressure_NP in E1. injection E1 as E1. pose proof (pR_pos (alt * ft) 0).
  repeat split; auto; try (f_equal; unfold p0, T0; qr; field). lra.
Qed.
Lemma mach_fin : forall tas alt, mach_row (Fin tas) (Fin alt) = Fin (tas * 0.514444 / aR (alt * ft) 0).
Proof. intros. unfold mach_row. cbn [emul]. rewrite tas2mach_NP. reflexivity. Qed.
Lemma epowi_fun : forall r, epowi (Fin r) = fun n => Fin (r ^ n).
Proof. reflexivity. Qed.
Lemma flat_dec : forall dT k, flat_rated (Fin dT) k = if Rle_dec dT k then true else false.
Proof. intros. unfold flat_rated. cbn [egt]. destruct (Rle_dec dT k); [rewrite Rltb_false by lra|rewrite Rltb_true by lra]; reflexivity. Qed.
Lemma rated_row_spec : forall m r dT M d t, newtons_row m (Fin d) (rated_row m r (flat_rated (Fin dT) (r_kink r)) (Fin M) (Fin d) (Fin t)) = Fin (rated_force m r dT M d t).
Proof.
  intros. unfold rated_row, rated_force, throttle. rewrite flat_dec. cbv zeta. destruct (Rle_dec dT (r_kink r)).
  - rewrite !epowi_fun, poly_fin, epowi_fun, poly_fin. unfold newtons_row. cbn [emul]. f_equal. unfold g0. ring.
  - rewrite !epowi_fun. cbn [emul]. rewrite ediv_fin by lra. cbn [eadd emul].
    rewrite (poly_fin' (r_c r) 9 5 _ _ (pow M) (fun i => if (i <? 5)%nat then (t * (1 + M ^ 2 * 0.4 / 2)) ^ i else d ^ (i - 4))).
    2:{ reflexivity. }
    2:{ intros i Hi. replace (1.4 - 1) with 0.4 by (qr; lra). change (i <? 5)%nat with (Nat.leb i 4). destruct (Nat.leb i 4); reflexivity. }
    rewrite epowi_fun, poly_fin. unfold newtons_row. cbn [emul]. f_equal. unfold g0. ring.
Qed.
Lemma idle_row_spec : forall m M d, 0 < d -> newtons_row m (Fin d) (lidl_row m (Fin M) (Fin d)) = Fin (idle_force m M d).
Proof.
  intros m M d Hd. unfold lidl_row, idle_force. rewrite epowi_fun.
  rewrite (poly_fin' (t_ti m) 3 4 _ _ (fun j => match j with O => / d | S k => d ^ k end) (pow M)).
  2:{ intros j Hj. destruct j; [|reflexivity]. rewrite ediv_fin by lra. f_equal. field. lra. }
  2:{ reflexivity. }
  unfold newtons_row. cbn [emul]. f_equal. unfold g0. ring.
Qed.
Lemma rated_col : forall m rating tas alt dT, b4_rated true m rating (col tas) (col alt) dT = b4_rated true m rating tas alt dT.
Proof. intros. unfold b4_rated. rewrite !col_idem. reflexivity. Qed.
Lemma rated_col3 : forall m rating tas alt dT, b4_rated true m rating (col tas) (col alt) (col dT) = b4_rated true m rating tas alt dT.
Proof. intros. unfold b4_rated. rewrite !col_idem. reflexivity. Qed.
Lemma rated_item : forall m rating tas alt dT, item (b4_rated true m rating tas alt dT) = b4_rated true m rating tas alt dT.
Proof. intros. unfold b4_rated. apply item_idem. Qed.
Lemma takeoff_climb : forall m tas alt dT, b4_takeoff true m tas alt dT = b4_climb true m tas alt dT.
Proof. intros. unfold b4_takeoff, b4_climb. rewrite rated_col3. apply rated_item. Qed.

(** the row of a method *)
Definition row (k : method) (m : b4_thrust) (dT : ext) (tas alt : ext) : ext :=
  match rating_of m k with
  | Some r => rated_row m r (flat_rated dT (r_kink r)) (mach_row tas alt) (delta_row alt) (theta_row alt)
  | None => lidl_row m (mach_row tas alt) (delta_row alt)
  end.
Lemma call_matrix : forall n k m tas alt p q dT, (1 <= n)%nat -> complete m -> isc n (col tas) p -> isc n (col alt) q ->
  (forall r, rating_of m k = Some r -> flat_rated dT (r_kink r) = false -> rows n (fst p || fst q) = rows n (fst q)) ->
  exists A, call k m tas alt (num_arg dT) = item (inr A) /\
    is_matrix n m A (fst p || fst q) (fst q) (fun i => delta_row (snd q i)) (fun j => row k m dT (snd p j) (snd q j)).
Proof.
  intros n k m tas alt p q dT Hn (La & Lt & Lr) K K' Hr. unfold row.
  assert (R0 : forall rating r, named_rating m rating r -> (r = t_mcrz m \/ r = t_mcmb m) ->
    (flat_rated dT (r_kink r) = false -> rows n (fst p || fst q) = rows n (fst q)) ->
    exists A, b4_rated true m rating tas alt (num_arg dT) = item (inr A) /\
    is_matrix n m A (fst p || fst q) (fst q) (fun i => delta_row (snd q i)) (fun j => rated_row m r (flat_rated dT (r_kink r)) (mach_row (snd p j) (snd q j)) (delta_row (snd q j)) (theta_row (snd q j)))).
  { intros rating r Nr Hrr Hf. destruct (Lr r Hrr) as [Lb Lc]. rewrite <- rated_col.
    exact (rated_named n Hn m rating r _ _ _ _ (scalar dT) dT Nr La Lb Lc K K' eq_refl eq_refl Hf). }
  destruct k; cbn [call rating_of] in *.
  - apply (R0 "MCMB"%string (t_mcmb m)); [right; auto|auto|exact (Hr _ eq_refl)].
  - apply (R0 "MCRZ"%string (t_mcrz m)); [left; auto|auto|exact (Hr _ eq_refl)].
  - rewrite takeoff_climb. apply (R0 "MCMB"%string (t_mcmb m)); [right; auto|auto|exact (Hr _ eq_refl)].
  - unfold b4_idle. rewrite <- rated_col. exact (rated_idle n Hn m _ _ _ _ (scalar dT) Lt K K').
Qed.
Lemma call_num : forall k m tas alt dT, complete m -> call k m (num_arg tas) (num_arg alt) (num_arg dT) = num_arg (newtons_row m (delta_row alt) (row k m dT tas alt)).
Proof.
  intros k m tas alt dT C. destruct (call_matrix 1 k m (num_arg tas) (num_arg alt) _ _ dT (le_n 1) C (isc_col _ _ _ _ (num_isc 1 tas)) (isc_col _ _ _ _ (num_isc 1 alt)))
    as (A & -> & _ & Hr & Hc & _ & V).
  { reflexivity. }
  cbn [fst snd orb rows] in *. specialize (V 0%nat 0%nat ltac:(lia) ltac:(lia)). unfold item, nd_size. rewrite Hr, Hc. cbn [Nat.mul Nat.add Nat.eqb].
  unfold nd_get in V. rewrite Hr, Hc in V. cbn in V. unfold num_arg. f_equal. f_equal. exact V.
Qed.

(** ** C101 *)
(** Climb, cruise and take-off thrust, for numbers. *)
Theorem C101_rated : forall k m r tas alt dT d t a x, complete m -> rating_of m k = Some r -> ratios alt d t a ->
  (gives k m tas alt dT x <-> x = Fin (rated_force m r dT (tas * 0.514444 / a) d t)).
Proof.
  intros k m r tas alt dT d t a x C Hr A. apply ratios_unique in A. destruct A as (E1 & E2 & _ & ->). unfold gives. rewrite call_num by assumption.
  unfold row. rewrite Hr, E1, E2, mach_fin, rated_row_spec. split; [intros E; apply num_inj in E; auto|intros ->; reflexivity].
Qed.
(** Idle thrust, for numbers. *)
Theorem C101_idle : forall m tas alt dT d t a x, complete m -> ratios alt d t a ->
  (gives Idle m tas alt dT x <-> x = Fin (idle_force m (tas * 0.514444 / a) d)).
Proof.
  intros m tas alt dT d t a x C A. apply ratios_unique in A. destruct A as (E1 & E2 & Hd & ->). unfold gives. rewrite call_num by assumption.
  unfold row. cbn [rating_of]. rewrite E1, mach_fin, idle_row_spec by assumption. split; [intros E; apply num_inj in E; auto|intros ->; reflexivity].
Qed.
(** The ratios exist at every altitude, so every call with numbers gives a finite number. *)
Lemma ratios_ex : forall alt, exists d t a, ratios alt d t a /\ 0 < d /\ 0 < t /\ 0 < a.
Proof.
  intros alt. exists (pR (alt * ft) 0 / 101325), (tR (alt * ft) 0 / 288.15), (aR (alt * ft) 0).
  pose proof (pR_pos (alt * ft) 0). pose proof (tR_pos (alt * ft) 0). pose proof (aR_pos (alt * ft) 0).
  split; [|repeat split; auto; apply Rdiv_lt_0_compat; qr; lra].
  unfold ratios. change 0.3048 with ft. rewrite pressure_NP, temperature_NP, vsound_NP. repeat split; f_equal; qr; field.
Qed.
Theorem C101_finite : forall k m tas alt dT, complete m -> exists x, gives k m tas alt dT x /\ finite x.
Proof.
  intros k m tas alt dT C. destruct (ratios_ex alt) as (d & t & a & A & _). destruct (rating_of m k) as [r|] eqn:E.
  - eexists. split; [apply (C101_rated k m r tas alt dT d t a _ C E A); reflexivity|]. eexists; reflexivity.
  - destruct k; try discriminate E. eexists. split; [apply (C101_idle m tas alt dT d t a _ C A); reflexivity|]. eexists; reflexivity.
Qed.
(** Take-off thrust is climb thrust, for all arguments, arrays included. *)
Theorem C101_takeoff : forall m tas alt dT, call Takeoff m tas alt dT = call Climb m tas alt dT.
Proof. intros. apply takeoff_climb. Qed.
(** Idle thrust does not depend on the temperature deviation. *)
Theorem C101_idle_dT : forall m tas alt dT dT', call Idle m tas alt (inr dT) = call Idle m tas alt (inr dT').
Proof. intros. reflexivity. Qed.
(** The temperature deviation only selects the formula: two deviations on the same side of the kink give the same
    thrust. *)
Theorem C101_kink : forall k m r tas alt dT dT' x x', complete m -> rating_of m k = Some r -> (dT <= r_kink r <-> dT' <= r_kink r) ->
  gives k m tas alt dT x -> gives k m tas alt dT' x' -> x = x'.
Proof.
  intros k m r tas alt dT dT' x x' C Hr K E E'. destruct (ratios_ex alt) as (d & t & a & A & _).
  apply (C101_rated k m r _ _ _ _ _ _ _ C Hr A) in E, E'. subst. unfold rated_force, throttle.
  destruct (Rle_dec dT (r_kink r)), (Rle_dec dT' (r_kink r)); tauto.
Qed.
(** So thrust does not decrease as it gets hotter beyond the kink, whatever the coefficients. *)
Theorem C101_hot_refuted : forall k m r, complete m -> rating_of m k = Some r ->
  ~ (exists tas alt, forall dT dT' x x', r_kink r < dT < dT' -> gives k m tas alt dT x -> gives k m tas alt dT' x' -> flt x' x).
Proof.
  intros k m r C Hr (tas & alt & H). destruct (C101_finite k m tas alt (r_kink r + 1) C) as (x & E & F). destruct (C101_finite k m tas alt (r_kink r + 2) C) as (x' & E' & _).
  pose proof (C101_kink k m r tas alt (r_kink r + 1) (r_kink r + 2) x x' C Hr ltac:(lra) E E') as ->.
  specialize (H (r_kink r + 1) (r_kink r + 2) x' x' ltac:(lra) E E'). destruct F as (v & ->). cbn in H. lra.
Qed.
(** At rest, idle thrust is the first row of the table: no pressure dependence of its first coefficient. *)
Theorem C101_idle_rest : forall m alt dT d t a x, complete m -> ratios alt d t a -> gives Idle m 0 alt dT x ->
  x = Fin (t_mref m * 9.80665 * (nth 0 (t_ti m) 0 + nth 1 (t_ti m) 0 * d + nth 2 (t_ti m) 0 * d ^ 2 + nth 3 (t_ti m) 0 * d ^ 3)).
Proof.
  intros m alt dT d t a x C A E. apply (C101_idle m 0 alt dT d t a x C A) in E. subst. apply ratios_unique in A. destruct A as (_ & _ & Hd & ->).
  replace (0 * 0.514444 / aR (alt * ft) 0) with 0 by (pose proof (aR_pos (alt * ft) 0); field; lra). f_equal. unfold idle_force, form, total.
  cbn [seq map fold_right pow Nat.mul Nat.add]. field. lra.
Qed.

(** ** C102, thrust: points of a trajectory *)
(** With altitudes in an array the result has a row and a column for every point; the thrust of the points is on
    the diagonal, elsewhere the coefficient of one point is scaled with the pressure of another. *)
Theorem C102_thrust : forall k m n tas alt fv fa dT, complete m -> (1 < n)%nat -> argument n tas (fun i => Fin (fv i)) -> argument n alt (fun i => Fin (fa i)) -> ~ is_number alt ->
  exists f, table_of n n (call k m tas alt (num_arg (Fin dT))) f /\
    (forall i, (i < n)%nat -> gives k m (fv i) (fa i) dT (f i i)) /\
    (forall i j d t a d' t' a', (i < n)%nat -> (j < n)%nat -> ratios (fa i) d t a -> ratios (fa j) d' t' a' ->
      exists x y, f i j = Fin x /\ f j j = Fin y /\ x * d' = d * y).
Proof.
  intros k m n tas alt fv fa dT C Hn K1 K2 N.
  destruct (arg_isc n _ _ ltac:(lia) K1) as (b1 & I1 & N1). destruct (arg_isc n _ _ ltac:(lia) K2) as (b2 & I2 & N2).
  assert (b2 = true) as ->. { destruct b2; auto. destruct (N2 eq_refl) as (e & -> & _). exfalso. apply N. exists e. auto. }
  destruct (call_matrix n k m tas alt _ _ (Fin dT) ltac:(lia) C I1 I2) as (A & E & _ & Hr & Hc & D & V).
  { cbn [fst]. rewrite orb_true_r. reflexivity. }
  cbn [fst snd] in *. rewrite orb_true_r in Hc. cbn [rows] in *.
  assert (D2 : nd_dim A = 2%nat) by (destruct D as [[? ?]|[?|?]]; lia).
  exists (fun i j => newtons_row m (delta_row (Fin (fa i))) (row k m (Fin dT) (Fin (fv j)) (Fin (fa j)))). split; [|split].
  - exists A. rewrite E. unfold item, nd_size. rewrite Hr, Hc. destruct (Nat.eqb_spec (n * n) 1) as [Q|Q]; [nia|].
    repeat (split; [solve [auto]|]). intros i j Hi Hj. rewrite <- V by assumption. unfold nd_get, pick. rewrite Hr, Hc. destruct (Nat.eqb_spec n 1); [lia|reflexivity].
  - intros i Hi. apply call_num. assumption.
  - intros i j d t a d' t' a' Hi Hj A1 A2. apply ratios_unique in A1. apply ratios_unique in A2. destruct A1 as (-> & _ & P1 & _). destruct A2 as (E1 & E2 & P2 & E3).
    assert (R1 : exists c, row k m (Fin dT) (Fin (fv j)) (Fin (fa j)) = Fin c).
    { unfold row. rewrite E1, E2, mach_fin. destruct (rating_of m k) as [r|].
      - unfold rated_row. cbv zeta. rewrite !epowi_fun. cbn [emul]. rewrite ediv_fin by lra. cbn [eadd emul]. destruct (flat_rated (Fin dT) (r_kink r)).
        + rewrite poly_fin, epowi_fun, poly_fin. eauto.
        + match goal with |- context [epowi (Fin ?u)] => rewrite (poly_fin' (r_c r) 9 5 _ _ (pow (fv j * 0.514444 / aR (fa j * ft) 0)) (fun i => if (i <=? 4)%nat then u ^ i else d' ^ (i - 4))) end.
          2:{ reflexivity. }
          2:{ intros z Hz. destruct (Nat.leb z 4); reflexivity. }
          rewrite epowi_fun, poly_fin. eauto.
      - unfold lidl_row. rewrite epowi_fun. rewrite (poly_fin' (t_ti m) 3 4 _ _ (fun j => match j with O => / d' | S k => d' ^ k end) (pow (fv j * 0.514444 / aR (fa j * ft) 0))).
        2:{ intros z Hz. destruct z; [|reflexivity]. rewrite ediv_fin by lra. f_equal. field. lra. }
        2:{ reflexivity. }
        eauto. }
    destruct R1 as (c & ->). rewrite E1. unfold newtons_row. cbn [emul]. eexists. eexists. split; [reflexivity|]. split; [reflexivity|]. ring.
Qed.
(** In particular the result does not have one number per point. *)
Theorem C102_thrust_points_refuted : forall k m n tas alt fv fa dT f, complete m -> (1 < n)%nat ->
  argument n tas (fun i => Fin (fv i)) -> argument n alt (fun i => Fin (fa i)) -> ~ is_number alt ->
  ~ column_of n (call k m tas alt (num_arg (Fin dT))) f /\ ~ array_of n (call k m tas alt (num_arg (Fin dT))) f.
Proof.
  intros k m n tas alt fv fa dT f C Hn K1 K2 N. destruct (C102_thrust k m n tas alt fv fa dT C Hn K1 K2 N) as (g & (a & E & D & R & Cc & _) & _).
  split; intros (a' & E' & D' & R' & C' & _); rewrite E in E'; injection E' as <-; lia.
Qed.
(** With one altitude, several speeds and a deviation up to the kink (or idle) the result is a row of the thrusts. *)
Theorem C102_one_altitude : forall k m n tas alt fv dT, complete m -> (1 < n)%nat -> argument n tas (fun i => Fin (fv i)) -> ~ is_number tas ->
  (forall r, rating_of m k = Some r -> dT <= r_kink r) ->
  exists f, row_of n (call k m tas (num_arg (Fin alt)) (num_arg (Fin dT))) f /\ forall i, (i < n)%nat -> gives k m (fv i) alt dT (f i).
Proof.
  intros k m n tas alt fv dT C Hn K1 N Hk. destruct (arg_isc n _ _ ltac:(lia) K1) as (b1 & I1 & N1).
  assert (b1 = true) as ->. { destruct b1; auto. destruct (N1 eq_refl) as (e & -> & _). exfalso. apply N. exists e. auto. }
  destruct (call_matrix n k m tas (num_arg (Fin alt)) _ _ (Fin dT) ltac:(lia) C I1 (isc_col _ _ _ _ (num_isc n (Fin alt)))) as (A & E & _ & Hr & Hc & D & V).
  { intros r Hrr Hf. rewrite flat_dec in Hf. destruct (Rle_dec dT (r_kink r)) as [|L]; [discriminate Hf|]. exfalso. apply L. auto. }
  cbn [fst snd orb rows] in *. exists (fun j => newtons_row m (delta_row (Fin alt)) (row k m (Fin dT) (Fin (fv j)) (Fin alt))). split.
  - exists A. rewrite E. unfold item, nd_size. rewrite Hr, Hc. destruct (Nat.eqb_spec (1 * n) 1) as [Q|Q]; [lia|].
    repeat (split; [solve [auto]|]). intros j Hj. rewrite <- (V 0%nat j) by lia. unfold nd_get, pick. rewrite Hr, Hc. destruct (Nat.eqb_spec n 1); [lia|reflexivity].
  - intros i Hi. apply call_num. assumption.
Qed.
(** With a deviation beyond the kink the same call raises. *)
Theorem C102_one_altitude_hot : forall k m r n tas alt fv dT, complete m -> (1 < n)%nat -> argument n tas (fun i => Fin (fv i)) -> ~ is_number tas ->
  rating_of m k = Some r -> r_kink r < dT -> call k m tas (num_arg (Fin alt)) (num_arg (Fin dT)) = inl ValueError.
Proof.
  intros k m r n tas alt fv dT (La & Lt & Lr) Hn K1 N Hr Hk. destruct (arg_isc n _ _ ltac:(lia) K1) as (b1 & I1 & N1).
  assert (b1 = true) as ->. { destruct b1; auto. destruct (N1 eq_refl) as (e & -> & _). exfalso. apply N. exists e. auto. }
  assert (R0 : forall rating, named_rating m rating r -> (r = t_mcrz m \/ r = t_mcmb m) -> b4_rated true m rating tas (num_arg (Fin alt)) (num_arg (Fin dT)) = inl ValueError).
  { intros rating Nr Hrr. rewrite <- rated_col. apply (rated_hot n ltac:(lia) m rating r _ _ _ _ (scalar (Fin dT)) (Fin dT) Nr (proj2 (Lr r Hrr)) I1 (isc_col _ _ _ _ (num_isc n (Fin alt))) eq_refl eq_refl).
    - rewrite flat_dec. destruct (Rle_dec dT (r_kink r)); [lra|reflexivity].
    - cbn [fst orb rows]. lia. }
  destruct k; cbn [rating_of call] in *; try discriminate Hr; injection Hr as <-.
  - apply R0; auto. right; auto.
  - apply R0; auto. left; auto.
  - rewrite takeoff_climb. apply R0; auto. right; auto.
Qed.
(** An array of temperature deviations raises, except for idle thrust, which ignores it. *)
Theorem C102_deviations : forall k m r n n' tas alt fv fa d l, (1 <= n)%nat -> argument n tas fv -> argument n alt fa -> length l = n' -> n' <> 1%nat ->
  rating_of m k = Some r -> call k m tas alt (inr (vector d l)) = inl ValueError.
Proof.
  intros k m r n n' tas alt fv fa d l Hn K1 K2 L N Hr. destruct (arg_isc n _ _ Hn K1) as (b1 & I1 & _). destruct (arg_isc n _ _ Hn K2) as (b2 & I2 & _).
  assert (S0 : nd_size (vector d l) <> 1%nat) by (unfold nd_size, vector; cbn [nd_r nd_c]; lia).
  assert (R0 : forall rating, (upper rating = "MCRZ" \/ upper rating = "MCMB")%string -> b4_rated true m rating tas alt (inr (vector d l)) = inl ValueError).
  { intros rating Hu. rewrite <- rated_col. apply (rated_errors n Hn true m _ _ _ _ rating (vector d l) I1 I2); auto. }
  destruct k; cbn [rating_of call] in *; try discriminate Hr.
  - apply R0. right; reflexivity.
  - apply R0. left; reflexivity.
  - rewrite takeoff_climb. apply R0. right; reflexivity.
Qed.

(** ** Examples *)
(** thrust of a reference weight, temperature-rated half of it *)
Definition m1 : b4_thrust :=
  mkB4t 60000 (0 :: repeat 0 5 ++ 1 :: repeat 0 29) (0.02 :: repeat 0 11)
    (mkB4r 10 (1 :: repeat 0 35) (0.5 :: repeat 0 44)) (mkB4r 15 (1 :: repeat 0 35) (0.5 :: repeat 0 44)).
Lemma m1_complete : complete m1.
Proof. split; [reflexivity|]. split; [reflexivity|]. intros r [-> | ->]; split; reflexivity. Qed.
Example C101_ex : exists d t a, ratios 0 d t a /\ gives Cruise m1 250 0 0 (Fin (d * (60000 * 9.80665))) /\
  gives Cruise m1 250 0 12 (Fin (d * (60000 * 9.80665) * 0.5)) /\ gives Climb m1 250 0 12 (Fin (d * (60000 * 9.80665))) /\
  gives Idle m1 250 0 0 (Fin (60000 * 9.80665 * 0.02)).
Proof.
  destruct (ratios_ex 0) as (d & t & a & A & Hd & _). exists d, t, a. split; [exact A|].
  assert (F : forall dT r M, (r = t_mcrz m1 \/ r = t_mcmb m1) -> rated_force m1 r dT M d t = d * (60000 * 9.80665) * (if Rle_dec dT (r_kink r) then 1 else 0.5)).
  { intros dT r M [-> | ->]; unfold rated_force, throttle, form, total; cbn [r_kink t_mcrz t_mcmb m1 t_mref]; destruct (Rle_dec dT _); f_equal;
    cbn [seq map fold_right nth t_a r_b r_c t_mcrz t_mcmb m1 repeat app Nat.mul Nat.add Nat.ltb Nat.leb Nat.sub];
    rewrite ?Rmult_0_l, ?Rplus_0_l, ?Rplus_0_r; cbn [pow]; ring. }
  repeat split.
  - apply (C101_rated Cruise m1 _ _ _ _ _ _ _ _ m1_complete eq_refl A). f_equal. rewrite F by auto. cbn. destruct (Rle_dec 0 10); [ring|lra].
  - apply (C101_rated Cruise m1 _ _ _ _ _ _ _ _ m1_complete eq_refl A). f_equal. rewrite F by auto. cbn [r_kink t_mcrz m1]. destruct (Rle_dec 12 10); [lra|ring].
  - apply (C101_rated Climb m1 _ _ _ _ _ _ _ _ m1_complete eq_refl A). f_equal. rewrite F by auto. cbn [r_kink t_mcmb m1]. destruct (Rle_dec 12 15); [ring|lra].
  - apply (C101_idle m1 _ _ _ _ _ _ _ m1_complete A). f_equal. unfold idle_force, form, total.
    cbn [seq map fold_right nth t_ti t_mref m1 repeat Nat.mul Nat.add].
    rewrite ?Rmult_0_l, ?Rplus_0_l, ?Rplus_0_r. cbn [pow]. qr. field. lra.
Qed.
Example C102_ex : exists f, table_of 2 2 (call Climb m1 (inr (vector NaN [Fin 250; Fin 400])) (inr (vector NaN [Fin 0; Fin 30000])) (num_arg (Fin 0))) f /\
  gives Climb m1 400 30000 0 (f 1%nat 1%nat) /\
  call Climb m1 (inr (vector NaN [Fin 250; Fin 400])) (num_arg (Fin 0)) (num_arg (Fin 20)) = inl ValueError.
Proof.
  set (fv := fun i : nat => match i with O => 250 | _ => 400 end). set (fa := fun i : nat => match i with O => 0 | _ => 30000 end).
  assert (A1 : argument 2 (inr (vector NaN [Fin 250; Fin 400])) (fun i => Fin (fv i))).
  { right. exists NaN, [Fin 250; Fin 400]. split; [reflexivity|]. split; [reflexivity|]. intros [|[|i]] Hi; [reflexivity|reflexivity|lia]. }
  assert (A2 : argument 2 (inr (vector NaN [Fin 0; Fin 30000])) (fun i => Fin (fa i))).
  { right. exists NaN, [Fin 0; Fin 30000]. split; [reflexivity|]. split; [reflexivity|]. intros [|[|i]] Hi; [reflexivity|reflexivity|lia]. }
  destruct (C102_thrust Climb m1 2 _ _ fv fa 0 m1_complete ltac:(lia) A1 A2) as (f & F1 & F2 & _); [intros (e & E); discriminate E|].
  exists f. split; [exact F1|]. split; [apply (F2 1%nat); lia|].
  apply (C102_one_altitude_hot Climb m1 (t_mcmb m1) 2 _ 0 fv 20 m1_complete ltac:(lia) A1); [intros (e & E); discriminate E|reflexivity|cbn; lra].
Qed.
