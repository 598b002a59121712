(** * Property C102, arguments that do not fit together (BADA4 add-on) *)
From Coq Require Import String List Bool Arith Lia.
From Coq Require Import Reals Lra.
From Verif Require Import Num NumFacts Py Aero AeroFacts Nd NdFacts Bada4 Bada4Facts P_Bada4 P_Bada4Drag P_Bada4Thr P_Bada4Fuel.
Import ListNotations.
Open Scope list_scope.
Open Scope R_scope.

(** a list or array of [n] numbers *)
Definition array_arg (n : nat) (x : T AB) : Prop := exists d l, x = inr (vector d l) /\ length l = n.

Lemma array_isc : forall n x, (1 <= n)%nat -> array_arg n x -> exists f, isc n (col x) (true, f).
Proof.
  intros n x Hn (d & l & -> & L). assert (K : argument n (inr (vector d l)) (fun i => nth i l d)) by (right; exists d, l; auto).
  destruct (arg_isc n _ _ Hn K) as ([|] & I & N); [eauto|]. destruct (N eq_refl) as (e & E & _). discriminate E.
Qed.
Lemma clash : forall A B D (g : A -> B -> D) n n' x y f f', (1 < n)%nat -> (1 < n')%nat -> n <> n' -> isc n x (true, f) -> isc n' y (true, f') -> nd2 g x y = inl ValueError.
Proof.
  intros A B D g n n' x y f f' H H' N (a & -> & Hc & Hr & _) (b & -> & Hc' & Hr' & _). cbn [fst rows] in *. cbn [nd2]. rewrite Hr, Hr'. unfold bc at 1.
  destruct (Nat.eqb_spec n n'); [lia|]. destruct (Nat.eqb_spec n 1); [lia|]. destruct (Nat.eqb_spec n' 1); [lia|]. reflexivity.
Qed.
Lemma mach_clash : forall n n' tas alt, (1 < n)%nat -> (1 < n')%nat -> n <> n' -> array_arg n tas -> array_arg n' alt ->
  tas2mach AB (mul AB (col tas) (cst AB kts)) (mul AB (col alt) (cst AB ft)) (cst AB 0) = inl ValueError.
Proof.
  intros n n' tas alt H H' N A A'. destruct (array_isc n tas ltac:(lia) A) as (f & I). destruct (array_isc n' alt ltac:(lia) A') as (f' & I').
  pose proof (isc_nd1 n' _ _ esqrt _ _ (isc_mul n' _ _ _ _ (isc_mul n' _ _ _ _ (isc_cst n' Aero.gamma) (isc_cst n' Rgas)) (isc_temperature n' _ _ (isc_mul n' _ _ _ _ I' (isc_cst n' ft))))) as J.
  exact (clash _ _ _ ediv n n' _ _ _ _ H H' N (isc_mul n _ _ _ _ I (isc_cst n kts)) J).
Qed.
(** Speeds and altitudes of different lengths: every method raises ValueError. *)
Theorem C102_lengths : forall n n' tas alt, (1 < n)%nat -> (1 < n')%nat -> n <> n' -> array_arg n tas -> array_arg n' alt ->
  (forall m mass, b4_clean m mass tas alt = inl ValueError) /\
  (forall k m dT, call k m tas alt dT = inl ValueError) /\
  (forall m mass vs, b4_ff_enroute m mass tas alt vs = inl ValueError) /\
  (forall m, b4_ff_idle m tas alt = inl ValueError).
Proof.
  intros n n' tas alt H H' N A A'. pose proof (mach_clash n n' tas alt H H' N A A') as E. repeat split.
  - intros m mass. unfold b4_clean. cbv zeta. rewrite E. reflexivity.
  - intros k m dT. assert (G : forall r d, b4_rated true m r tas alt d = inl ValueError) by (intros r d; unfold b4_rated; cbv zeta; rewrite E; reflexivity).
    destruct k; cbn [call]; try apply G. unfold b4_takeoff, b4_climb, b4_rated. cbv zeta. rewrite !col_idem, E. reflexivity.
  - intros m mass vs. unfold b4_ff_enroute. cbv zeta. rewrite E. reflexivity.
  - intros m. unfold b4_ff_idle. cbv zeta. rewrite E. reflexivity.
Qed.
Lemma base_clash : forall n m mach b f, (15 <= length (d_d m))%nat -> (1 <= n)%nat -> isc n mach (b, f) -> b4_cd_base m (inl ValueError) mach = inl ValueError.
Proof.
  intros n m mach b f L Hn K. destruct (cdb_isc n Hn m (cst AB 0) mach _ _ L (isc_cst n 0) K) as (a & E & _). revert E. unfold b4_cd_base. cbv zeta.
  destruct (power AB _ _) as [e|mm]; [discriminate|]. destruct (dot_powers mm [0; 1; 2; 3; 4]%nat _) as [e|C0]; [discriminate|].
  destruct (dot_powers mm [0; 3; 6; 9; 12]%nat _) as [e|C2]; [discriminate|]. destruct (nth_error (d_d m) 10) as [d|]; [|discriminate].
  destruct (add AB (cst AB d) _) as [e|C6]; [discriminate|]. intros _. reflexivity.
Qed.
(** Masses of another length than the speeds and altitudes: drag raises ValueError. *)
Theorem C102_masses : forall m n n' mass tas alt fv fa, (15 <= length (d_d m))%nat -> (1 < n)%nat -> (1 < n')%nat -> n <> n' ->
  array_arg n' mass -> argument n tas fv -> argument n alt fa -> ~ (is_number tas /\ is_number alt) ->
  b4_clean m mass tas alt = inl ValueError.
Proof.
  intros m n n' mass tas alt fv fa L H H' N A K1 K2 Q.
  destruct (arg_isc n _ _ ltac:(lia) K1) as (b1 & I1 & N1). destruct (arg_isc n _ _ ltac:(lia) K2) as (b2 & I2 & N2).
  destruct (array_isc n' mass ltac:(lia) A) as (f & I).
  assert (B : b1 || b2 = true).
  { destruct b1; [reflexivity|]. destruct b2; [reflexivity|]. exfalso. apply Q. destruct (N1 eq_refl) as (e1 & E1 & _), (N2 eq_refl) as (e2 & E2 & _). split; eexists; eassumption. }
  pose proof (isc_mul n _ _ _ _ I1 (isc_cst n kts)) as V. pose proof (isc_density n _ _ (isc_mul n _ _ _ _ I2 (isc_cst n ft))) as D.
  pose proof (isc_mul n _ _ _ _ (isc_mul n _ _ _ _ (isc_mul n _ _ _ _ (isc_cst n 0.5) D) (isc_powi n _ _ 2%nat V)) (isc_cst n (d_S m))) as Z.
  pose proof (isc_max n _ _ _ _ Z (isc_cst n 1e-3)) as M.
  assert (C : fst (b4_cl m (col mass) (col tas) (col alt)) = inl ValueError).
  { unfold b4_cl. cbv zeta. cbn [fst]. rewrite !col_idem.
    match goal with |- item (div AB ?a ?b) = _ => replace (div AB a b) with (@inl pyerr (nd ext) ValueError); [reflexivity|] end. symmetry.
    refine (clash _ _ _ ediv n' n _ _ _ _ H' H ltac:(auto) (isc_mul n' _ _ _ _ I (isc_cst n' g0)) _).
    refine (isc_eq n _ _ _ _ _ _ M _ _); [|intros; reflexivity]. cbn [fst orb]. rewrite !orb_false_r, orb_comm. exact B. }
  unfold b4_clean. cbv zeta. destruct (b4_cl m (col mass) (col tas) (col alt)) as (cl, qS) eqn:E. cbn [fst] in C. subst cl.
  set (mach := tas2mach _ _ _ _). assert (IM : isc n mach (b1 || b2, fun i => tas2mach NP (emul (fv i) (Fin kts)) (emul (fa i) (Fin ft)) (Fin 0))).
  { refine (isc_eq n _ _ _ _ _ _ (isc_tas2mach n _ _ _ _ V (isc_mul n _ _ _ _ I2 (isc_cst n ft))) _ _); [cbn [fst]; rewrite !orb_false_r; reflexivity|reflexivity]. }
  clearbody mach. replace (b4_cd m (inl ValueError) mach) with (@inl pyerr (nd ext) ValueError); [reflexivity|]. symmetry.
  unfold b4_cd. cbv zeta. cbn [col]. rewrite (base_clash n m (col mach) _ _ L ltac:(lia) (isc_col _ _ _ _ IM)).
  pose proof (isc_gt n _ _ _ _ (isc_cst n (d_mmax m)) (isc_col _ _ _ _ IM)) as (g & G & _). rewrite G. reflexivity.
Qed.

(** Fuel flow: masses or vertical rates of another length than the other arguments raise ValueError. *)
Lemma thrust_clash : forall m n mass tas alt vs b2 b3 f2 f3, (1 <= n)%nat -> isc n (col tas) (b2, f2) -> isc n (col alt) (b3, f3) ->
  add AB (b4_clean (f_drag m) (col mass) (col tas) (col alt))
    (mul AB (mul AB (col mass) (cst AB g0)) (bsin AB (barctan2 AB (mul AB (match vs with Some x => col x | None => cst AB 0 end) (cst AB fpm)) (mul AB (col tas) (cst AB kts))))) = inl ValueError ->
  b4_ff_enroute m mass tas alt vs = inl ValueError.
Proof.
  intros m n mass tas alt vs b2 b3 f2 f3 Hn I2 I3 E. unfold b4_ff_enroute. cbv zeta.
  match goal with |- context [add AB (b4_clean ?a ?b ?c ?d) ?y] => replace (add AB (b4_clean a b c d) y) with (@inl pyerr (nd ext) ValueError) by (symmetry; exact E) end.
  pose proof (isc_mul n _ _ _ _ I3 (isc_cst n ft)) as H.
  destruct (isc_inr n _ _ _ (isc_tas2mach n _ _ _ _ (isc_mul n _ _ _ _ I2 (isc_cst n kts)) H)) as (a & -> & _).
  destruct (isc_inr n _ _ _ (isc_div n _ _ _ _ (isc_pressure n _ _ H) (isc_cst n p0))) as (b & -> & _).
  destruct (isc_inr n _ _ _ (isc_div n _ _ _ _ (isc_temperature n _ _ H) (isc_cst n T0))) as (c & -> & _). reflexivity.
Qed.
Theorem C102_fuel_masses : forall m n n' mass tas alt vs fv fa, (15 <= length (d_d (f_drag m)))%nat -> (1 < n)%nat -> (1 < n')%nat -> n <> n' ->
  array_arg n' mass -> argument n tas fv -> argument n alt fa -> ~ (is_number tas /\ is_number alt) ->
  b4_ff_enroute m mass tas alt vs = inl ValueError.
Proof.
  intros m n n' mass tas alt vs fv fa L H H' N A K1 K2 Q.
  destruct (arg_isc n _ _ ltac:(lia) K1) as (b1 & I1 & _). destruct (arg_isc n _ _ ltac:(lia) K2) as (b2 & I2 & _).
  apply (thrust_clash m n mass tas alt vs b1 b2 fv fa ltac:(lia) I1 I2).
  replace (b4_clean (f_drag m) (col mass) (col tas) (col alt)) with (b4_clean (f_drag m) mass tas alt) by (unfold b4_clean; rewrite !col_idem; reflexivity).
  rewrite (C102_masses (f_drag m) n n' mass tas alt fv fa); auto.
Qed.
Theorem C102_fuel_rates : forall m n n' mass tas alt vs fm fv fa, (15 <= length (d_d (f_drag m)))%nat -> (1 < n)%nat -> (1 < n')%nat -> n <> n' ->
  argument n mass fm -> argument n tas fv -> argument n alt fa -> ~ (is_number mass /\ is_number tas /\ is_number alt) -> array_arg n' vs ->
  b4_ff_enroute m mass tas alt (Some vs) = inl ValueError.
Proof.
  intros m n n' mass tas alt vs fm fv fa L H H' N K0 K1 K2 Q A.
  destruct (arg_isc n _ _ ltac:(lia) K0) as (b0 & I0 & N0). destruct (arg_isc n _ _ ltac:(lia) K1) as (b1 & I1 & N1). destruct (arg_isc n _ _ ltac:(lia) K2) as (b2 & I2 & N2).
  destruct (array_isc n' vs ltac:(lia) A) as (f & I).
  apply (thrust_clash m n mass tas alt (Some vs) b1 b2 fv fa ltac:(lia) I1 I2).
  pose proof (clean_isc n ltac:(lia) (f_drag m) _ _ _ _ _ _ L I0 I1 I2) as D. cbn [fst snd] in D.
  pose proof (isc_mul n' _ _ _ _ I (isc_cst n' fpm)) as W. cbn [fst orb] in W.
  assert (X : forall x b f, isc n x (b, f) -> add AB x (inl ValueError) = inl ValueError) by (intros x b g (a & -> & _); reflexivity).
  assert (Y : forall x b f, isc n x (b, f) -> mul AB x (inl ValueError) = inl ValueError) by (intros x b g (a & -> & _); reflexivity).
  destruct b1.
  - replace (barctan2 AB (mul AB (col vs) (cst AB fpm)) (mul AB (col tas) (cst AB kts))) with (@inl pyerr (nd ext) ValueError).
    + cbn [bsin AB]. cbn [nd1]. rewrite (Y _ _ _ (isc_mul n _ _ _ _ I0 (isc_cst n g0))). apply (X _ _ _ D).
    + symmetry. exact (clash _ _ _ eatan2 n' n _ _ _ _ H' H ltac:(auto) W (isc_mul n _ _ _ _ I1 (isc_cst n kts))).
  - destruct (N1 eq_refl) as (e1 & E1 & _). assert (G : exists g, isc n' (bsin AB (barctan2 AB (mul AB (col vs) (cst AB fpm)) (mul AB (col tas) (cst AB kts)))) (true, g)).
    { eexists. rewrite E1. exact (isc_sin n' _ _ (isc_atan2 n' _ _ _ _ W (isc_mul n' _ _ _ _ (isc_col n' _ _ _ (num_isc n' e1)) (isc_cst n' kts)))). }
    destruct G as (g & G). destruct b0.
    + replace (mul AB (mul AB (col mass) (cst AB g0)) (bsin AB (barctan2 AB (mul AB (col vs) (cst AB fpm)) (mul AB (col tas) (cst AB kts))))) with (@inl pyerr (nd ext) ValueError); [apply (X _ _ _ D)|].
      symmetry. exact (clash _ _ _ emul n n' _ _ _ _ H H' N (isc_mul n _ _ _ _ I0 (isc_cst n g0)) G).
    + destruct (N0 eq_refl) as (e0 & E0 & _). destruct b2; [|exfalso; apply Q; destruct (N2 eq_refl) as (e2 & E2 & _); split; [eexists; eassumption|split; eexists; eassumption]].
      pose proof (isc_mul n' _ _ _ _ (isc_mul n' _ _ _ _ (isc_col n' _ _ _ (num_isc n' e0)) (isc_cst n' g0)) G) as Z. rewrite <- E0 in Z.
      exact (clash _ _ _ eadd n n' _ _ _ _ H H' N D Z).
Qed.

Example C102_lengths_ex : b4_clean d1 (num_arg (Fin 60000)) (inr (vector NaN [Fin 250; Fin 450])) (inr (vector NaN [Fin 0; Fin 10000; Fin 35000])) = inl ValueError /\
  b4_clean d1 (inr (vector NaN [Fin 50000; Fin 60000; Fin 70000])) (inr (vector NaN [Fin 250; Fin 450])) (num_arg (Fin 35000)) = inl ValueError.
Proof.
  split.
  - apply (C102_lengths 2 3); try lia; [exists NaN, [Fin 250; Fin 450]|exists NaN, [Fin 0; Fin 10000; Fin 35000]]; auto.
  - apply (C102_masses d1 2 3 _ _ _ (fun i => nth i [Fin 250; Fin 450] NaN) (fun _ => Fin 35000)); try lia.
    + cbn; lia.
    + exists NaN, [Fin 50000; Fin 60000; Fin 70000]. auto.
    + right. exists NaN, [Fin 250; Fin 450]. auto.
    + left. exists (Fin 35000). auto.
    + intros ((e & E) & _). discriminate E.
Qed.

Example C102_rates_ex : b4_ff_enroute fm1 (num_arg (Fin 60000)) (inr (vector NaN [Fin 250; Fin 450])) (num_arg (Fin 35000)) (Some (inr (vector NaN [Fin 0; Fin 500; Fin 1000]))) = inl ValueError.
Proof.
  apply (C102_fuel_rates fm1 2 3 _ _ _ _ (fun _ => Fin 60000) (fun i => nth i [Fin 250; Fin 450] NaN) (fun _ => Fin 35000)); try lia.
  - cbn; lia.
  - left. exists (Fin 60000). auto.
  - right. exists NaN, [Fin 250; Fin 450]. auto.
  - left. exists (Fin 35000). auto.
  - intros (_ & (e & E) & _). discriminate E.
  - exists NaN, [Fin 0; Fin 500; Fin 1000]. auto.
Qed.
