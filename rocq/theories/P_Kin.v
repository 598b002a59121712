(** * Properties C78 and C79: the shipped kinematic models and the trajectories generated from them *)
From Coq Require Import String Ascii List Bool Arith Lia Permutation QArith Qreals Reals Lra Psatz.
From Verif Require Import Num NumFacts SpecNum Aero AeroFacts Py Str StrFacts PropPy DataWrap Build Gen GenFacts GenFacts2
  Kinematic Params PropFacts P_Gen P_Gen2 P_Data.
Import ListNotations.
Open Scope string_scope.
Open Scope R_scope.

(** ** C79 *)
(** Specification: the quantity documented for each accessor, as flight phase and name *)
Definition documented (a : accessor) : string * string :=
  match a with
  | K_takeoff_speed => ("takeoff", "Liftoff speed")
  | K_takeoff_distance => ("takeoff", "Takeoff distance")
  | K_takeoff_acceleration => ("takeoff", "Mean takeoff accelaration")
  | K_initclimb_vcas => ("initial_climb", "Mean airspeed")
  | K_initclimb_vs => ("initial_climb", "Mean vertical rate")
  | K_climb_range => ("climb", "Climb range")
  | K_climb_const_vcas => ("climb", "Constant CAS")
  | K_climb_const_mach => ("climb", "Constant Mach")
  | K_climb_cross_alt_concas => ("climb", "Constant CAS crossover altitude")
  | K_climb_cross_alt_conmach => ("climb", "Constant Mach crossover altitude")
  | K_climb_vs_pre_concas => ("climb", "Mean climb rate, pre-constant-CAS")
  | K_climb_vs_concas => ("climb", "Mean climb rate, constant-CAS")
  | K_climb_vs_conmach => ("climb", "Mean climb rate, constant-Mach")
  | K_cruise_range => ("cruise", "Cruise range")
  | K_cruise_alt => ("cruise", "Mean cruise altitude")
  | K_cruise_init_alt => ("cruise", "Initial cruise altitude")
  | K_cruise_max_alt => ("cruise", "Maximum cruise altitude")
  | K_cruise_mach => ("cruise", "Mean cruise Mach")
  | K_cruise_max_mach => ("cruise", "Maximum cruise Mach")
  | K_cruise_mean_vcas => ("cruise", "Mean cruise CAS")
  | K_descent_range => ("descent", "Descent range")
  | K_descent_const_mach => ("descent", "Constant Mach")
  | K_descent_const_vcas => ("descent", "Constant CAS")
  | K_descent_cross_alt_conmach => ("descent", "Constant Mach crossover altitude")
  | K_descent_cross_alt_concas => ("descent", "Constant CAS crossover altitude")
  | K_descent_vs_conmach => ("descent", "Mean descent rate, constant-Mach")
  | K_descent_vs_concas => ("descent", "Mean descent rate, constant-CAS")
  | K_descent_vs_post_concas => ("descent", "Mean descent rate, after-constant-CAS")
  | K_finalapp_vcas => ("final_approach", "Mean airspeed")
  | K_finalapp_vs => ("final_approach", "Mean vertical rate")
  | K_landing_speed => ("landing", "Touchdown speed")
  | K_landing_distance => ("landing", "Braking distance")
  | K_landing_acceleration => ("landing", "Mean braking acceleration")
  end.
Definition all_accessors : list accessor := [
  K_takeoff_speed; K_takeoff_distance; K_takeoff_acceleration; K_initclimb_vcas;
  K_initclimb_vs; K_climb_range; K_climb_const_vcas; K_climb_const_mach;
  K_climb_cross_alt_concas; K_climb_cross_alt_conmach; K_climb_vs_pre_concas; K_climb_vs_concas;
  K_climb_vs_conmach; K_cruise_range; K_cruise_alt; K_cruise_init_alt;
  K_cruise_max_alt; K_cruise_mach; K_cruise_max_mach; K_cruise_mean_vcas;
  K_descent_range; K_descent_const_mach; K_descent_const_vcas; K_descent_cross_alt_conmach;
  K_descent_cross_alt_concas; K_descent_vs_conmach; K_descent_vs_concas; K_descent_vs_post_concas;
  K_finalapp_vcas; K_finalapp_vs; K_landing_speed; K_landing_distance;
  K_landing_acceleration].
Lemma all_accessors_complete : forall a, In a all_accessors.
Proof. destruct a; cbn; tauto. Qed.
(** the negative quantities: rates of descent and braking *)
Definition downward (a : accessor) : bool :=
  match a with K_descent_vs_conmach | K_descent_vs_concas | K_descent_vs_post_concas | K_finalapp_vs | K_landing_acceleration => true | _ => false end.
Definition acc_eqb (a b : accessor) : bool := String.eqb (accessor_var a) (accessor_var b).

(** the three numbers of a row *)
Definition numbers (r : wrrec) (a : accessor) : option (Q * Q * Q) :=
  option_map snd (find (fun p => String.eqb (fst p) (accessor_var a)) (wr_vars r)).
Lemma access_numbers : forall r a o lo hi, numbers r a = Some (o, lo, hi) -> access r a = inr (mkVar (Q2R o) (Q2R lo) (Q2R hi)).
Proof.
  intros r a o lo hi H. unfold numbers in H. unfold access, get_var. destruct (find _ _) as [[n q]|]; [|discriminate].
  injection H as ->. reflexivity.
Qed.

(** the exceptions in the data: a default outside its limits, a negative lower limit *)
Definition default_outside (code : string) (a : accessor) : bool :=
  (String.eqb code "a333" && acc_eqb a K_cruise_max_alt) || (String.eqb code "b737" && acc_eqb a K_cruise_init_alt)
  || (String.eqb code "b752" && acc_eqb a K_cruise_range).
Definition negative_limit (code : string) (a : accessor) : bool :=
  mem code ["a343"; "b744"; "b789"] && acc_eqb a K_cruise_range.

Definition var_check (r : wrrec) (a : accessor) : bool :=
  match numbers r a with
  | None => false
  | Some (o, lo, hi) =>
      qlt lo hi && (if downward a then qlt hi 0 && qlt o 0 else qlt 0 o && qlt 0 hi && xorb (negative_limit (wr_code r) a) (qlt 0 lo))
      && xorb (default_outside (wr_code r) a) (Qle_bool lo o && Qle_bool o hi)
  end.
Lemma vars_checked : forallb (fun r => forallb (var_check r) all_accessors) shipped_wrap = true.
Proof. vm_compute. reflexivity. Qed.

Section Shipped.
Context (d : db) (SH : ships d).

Lemma wrap_new_row : forall ac s r, wrap_new d ac s = inr r -> In r shipped_wrap.
Proof.
  intros ac s r H. unfold wrap_new in H. binds H. destruct (find _ _) eqn:F; [|discriminate]. injection H as ->.
  apply find_some in F. destruct F as [F _]. apply (Permutation_in _ (Permutation_sym (sh_wrap d SH))) in F. auto.
Qed.

(** each accessor reads the row of the quantity it is documented to return *)
Theorem C79_documented_quantity : forall a, In (accessor_var a, fst (documented a), snd (documented a)) wrap_catalogue.
Proof. intros a. destruct a; cbn; tauto. Qed.

(** on every kinematic model that can be constructed, every accessor returns; the limits are in order, the
    default has the right sign and, with three exceptions, lies between the limits *)
Theorem C79_accessors_of_shipped_models : forall ac s r a, wrap_new d ac s = inr r ->
  exists v, access r a = inr v /\ w_min v < w_max v /\
    (downward a = true -> w_def v < 0 /\ w_max v < 0) /\
    (downward a = false -> 0 < w_def v /\ 0 < w_max v /\ (negative_limit (wr_code r) a = false <-> 0 < w_min v)) /\
    (default_outside (wr_code r) a = false <-> w_min v <= w_def v <= w_max v).
Proof.
  intros ac s r a H. apply wrap_new_row in H. pose proof vars_checked as C. rewrite forallb_forall in C. specialize (C _ H).
  rewrite forallb_forall in C. specialize (C a (all_accessors_complete a)). unfold var_check in C.
  destruct (numbers r a) as [[[o lo] hi]|] eqn:N; [|discriminate].
  exists (mkVar (Q2R o) (Q2R lo) (Q2R hi)). split; [apply access_numbers; auto|]. cbn [w_def w_min w_max].
  apply andb_true_iff in C. destruct C as [C C3]. apply andb_true_iff in C. destruct C as [C1 C2].
  split; [apply qlt_R; auto|]. split; [|split].
  - intros D. rewrite D in C2. apply andb_true_iff in C2. destruct C2 as [C2 C2'].
    apply qlt_R in C2, C2'. replace (Q2R 0) with 0 in * by (unfold Q2R; cbn; lra). auto.
  - intros D. rewrite D in C2. apply andb_true_iff in C2. destruct C2 as [C2 C2''].
    apply andb_true_iff in C2. destruct C2 as [C2 C2']. split; [apply qpos; auto|]. split; [apply qpos; auto|].
    destruct (qlt 0 lo) eqn:L.
    + destruct (negative_limit (wr_code r) a); [discriminate|]. split; auto. intros _. apply qpos; auto.
    + destruct (negative_limit (wr_code r) a); [|discriminate]. split; [discriminate|]. intros P. exfalso.
      unfold qlt in L. apply negb_false_iff in L. apply qle_R in L. replace (Q2R 0) with 0 in L by (unfold Q2R; cbn; lra). lra.
  - assert (B : forall x y, Qle_bool x y = false -> Q2R y < Q2R x) by (intros; apply qlt_R; unfold qlt; rewrite H0; auto).
    destruct (Qle_bool lo o) eqn:L1; destruct (Qle_bool o hi) eqn:L2; destruct (default_outside (wr_code r) a); try discriminate;
      split; intros G; try discriminate; auto.
    + split; apply qle_R; auto.
    + apply B in L2. lra.
    + apply B in L1. lra.
    + apply B in L1. lra.
Qed.

(** defaults are ordered as in a real flight *)
Definition before (a b : accessor) (r : wrrec) : bool :=
  match numbers r a, numbers r b with Some (x, _, _), Some (y, _, _) => qlt x y | _, _ => false end.
Definition upto (a b : accessor) (r : wrrec) : bool :=
  match numbers r a, numbers r b with Some (x, _, _), Some (y, _, _) => Qle_bool x y | _, _ => false end.
Theorem C79_defaults_in_order : forall ac s r, wrap_new d ac s = inr r ->
  let v a := match access r a with inr v => w_def v | inl _ => 0 end in
  v K_climb_cross_alt_concas < v K_climb_cross_alt_conmach < v K_cruise_init_alt /\
  v K_cruise_alt <= v K_cruise_max_alt /\ (wr_code r <> "b737" -> v K_cruise_init_alt <= v K_cruise_max_alt) /\
  v K_descent_cross_alt_concas < v K_descent_cross_alt_conmach < v K_cruise_alt /\
  v K_cruise_mach <= v K_cruise_max_mach < 1 /\
  v K_landing_speed <= v K_finalapp_vcas < v K_descent_const_vcas /\
  v K_takeoff_speed < v K_climb_const_vcas /\ v K_initclimb_vcas < v K_climb_const_vcas.
Proof.
  intros ac s r H v. apply wrap_new_row in H.
  assert (B : forall a b, forallb (before a b) shipped_wrap = true -> v a < v b).
  { intros a b F. rewrite forallb_forall in F. specialize (F _ H). unfold before in F.
    destruct (numbers r a) as [[[x x1] x2]|] eqn:Na; [|discriminate]. destruct (numbers r b) as [[[y y1] y2]|] eqn:Nb; [|discriminate].
    unfold v. rewrite (access_numbers _ _ _ _ _ Na), (access_numbers _ _ _ _ _ Nb). apply qlt_R. auto. }
  assert (U1 : forall a b, upto a b r = true -> v a <= v b).
  { intros a b F. unfold upto in F.
    destruct (numbers r a) as [[[x x1] x2]|] eqn:Na; [|discriminate]. destruct (numbers r b) as [[[y y1] y2]|] eqn:Nb; [|discriminate].
    unfold v. rewrite (access_numbers _ _ _ _ _ Na), (access_numbers _ _ _ _ _ Nb). apply qle_R. auto. }
  assert (U : forall a b, forallb (upto a b) shipped_wrap = true -> v a <= v b).
  { intros a b F. rewrite forallb_forall in F. auto. }
  assert (M : v K_cruise_max_mach < 1).
  { assert (F : forallb (fun r => match numbers r K_cruise_max_mach with Some (x, _, _) => qlt x 1 | None => false end) shipped_wrap = true)
      by (vm_compute; reflexivity).
    rewrite forallb_forall in F. specialize (F _ H). destruct (numbers r K_cruise_max_mach) as [[[x x1] x2]|] eqn:N; [|discriminate].
    unfold v. rewrite (access_numbers _ _ _ _ _ N). apply qlt_R in F. cbn [w_def]. replace (Q2R 1) with 1 in F by (unfold Q2R; cbn; lra). auto. }
  assert (I : wr_code r <> "b737" -> v K_cruise_init_alt <= v K_cruise_max_alt).
  { intros Hc. apply U1.
    assert (F : forallb (fun r => String.eqb (wr_code r) "b737" || upto K_cruise_init_alt K_cruise_max_alt r) shipped_wrap = true)
      by (vm_compute; reflexivity).
    rewrite forallb_forall in F. specialize (F _ H). apply orb_true_iff in F. destruct F as [F|F]; auto.
    apply String.eqb_eq in F. contradiction. }
  refine (conj (conj (B _ _ _) (B _ _ _)) (conj (U _ _ _) (conj I (conj (conj (B _ _ _) (B _ _ _)) (conj (conj (U _ _ _) M)
    (conj (conj (U _ _ _) (B _ _ _)) (conj (B _ _ _) (B _ _ _)))))))); vm_compute; reflexivity.
Qed.
End Shipped.

(** the generator works with the numbers of the rows of these names *)
(** Specification: the first row called [name] holds the default, minimum and maximum of [v] *)
Definition first_row (r : wrrec) (name : string) (v : wvar) : Prop :=
  exists before after lo hi o, wr_vars r = (before ++ (name, (o, lo, hi)) :: after)%list /\
    ~ In name (map fst before) /\ w_def v = Q2R o /\ w_min v = Q2R lo /\ w_max v = Q2R hi.
Lemma get_var_first : forall r name v, get_var r name = inr v -> first_row r name v.
Proof.
  intros r name v H. unfold get_var in H. unfold first_row. 
  revert H. generalize (wr_vars r). intros l H.
  induction l as [|[n [[o lo] hi]] l IH]; [discriminate H|]. cbn [find fst] in H. destruct (String.eqb n name) eqn:E.
    + apply String.eqb_eq in E. subst n. injection H as <-. exists nil, l, lo, hi, o. cbn. tauto.
    + apply String.eqb_neq in E. destruct (IH H) as (b & a & lo' & hi' & o' & -> & N & R1).
      exists ((n, (o, lo, hi)) :: b)%list, a, lo', hi', o'. split; [reflexivity|]. split; [|exact R1]. cbn. tauto.
Qed.
Theorem C79_generator_inputs : forall r w, wrap_of r = inr w ->
  first_row r "to_v_lof" (takeoff_speed w) /\ first_row r "to_acc_tof" (takeoff_acceleration w) /\
  first_row r "ic_vs_avg" (initclimb_vs w) /\ first_row r "cl_v_cas_const" (climb_const_vcas w) /\
  first_row r "cl_v_mach_const" (climb_const_mach w) /\ first_row r "cl_h_cas_const" (climb_cross_alt_concas w) /\
  first_row r "cl_vs_avg_pre_cas" (climb_vs_pre_concas w) /\ first_row r "cl_vs_avg_cas_const" (climb_vs_concas w) /\
  first_row r "cl_vs_avg_mach_const" (climb_vs_conmach w) /\ first_row r "cr_d_range" (cruise_range w) /\
  first_row r "cr_h_mean" (cruise_alt w) /\ first_row r "cr_v_mach_mean" (cruise_mach w) /\
  first_row r "de_v_mach_const" (descent_const_mach w) /\ first_row r "de_v_cas_const" (descent_const_vcas w) /\
  first_row r "de_h_cas_const" (descent_cross_alt_concas w) /\ first_row r "de_vs_avg_mach_const" (descent_vs_conmach w) /\
  first_row r "de_vs_avg_cas_const" (descent_vs_concas w) /\ first_row r "de_vs_avg_after_cas" (descent_vs_post_concas w) /\
  first_row r "fa_va_avg" (finalapp_vcas w) /\ first_row r "fa_vs_avg" (finalapp_vs w) /\
  first_row r "ld_acc_brk" (landing_acceleration w).
Proof.
  intros r w H. unfold wrap_of in H. unfold access in H. cbn [accessor_var] in H.
  repeat match type of H with bind (get_var r ?n) _ = _ =>
    let v := fresh "v" in let E := fresh "E" in
    destruct (get_var r n) as [?|v] eqn:E; [discriminate H|]; cbn [bind] in H; apply get_var_first in E end.
  injection H as <-. cbn [takeoff_speed takeoff_acceleration initclimb_vs climb_const_vcas climb_const_mach climb_cross_alt_concas
    climb_vs_pre_concas climb_vs_concas climb_vs_conmach cruise_range cruise_alt cruise_mach descent_const_mach descent_const_vcas
    descent_cross_alt_concas descent_vs_conmach descent_vs_concas descent_vs_post_concas finalapp_vcas finalapp_vs landing_acceleration].
  tauto.
Qed.

(** the B737 model: default initial cruise altitude 12.52 km above its maximum (12.47 km) and above the default
    maximum cruise altitude *)
Theorem C79_default_within_limits_refuted : exists r v m, wrap_new shipped0 "B737" None = inr r /\
  access r K_cruise_init_alt = inr v /\ access r K_cruise_max_alt = inr m /\ w_max v < w_def v /\ w_def m < w_def v.
Proof.
  destruct (wrap_new shipped0 "B737" None) as [e|r] eqn:E; [vm_compute in E; discriminate|].
  assert (N1 : numbers r K_cruise_init_alt = Some (12.52, 10.36, 12.47)%Q).
  { vm_compute in E. injection E as <-. reflexivity. }
  destruct (numbers r K_cruise_max_alt) as [[[x y] z]|] eqn:N2.
  2:{ vm_compute in E. injection E as <-. discriminate. }
  assert (Hx : qlt x 12.52 = true). { vm_compute in E. injection E as <-. vm_compute in N2. injection N2 as <- _ _. reflexivity. }
  exists r. do 2 eexists. split; auto. split; [apply access_numbers; eauto|]. split; [apply access_numbers; eauto|].
  cbn [w_def w_max]. split; apply qlt_R; auto.
Qed.
Example C79_ex : exists r v, wrap_new shipped0 "A20N" None = inr r /\ wr_code r = "a320" /\
  access r K_cruise_mach = inr v /\ w_min v <= w_def v <= w_max v.
Proof.
  destruct (wrap_new shipped0 "A20N" None) as [e|r] eqn:E; [vm_compute in E; discriminate|].
  destruct (C79_accessors_of_shipped_models shipped0 shipped0_ships "A20N" None r K_cruise_mach E) as (v & A & _ & _ & _ & D).
  exists r, v. assert (C : wr_code r = "a320") by (vm_compute in E; injection E as <-; reflexivity).
  repeat split; auto; apply D; rewrite C; reflexivity.
Qed.
