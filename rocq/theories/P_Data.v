(** * Property C77: objects built from the shipped data compute finite, physically signed values

    The numeric theorems of the other files assume positive geometry, increasing databank
    tables and so on.  Here these conditions are established for everything that the
    constructors can return on the data files of the package, and the consequences are
    stated for the constructed objects. *)
From Coq Require Import String Ascii List Bool Arith Lia Permutation QArith Qreals Reals Lra Psatz.
From Verif Require Import Num NumFacts SpecNum Aero AeroFacts Thrust ThrustFacts Drag DragFacts Fuel FuelFacts Emission Mass
  Py Str StrFacts PropPy DataAc DataPolar DataWrap DataEng Build Gen Params PropFacts P_Prop P_Thrust P_Drag P_Fuel P_Emission.
Import ListNotations.
Open Scope string_scope.
Open Scope R_scope.

(** ** Reading inequalities off rational data *)
Definition qlt (a b : Q) : bool := negb (Qle_bool b a).
Lemma qlt_R : forall a b, qlt a b = true -> Q2R a < Q2R b.
Proof.
  intros a b H. apply Qlt_Rlt. apply negb_true_iff in H. apply Qnot_le_lt. intros L.
  apply Qle_bool_iff in L. congruence.
Qed.
Lemma qle_R : forall a b, Qle_bool a b = true -> Q2R a <= Q2R b.
Proof. intros a b H. apply Qle_Rle. apply Qle_bool_iff. auto. Qed.
Lemma qpos : forall a, qlt 0 a = true -> 0 < Q2R a.
Proof. intros a H. apply qlt_R in H. replace (Q2R 0) with 0 in H by (unfold Q2R; cbn; lra). auto. Qed.
Lemma qnonneg : forall a, Qle_bool 0 a = true -> 0 <= Q2R a.
Proof. intros a H. apply qle_R in H. replace (Q2R 0) with 0 in H by (unfold Q2R; cbn; lra). auto. Qed.
Lemma q2r_z : forall z, Q2R (inject_Z z) = IZR z.
Proof. intros. unfold Q2R. cbn. field. Qed.

(** ** Checks over the shipped rows *)
Definition ac_check (a : acrec) : bool :=
  qlt 0 (ac_mtow a) && qlt 0 (ac_oew a) && qlt 0 (ac_mfc a) && qlt 9145 (ac_height a) && qlt 0 (ac_mach a)
  && qlt (ac_mach a) 1 && qlt 0 (ac_area a) && qlt 0 (ac_span a) && Qle_bool 0 (ac_sweep a) && qlt (ac_sweep a) 60
  && qlt 0 (ac_number a) && match ac_range a with Some r => qlt 0 r | None => String.eqb (ac_code a) "crj9" end.
Lemma ac_checked : forallb ac_check shipped_aircraft = true.
Proof. vm_compute. reflexivity. Qed.

Definition up4 (q : Q * Q * Q * Q) : bool :=
  let '(t, c, a, i) := q in qlt 0 i && qlt i a && qlt a c && qlt c t.
Definition nn4 (q : Q * Q * Q * Q) : bool :=
  let '(t, c, a, i) := q in Qle_bool 0 i && Qle_bool 0 a && Qle_bool 0 c && Qle_bool 0 t.
Definition no_thrust (e : engrec) : bool := match en_bpr e, en_max_thrust e with Some _, Some _ => false | _, _ => true end.
Definition eng_check (e : engrec) : bool :=
  up4 (en_ff e) && nn4 (en_nox e) && nn4 (en_co e) && nn4 (en_hc e)
  && match en_bpr e, en_max_thrust e with
     | Some b, Some m => Qle_bool 0 b && Qle_bool b 40 && qlt 0 m
     | _, _ => true
     end
  && match en_cr_mach e with
     | Some m => qlt 0 m && match en_cr_thrust e with Some f => qlt 0 f | None => false end
     | None => true
     end.
Lemma eng_checked : forallb eng_check shipped_engines = true.
Proof. vm_compute. reflexivity. Qed.

Definition po_check (p : porec) : bool := qlt 0 (po_cd0 p) && qlt 0 (po_k p) && qlt 0 (po_lambda p) && qlt 0 (po_cfc p) && qlt 0 (po_sfs p).
Lemma po_checked : forallb po_check shipped_polar = true.
Proof. vm_compute. reflexivity. Qed.
Definition fm_check (m : fmrec) : bool :=
  qlt 0 (fm_c1 m) && Qle_bool (fm_c1 m) 1000 && qlt 0 (fm_c2 m) && qlt 0 (fm_c3 m) && Qle_bool (fm_c3 m) 100.
Lemma fm_checked : forallb fm_check shipped_fuel = true.
Proof. vm_compute. reflexivity. Qed.

(** no engine without thrust data matches an option of any aircraft *)
Lemma options_checked :
  forallb (fun a => forallb (fun o => trimmed (upper o) &&
     forallb (fun e => negb (no_thrust e) || negb (contains (upper o) (upper (en_name e)))) shipped_engines)
     (ac_options a)) shipped_aircraft = true.
Proof. vm_compute. reflexivity. Qed.

Ltac bools := repeat match goal with
  | H : _ && _ = true |- _ => apply andb_true_iff in H; destruct H
  | H : qlt 0 _ = true |- _ => apply qpos in H
  | H : Qle_bool 0 _ = true |- _ => apply qnonneg in H
  | H : qlt _ _ = true |- _ => apply qlt_R in H
  | H : Qle_bool _ _ = true |- _ => apply qle_R in H
  end.

(** ** What the constructors return comes from the data *)
Lemma aircraft_row : forall d ac s a, aircraft d ac s = inr a -> In a (d_aircraft d).
Proof.
  intros d ac s a. unfold aircraft.
  assert (G : forall x f l, glob_aircraft d x = f :: l -> In f (d_aircraft d)).
  { intros x f l E. assert (I : In f (glob_aircraft d x)) by (rewrite E; cbn; auto).
    unfold glob_aircraft in I. apply filter_In in I. tauto. }
  destruct (glob_aircraft d (lower ac)) as [|f l] eqn:E.
  - destruct (synonym _ _); [|discriminate]. destruct s; [|discriminate].
    destruct (glob_aircraft d s0) as [|f l] eqn:E'; [discriminate|]. intros H; injection H as <-. eauto.
  - intros H; injection H as <-. eauto.
Qed.
Lemma engine_row : forall d x r, engine d x = inr r -> In (er_row r) (d_engines d).
Proof.
  intros d x r. unfold engine. destruct (filter _ _) as [|e l] eqn:E; [discriminate|].
  intros H; injection H as <-. cbn. assert (I : In e (e :: l)) by (cbn; auto). rewrite <- E in I. apply filter_In in I. tauto.
Qed.
Lemma bind_inr : forall A B (x : py A) (f : A -> py B) b, bind x f = inr b -> exists a, x = inr a /\ f a = inr b.
Proof. intros A B [e|a] f b; cbn; [discriminate|eauto]. Qed.
Ltac binds H := repeat (apply bind_inr in H; let a := fresh "x" in let E := fresh "E" in destruct H as (a & E & H)).

Section Shipped.
Context (d : db) (SH : ships d).

Lemma ship_ac_ok : forall ac s a, aircraft d ac s = inr a -> ac_check a = true /\ In a shipped_aircraft.
Proof.
  intros ac s a H. apply aircraft_row in H. apply (Permutation_in _ (Permutation_sym (sh_ac d SH))) in H.
  split; auto. pose proof ac_checked as F. rewrite forallb_forall in F. auto.
Qed.
Lemma ship_eng_ok : forall x r, engine d x = inr r -> eng_check (er_row r) = true /\ In (er_row r) shipped_engines.
Proof.
  intros x r H. apply engine_row in H. rewrite (sh_engines d SH) in H.
  split; auto. pose proof eng_checked as F. rewrite forallb_forall in F. auto.
Qed.

(** *** Thrust *)
Lemma thrust_new_row : forall ac eng k o, thrust_new d ac eng k = inr o ->
  ac_check (to_ac o) = true /\ In (to_ac o) shipped_aircraft /\
  eng_check (er_row (to_eng o)) = true /\ In (er_row (to_eng o)) shipped_engines.
Proof.
  intros ac eng k o H. unfold thrust_new in H. binds H.
  destruct (_ && _); [discriminate|]. injection H as <-. cbn.
  apply ship_ac_ok in E. apply ship_eng_ok in E0. tauto.
Qed.

Lemma accepted_has_thrust : forall ac eng k o, kw_force k <> Some true -> thrust_new d ac eng k = inr o ->
  no_thrust (er_row (to_eng o)) = false.
Proof.
  intros ac eng k o Hk H. destruct (thrust_new_row _ _ _ _ H) as (_ & Ia & _ & Ie).
  destruct (C23_accepted_engine_belongs d ac eng k o Hk H) as (_ & _ & opt & Io & _ & Ht).
  pose proof options_checked as F. rewrite forallb_forall in F. specialize (F _ Ia).
  rewrite forallb_forall in F. specialize (F _ Io). apply andb_true_iff in F. destruct F as [F1 F2].
  rewrite forallb_forall in F2. specialize (F2 _ Ie). rewrite (Ht F1) in F2.
  destruct (no_thrust _); cbn in F2; congruence.
Qed.

Lemma thrust_par_ok : forall a e, ac_check a = true -> eng_check e = true -> no_thrust e = false ->
  exists p, thrust_par_of a e = Some p /\ 0 <= eng_bpr p <= 40 /\ 0 < eng_max_thrust p /\ 0 < eng_number p /\
    0 < Thrust.cruise_mach p /\ 0 < eng_cruise_thrust p /\ 30000 < Thrust.cruise_alt p.
Proof.
  intros a e Ha He Hn. unfold thrust_par_of, no_thrust, ac_check, eng_check in *.
  destruct (en_bpr e) as [bp|]; [|discriminate]. destruct (en_max_thrust e) as [mt|]; [|discriminate].
  bools. eexists; split; [reflexivity|].
  assert (Eh : Q2R 9145 = 9145) by (unfold Q2R; cbn; lra). assert (E4 : Q2R 40 = 40) by (unfold Q2R; cbn; lra).
  assert (Hh : 30000 < Q2R (ac_height a) / ft) by (uc; lra).
  unfold thrust_init. destruct (en_cr_mach e) as [m|]; cbn [option_map].
  - bools. destruct (en_cr_thrust e) as [f|]; [|discriminate]. bools. cbn [option_map].
    rewrite Rltb_true by auto. cbn [eng_bpr eng_max_thrust eng_number Thrust.cruise_mach eng_cruise_thrust Thrust.cruise_alt].
    repeat split; auto; lra.
  - cbn [eng_bpr eng_max_thrust eng_number Thrust.cruise_mach eng_cruise_thrust Thrust.cruise_alt]. repeat split; auto; lra.
Qed.

(** Every Thrust object built without force: take-off and idle thrust positive (from 2000 ft below sea
    level up), climb and cruise thrust defined, at all speeds and temperatures. *)
Theorem C77_thrust_objects : forall ac eng k o, kw_force k <> Some true -> thrust_new d ac eng k = inr o ->
  exists p, thrust_par_of (to_ac o) (er_row (to_eng o)) = Some p /\
  forall tas alt roc dT,
    (-2000 <= alt -> exists F, takeoff_thrust NP p (Fin tas) (Fin alt) (Fin dT) = Fin F /\ 0 < F /\
                     descent_idle NP p (Fin tas) (Fin alt) (Fin dT) = Fin (7 / 100 * F)) /\
    finite (climb_thrust NP p (Fin tas) (Fin alt) (Fin roc) (Fin dT)) /\
    finite (cruise_thrust NP p (Fin tas) (Fin alt) (Fin dT)).
Proof.
  intros ac eng k o Hk H. pose proof (accepted_has_thrust _ _ _ _ Hk H) as Hn.
  destruct (thrust_new_row _ _ _ _ H) as (Ha & _ & He & _).
  destruct (thrust_par_ok _ _ Ha He Hn) as (p & Ep & Hb & Hm & Hnum & Hcm & Hct & _).
  exists p. split; auto. intros tas alt roc dT. split.
  - intros Halt. apply C60_takeoff_and_idle_thrust_positive; auto; lra.
  - apply C21_climb_thrust_defined; auto; lra.
Qed.

(** *** Drag *)
Lemma drag_new_ok : forall ac k o, drag_new d ac k = inr o ->
  let p := drag_par_of o in
  0 < cd0_clean p /\ 0 < k_clean p /\ 0 < wing_area p /\ 0 < cf_c p /\ 0 < mtow p /\ -90 < wing_sweep p < 90.
Proof.
  intros ac k o H. unfold drag_new in H. binds H. injection H as <-.
  apply ship_ac_ok in E. destruct E as [E _]. unfold load_drag_model in E0. binds E0.
  destruct (find _ _) as [r|] eqn:F; [|discriminate]. injection E0 as <-.
  apply find_some in F. destruct F as [F _]. apply (Permutation_in _ (Permutation_sym (sh_polar d SH))) in F.
  pose proof po_checked as C. rewrite forallb_forall in C. specialize (C _ F).
  unfold po_check, ac_check in *. bools. cbn.
  assert (E6 : Q2R 60 = 60) by (unfold Q2R; cbn; lra).
  repeat split; auto; lra.
Qed.

(** Every Drag object: clean drag (with or without wave drag, at non-negative speed) and non-clean
    drag (flaps at any non-negative angle, gear up or down) are defined and positive. *)
Theorem C77_drag_objects : forall ac k o, drag_new d ac k = inr o ->
  forall wave mass tas alt vs dT, 0 <= tas ->
  (exists D, clean NP (drag_par_of o) wave (Fin mass) (Fin tas) (Fin alt) (Fin vs) (Fin dT) = Fin D /\ 0 < D) /\
  (forall flap gear, 0 <= flap <= 90 -> 
     exists D, nonclean NP (drag_par_of o) (Fin mass) (Fin tas) (Fin alt) (Fin flap) (Fin vs) (Fin dT) gear = Fin D /\ 0 < D).
Proof.
  intros ac k o H wave mass tas alt vs dT Ht.
  destruct (drag_new_ok _ _ _ H) as (H1 & H2 & H3 & H4 & H5 & H6).
  split.
  - destruct wave.
    + destruct (C28_clean_drag_bounds_wave (drag_par_of o) mass tas alt vs dT H1 H2 H6 Ht) as (D & E & P & _). eauto.
    + destruct (C28_clean_drag_bounds (drag_par_of o) mass tas alt vs dT H1 H2) as (D & E & P & _). eauto.
  - intros flap gear Hf. rewrite nonclean_NP by (auto; lra). eexists; split; [reflexivity|].
    apply dragR_pos.
    + assert (0 <= flapcdR (drag_par_of o) flap).
      { unfold flapcdR. assert (0 <= lambda_f (drag_par_of o) /\ 0 <= Sf_S (drag_par_of o)) as [L1 L2].
        { unfold drag_new in H. binds H. injection H as <-. unfold load_drag_model in E0. binds E0.
          destruct (find _ _) as [r|] eqn:F; [|discriminate]. injection E0 as <-.
          apply find_some in F. destruct F as [F _]. apply (Permutation_in _ (Permutation_sym (sh_polar d SH))) in F.
          pose proof po_checked as C. rewrite forallb_forall in C. specialize (C _ F).
          unfold po_check in C. bools. cbn. lra. }
        pose proof (Rpower_pos (cf_c (drag_par_of o)) 1.38). pose proof (pow2_ge_0 (sin (flap * PI / 180))).
        apply Rmult_le_pos; auto. apply Rmult_le_pos; auto. apply Rmult_le_pos; lra. }
      assert (0 <= gearcdR (drag_par_of o) gear).
      { unfold gearcdR. destruct gear; [|lra]. pose proof (Rpower_pos (mtow (drag_par_of o)) (-0.215)).
        apply Rmult_le_pos; [|lra]. apply Rmult_le_pos; [|lra]. apply Rlt_le, Rdiv_lt_0_compat; auto. uc. nra. }
      lra.
    + unfold ktotR. apply Rlt_le, Rdiv_lt_0_compat; [lra|]. apply ktot_den; auto; lra.
Qed.

(** *** Fuel flow *)
Lemma path_sine_ex : forall v w, exists s, path_sine v w s.
Proof.
  intros v w. destruct (Req_dec v 0) as [Ev|Ev]; [destruct (Req_dec w 0) as [Ew|Ew]|].
  - exists 0. left. auto.
  - eexists. right. split; [auto|reflexivity].
  - eexists. right. split; [auto|reflexivity].
Qed.
Lemma ff_to_pos : forall e, eng_check e = true -> (0 < ff_take_off e)%Q.
Proof.
  intros e H. unfold eng_check in H. apply andb_true_iff in H. destruct H as [H _].
  apply andb_true_iff in H. destruct H as [H _]. apply andb_true_iff in H. destruct H as [H _].
  apply andb_true_iff in H. destruct H as [H _]. apply andb_true_iff in H. destruct H as [H _].
  unfold up4, ff_take_off in *. destruct (en_ff e) as [[[t c] a] i]. bools.
  apply Rlt_Qlt. replace (Q2R 0) with 0 by (unfold Q2R; cbn; lra). lra.
Qed.

Lemma fuel_new_ok : forall ac eng k o, kw_force k <> Some true -> fuel_new d ac eng k = inr o ->
  exists f, fuel_par_of o = Some f /\ fuel_ok f /\
    thrust_new d ac (Some (get eng (ac_default (fo_ac o)))) k = inr (fo_thrust o) /\ drag_new d ac k = inr (fo_drag o).
Proof.
  intros ac eng k o Hk H. unfold fuel_new in H. binds H. injection H as <-. cbn [fo_thrust fo_drag fo_ac].
  pose proof (accepted_has_thrust _ _ _ _ Hk E1) as Hn.
  assert (Er : er_row (to_eng x1) = er_row x0).
  { unfold thrust_new in E1. binds E1. destruct (_ && _); [discriminate|]. injection E1 as <-. cbn.
    unfold get in E6. cbn in E6.
    rewrite !engine_find in *. 
    assert (U : forall s, upper (strip (upper s)) = upper (strip s)).
    { intros. rewrite strip_upper, upper_idem. reflexivity. }
    rewrite U in E6.
    destruct (find _ _); [|discriminate]. injection E6 as <-. injection E0 as <-. reflexivity. }
  rewrite Er in Hn. apply ship_eng_ok in E0. destruct E0 as [E0 I0]. apply ship_ac_ok in E. destruct E as [E _].
  unfold fuel_par_of. cbn [fo_model fo_eng fo_ac]. destruct x4 as [m sc].
  assert (Hm : fm_check m = true /\ (0 < sc)%Q).
  { unfold load_fuel_model in E4. 
    destruct (find _ _) as [r|] eqn:F; [|discriminate]. apply find_some in F. destruct F as [F _].
    rewrite (sh_fuel d SH) in F. pose proof fm_checked as C. rewrite forallb_forall in C. specialize (C _ F).
    destruct (String.eqb _ "default").
    - injection E4 as <- <-. split; auto. apply ff_to_pos; auto.
    - destruct (negb _).
      + binds E4. injection E4 as <- <-. split; auto. apply ship_eng_ok in E5. destruct E5 as [E5 _].
        apply ff_to_pos in E5, E0. apply Qlt_shift_div_l; auto. rewrite Qmult_0_l. auto.
      + injection E4 as <- <-. split; auto. reflexivity. }
  destruct Hm as [Hm Hs]. apply Qlt_Rlt in Hs. replace (Q2R 0) with 0 in Hs by (unfold Q2R; cbn; lra).
  unfold no_thrust in Hn. unfold eng_check in E0.
  destruct (en_bpr (er_row x0)); [|discriminate]. destruct (en_max_thrust (er_row x0)) as [mt|]; [|discriminate].
  eexists; split; [reflexivity|]. split; [|auto].
  unfold fm_check, ac_check in *. bools.
  assert (Q2R 1000 = 1000) by (unfold Q2R; cbn; lra). assert (Q2R 100 = 100) by (unfold Q2R; cbn; lra).
  constructor; cbn; auto; lra.
Qed.

(** ... and which numbers these are: the parabolic polar with the wing area, span, and maximum take-off mass of the
    aircraft file and the coefficients of the polar file *)
Theorem C77_drag_value : forall ac k o, drag_new d ac k = inr o ->
  forall mass tas alt vs dT rho c, density NP (Fin (si_ft alt)) (Fin dT) = Fin rho -> path_cosine (si_kt tas) (si_fpm vs) c ->
  let a := do_ac o in let p := do_polar o in
  let q := rho * (si_kt tas) ^ 2 / 2 * Q2R (ac_area a) in 0.001 <= q ->
  clean NP (drag_par_of o) false (Fin mass) (Fin tas) (Fin alt) (Fin vs) (Fin dT)
    = Fin (parabolic (Q2R (po_cd0 p)) (Q2R (po_k p)) q (mass * gravity * c)) /\
  forall flap (gear : bool), 0 <= flap ->
  let flaps := Q2R (po_sfs p) * (sin (flap * (PI / 180))) ^ 2 * Q2R (po_lambda p) * Rpower (Q2R (po_cfc p)) 1.38 in
  let wheels := if gear then 3.16e-5 * (Q2R (ac_mtow a) * gravity / Q2R (ac_area a)) * Rpower (Q2R (ac_mtow a)) (-0.215) else 0 in
  let oswald := flap * (if ac_rear a then 0.0046 else 0.0026) in
  let kf := / (/ Q2R (po_k p) + PI * (Q2R (ac_span a) ^ 2 / Q2R (ac_area a)) * oswald) in
  nonclean NP (drag_par_of o) (Fin mass) (Fin tas) (Fin alt) (Fin flap) (Fin vs) (Fin dT) gear
    = Fin (parabolic (Q2R (po_cd0 p) + flaps + wheels) kf q (mass * gravity * c)).
Proof.
  intros ac k o H mass tas alt vs dT rho c Hr Hc a p q Hq.
  destruct (drag_new_ok _ _ _ H) as (H1 & H2 & H3 & H4 & H5 & H6).
  split; [exact (C28_clean_value (drag_par_of o) mass tas alt vs dT rho c Hr Hc Hq)|].
  intros flap gear Hf. 
  exact (C30_nonclean_value (drag_par_of o) mass tas alt flap vs dT gear rho c H2 H3 H4 H5 Hf Hr Hc Hq).
Qed.

(** Every FuelFlow object built without force: the fuel flow at a thrust, and en route, is defined and
    lies strictly between zero and the law's ceiling, as long as the thrust is at most 14.2 times the rated one. *)
Theorem C77_fuel_objects : forall ac eng k o, kw_force k <> Some true -> fuel_new d ac eng k = inr o ->
  exists f, fuel_par_of o = Some f /\
  (forall t, t <= 14.2 * rated f ->
     exists q, at_thrust NP f (Fin t) = Fin q /\ 0 < q < f_n_eng f * fscale f * fc1 f) /\
  (forall wave mass tas alt vs acc dT limit, 0 <= tas ->
     exists t, (t <= 14.2 * rated f ->
       exists q, enroute NP (drag_par_of (fo_drag o)) wave f (Fin mass) (Fin tas) (Fin alt) (Fin vs) (Fin acc) (Fin dT) limit
                 = Fin q /\ 0 < q < f_n_eng f * fscale f * fc1 f) /\
       (exists D s, clean NP (drag_par_of (fo_drag o)) wave (Fin mass) (Fin tas) (Fin alt) (Fin vs) (Fin dT) = Fin D /\
          path_sine (si_kt tas) (si_fpm vs) s /\ t = D + mass * 9.81 * s + mass * acc)).
Proof.
  intros ac eng k o Hk H. destruct (fuel_new_ok _ _ _ _ Hk H) as (f & Ef & Hok & _ & Hd).
  exists f. split; auto.
  assert (A : forall t, t <= 14.2 * rated f -> exists q, at_thrust NP f (Fin t) = Fin q /\ 0 < q < f_n_eng f * fscale f * fc1 f).
  { intros t Ht. destruct (C24_flow_positive_increasing_bounded f Hok t Ht) as (q & E & B & _). eauto. }
  split; auto.
  intros wave mass tas alt vs acc dT limit Ht.
  destruct (C77_drag_objects _ _ _ Hd wave mass tas alt vs dT Ht) as [(D & ED & _) _].
  destruct (path_sine_ex (si_kt tas) (si_fpm vs)) as [s Hs].
  exists (D + mass * 9.81 * s + mass * acc). split; [|eauto 6].
  intros Hb. rewrite (C27_point_mass_balance _ _ _ _ _ _ _ _ _ _ _ _ ED Hs). apply A; auto.
Qed.

(** *** Emissions *)
(** Every Emission object (no engine check exists): for every species the rate is defined and
    non-negative at non-negative fuel flow, below 145442 ft and up to 30000 kt. *)
Theorem C77_emission_objects : forall ac eng k o, emission_new d ac eng k = inr o ->
  let n := Q2R (ac_number (eo_ac o)) in
  let e := er_row (eo_eng o) in
  forall ffac tas alt dT, 0 <= ffac -> Rabs tas <= 30000 -> -4000000 <= alt < 288.15 / 0.0019812 ->
  (exists r, nox NP n (ei_of e (en_nox e)) (Fin ffac) (Fin tas) (Fin alt) (Fin dT) = Fin r /\ 0 <= r) /\
  (exists r, co_hc NP n (ei_of e (en_co e)) (Fin ffac) (Fin tas) (Fin alt) (Fin dT) = Fin r /\ 0 <= r) /\
  (exists r, co_hc NP n (ei_of e (en_hc e)) (Fin ffac) (Fin tas) (Fin alt) (Fin dT) = Fin r /\ 0 <= r).
Proof.
  intros ac eng k o H n e ffac tas alt dT Hf Ht Ha. unfold emission_new in H. binds H. injection H as <-.
  cbn in n, e. apply ship_ac_ok in E. destruct E as [E _]. apply ship_eng_ok in E0. destruct E0 as [E0 _].
  assert (Hn : 0 < n) by (unfold ac_check in E; bools; auto).
  fold e in E0. unfold eng_check in E0. bools.
  assert (B : forall sp, nn4 sp = true -> exists hi, ei_between (ei_of e sp) 0 hi).
  { intros [[[s1 s2] s3] s4] Hs. unfold nn4 in Hs. unfold up4 in H. unfold ei_of, ei_between.
    destruct (en_ff e) as [[[f1 f2] f3] f4]. bools. cbn.
    exists (Q2R s1 + Q2R s2 + Q2R s3 + Q2R s4). repeat split; auto; lra. }
  assert (W : forall sp, nn4 sp = true ->
    (exists r, nox NP n (ei_of e sp) (Fin ffac) (Fin tas) (Fin alt) (Fin dT) = Fin r /\ 0 <= r) /\
    (exists r, co_hc NP n (ei_of e sp) (Fin ffac) (Fin tas) (Fin alt) (Fin dT) = Fin r /\ 0 <= r)).
  { intros sp Hs. destruct (B sp Hs) as [hi Hb].
    destruct (C33_rates_bounded_by_databank _ _ _ n tas alt dT Hb (Rle_refl 0) Hn Ht Ha) as (kn & kc & _ & _ & K).
    destruct (K ffac Hf) as (i & r & s & _ & E1 & _ & E2 & _ & P1 & P2 & _). eauto 6. }
  repeat split; apply W; auto.
Qed.

(** *** Mass *)
(** The mass estimate of every aircraft but the A332 (negative payload room) and the CRJ9 (no range in
    its file) lies between empty mass plus a fifth of the fuel and the maximum take-off mass. *)
Theorem C77_mass_estimates : forall ac s a, aircraft d ac s = inr a -> ac_code a <> "a332"%string -> ac_code a <> "crj9"%string ->
  forall dist lf, 0 <= lf <= 1 ->
  exists m, from_range NP (mass_par_of a) (Fin dist) (Fin lf) false = inr (Fin m) /\
    Q2R (ac_oew a) < m <= Q2R (ac_mtow a).
Proof.
  intros ac s a H N1 N2 dist lf Hl. pose proof (ship_ac_ok _ _ _ H) as [C I].
  assert (R : (0 <= ac_mtow a - ac_oew a - 0.8025 * ac_mfc a)%Q).
  { assert (F : forallb (fun a => String.eqb (ac_code a) "a332" || Qle_bool 0 (ac_mtow a - ac_oew a - 0.8025 * ac_mfc a)) shipped_aircraft = true)
      by (vm_compute; reflexivity).
    rewrite forallb_forall in F. specialize (F _ I). apply orb_true_iff in F. destruct F as [F|F].
    - apply String.eqb_eq in F. contradiction.
    - apply Qle_bool_iff. auto. }
  apply Qle_Rle in R. rewrite !Q2R_minus, Q2R_mult in R. replace (Q2R 0) with 0 in R by (unfold Q2R; cbn; lra).
  unfold ac_check in C. bools.
  destruct (ac_range a) as [rg|] eqn:Eg; [|match goal with E : String.eqb _ _ = true |- _ => apply String.eqb_eq in E; contradiction end]. bools.
  destruct (C35_mass_within_limits (mass_par_of a) (Q2R rg) dist lf) as (m & E & B & _); cbn; auto; try lra.
  - rewrite Eg. reflexivity.
  - exists m. split; auto. cbn in B. unfold fuel_full in B. cbn in B. lra.
Qed.
End Shipped.

(** A piston engine forced onto an airliner is accepted although it has no thrust data: the object's
    thrust is NaN throughout. *)
Theorem C77_forced_engine_refuted : exists o,
  thrust_new shipped0 "A320" (Some "TIO-540-J2B2"%string) (mkKwc None (Some true)) = inr o /\
  thrust_par_of (to_ac o) (er_row (to_eng o)) = None.
Proof.
  destruct (thrust_new shipped0 "A320" (Some "TIO-540-J2B2"%string) (mkKwc None (Some true))) as [e|o] eqn:E.
  - vm_compute in E. discriminate.
  - exists o. split; auto. vm_compute in E. injection E as <-. reflexivity.
Qed.

(** FuelFlow("A320") exists on the shipped data, and C77 applies to it *)
Example C77_ex : exists o f q, fuel_new shipped0 "A320" None (mkKwc None None) = inr o /\ fuel_par_of o = Some f /\
  at_thrust NP f (Fin 50000) = Fin q /\ 0 < q.
Proof.
  destruct (fuel_new shipped0 "A320" None (mkKwc None None)) as [e|o] eqn:E.
  { vm_compute in E. discriminate. }
  destruct (C77_fuel_objects shipped0 shipped0_ships "A320" None (mkKwc None None) o) as (f & Ef & A & _); auto; [discriminate|].
  assert (R : rated f = 2 * 117900).
  { vm_compute in E. injection E as <-. vm_compute in Ef. injection Ef as <-. unfold rated. cbn. unfold Q2R. cbn. lra. }
  destruct (A 50000) as (q & Eq & P); [rewrite R; lra|]. exists o, f, q. repeat split; auto. lra.
Qed.
