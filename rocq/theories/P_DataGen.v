(** * Property C78: trajectories generated from the shipped kinematic models *)
From Coq Require Import String Ascii List Bool Arith Lia Permutation QArith Qreals Reals Lra Psatz.
From Verif Require Import Num NumFacts SpecNum Aero AeroFacts AeroFacts2 AeroFacts3 AeroFacts4 Fuel Phase Py Str StrFacts PropPy DataWrap Build Gen GenFacts GenFacts2
  Kinematic Params PropFacts P_Gen P_Gen2 P_Data P_Kin.
Import ListNotations.
Open Scope string_scope.
Open Scope R_scope.

(** ** Specification *)
(** a uniform draw lies between the limits of its variable *)
Definition drawn (v : wvar) (x : R) : Prop := w_min v <= x <= w_max v.
Definition climb_draws (w : wrapdata) (c : cdraws) : Prop :=
  drawn (climb_const_vcas w) (d_cas c) /\ drawn (climb_const_mach w) (d_mach c) /\ drawn (cruise_alt w) (d_alt c) /\
  drawn (climb_vs_pre_concas w) (d_vspre c) /\ drawn (climb_vs_concas w) (d_vscas c) /\ drawn (climb_vs_conmach w) (d_vsmach c).
Definition descent_draws (w : wrapdata) (c : ddraws) : Prop :=
  drawn (cruise_alt w) (g_alt c) /\ drawn (descent_const_mach w) (g_mach c) /\ drawn (descent_const_vcas w) (g_cas c) /\
  drawn (descent_vs_conmach w) (g_vsmach c) /\ drawn (descent_vs_concas w) (g_vscas c) /\ drawn (descent_vs_post_concas w) (g_vspost c).
Definition cruise_draws (w : wrapdata) (c : rdraws) : Prop :=
  drawn (cruise_range w) (q_range c) /\ drawn (cruise_alt w) (q_alt c) /\ drawn (cruise_mach w) (q_mach c).
(** keyword arguments: positive if given *)
Definition nonneg_if_given (o : option R) : Prop := match o with Some x => 0 <= x | None => True end.
Definition pos_if_given (o : option R) : Prop := match o with Some x => 0 < x | None => True end.

(** ** The shipped models *)
Definition posv (v : wvar) : Prop := 0 < w_min v /\ w_min v <= w_def v <= w_max v.
Definition negv (v : wvar) : Prop := w_min v <= w_def v <= w_max v /\ w_max v < 0.
Record wrap_good (w : wrapdata) : Prop := mkGood {
  wg_tof : posv (takeoff_speed w); wg_acc : posv (takeoff_acceleration w); wg_ic : posv (initclimb_vs w);
  wg_ccas : posv (climb_const_vcas w); wg_cmach : posv (climb_const_mach w); wg_chcas : posv (climb_cross_alt_concas w);
  wg_cpre : posv (climb_vs_pre_concas w); wg_cvcas : posv (climb_vs_concas w); wg_cvmach : posv (climb_vs_conmach w);
  wg_range : 0 < w_def (cruise_range w); wg_alt : posv (cruise_alt w); wg_mach : posv (cruise_mach w);
  wg_dmach : posv (descent_const_mach w); wg_dcas : posv (descent_const_vcas w); wg_dhcas : posv (descent_cross_alt_concas w);
  wg_dvmach : negv (descent_vs_conmach w); wg_dvcas : negv (descent_vs_concas w); wg_dpost : negv (descent_vs_post_concas w);
  wg_app : posv (finalapp_vcas w); wg_fa : negv (finalapp_vs w); wg_brk : negv (landing_acceleration w);
  (* relations between variables *)
  wg_r1 : 1.001 * w_def (takeoff_speed w) <= w_min (climb_const_vcas w);
  wg_r2 : w_def (takeoff_speed w) <= 295 * w_min (climb_const_mach w);
  wg_r3 : w_max (descent_const_vcas w) <= w_min (descent_const_mach w) * a0;
  wg_r4 : w_max (descent_const_vcas w) <= w_min (cruise_mach w) * a0;
  wg_r5 : w_def (takeoff_speed w) <= 295 * w_min (cruise_mach w);
  wg_app60 : 60 <= w_def (finalapp_vcas w); wg_brk15 : -1.5 <= w_def (landing_acceleration w);
  wg_hcas : 1 <= w_def (descent_cross_alt_concas w) }.

Definition nums (r : wrrec) (a : accessor) : Q * Q * Q := match numbers r a with Some q => q | None => (0, 0, 0)%Q end.
Definition nlo (r : wrrec) (a : accessor) : Q := let '(_, l, _) := nums r a in l.
Definition nhi (r : wrrec) (a : accessor) : Q := let '(_, _, h) := nums r a in h.
Definition ndf (r : wrrec) (a : accessor) : Q := let '(o, _, _) := nums r a in o.
Definition relations (r : wrrec) : bool :=
  Qle_bool (1.001 * ndf r K_takeoff_speed) (nlo r K_climb_const_vcas)
  && Qle_bool (ndf r K_takeoff_speed) (295 * nlo r K_climb_const_mach)
  && Qle_bool (nhi r K_descent_const_vcas) (nlo r K_descent_const_mach * 340)
  && Qle_bool (nhi r K_descent_const_vcas) (nlo r K_cruise_mach * 340)
  && Qle_bool (ndf r K_takeoff_speed) (295 * nlo r K_cruise_mach)
  && Qle_bool 60 (ndf r K_finalapp_vcas) && Qle_bool (-1.5) (ndf r K_landing_acceleration) && Qle_bool 1 (ndf r K_descent_cross_alt_concas).
Lemma relations_checked : forallb relations shipped_wrap = true.
Proof. vm_compute. reflexivity. Qed.

Definition vof (r : wrrec) (a : accessor) : wvar := mkVar (Q2R (ndf r a)) (Q2R (nlo r a)) (Q2R (nhi r a)).

Section Shipped.
Context (d : db) (SH : ships d).

Lemma access_vof : forall ac s r a, wrap_new d ac s = inr r -> access r a = inr (vof r a).
Proof.
  intros ac s r a H. destruct (C79_accessors_of_shipped_models d SH ac s r a H) as (v & E & _). rewrite E.
  unfold vof, ndf, nlo, nhi, nums. unfold access, get_var in E. unfold numbers.
  destruct (find _ _) as [[n [[o lo] hi]]|]; [|discriminate]. cbn. congruence.
Qed.

Lemma vof_pos : forall ac s r a, wrap_new d ac s = inr r -> downward a = false -> negative_limit (wr_code r) a = false ->
  default_outside (wr_code r) a = false -> posv (vof r a).
Proof.
  intros ac s r a H D N O. destruct (C79_accessors_of_shipped_models d SH ac s r a H) as (v & E & _ & _ & P & B).
  rewrite (access_vof _ _ _ a H) in E. injection E as <-. specialize (P D). split; [apply P; auto|apply B; auto].
Qed.
Lemma vof_neg : forall ac s r a, wrap_new d ac s = inr r -> downward a = true ->
  default_outside (wr_code r) a = false -> negv (vof r a).
Proof.
  intros ac s r a H D O. destruct (C79_accessors_of_shipped_models d SH ac s r a H) as (v & E & _ & P & _ & B).
  rewrite (access_vof _ _ _ a H) in E. injection E as <-. specialize (P D). split; [apply B; auto|apply P; auto].
Qed.
Lemma no_exception : forall r a, acc_eqb a K_cruise_range = false -> acc_eqb a K_cruise_init_alt = false -> acc_eqb a K_cruise_max_alt = false ->
  negative_limit (wr_code r) a = false /\ default_outside (wr_code r) a = false.
Proof. intros r a E1 E2 E3. unfold negative_limit, default_outside. rewrite E1, E2, E3, !andb_false_r. auto. Qed.

Lemma wrap_good_of : forall ac s r, wrap_new d ac s = inr r -> exists w, wrap_of r = inr w /\ wrap_good w.
Proof.
  intros ac s r H. unfold wrap_of. rewrite !(access_vof _ _ _ _ H). cbn [bind]. eexists; split; [reflexivity|].
  assert (P : forall a, downward a = false -> acc_eqb a K_cruise_range = false -> acc_eqb a K_cruise_init_alt = false ->
    acc_eqb a K_cruise_max_alt = false -> posv (vof r a)).
  { intros a D E1 E2 E3. destruct (no_exception r a E1 E2 E3). eapply vof_pos; eauto. }
  assert (N : forall a, downward a = true -> acc_eqb a K_cruise_range = false -> acc_eqb a K_cruise_init_alt = false ->
    acc_eqb a K_cruise_max_alt = false -> negv (vof r a)).
  { intros a D E1 E2 E3. destruct (no_exception r a E1 E2 E3). eapply vof_neg; eauto. }
  assert (R0 : 0 < w_def (vof r K_cruise_range)).
  { destruct (C79_accessors_of_shipped_models d SH ac s r K_cruise_range H) as (v & E & _ & _ & Q & _).
    rewrite (access_vof _ _ _ _ H) in E. injection E as <-. apply Q. reflexivity. }
  pose proof relations_checked as F. rewrite forallb_forall in F. specialize (F _ (wrap_new_row d SH _ _ _ H)).
  unfold relations in F. repeat (apply andb_true_iff in F; let G := fresh "G" in destruct F as [F G]).
  apply qle_R in F, G, G0, G1, G2, G3, G4, G5. rewrite ?Q2R_mult in *.
  replace (Q2R 60) with 60 in * by (unfold Q2R; cbn; lra). replace (Q2R 1) with 1 in * by (unfold Q2R; cbn; lra).
  replace (Q2R 295) with 295 in * by (unfold Q2R; cbn; lra). replace (Q2R 340) with 340 in * by (unfold Q2R; cbn; lra).
  assert (P1 := P K_descent_const_mach eq_refl eq_refl eq_refl eq_refl). assert (P2 := P K_cruise_mach eq_refl eq_refl eq_refl eq_refl).
  constructor; try (apply P; reflexivity); try (apply N; reflexivity); auto;
    cbn [w_def w_min w_max vof takeoff_speed climb_const_vcas climb_const_mach descent_const_vcas descent_const_mach cruise_mach finalapp_vcas landing_acceleration descent_cross_alt_concas];
    unfold posv in *; cbn [w_def w_min w_max vof] in *; unfold a0; try lra; nra.
Qed.

Lemma kts_posv : 0 < kts. Proof. unfold kts; lra. Qed.

(** ** Climbs *)
Lemma valid_climb_shipped : forall w k c, wrap_good w -> climb_draws w c ->
  pos_if_given (k_dt k) -> pos_if_given (k_cas_const_cl k) -> pos_if_given (k_mach_const_cl k) ->
  valid_climb (climb_params w k c).
Proof.
  intros w k c G (D1 & D2 & D3 & D4 & D5 & D6) H1 H2 H3. destruct G. unfold posv, drawn, pos_if_given in *.
  assert (K := kts_posv).
  unfold valid_climb, climb_params. cbn [c_dt c_atof c_cas c_mach c_vsic c_vspre c_vscas c_vsmach].
  assert (Q1 : 0 < d_cas c / kts) by (apply Rdiv_lt_0_compat; lra).
  assert (Q2 : 0 < w_def (climb_const_vcas w) / kts) by (apply Rdiv_lt_0_compat; lra).
  assert (Q3 : 0 < w_def (takeoff_speed w) / kts) by (apply Rdiv_lt_0_compat; lra).
  pose proof (Rmax_r (getkw (k_cas_const_cl k) (w_def (climb_const_vcas w) / kts)) (w_def (takeoff_speed w) / kts)).
  destruct (k_dt k), (k_cas_const_cl k), (k_mach_const_cl k), (k_random k) as [[|]|]; cbn [getkw] in *; repeat split; lra.
Qed.

(** every climb generated from a shipped model ends, whatever the draws; with the model's own speeds it
    passes through the flight segments in order *)
Theorem C78_climbs : forall ac s a r, gen_new d ac s = inr (a, r) ->
  exists w, wrap_of r = inr w /\ forall k c, climb_draws w c ->
    pos_if_given (k_dt k) -> pos_if_given (k_cas_const_cl k) -> pos_if_given (k_mach_const_cl k) ->
    (exists fuel rows, climb (climb_params w k c) fuel = Some rows) /\
    forall fuel rows, climb (climb_params w k c) fuel = Some rows ->
      (exists h, r_h (last_row rows) = Fin h /\ c_alt (climb_params w k c) * 0.3048 <= h) /\
      (k_cas_const_cl k = None -> k_mach_const_cl k = None ->
       forall i, (S i < length rows)%nat ->
         (seg_rank (r_seg (nth i rows (last_row rows))) <= seg_rank (r_seg (nth (S i) rows (last_row rows))) <= 6)%nat).
Proof.
  intros ac s a r H. unfold gen_new in H. binds H. injection H as <- <-.
  destruct (wrap_good_of _ _ _ E0) as (w & Ew & G). exists w. split; auto.
  intros k c Dc H1 H2 H3. pose proof (valid_climb_shipped w k c G Dc H1 H2 H3) as V. split; [apply C46_climb_terminates; auto|].
  intros fuel rows E1. split.
  - assert (X : exists hx, crossover_alt NP (Fin (c_cas (climb_params w k c) * kts)) (Fin (c_mach (climb_params w k c))) (Fin 0) = Fin hx).
    { rewrite crossover_NP; eauto. apply Rmult_lt_0_compat; [apply V|apply kts_posv]. }
    destruct X as [hx X]. destruct (C47_overshoot _ _ _ hx V E1 X) as (h & Eh & _ & L & _). exists h. split; auto.
  - intros K1 K2. destruct G. destruct Dc as (D1 & D2 & _). unfold posv, drawn in *.
    apply (C67_segments_in_order _ _ _ V E1); unfold climb_params; cbn [c_vtof c_cas c_mach]; rewrite ?K1, ?K2; cbn [getkw].
    + lra.
    + assert (K := kts_posv). 
      destruct (getkw (k_random k) false).
      * replace (d_cas c / kts * kts) with (d_cas c) by (field; lra). lra.
      * apply Rle_trans with (w_def (climb_const_vcas w) / kts * kts).
        -- replace (w_def (climb_const_vcas w) / kts * kts) with (w_def (climb_const_vcas w)) by (field; lra). lra.
        -- apply Rmult_le_compat_r; [lra|]. apply Rmax_l.
    + destruct (getkw (k_random k) false); lra.
Qed.

(** ** Descents *)
Lemma valid_descent_shipped : forall w k c, wrap_good w -> descent_draws w c ->
  pos_if_given (k_dt k) -> nonneg_if_given (k_alt_cr k) -> k_cas_const_de k = None ->
  match k_mach_const_de k with Some m => w_max (descent_const_vcas w) <= m * a0 | None => True end ->
  valid_descent (descent_params w k c).
Proof.
  intros w k c G (D1 & D2 & D3 & D4 & D5 & D6) H1 H2 H3 H4. destruct G. unfold posv, negv, drawn, pos_if_given, nonneg_if_given in *.
  assert (K := kts_posv). assert (A : a0 = 340.293988) by reflexivity.
  unfold valid_descent, descent_params. rewrite H3. cbn [e_dt e_alnd e_cas e_mach e_vsmach e_vscas e_vspost e_vsfa e_hcas e_alt getkw].
  assert (Q1 : 0 < g_cas c / kts) by (apply Rdiv_lt_0_compat; lra).
  assert (Q2 : 0 < w_def (descent_const_vcas w) / kts) by (apply Rdiv_lt_0_compat; lra).
  assert (Q3 : g_cas c / kts * kts = g_cas c) by (field; lra).
  assert (Q4 : w_def (descent_const_vcas w) / kts * kts = w_def (descent_const_vcas w)) by (field; lra).
  assert (Q5 : 0 < g_alt c * 1000 / ft) by (apply Rdiv_lt_0_compat; [lra|uc; lra]).
  assert (Q6 : 0 < w_def (cruise_alt w) * 1000 / ft) by (apply Rdiv_lt_0_compat; [lra|uc; lra]).
  assert (Ra : 0 <= round_fl (getkw (k_alt_cr k) (if getkw (k_random k) false then g_alt c * 1000 / ft else w_def (cruise_alt w) * 1000 / ft))).
  { apply round_fl_ge0. destruct (k_alt_cr k); cbn [getkw]; [lra|]. destruct (getkw (k_random k) false); lra. }
  assert (Hm : forall m, w_max (descent_const_vcas w) <= m * a0 -> 0 <= m).
  { intros m Hm. rewrite A in Hm. lra. }
  assert (W : w_min (descent_const_mach w) * a0 <= w_def (descent_const_mach w) * a0) by (rewrite A; nra).
  assert (W2 : w_min (descent_const_mach w) * a0 <= g_mach c * a0) by (rewrite A; nra).
  destruct (k_dt k), (k_mach_const_de k) as [m|], (getkw (k_random k) false); cbn [getkw] in *; rewrite ?Q3, ?Q4;
    try (pose proof (Hm m H4)); repeat split; try lra.
Qed.

(** with the model's own speeds (or a Mach number not slower at sea level than the fastest constant CAS) every descent
    ends, with the aircraft on the ground, for time steps up to 30 s *)
Theorem C78_descents : forall ac s a r, gen_new d ac s = inr (a, r) ->
  exists w, wrap_of r = inr w /\ forall k c, descent_draws w c ->
    pos_if_given (k_dt k) -> nonneg_if_given (k_alt_cr k) -> k_cas_const_de k = None -> k_mach_const_de k = None ->
    (exists fuel rows, descent (descent_params w k c) fuel = Some rows) /\
    forall fuel rows, descent (descent_params w k c) fuel = Some rows -> getkw (k_dt k) 1 <= 30 ->
      r_h (last_row rows) = Fin 0 /\ r_seg (last_row rows) = Some sLD.
Proof.
  intros ac s a r H. unfold gen_new in H. binds H. injection H as <- <-.
  destruct (wrap_good_of _ _ _ E0) as (w & Ew & G). exists w. split; auto.
  intros k c Dc H1 H2 H3 H4.
  assert (V : valid_descent (descent_params w k c)) by (apply valid_descent_shipped; auto; rewrite H4; auto).
  split; [apply C49_descent_terminates; auto|].
  intros fuel rows E1 Hdt. destruct G. destruct Dc as (D1 & D2 & D3 & _). unfold posv, negv, drawn, pos_if_given, nonneg_if_given in *.
  assert (Hd0 : 0 < getkw (k_dt k) 1) by (destruct (k_dt k); cbn [getkw]; lra).
  assert (Hb : - w_def (landing_acceleration w) * getkw (k_dt k) 1 <= 45) by nra.
  assert (K := kts_posv). assert (A : a0 = 340.293988) by reflexivity. rewrite A in *.
  assert (Q3 : g_cas c / kts * kts = g_cas c) by (field; lra).
  assert (Q4 : w_def (descent_const_vcas w) / kts * kts = w_def (descent_const_vcas w)) by (field; lra).
  assert (Cas : 60 <= w_min (descent_const_vcas w)).
  { destruct (C79_defaults_in_order d SH _ _ _ E0) as (_ & _ & _ & _ & _ & (_ & _) & _).
    pose proof (wrap_new_row d SH _ _ _ E0) as I.
    assert (F : forallb (fun r => Qle_bool 60 (nlo r K_descent_const_vcas)) shipped_wrap = true) by (vm_compute; reflexivity).
    rewrite forallb_forall in F. specialize (F _ I). apply qle_R in F. replace (Q2R 60) with 60 in F by (unfold Q2R; cbn; lra).
    unfold wrap_of in Ew. rewrite !(access_vof _ _ _ _ E0) in Ew. cbn [bind] in Ew. injection Ew as <-. exact F. }
  apply (C49_ends_on_ground _ _ _ V E1); unfold descent_params; rewrite ?H3, ?H4; cbn [e_dt e_vapp e_hcas e_alnd e_cas e_mach getkw]; try lra.
  - destruct (getkw (k_random k) false); rewrite ?Q3, ?Q4; lra.
  - destruct (getkw (k_random k) false); lra.
Qed.

(** ** Complete flights *)
(** a complete flight from a shipped model, with no speed keyword, always comes to an end: climb, cruise and descent
    joined without gaps *)
Theorem C78_complete_flights : forall ac s a r, gen_new d ac s = inr (a, r) ->
  exists w, wrap_of r = inr w /\ forall k dr dc dd, cruise_draws w dr -> climb_draws w dc -> descent_draws w dd ->
    k_cas_const_cl k = None -> k_mach_const_cl k = None -> k_cas_const_de k = None -> k_mach_const_de k = None -> k_mach_cr k = None ->
    pos_if_given (k_dt k) -> getkw (k_dt k) 1 <= 200 -> 
    nonneg_if_given (k_alt_cr k) -> 0 <= x_distance (cruise_params w k dr) ->
    (exists fuel rows, complete w k dr dc dd fuel = Some (inr rows)) /\
    forall fuel res, complete w k dr dc dd fuel = Some res ->
    exists rows l n1 n2, res = inr rows /\ rows = map fin_row l /\
      (0 < n1)%nat /\ (n1 < n2)%nat /\ (n2 < length l)%nat /\
      a_t (at_ l 0) = 0 /\ a_s (at_ l 0) = 0 /\
      (forall i, (S i < length l)%nat -> a_s (at_ l i) <= a_s (at_ l (S i)) /\
         (S i <> n1 -> S i <> n2 -> a_t (at_ l i) < a_t (at_ l (S i))) /\
         (S i = n1 \/ S i = n2 -> a_t (at_ l i) = a_t (at_ l (S i)) /\ a_s (at_ l i) = a_s (at_ l (S i)))).
Proof.
  intros ac s a r H. unfold gen_new in H. binds H. injection H as <- <-.
  destruct (wrap_good_of _ _ _ E0) as (w & Ew & G). exists w. split; auto.
  intros k dr dc dd Dr Dc Dd K1 K2 K3 K4 K5 Hd Hd2 Ha Hx.
  assert (M : w_min (cruise_mach w) <= x_mach (cruise_params w k dr)).
  { unfold cruise_params. cbn [x_mach]. rewrite K5. cbn [getkw]. destruct Dr as (_ & _ & Dr). destruct G. unfold posv, drawn in *.
    destruct (getkw (k_random k) false); lra. }
  assert (Mp : 0 < w_min (cruise_mach w)) by apply (wg_mach w G).
  apply C51_complete_flight; auto; try lra.
  - apply valid_climb_shipped; auto; unfold climb_kw; cbn [k_dt k_cas_const_cl k_mach_const_cl]; rewrite ?K1; auto.
    + cbn [pos_if_given]. auto.
    + cbn [pos_if_given]. lra.
  - apply valid_descent_shipped; auto; unfold descent_kw; cbn [k_dt k_alt_cr k_cas_const_de k_mach_const_de]; auto.
    + cbn [nonneg_if_given]. destruct (k_alt_cr k) as [xa|] eqn:EA; cbn [getkw]; [exact Ha|].
      unfold cruise_params. cbn [x_alt]. rewrite EA. cbn [getkw]. apply round_fl_ge0.
      destruct Dr as (_ & Dr & _). destruct G. unfold posv, drawn in *.
      assert (F : 0 < ft) by (uc; lra).
      destruct (getkw (k_random k) false); apply Rlt_le, Rdiv_lt_0_compat; lra.
    + destruct G. unfold a0 in *. nra.
  - cbn. destruct G. lra.
Qed.

(** the cruise distance asked for is positive, except for random flights of three models *)
Theorem C78_cruise_distance : forall ac s a r w k dr, gen_new d ac s = inr (a, r) -> wrap_of r = inr w -> cruise_draws w dr ->
  k_range_cr k = None -> (getkw (k_random k) false = false \/ ~ In (wr_code r) ["a343"; "b744"; "b789"]) ->
  0 < x_distance (cruise_params w k dr).
Proof.
  intros ac s a r w k dr H Ew (Dr & _) Hk Hc. unfold gen_new in H. binds H. injection H as <- <-.
  unfold wrap_of in Ew. rewrite !(access_vof _ _ _ _ E0) in Ew. cbn [bind] in Ew. injection Ew as <-.
  unfold cruise_params, drawn in *. cbn [x_distance cruise_range] in *. rewrite Hk. cbn [getkw].
  destruct (C79_accessors_of_shipped_models d SH _ _ _ K_cruise_range E0) as (v & E1 & _ & _ & P & _).
  rewrite (access_vof _ _ _ _ E0) in E1. injection E1 as <-. destruct (P eq_refl) as (P1 & _ & P2).
  destruct (getkw (k_random k) false); [|lra]. destruct Hc as [Hc|Hc]; [discriminate|].
  assert (0 < w_min (vof x0 K_cruise_range)); [|lra]. apply P2. unfold negative_limit.
  destruct (mem (wr_code x0) ["a343"; "b744"; "b789"]) eqn:M; auto. exfalso. apply Hc.
  unfold mem in M. rewrite existsb_exists in M. destruct M as (y & I & Ey). apply String.eqb_eq in Ey. subst. auto.
Qed.
End Shipped.

(** For three models the lower limit of the cruise range is negative: a random draw can ask for a cruise of
    negative length, and the generated cruise is then a single point. *)
Theorem C78_random_cruise_range_refuted : forall p, 0 < x_dt p -> 0 < x_mach p -> x_distance p < 0 ->
  exists h v, cruise p 1 = Some [mkRow (Fin 0) (Fin h) (Fin 0) (Fin v) (Fin 0) None].
Proof.
  intros p Hd Hm Hx. exists (x_alt p * ft), (xvR p). rewrite cruise_runR. cbn [run]. unfold cr_stepR. cbn [fst snd].
  assert (Hv : 0 < xvR p) by (apply Rmult_lt_0_compat; auto; apply aR_pos).
  assert (Hp : 0 < xvR p * x_dt p) by (apply Rmult_lt_0_compat; auto).
  rewrite Rltb_true by lra. unfold cruise_row, x_v. change (x_hcr p) with (Fin (x_alt p * ft)). rewrite mach2tas_NP. reflexivity.
Qed.
Theorem C78_negative_range_limit_refuted : exists a r w, gen_new shipped0 "A343" false = inr (a, r) /\ wrap_of r = inr w /\
  w_min (cruise_range w) < 0.
Proof.
  destruct (gen_new shipped0 "A343" false) as [e|[a r]] eqn:E; [vm_compute in E; discriminate|].
  assert (W : wrap_new shipped0 "A343" (Some false) = inr r).
  { unfold gen_new in E. binds E. congruence. }
  unfold gen_new in E.
  exists a, r. unfold wrap_of. rewrite !(access_vof shipped0 shipped0_ships _ _ _ _ W). cbn [bind].
  eexists. split; auto. split; [reflexivity|]. cbn [cruise_range vof w_min].
  assert (N : nlo r K_cruise_range = (-1865)%Q) by (vm_compute in W; injection W as <-; reflexivity).
  rewrite N. unfold Q2R. cbn. lra.
Qed.

(** FlightGenerator("A320").complete() *)
Example C78_ex : exists a r w, gen_new shipped0 "A320" false = inr (a, r) /\ wrap_of r = inr w /\
  forall dr dc dd, cruise_draws w dr -> climb_draws w dc -> descent_draws w dd ->
  exists fuel rows, complete w no_kw dr dc dd fuel = Some (inr rows).
Proof.
  destruct (gen_new shipped0 "A320" false) as [e|[a r]] eqn:E; [vm_compute in E; discriminate|].
  destruct (C78_complete_flights shipped0 shipped0_ships _ _ _ _ E) as (w & Ew & C).
  exists a, r, w. repeat split; auto. intros dr dc dd H1 H2 H3.
  apply C; auto; cbn; auto; try lra.
  unfold gen_new in E. binds E. injection E as <- <-.
  destruct (wrap_good_of shipped0 shipped0_ships _ _ _ E1) as (w' & Ew' & G).
  rewrite Ew in Ew'. injection Ew' as <-. pose proof (wg_range w G). lra.
Qed.
