(** * Property C84: which fuel model an aircraft and engine get, and how it relates to the engine databank *)
From Coq Require Import String Ascii List Bool Arith Lia Permutation QArith Qreals Reals Lra Psatz.
From Interval Require Import Tactic.
From Verif Require Import Num NumFacts SpecNum Aero AeroFacts Thrust ThrustFacts Drag DragFacts Fuel FuelFacts Emission Mass
  Py Str StrFacts PropPy DataAc DataPolar DataWrap DataEng Build Gen Params PropFacts P_Prop P_Thrust P_Drag P_Fuel P_Emission P_Data.
Import ListNotations.
Open Scope string_scope.
Open Scope R_scope.

(** take-off fuel flow of a databank row, kg/s *)
Definition ff_to (e : engrec) : R := Q2R (ff_take_off e).
(** the fuel flow per kg/s of take-off fuel flow of the reference engine: [base] is that reference *)
Definition reference (d : db) (m : fmrec) (base : R) : Prop :=
  (fm_type m = "default" /\ base = 1) \/
  (fm_type m <> "default" /\ exists ref, engine d (fm_engine m) = inr ref /\ base = ff_to (er_row ref)).

Lemma default_rows : forallb (fun r => Bool.eqb (String.eqb (lower (fm_type r)) "default") (String.eqb (fm_type r) "default")) shipped_fuel = true.
Proof. vm_compute. reflexivity. Qed.
Lemma default_exists : existsb (fun r => String.eqb (lower (fm_type r)) "default") shipped_fuel = true.
Proof. vm_compute. reflexivity. Qed.
Lemma ref_exists : forallb (fun r => String.eqb (fm_type r) "default" || match engine shipped0 (fm_engine r) with inr e => qlt 0 (ff_take_off (er_row e)) | inl _ => false end) shipped_fuel = true.
Proof. vm_compute. reflexivity. Qed.

Opaque shipped_fuel shipped_engines shipped0 engine mem find.
Section Shipped.
Context (d : db) (SH : ships d).

(** the row is the one of the aircraft type as written by the user, else the default row; the scale is the
    take-off fuel flow of the engine over that of the row's reference engine *)
Theorem C84_model_selection : forall ac eng k o, fuel_new d ac eng k = inr o ->
  exists m scale base, fo_model o = (m, scale) /\ In m (d_fuel d) /\
    ((exists r, In r (d_fuel d) /\ lower (fm_type r) = lower ac) -> lower (fm_type m) = lower ac) /\
    ((forall r, In r (d_fuel d) -> lower (fm_type r) <> lower ac) -> fm_type m = "default") /\
    reference d m base /\ 0 < base /\ Q2R scale * base = ff_to (er_row (fo_eng o)).
Proof.
  intros ac eng k o H. unfold fuel_new in H. binds H. injection H as <-. cbn [fo_model fo_eng].
  destruct x4 as [m sc]. exists m, sc. pose proof E4 as E5. unfold load_fuel_model in E4.
  rewrite (sh_fuel d SH) in *.
  set (code := if mem (lower ac) (map (fun r => lower (fm_type r)) shipped_fuel) then lower ac else "default") in *.
  destruct (find (fun r => String.eqb (lower (fm_type r)) code) shipped_fuel) as [r|] eqn:F; [|discriminate].
  apply find_some in F. destruct F as [F1 F2]. apply String.eqb_eq in F2.
  assert (Em : m = r).
  { destruct (String.eqb code "default"); [congruence|]. destruct (negb _); [|congruence]. binds E4. congruence. }
  subst r. pose proof default_rows as DR. rewrite forallb_forall in DR. specialize (DR _ F1). apply eqb_prop in DR.
  pose proof ref_exists as RE. rewrite forallb_forall in RE. specialize (RE _ F1).
  destruct (String.eqb (fm_type m) "default") eqn:D.
  - (* default row *)
    apply String.eqb_eq in DR. rewrite F2 in DR.
    rewrite DR in E4. rewrite String.eqb_refl in E4. injection E4 as <-.
    apply String.eqb_eq in D. exists 1. split; [reflexivity|]. split; [exact F1|]. split.
    { intros (r & R1 & R2). unfold code in F2. destruct (mem (lower ac) _) eqn:M; [exact F2|].
      exfalso. assert (T : mem (lower ac) (map (fun r => lower (fm_type r)) shipped_fuel) = true); [|congruence].
      apply mem_in, in_map_iff. eauto. }
    split; [intros _; exact D|]. split; [left; auto|]. split; [lra|]. unfold ff_to. ring.
  - assert (Dn : fm_type m <> "default") by (apply String.eqb_neq; exact D).
    rewrite F2 in DR. rewrite DR in E4. cbn [orb] in RE. rewrite <- (ship_engine d) in RE by exact SH.
    destruct (engine d (fm_engine m)) as [e|ref] eqn:ER; [discriminate|]. apply qlt_R in RE.
    replace (Q2R 0) with 0 in RE by (unfold Q2R; cbn; lra).
    exists (ff_to (er_row ref)). split; [reflexivity|]. split; [exact F1|].
    assert (Hc : code = lower ac).
    { unfold code in *. destruct (mem _ _); auto. rewrite String.eqb_refl in DR. discriminate. }
    split; [intros _; congruence|]. split; [intros N; exfalso; apply (N m F1); congruence|].
    split; [right; split; [exact Dn|]; exists ref; auto|]. split; [exact RE|].
    destruct (String.eqb (upper (get eng (ac_default x))) (upper (fm_engine m))) eqn:Et; cbn [negb] in E4.
    + injection E4 as <-. apply String.eqb_eq in Et.
      rewrite engine_find in E0, ER. 
      assert (U : forall s, upper (strip s) = strip (upper s)) by (intros; rewrite strip_upper; reflexivity).
      rewrite U in E0, ER. rewrite Et in E0. destruct (find _ (d_engines d)) as [r|]; [|discriminate].
      injection E0 as <-. injection ER as <-. cbn [er_row]. unfold ff_to. rewrite Rmult_comm. unfold Q2R at 2. cbn. field.
    + cbn [bind] in E4. injection E4 as <-. unfold ff_to in *. rewrite Q2R_div.
      * field. lra.
      * intros Z. apply Qeq_eqR in Z. replace (Q2R 0) with 0 in Z by (unfold Q2R; cbn; lra). lra.
Qed.
End Shipped.
Transparent shipped_fuel shipped_engines shipped0 engine mem find.

(** ** Against the databank *)
(** one row, per kg/s of its reference take-off fuel flow *)
Definition row_law (m : fmrec) (x : R) : R :=
  Q2R (fm_c1 m) * (1 - exp (- (Q2R (fm_c2 m) * x * exp (Q2R (fm_c3 m) * x)))).
Definition ref_ff (m : fmrec) : Q :=
  if String.eqb (fm_type m) "default" then 1 else match engine shipped0 (fm_engine m) with inr e => ff_take_off (er_row e) | inl _ => 1 end.
Definition ref_ffs : list Q := Eval vm_compute in map ref_ff shipped_fuel.
Lemma ref_ffs_eq : map ref_ff shipped_fuel = ref_ffs.
Proof. vm_compute. reflexivity. Qed.
Ltac row_tac := unfold row_law; cbn [fm_c1 fm_c2 fm_c3]; unfold Q2R; cbn [Qnum Qden]; interval.
Definition row_bounds (m : fmrec) (b : Q) : Prop := forall x1 x0, 0.99999 <= x1 <= 1 -> 0.034 <= x0 <= 0.0341 ->
  0.81 * Q2R b <= row_law m x1 <= 1.04 * Q2R b /\ 0.036 * Q2R b <= row_law m x0 <= 0.092 * Q2R b.
Lemma rows_bounds : Forall (fun mb => row_bounds (fst mb) (snd mb)) (combine shipped_fuel ref_ffs).
Proof.
  unfold shipped_fuel, ref_ffs. cbn [combine].
  repeat (apply Forall_cons; [unfold row_bounds; cbn [fst snd]; intros x1 x0 H1 H0; (split; split); row_tac|]). apply Forall_nil.
Qed.
Lemma row_bounds_of : forall m, In m shipped_fuel -> row_bounds m (ref_ff m).
Proof.
  intros m H. pose proof rows_bounds as F. rewrite Forall_forall in F. rewrite <- ref_ffs_eq in F.
  apply (F (m, ref_ff m)). revert H. generalize shipped_fuel. induction l as [|a l IH]; cbn; [tauto|].
  intros [->|H]; [left; reflexivity|right; auto].
Qed.
Lemma limR_full : 0.99999 <= limR 1 <= 1.
Proof. unfold limR, sp. split; interval. Qed.
Lemma limR_idle : 0.034 <= limR 0 <= 0.0341.
Proof. unfold limR, sp. split; interval with (i_prec 60). Qed.

Section Shipped2.
Context (d : db) (SH : ships d).
Opaque shipped_fuel shipped_engines shipped0 engine mem find.

Lemma fuel_shape : forall ac eng k o, kw_force k <> Some true -> fuel_new d ac eng k = inr o ->
  exists f m base, fuel_par_of o = Some f /\ fuel_ok f /\ In m (d_fuel d) /\ reference d m base /\ 0 < base /\
    fst (fo_model o) = m /\ f_n_eng f = Q2R (ac_number (fo_ac o)) /\
    forall x, flow f x * base = f_n_eng f * ff_to (er_row (fo_eng o)) * row_law m x.
Proof.
  intros ac eng k o Hk H. destruct (fuel_new_ok d SH ac eng k o Hk H) as (f & Ef & Hok & _).
  destruct (C84_model_selection d SH ac eng k o H) as (m & sc & base & Em & Hm & _ & _ & Hr & Hb & Hs).
  exists f, m, base. split; [exact Ef|]. split; [exact Hok|]. split; [exact Hm|]. split; [exact Hr|]. split; [exact Hb|].
  unfold fuel_par_of in Ef. rewrite Em in *. destruct (en_max_thrust (er_row (fo_eng o))) as [mt|]; [|discriminate].
  injection Ef as <-. cbn [fst f_n_eng]. split; [reflexivity|]. split; [reflexivity|].
  intros x. rewrite <- Hs. unfold flow, row_law. cbn [f_n_eng fscale fc1 fc2 fc3]. ring.
Qed.

(** at full rated thrust the modelled fuel flow is between 81 % and 104 % of the databank's take-off fuel
    flow, and at zero thrust between 3.6 % and 9.2 % of it *)
Theorem C84_full_and_idle_against_databank : forall ac eng k o, kw_force k <> Some true -> fuel_new d ac eng k = inr o ->
  exists f q1 q0, fuel_par_of o = Some f /\
    at_thrust NP f (Fin (rated f)) = Fin q1 /\ at_thrust NP f (Fin 0) = Fin q0 /\
    let ff := Q2R (ac_number (fo_ac o)) * ff_to (er_row (fo_eng o)) in
    0.81 * ff <= q1 <= 1.04 * ff /\ 0.036 * ff <= q0 <= 0.092 * ff.
Proof.
  intros ac eng k o Hk H. destruct (fuel_shape ac eng k o Hk H) as (f & m & base & Ef & Hok & Hm & Hr & Hb & _ & Hn & HF).
  pose proof (ok_thr f Hok). pose proof (ok_n f Hok).
  assert (P : 0 < f_n_eng f * f_max_thrust f) by nra.
  exists f, (flow f (limR 1)), (flow f (limR 0)). split; [exact Ef|].
  assert (A : forall x, x <= 14.2 -> at_thrust NP f (Fin (x * rated f)) = Fin (flow f (limR x))).
  { intros x Hx. unfold rated. rewrite at_thrust_NP; [| auto |].
    - f_equal. unfold atR. rewrite flow_law. unfold ratR. do 3 f_equal. field. lra.
    - apply Rmult_le_compat_r; lra. }
  split; [rewrite <- A by lra; do 2 f_equal; ring|]. split; [rewrite <- A by lra; do 2 f_equal; ring|].
  cbv zeta. rewrite <- Hn. set (ff := f_n_eng f * ff_to (er_row (fo_eng o))) in *.
  rewrite (sh_fuel d SH) in Hm. pose proof (row_bounds_of m Hm (limR 1) (limR 0) limR_full limR_idle) as B.
  assert (Eb : Q2R (ref_ff m) = base).
  { unfold ref_ff. destruct Hr as [[E1 E2]|[E1 (r & E2 & E3)]].
    - rewrite E1, String.eqb_refl, E2. unfold Q2R. cbn. lra.
    - apply String.eqb_neq in E1. rewrite E1. rewrite (ship_engine d) in E2 by exact SH. rewrite E2. rewrite E3. reflexivity. }
  rewrite Eb in B. pose proof (HF (limR 1)) as F1. pose proof (HF (limR 0)) as F0.
  assert (0 < ff).
  { unfold ff. apply Rmult_lt_0_compat; auto. unfold fuel_new in H. binds H. injection H as <-. cbn [fo_eng].
    apply (ship_eng_ok d SH) in E0. destruct E0 as [E0 _]. apply ff_to_pos in E0. unfold ff_to.
    apply Qlt_Rlt in E0. replace (Q2R 0) with 0 in E0 by (unfold Q2R; cbn; lra). exact E0. }
  assert (M : forall a b q r, q * base = ff * r -> a * base <= r <= b * base -> a * ff <= q <= b * ff).
  { intros a b q r Eq [L1 L2]. assert (q = ff * (r / base)) by (apply (Rmult_eq_reg_r base); [rewrite Eq; field; lra|lra]).
    assert (a <= r / base <= b).
    { split; apply (Rmult_le_reg_r base); auto; unfold Rdiv; rewrite Rmult_assoc, Rinv_l by lra; lra. }
    subst q. split; nra. }
  split; eapply M; eauto; tauto.
Qed.

(** two engines on one aircraft: at the same fraction of rated thrust the fuel flows are in proportion to the
    databank take-off fuel flows *)
Theorem C84_engines_in_proportion : forall ac eng1 eng2 k o1 o2, kw_force k <> Some true ->
  fuel_new d ac eng1 k = inr o1 -> fuel_new d ac eng2 k = inr o2 ->
  exists f1 f2, fuel_par_of o1 = Some f1 /\ fuel_par_of o2 = Some f2 /\
  forall x, x <= 14.2 -> exists q1 q2,
    at_thrust NP f1 (Fin (x * rated f1)) = Fin q1 /\ at_thrust NP f2 (Fin (x * rated f2)) = Fin q2 /\
    q1 * ff_to (er_row (fo_eng o2)) = q2 * ff_to (er_row (fo_eng o1)).
Proof.
  intros ac eng1 eng2 k o1 o2 Hk H1 H2.
  destruct (fuel_shape ac eng1 k o1 Hk H1) as (f1 & m1 & b1 & Ef1 & Hok1 & Hm1 & Hr1 & Hb1 & Em1 & Hn1 & HF1).
  destruct (fuel_shape ac eng2 k o2 Hk H2) as (f2 & m2 & b2 & Ef2 & Hok2 & Hm2 & Hr2 & Hb2 & Em2 & Hn2 & HF2).
  exists f1, f2. split; [exact Ef1|]. split; [exact Ef2|]. intros x Hx.
  assert (A : forall f, fuel_ok f -> at_thrust NP f (Fin (x * rated f)) = Fin (flow f (limR x))).
  { intros f Hok. pose proof (ok_thr f Hok). pose proof (ok_n f Hok). assert (P : 0 < f_n_eng f * f_max_thrust f) by nra.
    unfold rated. rewrite at_thrust_NP; [| auto |].
    - f_equal. unfold atR. rewrite flow_law. unfold ratR. do 3 f_equal. field. lra.
    - apply Rmult_le_compat_r; lra. }
  exists (flow f1 (limR x)), (flow f2 (limR x)). split; [auto|]. split; [auto|].
  assert (Q : fo_ac o1 = fo_ac o2 /\ m1 = m2).
  { unfold fuel_new in H1, H2. binds H1. binds H2. injection H1 as <-. injection H2 as <-.
    cbn [fo_ac fo_model] in *. rewrite E in E5. injection E5 as <-. split; [reflexivity|].
    assert (L : forall t e m s, load_fuel_model d (lower ac) t e = inr (m, s) ->
      Some m = find (fun r => String.eqb (lower (fm_type r)) (if mem (lower ac) (map (fun r => lower (fm_type r)) (d_fuel d)) then lower ac else "default")) (d_fuel d)).
    { intros t e m s. unfold load_fuel_model. cbv zeta. destruct (find _ (d_fuel d)) as [r|]; [|discriminate].
      destruct (String.eqb _ "default"); [congruence|]. destruct (negb _); [|congruence]. destruct (engine d (fm_engine r)); cbn; [discriminate|congruence]. }
    destruct x5 as [a1 s1]. destruct x11 as [a2 s2]. cbn [fst] in *. subst m1 m2.
    assert (Some a1 = Some a2) by (transitivity (find (fun r => String.eqb (lower (fm_type r)) (if mem (lower ac) (map (fun r => lower (fm_type r)) (d_fuel d)) then lower ac else "default")) (d_fuel d)); [eapply L; eauto|symmetry; eapply L; eauto]).
    congruence. }
  destruct Q as [Q1 Q2].
  assert (b1 = b2).
  { destruct Hr1 as [[U1 U2]|[U1 (r1 & U2 & U3)]], Hr2 as [[V1 V2]|[V1 (r2 & V2 & V3)]]; try congruence. }
  subst b2. clear Em2. specialize (HF1 (limR x)). specialize (HF2 (limR x)). rewrite Hn1 in HF1. rewrite Hn2, <- Q1 in HF2.
  apply (Rmult_eq_reg_r b1); [|lra].
  transitivity (flow f1 (limR x) * b1 * ff_to (er_row (fo_eng o2))); [ring|]. rewrite HF1.
  transitivity (flow f2 (limR x) * b1 * ff_to (er_row (fo_eng o1))); [|ring]. rewrite HF2, Q2. ring.
Qed.
End Shipped2.
Transparent shipped_fuel shipped_engines shipped0 engine mem find.

(** an aircraft used through a synonym gets the default fuel model, although its synonym has its own *)
Example C84_ex : exists o, fuel_new shipped0 "E290" None (mkKwc (Some true) None) = inr o /\
  ac_code (fo_ac o) = "e190" /\ fm_type (fst (fo_model o)) = "default" /\ exists r, In r shipped_fuel /\ lower (fm_type r) = "e190".
Proof.
  destruct (fuel_new shipped0 "E290" None (mkKwc (Some true) None)) as [e|o] eqn:E.
  { vm_compute in E. discriminate. }
  exists o. split; [reflexivity|]. vm_compute in E. injection E as <-. split; [reflexivity|]. split; [reflexivity|].
  exists (nth 11 shipped_fuel (mkFm "" "" 0 0 0)). split; [apply nth_In; vm_compute; lia|reflexivity].
Qed.
(** A320 with its default engine and with another one of its options *)
Example C84_ex2 : exists o1 o2, fuel_new shipped0 "A320" None (mkKwc None None) = inr o1 /\
  fuel_new shipped0 "A320" (Some "V2527-A5") (mkKwc None None) = inr o2 /\ er_row (fo_eng o1) <> er_row (fo_eng o2).
Proof.
  destruct (fuel_new shipped0 "A320" None (mkKwc None None)) as [e|o1] eqn:E1; [vm_compute in E1; discriminate|].
  destruct (fuel_new shipped0 "A320" (Some "V2527-A5") (mkKwc None None)) as [e|o2] eqn:E2; [vm_compute in E2; discriminate|].
  exists o1, o2. split; [reflexivity|]. split; [reflexivity|]. vm_compute in E1, E2. injection E1 as <-. injection E2 as <-. cbn. discriminate.
Qed.
