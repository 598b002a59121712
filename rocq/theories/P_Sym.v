(** * C53: symbolic evaluation equals numeric evaluation *)
From Coq Require Import Reals String List Bool Lia Lra.
From Verif Require Import Num NumFacts Aero AeroFacts Geo Thrust Drag Fuel Emission Mass Contrail
  Hom Functions VecFacts Sym P_Emission.
Import ListNotations.
Open Scope list_scope.
Open Scope R_scope.

(** the expression evaluates to the number, if that is one *)
Definition agrees (env : nat -> ext) (e : sx) (x : ext) : Prop := x = NaN \/ eval env e = x.
Definition agrees_c (env : nat -> ext) (e : sx) (c : option bool) : Prop :=
  match c with
  | None => True
  | Some b => eval env e = Fin (if b then 1 else 0)
  end.

Lemma classic_nan : forall x : ext, x = NaN \/ x <> NaN.
Proof. intros [r| | |]; ((right; discriminate) || (left; reflexivity)). Qed.
Lemma eadd_NaN_r : forall x, eadd x NaN = NaN.
Proof. intros [| | |]; reflexivity. Qed.
Lemma emul_NaN_r : forall x, emul x NaN = NaN.
Proof. intros [| | |]; reflexivity. Qed.
Lemma esub_NaN_r : forall x, esub x NaN = NaN.
Proof. intros [| | |]; reflexivity. Qed.
Lemma ediv_NaN_r : forall x, ediv x NaN = NaN.
Proof. intros [| | |]; reflexivity. Qed.
Lemma eadd_0_r : forall x, eadd x (Fin 0) = x.
Proof. intros [r| | |]; cbn; try reflexivity. f_equal. lra. Qed.
Lemma eadd_0_l : forall x, eadd (Fin 0) x = x.
Proof. intros [r| | |]; cbn; try reflexivity. f_equal. lra. Qed.

Lemma clip_same : forall x lo hi, lo <= hi -> x <> NaN ->
  cfmax (Fin lo) (cfmin x (Fin hi)) = eclip x (Fin lo) (Fin hi).
Proof.
  intros [r| | |] lo hi H Hx; try (exfalso; apply Hx; reflexivity); unfold eclip; cbn; f_equal;
  unfold Rmin, Rmax; repeat destruct Rle_dec; lra.
Qed.

Definition sym_hom (env : nat -> ext) : hom CA NP.
Proof.
  refine (mkHom CA NP (agrees env) (agrees_c env) _ _ _ _ _ _ _ _ _ _ _ _ _ _ _ _ _ _ _ _ _ _ _ _ _);
  cbn [CA NP T C cst bpi add sub mul div neg powi power bsqrt bexp blog bsin bcos barcsin barccos
       btanh barctan2 babs maximum minimum clip fmod gt where_];
  unfold agrees, agrees_c; intros.
  all: try (right; reflexivity).
  all: try (destruct H as [->|H]; [left; reflexivity|]).
  all: try (destruct H0 as [->|H0]; [left; (reflexivity || apply eadd_NaN_r || apply emul_NaN_r
             || apply esub_NaN_r || apply ediv_NaN_r || (destruct x'; reflexivity))|]).
  all: try (right; cbn [eval eval_un eval_bi]; rewrite ?H, ?H0; reflexivity).
  - (* powi *) destruct H0 as [->|H0].
    + left. destruct n; [contradiction|reflexivity].
    + right. cbn [eval eval_un]. now rewrite H0.
  - (* maximum *)
    destruct (classic_nan x') as [->|Hx]; [left; reflexivity|].
    destruct (classic_nan y') as [->|Hy]; [left; destruct x'; reflexivity|].
    right. cbn [eval eval_bi]. rewrite H, H0. destruct x', y'; try contradiction; reflexivity.
  - (* minimum *)
    destruct (classic_nan x') as [->|Hx]; [left; reflexivity|].
    destruct (classic_nan y') as [->|Hy]; [left; destruct x'; reflexivity|].
    right. cbn [eval eval_bi]. rewrite H, H0. destruct x', y'; try contradiction; reflexivity.
  - (* clip *)
    destruct (classic_nan x') as [->|Hx]; [left; reflexivity|].
    right. cbn [eval eval_bi]. rewrite H0. now apply clip_same.
  - (* gt *)
    destruct (egt x' y') eqn:E; [|exact I].
    destruct H as [->|H]; [destruct y'; discriminate|].
    destruct H0 as [->|H0]; [destruct x'; discriminate|].
    cbn [eval eval_bi]. rewrite H, H0. unfold cgt. rewrite E. destruct b; reflexivity.
  - (* where *)
    destruct c' as [[|]|]; [| |left; reflexivity]; cbn [ewhere].
    + destruct H0 as [->|H0]; [left; reflexivity|]. right.
      cbn [eval eval_bi eval_un]. rewrite H. cbn [cnot cifz].
      destruct (Req_EM_T 1 0) as [E|_]; [lra|]. rewrite H0. cbn [cifz].
      destruct (Req_EM_T 0 0) as [_|E]; [|lra]. apply eadd_0_r.
    + destruct H1 as [->|H1]; [left; reflexivity|]. right.
      cbn [eval eval_bi eval_un]. rewrite H. cbn [cnot cifz].
      destruct (Req_EM_T 0 0) as [_|E]; [|lra]. cbn [cifz].
      destruct (Req_EM_T 1 0) as [E|_]; [lra|]. rewrite H1. apply eadd_0_l.
Defined.

(** ** Interpolation *)
Definition increasing_table (t : ei_table) : Prop :=
  ff_idl t < ff_app t /\ ff_app t < ff_co t /\ ff_co t < ff_to t.

Lemma lut_inside : forall t s, increasing_table t -> ff_idl t <= s <= ff_to t ->
  clut (ei_points t) (Fin s) = einterp (Fin s) (ei_points t).
Proof.
  intros t s (H1 & H2 & H3) [Ha Hb]. cbn [clut einterp np_interp ei_points lut_from interp_from].
  f_equal. unfold seg_line.
  repeat destruct Rlt_dec; try lra.
  assert (s = ff_to t) as -> by lra. field. lra.
Qed.
Lemma lut_below : forall t s, increasing_table t -> s < ff_idl t ->
  clut (ei_points t) (Fin s) = Fin (ei_idl t + (ei_app t - ei_idl t) / (ff_app t - ff_idl t) * (s - ff_idl t)) /\
  einterp (Fin s) (ei_points t) = Fin (ei_idl t).
Proof.
  intros t s (H1 & H2 & H3) Ha. cbn [clut einterp np_interp ei_points lut_from interp_from].
  unfold seg_line. split; f_equal; repeat destruct Rlt_dec; try lra.
Qed.
Lemma lut_above : forall t s, increasing_table t -> ff_to t < s ->
  clut (ei_points t) (Fin s) = Fin (ei_co t + (ei_to t - ei_co t) / (ff_to t - ff_co t) * (s - ff_co t)) /\
  einterp (Fin s) (ei_points t) = Fin (ei_to t).
Proof.
  intros t s (H1 & H2 & H3) Ha. cbn [clut einterp np_interp ei_points lut_from interp_from].
  unfold seg_line. split; f_equal; repeat destruct Rlt_dec; try lra.
Qed.

(** ** Theorems *)

(** C53: for every method written with backend operations (no look-up table), every list of
    argument expressions and every assignment of numbers to the symbols: each component of the
    symbolic result evaluates to what the NumPy backend computes from the evaluated arguments,
    whenever that is a number (or infinity) rather than NaN. *)
Theorem C53_symbolic_equals_numeric : forall e a f wave gear limit F es env,
  In F (backend_table e a f wave gear limit) ->
  Forall2 (fun ex x => x <> NaN -> eval env ex = x)
    (fn_body F CA es) (fn_body F NP (map (eval env) es)).
Proof.
  intros e a f wave gear limit F es env HF.
  assert (Ha : Forall2 (agrees env) es (map (eval env) es)).
  { induction es; cbn; constructor; auto. right. reflexivity. }
  pose proof (backend_table_respects CA NP (sym_hom env) _ _ _ _ _ _ F HF _ _ Ha) as H.
  clear Ha. induction H as [|ex x exs xs [->|E] H IH]; constructor; auto. intros []. reflexivity.
Qed.

(** the methods that look up the engine table agree while the equivalent sea-level fuel flow per
    engine is inside the table ... *)
Theorem C53_emissions_inside_table : forall n t ff tas alt dT env s,
  increasing_table t ->
  fst (fl2sl NP n (eval env ff) (eval env tas) (eval env alt) (eval env dT)) = Fin s ->
  ff_idl t <= s <= ff_to t ->
  (let x := nox NP n t (eval env ff) (eval env tas) (eval env alt) (eval env dT) in
   x <> NaN -> eval env (nox CA n t ff tas alt dT) = x) /\
  (let x := co_hc NP n t (eval env ff) (eval env tas) (eval env alt) (eval env dT) in
   x <> NaN -> eval env (co_hc CA n t ff tas alt dT) = x).
Proof.
  intros n t ff tas alt dT env s Ht Hs Hr. cbv zeta.
  assert (Ha : forall z, agrees env z (eval env z)) by (intros; right; reflexivity).
  assert (HI : agrees env (interp CA (fst (fl2sl CA n ff tas alt dT)) (ei_points t))
    (interp NP (fst (fl2sl NP n (eval env ff) (eval env tas) (eval env alt) (eval env dT))) (ei_points t))).
  { rewrite Hs. cbn [interp NP CA]. right. cbn [eval].
    destruct (fl2sl_hom CA NP (sym_hom env) n _ _ _ _ _ _ _ _ (Ha ff) (Ha tas) (Ha alt) (Ha dT)) as [[E|E] _].
    - rewrite Hs in E. discriminate.
    - rewrite E, Hs. now apply lut_inside. }
  split; intros Hx.
  - destruct (nox_hom CA NP (sym_hom env) n t _ _ _ _ _ _ _ _ (Ha ff) (Ha tas) (Ha alt) (Ha dT) HI) as [E|E];
    [contradiction|exact E].
  - destruct (co_hc_hom CA NP (sym_hom env) n t _ _ _ _ _ _ _ _ (Ha ff) (Ha tas) (Ha alt) (Ha dT) HI) as [E|E];
    [contradiction|exact E].
Qed.

Lemma fl2sl_static : forall n ffac, n <> 0 ->
  fl2sl NP n (Fin ffac) (Fin 0) (Fin 0) (Fin 0) = (Fin (ffac / n), Fin 1).
Proof.
  intros n ffac Hn. rewrite fl2sl_NP; [|assumption|rewrite Rabs_R0; lra|lra].
  assert (Hb : betaR 0 0 0 = 1).
  { unfold betaR, machR. replace (0 * kts / aR (0 * ft) 0) with 0 by (unfold Rdiv; ring).
    replace (0.2 * 0 ^ 2) with 0 by ring. apply exp_0. }
  assert (Ht : thetaR 0 0 0 = 1).
  { unfold thetaR. rewrite Hb. replace (tR (0 * ft) 0) with 288.15; [qr; field|].
    unfold tR, clipT. uc. unfold Rmax, Rmin. repeat destruct Rle_dec; lra. }
  assert (Hd : deltaR 0 0 0 = 1).
  { unfold deltaR. rewrite Hb. replace (1 - 0.0019812 * 0 / 288.15) with 1 by (qr; field).
    unfold Rpower. rewrite ln_1, !Rmult_0_r, exp_0. field. }
  unfold ratioR. rewrite Hb, Ht, Hd. f_equal; f_equal; unfold Rpower; rewrite ln_1, !Rmult_0_r, exp_0; field.
  assumption.
Qed.

(** ... and differ outside it: NumPy keeps the end value, the symbolic model prolongs the end
    segment.  CO and HC, below idle and above take-off fuel flow. *)
Theorem C53_emissions_outside_table : forall n t ff tas alt dT env s q x,
  increasing_table t ->
  fl2sl NP n (eval env ff) (eval env tas) (eval env alt) (eval env dT) = (Fin s, Fin q) ->
  eval env ff = Fin x -> q <> 0 -> x <> 0 ->
  (s < ff_idl t /\ ei_idl t <> ei_app t \/ ff_to t < s /\ ei_co t <> ei_to t) ->
  exists r r',
    co_hc NP n t (eval env ff) (eval env tas) (eval env alt) (eval env dT) = Fin r /\
    eval env (co_hc CA n t ff tas alt dT) = Fin r' /\ r <> r'.
Proof.
  intros n t ff tas alt dT env s q x Ht Hfl Hx Hq Hx0 Hside.
  assert (Ha : forall z, agrees env z (eval env z)) by (intros; right; reflexivity).
  destruct (fl2sl_hom CA NP (sym_hom env) n _ _ _ _ _ _ _ _ (Ha ff) (Ha tas) (Ha alt) (Ha dT))
    as [[E1|E1] [E2|E2]]; rewrite Hfl in E1, E2; cbn [fst snd] in E1, E2; try discriminate.
  assert (Ec : exists i j, clut (ei_points t) (Fin s) = Fin i /\ einterp (Fin s) (ei_points t) = Fin j /\ i <> j).
  { destruct Ht as (H1 & H2 & H3). destruct Hside as [[Hs He]|[Hs He]].
    - destruct (lut_below t s (conj H1 (conj H2 H3)) Hs) as [-> ->]. do 2 eexists.
      split; [reflexivity|]. split; [reflexivity|]. intros E.
      assert (E0 : (ei_app t - ei_idl t) / (ff_app t - ff_idl t) * (s - ff_idl t) = 0) by lra.
      apply Rmult_integral in E0. destruct E0 as [E0|E0]; [|lra].
      apply Rmult_integral in E0. destruct E0 as [E0|E0]; [lra|].
      apply (Rinv_neq_0_compat (ff_app t - ff_idl t)); lra.
    - destruct (lut_above t s (conj H1 (conj H2 H3)) Hs) as [-> ->]. do 2 eexists.
      split; [reflexivity|]. split; [reflexivity|]. intros E.
      assert (E0 : (ei_to t - ei_co t) / (ff_to t - ff_co t) * (s - ff_to t) = 0).
      { replace ((ei_to t - ei_co t) / (ff_to t - ff_co t) * (s - ff_to t))
          with ((ei_to t - ei_co t) / (ff_to t - ff_co t) * (s - ff_co t) - (ei_to t - ei_co t))
          by (field; lra). lra. }
      apply Rmult_integral in E0. destruct E0 as [E0|E0]; [|lra].
      apply Rmult_integral in E0. destruct E0 as [E0|E0]; [lra|].
      apply (Rinv_neq_0_compat (ff_to t - ff_co t)); lra. }
  destruct Ec as (i & j & Ei & Ej & Hij).
  exists (j * q * x), (i * q * x). unfold co_hc. rewrite Hfl.
  destruct (fl2sl CA n ff tas alt dT) as [sf qf] eqn:EF. cbn [fst snd] in E1, E2.
  cbn [interp NP mul CA]. cbn [eval eval_bi]. rewrite E1, E2, Ei, Ej, Hx. cbn [emul].
  split; [reflexivity|]. split; [reflexivity|].
  intros E. apply Rmult_eq_reg_r in E; [|assumption]. apply Rmult_eq_reg_r in E; [|assumption]. congruence.
Qed.

(** CO table of the CFM56-5B4 (openap/data/engine/engines.csv:53), two engines burning 0.1 kg/s in
    total on the ground: the backends disagree *)
Theorem C53_all_methods_refuted :
  exists t n env r r',
    increasing_table t /\
    co_hc NP n t (env 0%nat) (Fin 0) (Fin 0) (Fin 0) = Fin r /\
    eval env (co_hc CA n t (SVar 0) (SLit 0) (SLit 0) (SLit 0)) = Fin r' /\ r <> r'.
Proof.
  set (t := mkEI 0.107 0.326 0.961 1.166 31.9 2.33 0.5 0.5).
  assert (Ht : increasing_table t) by (unfold increasing_table, t; cbn; lra).
  destruct (C53_emissions_outside_table 2 t (SVar 0) (SLit 0) (SLit 0) (SLit 0) (fun _ => Fin 0.1) (0.1 / 2) 1 0.1)
    as (r & r' & H); try assumption; try lra.
  - cbn [eval]. rewrite fl2sl_static by lra. reflexivity.
  - reflexivity.
  - left. cbn. lra.
  - exists t, 2, (fun _ => Fin 0.1), r, r'. split; [exact Ht|]. exact H.
Qed.

(** The two backends' [clip] agree for every argument exactly when the bounds are in order. *)
Theorem C53_clip_bounds : forall lo hi,
  (forall r env, eval env (clip CA (SLit r) (cst CA lo) (cst CA hi)) = clip NP (Fin r) (Fin lo) (Fin hi))
  <-> lo <= hi.
Proof.
  intros lo hi. split.
  - intros H. specialize (H hi (fun _ => NaN)). cbn in H. injection H as H.
    unfold Rmin, Rmax in H. repeat destruct Rle_dec; lra.
  - intros H r env. cbn [clip CA NP eval eval_bi cst]. apply clip_same; [assumption|discriminate].
Qed.

(** ** Concrete cases *)
Example C53_ex : forall e a f wave gear limit,
  In (mkFn "aero.h_isa" false 2 (all_used 2) (ap2 h_isa)) (backend_table e a f wave gear limit) /\
  fn_body (mkFn "aero.h_isa" false 2 (all_used 2) (ap2 h_isa)) NP [Fin 22000; Fin 0] <> [NaN].
Proof.
  intros. split; [apply (nth_error_In _ 5); reflexivity|].
  cbn [fn_body ap2]. intros [= H]. revert H. unfold h_isa. cbn [NP where_ gt cst]. cbn [egt].
  destruct (Rltb 22630 22000) eqn:E.
  - unfold Rltb in E. destruct Rlt_dec; [lra|discriminate].
  - cbn [ewhere mul add neg div blog NP cst]. cbn [emul eneg eadd ewhere].
    destruct (Req_EM_T g0 0); [uc; lra|]. destruct (Req_EM_T 22630 0); [lra|].
    unfold elog. destruct (Rlt_dec 0 (22000 / 22630)); [|lra]. discriminate.
Qed.

Example C53_ex_inside :
  let t := mkEI 0.107 0.326 0.961 1.166 31.9 2.33 0.5 0.5 in
  increasing_table t /\ fst (fl2sl NP 2 (Fin 1) (Fin 0) (Fin 0) (Fin 0)) = Fin (1 / 2) /\
  ff_idl t <= 1 / 2 <= ff_to t /\ co_hc NP 2 t (Fin 1) (Fin 0) (Fin 0) (Fin 0) <> NaN.
Proof.
  cbv zeta. rewrite fl2sl_static by lra. cbn [fst].
  refine (conj _ (conj eq_refl (conj _ _))); [unfold increasing_table; cbn; lra|cbn; lra|].
  unfold co_hc. rewrite fl2sl_static by lra. cbn [interp NP einterp np_interp ei_points].
  discriminate.
Qed.
