(** * C52: array calls are elementwise scalar calls *)
From Coq Require Import Reals String List Bool Arith Lia.
From Verif Require Import Num Aero Geo Thrust Drag Fuel Emission Mass Contrail Hom Functions Vec SpecVec VecFacts.
Import ListNotations.
Open Scope list_scope.
Open Scope nat_scope.

(** ** The decorator *)
Lemma element_to_scalar : forall A i (v : varr A) x, element i (to_scalar v) x <-> element i v x.
Proof.
  intros A i [y|[|y [|z l]]|] x; cbn; try tauto. split; congruence.
Qed.
Lemma element_to_array : forall A i (v : varr A) x, element i (to_array v) x <-> element i v x.
Proof. intros A i [y|l|] x; cbn; try tauto. split; congruence. Qed.
Lemma fits_to_array : forall A n (v : varr A), fits n v -> fits n (to_array v).
Proof. intros A n [y|l|]; cbn; auto. Qed.

Lemma elements_to_scalar : forall A i (vs : list (varr A)) xs,
  elements i vs xs -> elements i (map to_scalar vs) xs.
Proof.
  intros A i vs xs H. induction H; constructor; auto. now apply element_to_scalar.
Qed.
Lemma elements_to_array : forall A i (vs : list (varr A)) xs,
  elements i vs xs -> elements i (map to_array vs) xs.
Proof.
  intros A i vs xs H. induction H; constructor; auto. now apply element_to_array.
Qed.

Lemma fits_element : forall A n i (v : varr A), i < n -> fits n v -> exists x, element i v x.
Proof.
  intros A n i [y|l|] Hi Hf; cbn in *; try contradiction; [eauto|].
  destruct (Nat.eqb_spec (length l) 1) as [E|E].
  - destruct (one _ _ E) as (z & ->). exists z. reflexivity.
  - destruct (nth_error l i) eqn:E2; [eauto|].
    apply nth_error_None in E2. lia.
Qed.
Lemma fits_elements : forall A n i (vs : list (varr A)), i < n -> Forall (fits n) vs ->
  exists xs, elements i vs xs.
Proof.
  intros A n i vs Hi H. induction H as [|v vs Hv H (xs & IH)].
  - exists []. constructor.
  - destruct (fits_element _ _ _ _ Hi Hv) as (x & Hx). exists (x :: xs). now constructor.
Qed.

Lemma elements_at_rel : forall n i (vs : list (varr ext)) xs, Forall (fits n) vs ->
  elements i vs xs -> Forall2 (at_rel n i) vs xs.
Proof.
  intros n i vs xs Hf H. induction H; constructor.
  - inversion Hf. split; auto.
  - apply IHForall2. now inversion Hf.
Qed.
Lemma at_rel_elements : forall n i (vs : list (varr ext)) xs,
  Forall2 (at_rel n i) vs xs -> elements i vs xs.
Proof. intros n i vs xs H. induction H as [|? ? ? ? [? ?]]; constructor; auto. Qed.
Lemma Forall_map_to_array : forall A n (vs : list (varr A)),
  Forall (fits n) vs -> Forall (fits n) (map to_array vs).
Proof. intros A n vs H. induction H; constructor; auto using fits_to_array. Qed.

Section C52.
Context (e : thrust_par) (a : drag_par) (f : fuel_par) (n_eng : R)
        (t_nox t_co t_hc : ei_table) (ac : mass_par) (wave gear fraction limit : bool) (to : phase_of).
Local Notation API := (api e a f n_eng t_nox t_co t_hc ac wave gear fraction limit to).

Lemma call_elements : forall F args n i xs,
  In F API -> Forall (fits n) args -> elements i args xs ->
  elements i (call F args) (fn_body F NP xs).
Proof.
  intros F args n i xs HF Hfit Hel.
  assert (HI : forall tbl x x', hR VB NP (elem_hom n i) x x' ->
    hR VB NP (elem_hom n i) (interp VB x tbl) (interp NP x' tbl)).
  { intros tbl x x' Hx. exact (at_vmap1 _ _ (fun a => einterp a tbl) n i x x' Hx). }
  pose proof (api_respects VB NP (elem_hom n i) HI _ _ _ _ _ _ _ _ _ _ _ _ _ F HF) as Hr.
  unfold call, ndarrayconvert. destruct (fn_decorated F).
  - apply elements_to_scalar. apply (at_rel_elements n). apply Hr.
    apply elements_at_rel; [now apply Forall_map_to_array|]. now apply elements_to_array.
  - apply (at_rel_elements n). apply Hr. now apply elements_at_rel.
Qed.

(** ** Shapes of the results *)
Definition unit_mask (j : nat) : list bool := repeat false j ++ [true].
Definition units (k : nat) : list (list bool) := map unit_mask (seq 0 k).

Lemma masks : forall F, In F API -> fn_body F MB (units (fn_arity F)) = fn_uses F.
Proof.
  intros F. unfold api. rewrite !in_app_iff.
  unfold backend_table, interp_table, numpy_table. cbn [In].
  intros [HF|[HF|HF]];
  repeat (destruct HF as [<-|HF]; [
    cbn [fn_body fn_uses fn_arity];
    (lazy; reflexivity) ||
    (destruct wave; lazy; reflexivity) ||
    (destruct gear, (rear_mounted a) eqn:E; unfold ap6, nonclean; rewrite E; lazy; reflexivity) ||
    (unfold from_range; destruct (m_range ac), fraction; lazy; reflexivity) ||
    (destruct to; lazy; reflexivity) |]); contradiction.
Qed.

Lemma sel_unit : forall j ss, sel (unit_mask j) ss = nth j ss S0.
Proof.
  induction j as [|j IH]; intros [|s ss]; cbn; try reflexivity.
  - apply join_S0_r.
  - apply IH.
Qed.
Lemma units_rel : forall (args : list (varr ext)) j0 pre,
  length pre = j0 ->
  Forall2 (mask_rel (map shape (pre ++ args))) args (map unit_mask (seq j0 (length args))).
Proof.
  induction args as [|v args IH]; intros j0 pre Hp; cbn [length seq map]; constructor.
  - unfold mask_rel. rewrite sel_unit. rewrite map_app, app_nth2; rewrite map_length; [|lia].
    replace (j0 - length pre) with 0 by lia. reflexivity.
  - replace (pre ++ v :: args) with ((pre ++ [v]) ++ args) by (rewrite <- app_assoc; reflexivity).
    apply IH. rewrite app_length. cbn. lia.
Qed.

Lemma body_shapes : forall F (args : list (varr ext)),
  In F API -> length args = fn_arity F ->
  Forall2 (fun v m => shape v = sel m (map shape args)) (fn_body F VB args) (fn_uses F).
Proof.
  intros F args HF Hl.
  assert (HI : forall tbl x x', hR VB MB (mask_hom (map shape args)) x x' ->
    hR VB MB (mask_hom (map shape args)) (interp VB x tbl) (interp MB x' tbl)).
  { intros tbl x x'. cbn. unfold mask_rel. now rewrite shape_vmap1. }
  pose proof (api_respects VB MB (mask_hom (map shape args)) HI _ _ _ _ _ _ _ _ _ _ _ _ _ F HF) as Hr.
  rewrite <- (masks F HF). apply Hr. unfold units. rewrite <- Hl.
  exact (units_rel args 0 [] eq_refl).
Qed.

(** joins of shapes that fit n *)
Definition ok (n : nat) (s : shp) : Prop :=
  match s with S0 => True | SA k => k = 1 \/ k = n | SE => False end.
Lemma ok_join : forall n s t, ok n s -> ok n t -> ok n (join s t).
Proof.
  intros n [|x|] [|y|]; cbn; try tauto. intros Hx Hy. eqbs; cbn; auto.
Qed.
Lemma ok_sel : forall n m ss, Forall (ok n) ss -> ok n (sel m ss).
Proof.
  induction m as [|x m IH]; intros ss H; [exact I|]. destruct H as [|s ss Hs H]; [exact I|].
  cbn [sel]. destruct x; auto using ok_join.
Qed.
Lemma long_join : forall n s, ok n s -> join (SA n) s = SA n.
Proof.
  intros n [|x|]; cbn; try tauto. intros Hx. eqbs; try reflexivity.
Qed.
Lemma sel_long : forall n m ss j, Forall (ok n) ss -> nth_error m j = Some true ->
  nth_error ss j = Some (SA n) -> sel m ss = SA n.
Proof.
  induction m as [|x m IH]; intros ss j H Hm Hs; [destruct j; discriminate|].
  destruct H as [|s ss Hs' H]; [destruct j; discriminate|].
  destruct j as [|j]; cbn in Hm, Hs; cbn [sel].
  - injection Hm as ->. injection Hs as ->. apply long_join. now apply ok_sel.
  - rewrite (IH ss j H Hm Hs). destruct x; [|reflexivity].
    rewrite join_comm. now apply long_join.
Qed.
Lemma sel_ones : forall m ss, Forall (ok 1) ss -> ok 1 (sel m ss).
Proof. intros. now apply ok_sel. Qed.
Lemma sel_in : forall m ss j s, nth_error m j = Some true -> nth_error ss j = Some s ->
  exists t, sel m ss = join s t.
Proof.
  induction m as [|x m IH]; intros ss j s Hm Hs; [destruct j; discriminate|].
  destruct ss as [|s0 ss]; [destruct j; discriminate|].
  destruct j as [|j]; cbn in Hm, Hs; cbn [sel].
  - injection Hm as ->. injection Hs as ->. eauto.
  - destruct (IH ss j s Hm Hs) as (t & ->). destruct x; [|eauto].
    exists (join s0 t). rewrite !join_assoc. f_equal. apply join_comm.
Qed.
Lemma join_SA_inv : forall n s k, join (SA n) s = SA k -> k = n \/ n = 1.
Proof. intros n [|x|] k; cbn; try discriminate; [intros [= ->]; auto|]. eqbs; intros [= <-]; auto. Qed.
Lemma join_SA_not_S0 : forall n s, join (SA n) s <> S0.
Proof. intros n [|x|]; cbn; try discriminate. eqbs; discriminate. Qed.

Lemma shape_to_array : forall A (v : varr A), shape (to_array v) = join (SA 1) (shape v) .
Proof.
  intros A [x|l|]; cbn; try reflexivity. destruct (length l) as [|[|k]]; reflexivity.
Qed.
Lemma fits_ok : forall A n (v : varr A), fits n v <-> ok n (shape v).
Proof. intros A n [x|l|]; cbn; tauto. Qed.
Lemma array_of_shape : forall A n (v : varr A), array_of n v <-> shape v = SA n.
Proof. intros A n [x|l|]; cbn; split; try discriminate; try tauto; congruence. Qed.
Lemma single_shape : forall A (v : varr A), single v <-> ok 1 (shape v).
Proof. intros A [x|l|]; cbn; tauto. Qed.

(** shape of the public call's result, up to the decorator's 1-element conversions *)
Lemma call_shapes : forall F (args : list (varr ext)),
  In F API -> length args = fn_arity F ->
  Forall2 (fun v m => exists w, v = (if fn_decorated F then to_scalar w else w) /\
     shape w = sel m (map shape (if fn_decorated F then map to_array args else args)))
    (call F args) (fn_uses F).
Proof.
  intros F args HF Hl. unfold call, ndarrayconvert. destruct (fn_decorated F).
  - pose proof (body_shapes F (map to_array args) HF) as H.
    rewrite map_length in H. specialize (H Hl).
    induction H as [|v m vs ms Hv H IH]; cbn [map]; constructor; auto. eauto.
  - pose proof (body_shapes F args HF Hl) as H.
    induction H as [|v m vs ms Hv H IH]; constructor; auto. eauto.
Qed.

(** ** Theorems *)

(** C52, values: for arguments that are single values or arrays of one common length n, every
    component of the result of the call has, at each position, the value of the scalar
    function at the elements of the arguments at that position. *)
Theorem C52_elementwise : forall F args n i,
  In F API -> length args = fn_arity F -> Forall (fits n) args -> i < n ->
  exists xs, elements i args xs /\ elements i (call F args) (fn_body F NP xs).
Proof.
  intros F args n i HF _ Hfit Hi.
  destruct (fits_elements _ n i args Hi Hfit) as (xs & Hxs).
  exists xs. split; [exact Hxs|]. eapply call_elements; eassumption.
Qed.

(** C52, shape: when one of the arguments a component depends on is an array of n <> 1
    elements and every argument is a single value or an array of n elements, the component is
    an array of n elements. *)
Theorem C52_result_length : forall F args n k m j v,
  In F API -> length args = fn_arity F -> Forall (fits n) args -> n <> 1 ->
  nth_error (fn_uses F) k = Some m -> nth_error m j = Some true ->
  nth_error args j = Some v -> array_of n v ->
  exists r, nth_error (call F args) k = Some r /\ array_of n r.
Proof.
  intros F args n k m j v HF Hl Hfit Hn Hk Hm Hv Ha.
  pose proof (call_shapes F args HF Hl) as H.
  assert (exists r, nth_error (call F args) k = Some r /\ exists w, r = (if fn_decorated F then to_scalar w else w) /\
     shape w = sel m (map shape (if fn_decorated F then map to_array args else args))) as (r & Hr & w & -> & Hw).
  { revert k Hk. induction H as [|x y xs ys Hx H IH]; intros [|k] Hk; try discriminate.
    - cbn in Hk. injection Hk as ->. exists x. split; [reflexivity|exact Hx].
    - apply IH. exact Hk. }
  assert (Hs : shape w = SA n).
  { rewrite Hw. apply (sel_long n m _ j).
    - destruct (fn_decorated F); rewrite Forall_map.
      + apply Forall_map. revert Hfit. apply Forall_impl. intros u Hu.
        apply fits_ok. now apply fits_to_array.
      + revert Hfit. apply Forall_impl. intros u. apply fits_ok.
    - exact Hm.
    - apply array_of_shape in Ha.
      destruct (fn_decorated F); rewrite !nth_error_map, Hv; cbn [option_map].
      + destruct v; cbn in *; try discriminate. congruence.
      + congruence. }
  eexists. split; [exact Hr|].
  destruct (fn_decorated F).
  - destruct w as [x|[|x [|y l]]|]; cbn in *; try discriminate; congruence.
  - apply array_of_shape. exact Hs.
Qed.

(** C52, scalars: the public call on scalars returns scalars, the values of the scalar function
    used in all other theorems. *)
Theorem C52_scalar_call : forall F xs,
  In F API -> length xs = fn_arity F ->
  call F (map Sc xs) = map Sc (fn_body F NP xs).
Proof.
  intros F xs HF Hl.
  assert (He : elements 0 (map (@Sc ext) xs) xs).
  { clear. induction xs; constructor; auto. reflexivity. }
  assert (Hf : Forall (fits 1) (map (@Sc ext) xs)).
  { clear. induction xs; constructor; auto. exact I. }
  pose proof (call_elements F _ 1 0 xs HF Hf He) as Hc.
  pose proof (call_shapes F (map Sc xs) HF ltac:(rewrite map_length; exact Hl)) as Hs.
  set (r := call F (map Sc xs)) in *. set (y := fn_body F NP xs) in *.
  assert (Hall : Forall (fun v => exists z, v = Sc z) r).
  { clearbody r. clear Hc y. induction Hs as [|v m vs ms (w & -> & Hw) Hs IH]; constructor; [|exact IH].
    destruct (fn_decorated F).
    - assert (Hok : ok 1 (shape w)).
      { rewrite Hw. apply ok_sel. apply Forall_map. apply Forall_map. apply Forall_map.
        apply Forall_forall. intros z _. cbn. auto. }
      destruct w as [z|[|z [|z' l]]|]; cbn in *; eauto; try (exfalso; lia); contradiction.
    - assert (Hok : shape w = S0).
      { rewrite Hw. clear. generalize m. induction xs as [|z xs IH]; intros [|c m0]; cbn [map sel];
        try reflexivity. rewrite IH. destruct c; reflexivity. }
      destruct w as [z|l|]; cbn in *; try discriminate. eauto. }
  clearbody r y. clear Hs. revert Hall. induction Hc as [|v z vs zs Hv Hc IH]; intros Hall; [reflexivity|].
  inversion Hall as [|? ? (z' & ->) Hrest]; subst. cbn in Hv. subst z'. cbn [map]. rewrite (IH Hrest). reflexivity.
Qed.

(** C52, one-element arrays: a decorated method called with any mix of scalars and 1-element
    arrays returns plain scalars, the same as for scalars. *)
Theorem C52_one_element_arrays : forall F args xs,
  In F API -> length args = fn_arity F -> fn_decorated F = true ->
  Forall single args -> elements 0 args xs ->
  call F args = map Sc (fn_body F NP xs).
Proof.
  intros F args xs HF Hl Hd Hs He.
  assert (Hargs : map to_array args = map to_array (map (@Sc ext) xs)).
  { clear - Hs He. revert Hs. induction He as [|v x vs xs Hv He IH]; intros Hs; [reflexivity|].
    inversion Hs; subst. cbn [map]. f_equal; [|auto].
    destruct v as [y|l|]; cbn in *; try contradiction.
    - congruence.
    - destruct (one _ _ H1) as (z & ->). cbn in Hv. congruence. }
  assert (Hlen : length xs = fn_arity F).
  { rewrite <- Hl. clear - He. induction He; cbn; congruence. }
  rewrite <- (C52_scalar_call F xs HF Hlen).
  unfold call, ndarrayconvert. rewrite Hd, Hargs. reflexivity.
Qed.

(** which methods with how many arguments this is about *)
Theorem C52_methods_covered : map (fun F => (fn_name F, fn_arity F)) API =
    [("aero.atmos", 2); ("aero.temperature", 2); ("aero.pressure", 2); ("aero.density", 2); ("aero.vsound", 2); ("aero.h_isa", 2); ("aero.tas2mach", 3);
     ("aero.mach2tas", 3); ("aero.eas2tas", 3); ("aero.tas2eas", 3); ("aero.cas2tas", 3); ("aero.tas2cas", 3); ("aero.mach2cas", 3); ("aero.cas2mach", 3);
     ("aero.crossover_alt", 3); ("geo.distance", 5); ("geo.bearing", 4); ("geo.latlon", 5); ("Thrust.takeoff", 3); ("Thrust.cruise", 3); ("Thrust.climb",
     4); ("Thrust.descent_idle", 3); ("Drag.clean", 5); ("Drag.nonclean", 6); ("FuelFlow.at_thrust", 1); ("FuelFlow.takeoff", 3); ("FuelFlow.enroute", 6);
     ("Emission.co2", 1); ("Emission.h2o", 1); ("Emission.soot", 1); ("Emission.sox", 1); ("Emission.nox", 4); ("Emission.co", 4); ("Emission.hc", 4);
     ("geo.solar_zenith_angle", 4); ("mass.from_range", 2); ("contrail.saturation_pressure_over_water", 1); ("contrail.saturation_pressure_over_ice", 1);
     ("contrail.relative_humidity", 3); ("contrail.rhw2rhi", 2); ("contrail.critical_temperature_water", 2); ("contrail.rf_shortwave", 3);
     ("contrail.rf_longwave", 2); ("contrail.rf_net", 5)]%string.
Proof. reflexivity. Qed.
(** the decorated methods are those of the performance classes, except one *)
Theorem C52_class_methods : forall F args xs,
  In F API -> length args = fn_arity F -> Forall single args -> elements 0 args xs ->
  In (fn_name F) ["Thrust.takeoff"; "Thrust.cruise"; "Thrust.climb"; "Drag.clean"; "Drag.nonclean"; "FuelFlow.at_thrust"; "FuelFlow.takeoff";
    "FuelFlow.enroute"; "Emission.co2"; "Emission.h2o"; "Emission.soot"; "Emission.sox"; "Emission.nox"; "Emission.co"; "Emission.hc"]%string ->
  call F args = map Sc (fn_body F NP xs).
Proof.
  intros F args xs HF Hl Hs He Hn. apply C52_one_element_arrays; auto.
  revert HF Hn. unfold api. rewrite !in_app_iff. unfold backend_table, interp_table, numpy_table. clear. cbn [In].
  intros [HF|[HF|HF]] Hn;
  repeat (destruct HF as [<-|HF]; [ cbn [fn_name fn_decorated] in *; try reflexivity; exfalso; clear - Hn;
    repeat (destruct Hn as [Hn|Hn]; [discriminate Hn|]); exact Hn |]); contradiction.
Qed.
(** The functions of aero, geo and contrail, and Thrust.descent_idle, keep one-element arrays. *)
Theorem C52_plain_functions : forall F args xs,
  In F API -> length args = fn_arity F -> fn_arity F <> 0 -> args = map (fun x => Ar [x]) xs ->
  In (fn_name F) ["aero.temperature"; "aero.pressure"; "aero.density"; "aero.vsound"; "aero.h_isa"; "aero.tas2mach"; "aero.mach2tas"; "aero.eas2tas";
    "aero.tas2eas"; "aero.cas2tas"; "aero.tas2cas"; "aero.mach2cas"; "aero.cas2mach"; "aero.crossover_alt"; "geo.distance"; "geo.bearing"; "geo.solar_zenith_angle";
    "Thrust.descent_idle"; "contrail.saturation_pressure_over_water"; "contrail.saturation_pressure_over_ice"; "contrail.relative_humidity"; "contrail.rhw2rhi";
    "contrail.critical_temperature_water"; "contrail.rf_shortwave"; "contrail.rf_longwave"; "contrail.rf_net"]%string ->
  call F args = map (fun y => Ar [y]) (fn_body F NP xs).
Proof.
  intros F args xs HF Hl H0 -> Hn.
  assert (Hd : fn_decorated F = false /\ fn_uses F = all_used (fn_arity F)).
  { revert HF Hn. unfold api. rewrite !in_app_iff. unfold backend_table, interp_table, numpy_table. clear. cbn [In].
    intros [HF|[HF|HF]] Hn;
    repeat (destruct HF as [<-|HF]; [ cbn [fn_name fn_decorated fn_uses fn_arity] in *; try (split; reflexivity); exfalso; clear - Hn;
      repeat (destruct Hn as [Hn|Hn]; [discriminate Hn|]); exact Hn |]); contradiction. }
  destruct Hd as [Hd Hu].
  assert (He : elements 0 (map (fun x : ext => Ar [x]) xs) xs).
  { clear. induction xs; constructor; auto. reflexivity. }
  assert (Hf : Forall (fits 1) (map (fun x : ext => Ar [x]) xs)).
  { clear. induction xs; constructor; auto. cbn. auto. }
  pose proof (call_elements F _ 1 0 xs HF Hf He) as Hc.
  pose proof (call_shapes F _ HF Hl) as Hs. rewrite Hd, Hu in Hs.
  assert (Hsel : forall m : list bool, m = repeat true (fn_arity F) -> sel m (map shape (map (fun x : ext => Ar [x]) xs)) = SA 1).
  { intros m ->. rewrite map_length in Hl. rewrite <- Hl in *. clear - H0. destruct xs as [|x xs]; [contradiction H0; auto|]. clear H0. cbn.
    assert (Z : sel (repeat true (length xs)) (map shape (map (fun x : ext => Ar [x]) xs)) = S0 \/ sel (repeat true (length xs)) (map shape (map (fun x : ext => Ar [x]) xs)) = SA 1).
    { induction xs as [|y xs IH]; cbn; auto. right. destruct IH as [-> | ->]; reflexivity. }
    destruct Z as [-> | ->]; reflexivity. }
  set (r := call F _) in *. set (y := fn_body F NP xs) in *. unfold all_used in Hs.
  assert (Hall : Forall (fun v => exists z, v = Ar [z]) r).
  { clearbody r. clear Hc y. remember [repeat true (fn_arity F)] as ms eqn:Em.
    assert (Hm : Forall (fun m => m = repeat true (fn_arity F)) ms) by (rewrite Em; repeat constructor). clear Em.
    induction Hs as [|v m vs ms (w & -> & Hw) Hs IH]; constructor; [|inversion Hm; auto].
    inversion Hm as [|? ? Hm1 Hm2]; subst. rewrite Hsel in Hw by auto.
    destruct w as [z|[|z [|z' l]]|]; cbn in Hw; try discriminate. eauto. }
  clearbody r y. clear Hs. revert Hall. induction Hc as [|v z vs zs Hv Hc IH]; intros Hall; [reflexivity|].
  inversion Hall as [|? ? (z' & ->) Hrest]; subst. cbn in Hv. injection Hv as ->. cbn [map]. rewrite (IH Hrest). reflexivity.
Qed.

(** C52, mismatch: if a component depends on two arrays of different lengths, neither of them 1,
    the call fails. *)
Theorem C52_length_mismatch : forall F args k m j1 j2 u v,
  In F API -> length args = fn_arity F ->
  nth_error (fn_uses F) k = Some m ->
  nth_error m j1 = Some true -> nth_error m j2 = Some true ->
  nth_error args j1 = Some u -> nth_error args j2 = Some v -> mismatch u v ->
  nth_error (call F args) k = Some VErr.
Proof.
  intros F args k m j1 j2 u v HF Hl Hk Hm1 Hm2 Hu Hv (l & q & -> & -> & Hne & H1 & H2).
  pose proof (call_shapes F args HF Hl) as H.
  assert (exists r, nth_error (call F args) k = Some r /\ exists w, r = (if fn_decorated F then to_scalar w else w) /\
     shape w = sel m (map shape (if fn_decorated F then map to_array args else args))) as (r & Hr & w & -> & Hw).
  { revert k Hk. induction H as [|x y xs ys Hx H IH]; intros [|k] Hk; try discriminate.
    - cbn in Hk. injection Hk as ->. exists x. split; [reflexivity|exact Hx].
    - apply IH. exact Hk. }
  rewrite Hr. f_equal.
  set (ss := map shape (if fn_decorated F then map to_array args else args)) in *.
  assert (Hs1 : nth_error ss j1 = Some (SA (length l))).
  { unfold ss. destruct (fn_decorated F); rewrite !nth_error_map, Hu; reflexivity. }
  assert (Hs2 : nth_error ss j2 = Some (SA (length q))).
  { unfold ss. destruct (fn_decorated F); rewrite !nth_error_map, Hv; reflexivity. }
  destruct (sel_in m ss j1 _ Hm1 Hs1) as (s1 & E1).
  destruct (sel_in m ss j2 _ Hm2 Hs2) as (s2 & E2).
  assert (shape w = SE) as Hse.
  { rewrite Hw. destruct (sel m ss) as [|k'|] eqn:E; [exfalso|exfalso|reflexivity].
    - symmetry in E1. now apply join_SA_not_S0 in E1.
    - symmetry in E1, E2. apply join_SA_inv in E1. apply join_SA_inv in E2. lia. }
  destruct w as [x|l0|]; cbn in Hse; try discriminate. now destruct (fn_decorated F).
Qed.

(** Every component of every function depends on every argument, except that the latitude
    returned by [geo.latlon] does not depend on the start longitude. *)
Theorem C52_arguments_used : forall F,
  In F API -> fn_name F <> "geo.latlon"%string ->
  Forall (fun m => m = repeat true (fn_arity F)) (fn_uses F).
Proof.
  intros F. unfold api. rewrite !in_app_iff.
  unfold backend_table, interp_table, numpy_table. cbn [In].
  intros [HF|[HF|HF]] Hn;
  repeat (destruct HF as [<-|HF]; [
    cbn [fn_uses fn_arity fn_name] in *; unfold all_used; try congruence;
    try (destruct (m_range ac)); repeat constructor |]); contradiction.
Qed.

(** so [geo.latlon] with an array of start longitudes and scalars otherwise returns one latitude
    but an array of longitudes *)
Theorem C52_latlon_shapes : forall F lat lons d brg h,
  In F API -> fn_name F = "geo.latlon"%string -> length lons <> 1 ->
  exists y ys, call F [Sc lat; Ar lons; Sc d; Sc brg; Sc h] = [Sc y; Ar ys] /\
               length ys = length lons.
Proof.
  intros F lat lons d brg h HF Hn Hlen.
  assert (HL : fn_arity F = 5 /\ fn_decorated F = false /\
     fn_uses F = [[true; false; true; true; true]; [true; true; true; true; true]]).
  { revert HF. unfold api. rewrite !in_app_iff.
    unfold backend_table, interp_table, numpy_table. cbn [In].
    intros [HF|[HF|HF]];
    repeat (destruct HF as [<-|HF]; [ cbn [fn_uses fn_arity fn_name fn_decorated] in *; try discriminate; auto |]);
    contradiction. }
  destruct HL as (Hk & Hd & Hu).
  pose proof (call_shapes F [Sc lat; Ar lons; Sc d; Sc brg; Sc h] HF ltac:(rewrite Hk; reflexivity)) as H.
  rewrite Hd, Hu in H.
  inversion H as [|r1 m1 rs ms (w1 & -> & H1) H']; subst.
  inversion H' as [|r2 m2 rs' ms' (w2 & -> & H2) H'']; subst.
  inversion H''; subst. cbn in H1, H2.
  destruct w1 as [y| |]; try discriminate. destruct w2 as [|ys|]; try discriminate.
  exists y, ys. split; [congruence|]. injection H2 as H2. exact H2.
Qed.
End C52.

(** ** Concrete cases *)
Section Ex.
Context (e : thrust_par) (a : drag_par) (f : fuel_par) (n_eng : R)
        (t_nox t_co t_hc : ei_table) (ac : mass_par) (wave gear fraction limit : bool) (to : phase_of).
Local Notation API := (api e a f n_eng t_nox t_co t_hc ac wave gear fraction limit to).

(** three altitudes, one temperature shift; three masses with a 1-element speed array *)
Example C52_ex : exists F G,
  In F API /\ fn_name F = "aero.temperature"%string /\ fn_decorated F = false /\
  Forall (fits 3) [Ar [Fin 0; Fin 11000; Fin 20000]; Sc (Fin 0)] /\
  array_of 3 (Ar [Fin 0; Fin 11000; Fin 20000]) /\
  elements 1 [Ar [Fin 0; Fin 11000; Fin 20000]; Sc (Fin 0)] [Fin 11000; Fin 0] /\
  In G API /\ fn_name G = "Drag.clean"%string /\ fn_decorated G = true /\
  Forall (fits 3) [Ar [Fin 50000; Fin 60000; Fin 70000]; Ar [Fin 400]; Sc (Fin 30000); Sc (Fin 0); Sc (Fin 0)] /\
  Forall single [Sc (Fin 50000); Ar [Fin 400]; Sc (Fin 30000); Sc (Fin 0); Ar [Fin 0]].
Proof.
  exists (mkFn "aero.temperature" false 2 (all_used 2) (ap2 temperature)),
         (mkFn "Drag.clean" true 5 (all_used 5) (ap5 (fun b => clean b a wave))).
  repeat match goal with |- _ /\ _ => split end; try reflexivity.
  - unfold api, backend_table. rewrite !in_app_iff. left. cbn. auto.
  - repeat apply Forall_cons; cbn; auto.
  - repeat constructor.
  - apply (nth_error_In _ 22). reflexivity.
  - repeat apply Forall_cons; cbn; auto.
  - repeat constructor.
Qed.

Example C52_ex_co2 :
  let F := mkFn "Emission.co2" true 1 (all_used 1) (ap1 co2) in
  In F API /\
  call F [Ar [Fin 1; Fin 2]] = [Ar [Fin (1 * 3160); Fin (2 * 3160)]] /\
  call F [Ar [Fin 1]] = [Sc (Fin (1 * 3160))] /\ call F [Ar []] = [Ar []].
Proof.
  split; [|repeat split; reflexivity].
  apply (nth_error_In _ 27). reflexivity.
Qed.

(** two altitudes with three temperature shifts *)
Example C52_ex_mismatch :
  let F := mkFn "aero.temperature" false 2 (all_used 2) (ap2 temperature) in
  In F API /\ mismatch (Ar [Fin 0; Fin 1]) (Ar [Fin 0; Fin 1; Fin 2]) /\
  call F [Ar [Fin 0; Fin 1]; Ar [Fin 0; Fin 1; Fin 2]] = [VErr].
Proof.
  split; [unfold api, backend_table; rewrite !in_app_iff; left; cbn; auto|].
  split; [|reflexivity].
  exists [Fin 0; Fin 1], [Fin 0; Fin 1; Fin 2]. repeat split; discriminate.
Qed.
End Ex.
