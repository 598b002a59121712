(** * Properties C39, C70 and C71: which aircraft and engines can be built from the shipped data *)
From Coq Require Import String Ascii List Bool Arith Lia Permutation QArith.
From Verif Require Import Str StrFacts Py PropPy DataAc DataPolar DataWrap DataEng Build PropFacts P_Prop.
Import ListNotations.
Open Scope string_scope.

(** ** C39: the types for which FuelFlow can be constructed *)
Definition buildable_default : list string :=
  ["a20n"; "a319"; "a320"; "a321"; "a332"; "a333"; "a343"; "a359"; "a388"; "b38m"; "b734"; "b737"; "b738"; "b739"; "b744"; "b748";
   "b752"; "b772"; "b77w"; "b788"; "b789"; "c550"; "e190"; "e195"; "e75l"; "glf6"].
Definition buildable_nosyn : list string :=
  ["a319"; "a320"; "a321"; "a332"; "a333"; "a343"; "a388"; "b737"; "b738"; "b739"; "b744"; "b752"; "b77w"; "b788"; "b789"; "e190"].
Definition all_types : list string := (map ac_code shipped_aircraft ++ map fst shipped_acsyn)%list.
Definition buildable (s : option bool) : list string :=
  match s with None => buildable_default | Some false => buildable_nosyn | Some true => all_types end.
Definition fuel_check (s : option bool) : bool :=
  forallb (fun c => match fuel_new shipped0 c None (mkKwc s None) with
                    | inr _ => mem c (buildable s)
                    | inl ValueError => negb (mem c (buildable s))
                    | inl _ => false
                    end) all_types && forallb (fun c => mem c all_types) (buildable s).
Lemma fuel_checks : forall s, fuel_check s = true.
Proof. intros [[|]|]; vm_compute; reflexivity. Qed.
Lemma unknown_fails : forall ac s, plain ac = true -> ~ In (lower ac) all_types -> aircraft shipped0 ac s = inl ValueError.
Proof.
  intros ac s P N. destruct (C36_advertised_iff_accepted shipped0 shipped0_ships ac s P) as [_ H]. apply H. clear H.
  intros I. apply N. unfold all_types. apply in_or_app. unfold available_aircraft in I. cbv zeta in I.
  assert (A : forall x, In x (map slice84 (sorted (map (fun r => d_dir shipped0 ++ ac_code r ++ ".yml") (d_aircraft shipped0)))) -> In x (map ac_code shipped_aircraft)).
  { intros x Ix. assert (F : forallb (fun x => mem x (map ac_code shipped_aircraft)) (map slice84 (sorted (map (fun r => d_dir shipped0 ++ ac_code r ++ ".yml") (d_aircraft shipped0)))) = true) by (vm_compute; reflexivity).
    rewrite forallb_forall in F. apply mem_in. auto. }
  destruct s; [apply in_app_or in I; destruct I|]; auto.
Qed.
Theorem C39_buildable_types : forall d, ships d -> forall ac s, plain ac = true ->
  (In (lower ac) (buildable s) -> exists o, fuel_new d ac None (mkKwc s None) = inr o) /\
  (~ In (lower ac) (buildable s) -> fuel_new d ac None (mkKwc s None) = inl ValueError).
Proof.
  intros d S ac s P. rewrite ship_fuel by auto. rewrite <- (fuel_lower _ ac). pose proof (fuel_checks s) as F.
  unfold fuel_check in F. apply andb_prop in F. destruct F as [F G]. rewrite forallb_forall in F, G.
  destruct (in_dec string_dec (lower ac) all_types) as [I|N].
  - specialize (F _ I). destruct (fuel_new shipped0 (lower ac) None (mkKwc s None)) as [[]|o]; try discriminate; split; intros H; eauto.
    + apply negb_true_iff in F. exfalso. apply mem_in in H. congruence.
    + exfalso. apply H, mem_in, F.
  - assert (E : fuel_new shipped0 (lower ac) None (mkKwc s None) = inl ValueError).
    { rewrite fuel_lower. unfold fuel_new, bind. cbv zeta. rewrite aircraft_lower, unknown_fails by auto. auto. }
    rewrite E. split; auto. intros H. exfalso. apply N, mem_in, G, H.
Qed.
(** with [use_synonym=True] the buildable types are exactly the advertised ones *)
Theorem C39_synonyms_cover_advertised : forall d, ships d -> forall ac, plain ac = true ->
  (In (lower ac) (available_aircraft d true) <-> exists o, fuel_new d ac None (mkKwc (Some true) None) = inr o).
Proof.
  intros d S ac P. destruct (C39_buildable_types d S ac (Some true) P) as [H1 H2].
  destruct (C36_advertised_iff_accepted d S ac true P) as [A1 A2].
  split.
  - intros I. apply H1. destruct (in_dec string_dec (lower ac) all_types); auto.
    apply A1 in I. destruct I as (r & E). rewrite (ship_aircraft d) in E by auto. rewrite unknown_fails in E by auto. discriminate.
  - intros (o & E). destruct (in_dec string_dec (lower ac) (available_aircraft d true)); auto.
    unfold fuel_new, bind in E. cbv zeta in E. cbn [get kw_syn] in E. rewrite aircraft_lower, A2 in E by auto. discriminate.
Qed.
Example C39_ex : (exists o, fuel_new shipped0 "A320" None (mkKwc None None) = inr o) /\
  fuel_new shipped0 "A318" None (mkKwc None None) = inl ValueError /\
  (exists o, fuel_new shipped0 "A318" None (mkKwc (Some true) None) = inr o).
Proof. split; [|split]; [..|]; try (vm_compute; reflexivity); vm_compute; eexists; reflexivity. Qed.

(** ** C70: passing the documented default explicitly changes the outcome *)
Theorem C70_explicit_default_refuted : forall d, ships d -> forall ac, plain ac = true ->
  In (lower ac) ["a20n"; "a359"; "b38m"; "b734"; "b748"; "b772"; "c550"; "e195"; "e75l"; "glf6"] ->
  (exists o, fuel_new d ac None (mkKwc None None) = inr o) /\ fuel_new d ac None (mkKwc (Some false) None) = inl ValueError.
Proof.
  intros d S ac P I.
  destruct (C39_buildable_types d S ac None P) as [H1 _]. destruct (C39_buildable_types d S ac (Some false) P) as [_ H2].
  set (l := ["a20n"; "a359"; "b38m"; "b734"; "b748"; "b772"; "c550"; "e195"; "e75l"; "glf6"]) in *.
  assert (F : forallb (fun c => mem c buildable_default && negb (mem c buildable_nosyn)) l = true) by (vm_compute; reflexivity).
  rewrite forallb_forall in F. specialize (F _ I). apply andb_prop in F. destruct F as [F1 F2]. apply mem_in in F1.
  split; [apply H1, F1|]. apply H2. intros J. apply mem_in in J. cbn [buildable] in J. rewrite J in F2. discriminate.
Qed.
(** switching synonyms off never makes more types buildable; for the sixteen others there is no difference *)
Theorem C70_explicit_false_restricts : forall d, ships d -> forall ac o, plain ac = true ->
  fuel_new d ac None (mkKwc (Some false) None) = inr o -> fuel_new d ac None (mkKwc None None) = inr o.
Proof.
  intros d S ac o P H. unfold fuel_new, bind in *. cbv zeta in *. cbn [get kw_syn] in *.
  destruct (aircraft d (lower ac) false) as [|a]; [discriminate|].
  destruct (engine d (ac_default a)) as [|e]; [discriminate|].
  change (thrust_new d ac (Some (ac_default a)) (mkKwc None None)) with (thrust_new d ac (Some (ac_default a)) (mkKwc (Some false) None)).
  destruct (thrust_new d ac (Some (ac_default a)) (mkKwc (Some false) None)) as [|t]; [discriminate|].
  change (drag_new d ac (mkKwc None None)) with (drag_new d ac (mkKwc (Some false) None)).
  destruct (drag_new d ac (mkKwc (Some false) None)) as [|dr]; [discriminate|].
  replace (wrap_new d ac None) with (wrap_new d ac (Some false)); auto.
  destruct (wrap_new d ac (Some false)) as [|w] eqn:W; [discriminate|]. symmetry. rewrite <- W. clear H.
  unfold wrap_new, bind in *. cbn [get negb] in *. destruct (mem (lower ac) (wrap_available d)); auto. discriminate.
Qed.
Example C70_ex : (exists o, fuel_new shipped0 "E195" None (mkKwc None None) = inr o) /\
  fuel_new shipped0 "E195" None (mkKwc (Some false) None) = inl ValueError /\ plain "E195" = true.
Proof. split; [vm_compute; eexists; reflexivity|]. split; vm_compute; reflexivity. Qed.

(** ** C71: the listed engine options *)
Definition bad_options : list (string * string) := [("a21n", "LEAP-1A32"); ("a21n", "LEAP-1A30"); ("a21n", "LEAP-1A33")].
Definition pmem (x : string * string) (l : list (string * string)) : bool :=
  existsb (fun y => String.eqb (fst x) (fst y) && String.eqb (snd x) (snd y)) l.
Lemma pmem_in : forall x l, pmem x l = true <-> In x l.
Proof.
  intros [a b] l. unfold pmem. rewrite existsb_exists. cbn [fst snd]. split.
  - intros ([c e] & I & H). cbn [fst snd] in H. apply andb_prop in H. destruct H as [H1 H2]. apply String.eqb_eq in H1, H2. subst. auto.
  - intros I. exists (a, b). split; auto. cbn [fst snd]. rewrite !String.eqb_refl. auto.
Qed.
Definition option_check : bool :=
  forallb (fun a => forallb (fun o =>
    match thrust_new shipped0 (ac_code a) (Some o) (mkKwc None None), engine shipped0 o with
    | inr t, inr e => negb (pmem (ac_code a, o) bad_options) && String.eqb (en_name (er_row (to_eng t))) (en_name (er_row e))
    | inl ValueError, inl ValueError => pmem (ac_code a, o) bad_options
    | _, _ => false
    end) (ac_options a)) shipped_aircraft.
Lemma option_checked : option_check = true.
Proof. vm_compute. reflexivity. Qed.
Lemma thrust_lower : forall d ac e k, thrust_new d (lower ac) e k = thrust_new d ac e k.
Proof. intros. unfold thrust_new. rewrite aircraft_lower. auto. Qed.
Theorem C71_options_usable : forall d, ships d -> forall ac l o, plain ac = true ->
  aircraft_engine_options d ac = inr l -> In o l ->
  (In (lower ac, o) bad_options -> thrust_new d ac (Some o) (mkKwc None None) = inl ValueError /\ engine d o = inl ValueError) /\
  (~ In (lower ac, o) bad_options -> (exists t, thrust_new d ac (Some o) (mkKwc None None) = inr t) /\ exists e, engine d o = inr e).
Proof.
  intros d S ac l o P H I. rewrite ship_thrust, ship_engine by auto. unfold aircraft_engine_options in H.
  destruct (aircraft d ac false) as [|a] eqn:A; [discriminate|]. injection H as <-.
  destruct (C36_lookup_without_synonyms d ac P) as (H1 & _). destruct (H1 a A) as [Ia Ca].
  pose proof option_checked as F. unfold option_check in F. rewrite forallb_forall in F.
  specialize (F a (Permutation_in _ (Permutation_sym (sh_ac d S)) Ia)). rewrite forallb_forall in F. specialize (F o I).
  rewrite Ca in F. rewrite thrust_lower in F.
  destruct (thrust_new shipped0 ac (Some o) (mkKwc None None)) as [[]|t]; try discriminate.
  - destruct (engine shipped0 o) as [[]|e]; try discriminate. apply pmem_in in F. split; auto. intros N; contradiction.
  - destruct (engine shipped0 o) as [|e]; try discriminate. apply andb_prop in F. destruct F as [F _]. apply negb_true_iff in F.
    split; [|eauto]. intros J. apply pmem_in in J. congruence.
Qed.
(** the documented way of listing options works for every aircraft file, the default engine is always usable *)
Theorem C71_default_usable : forall d, ships d -> forall ac a, plain ac = true -> aircraft d ac false = inr a ->
  exists t, thrust_new d ac None (mkKwc None None) = inr t /\ exists e, emission_new d ac None (mkKwc None None) = inr e.
Proof.
  intros d S ac a P A. destruct (C36_lookup_without_synonyms d ac P) as (H1 & _). destruct (H1 a A) as [Ia Ca].
  assert (F : forallb (fun a => match thrust_new shipped0 (ac_code a) None (mkKwc None None), engine shipped0 (ac_default a) with
     | inr _, inr _ => true | _, _ => false end) shipped_aircraft = true) by (vm_compute; reflexivity).
  rewrite forallb_forall in F. specialize (F a (Permutation_in _ (Permutation_sym (sh_ac d S)) Ia)).
  rewrite Ca, thrust_lower, <- ship_thrust with (d := d) in F by auto.
  destruct (thrust_new d ac None (mkKwc None None)) as [|t]; [discriminate|]. exists t. split; auto.
  unfold emission_new, bind. cbn [get kw_syn]. rewrite A, ship_engine by auto.
  destruct (engine shipped0 (ac_default a)); [discriminate|eauto].
Qed.
Example C71_ex : exists l, aircraft_engine_options shipped0 "a21n" = inr l /\ In "LEAP-1A32" l /\
  thrust_new shipped0 "a21n" (Some "LEAP-1A32") (mkKwc None None) = inl ValueError.
Proof.
  destruct (aircraft_engine_options shipped0 "a21n") as [|l] eqn:E; [vm_compute in E; discriminate|].
  exists l. split; auto. split; [|vm_compute; reflexivity]. apply mem_in. vm_compute in E. injection E as <-. vm_compute. reflexivity.
Qed.
