(** * Facts about array broadcasting *)
From Coq Require Import Reals List Bool Arith Lia Lra.
From Verif Require Import Num Aero Geo Thrust Drag Fuel Emission Mass Contrail Hom Functions Vec SpecVec.
Import ListNotations.
Open Scope list_scope.
Open Scope nat_scope.

(** ** Elements *)
Lemma zipw_length : forall A B D (g : A -> B -> D) l m, length l = length m -> length (zipw g l m) = length l.
Proof.
  induction l as [|x l IH]; intros [|y m] H; cbn in *; try reflexivity; try discriminate.
  f_equal. apply IH. lia.
Qed.
Lemma zipw_nth : forall A B D (g : A -> B -> D) l m i x y,
  nth_error l i = Some x -> nth_error m i = Some y -> nth_error (zipw g l m) i = Some (g x y).
Proof.
  induction l as [|a l IH]; intros [|c m] [|i] x y; cbn; try discriminate.
  - congruence.
  - apply IH.
Qed.

(** position-i relation for arrays that fit n *)
Definition at_rel {A} (n i : nat) (v : varr A) (x : A) : Prop := fits n v /\ element i v x.

Lemma at_vmap1 : forall A B (g : A -> B) n i u x, at_rel n i u x -> at_rel n i (vmap1 g u) (g x).
Proof.
  intros A B g n i [y|l|] x [Hf He]; cbn in *; try contradiction; (split; [cbn|cbn]); auto.
  - congruence.
  - rewrite map_length. exact Hf.
  - rewrite map_length. now rewrite nth_error_map, He.
Qed.

Lemma one : forall A (l : list A), length l = 1 -> exists x, l = [x].
Proof. intros A [|x [|y l]] H; try discriminate. eauto. Qed.

Lemma at_vmap2 : forall A B D (g : A -> B -> D) n i u v x y,
  at_rel n i u x -> at_rel n i v y -> at_rel n i (vmap2 g u v) (g x y).
Proof.
  intros A B D g n i [a|l|] [c|m|] x y [Hu Eu] [Hv Ev]; cbn [fits element] in *; try contradiction.
  - split; cbn; auto; congruence.
  - subst. split; cbn; rewrite ?map_length; auto. now rewrite nth_error_map, Ev.
  - subst. split; cbn; rewrite ?map_length; auto. now rewrite nth_error_map, Eu.
  - unfold at_rel. cbn [vmap2]. destruct (Nat.eqb_spec (length l) (length m)) as [E|E].
    + cbn [fits element]. rewrite (zipw_length _ _ _ g l m E). split; [assumption|].
      rewrite <- E in Ev. apply zipw_nth; assumption.
    + destruct Hu as [Hu|Hu], Hv as [Hv|Hv]; try lia.
      * destruct (one _ _ Hu) as (z & ->). cbn in Eu. injection Eu as ->.
        cbn [fits element]. rewrite map_length. split; [auto|]. now rewrite nth_error_map, Ev.
      * destruct (one _ _ Hv) as (z & ->). cbn in Ev. injection Ev as ->.
        destruct l as [|p [|q l]]; try (cbn in E; lia); cbn [fits element]; rewrite map_length;
          (split; [auto|]); now rewrite nth_error_map, Eu.
Qed.

Lemma at_vmap3 : forall A B D E (g : A -> B -> D -> E) n i u v w x y z,
  at_rel n i u x -> at_rel n i v y -> at_rel n i w z -> at_rel n i (vmap3 g u v w) (g x y z).
Proof.
  intros. unfold vmap3. change (g x y z) with ((fun k a => k a) (g x y) z).
  apply at_vmap2; [|assumption]. apply at_vmap2; assumption.
Qed.

Lemma at_sc : forall A n i (x : A), at_rel n i (Sc x) x.
Proof. intros. split; cbn; auto. Qed.

Definition elem_hom (n i : nat) : hom VB NP.
Proof.
  refine (mkHom VB NP (at_rel n i) (at_rel n i) _ _ _ _ _ _ _ _ _ _ _ _ _ _ _ _ _ _ _ _ _ _ _ _ _);
  cbn; intros;
  try (apply at_sc);
  try (apply at_vmap1; assumption);
  try (apply at_vmap2; assumption);
  try (apply at_vmap3; (assumption || apply at_sc)).
  apply (at_vmap1 _ _ (fun a => epowi a n0)). assumption.
Defined.

(** ** Shapes *)
Inductive shp : Type := S0 | SA (n : nat) | SE.
Definition shape {A} (v : varr A) : shp :=
  match v with Sc _ => S0 | Ar l => SA (length l) | VErr => SE end.
Definition join (s t : shp) : shp :=
  match s, t with
  | SE, _ | _, SE => SE
  | S0, u | u, S0 => u
  | SA n, SA m => if Nat.eqb n m then SA n else if Nat.eqb n 1 then SA m
                  else if Nat.eqb m 1 then SA n else SE
  end.
Ltac eqbs := repeat match goal with
  | |- context[Nat.eqb ?a ?b] => destruct (Nat.eqb_spec a b); subst; try lia; cbn [join]
  end.
Lemma join_comm : forall s t, join s t = join t s.
Proof. intros [|n|] [|m|]; cbn; try reflexivity. eqbs; congruence. Qed.
Lemma join_assoc : forall s t u, join s (join t u) = join (join s t) u.
Proof.
  intros [|n|] [|m|] [|k|]; cbn; try reflexivity; eqbs; try reflexivity; try congruence.
Qed.
Lemma join_idem : forall s, join s s = s.
Proof. intros [|n|]; cbn; try reflexivity. now rewrite Nat.eqb_refl. Qed.
Lemma join_S0_l : forall s, join S0 s = s.
Proof. intros [| |]; reflexivity. Qed.
Lemma join_S0_r : forall s, join s S0 = s.
Proof. intros [| |]; reflexivity. Qed.

Lemma shape_vmap1 : forall A B (g : A -> B) u, shape (vmap1 g u) = shape u.
Proof. intros A B g [|l|]; cbn; try reflexivity. now rewrite map_length. Qed.
Lemma shape_vmap2 : forall A B D (g : A -> B -> D) u v, shape (vmap2 g u v) = join (shape u) (shape v).
Proof.
  intros A B D g [x|l|] [y|m|]; cbn; try reflexivity; rewrite ?map_length; try reflexivity.
  destruct (Nat.eqb_spec (length l) (length m)) as [E|E].
  - cbn. now rewrite zipw_length.
  - destruct l as [|p [|q l]], m as [|r [|s m]]; cbn in *; rewrite ?map_length; try reflexivity; try lia.
Qed.

(** Which arguments an expression depends on: a backend of bit masks. *)
Fixpoint orl (l m : list bool) : list bool :=
  match l, m with
  | x :: l', y :: m' => orb x y :: orl l' m'
  | [], _ => m
  | _, [] => l
  end.
Definition MB : backend := {|
  T := list bool; C := list bool;
  cst := fun _ => []; add := orl; sub := orl; mul := orl; div := orl; neg := fun x => x;
  powi := fun x _ => x; power := orl; bsqrt := fun x => x; bexp := fun x => x; blog := fun x => x;
  bsin := fun x => x; bcos := fun x => x; btan := fun x => x; barcsin := fun x => x;
  barccos := fun x => x; barctan := fun x => x; btanh := fun x => x; barctan2 := orl;
  babs := fun x => x; maximum := orl; minimum := orl;
  clip := fun x y z => orl (orl x y) z; fmod := orl; gt := orl;
  where_ := fun x y z => orl (orl x y) z; interp := fun x _ => x; bpi := []
|}.

Fixpoint sel (m : list bool) (ss : list shp) : shp :=
  match m, ss with
  | x :: m', s :: ss' => if x then join s (sel m' ss') else sel m' ss'
  | _, _ => S0
  end.
Lemma sel_orl : forall l m ss, sel (orl l m) ss = join (sel l ss) (sel m ss).
Proof.
  induction l as [|x l IH]; intros m ss.
  - cbn [orl sel]. now rewrite join_S0_l.
  - destruct m as [|y m], ss as [|s ss]; cbn [orl sel].
    + reflexivity.
    + now rewrite join_S0_r.
    + reflexivity.
    + rewrite IH. destruct x, y; cbn [orb]; try reflexivity.
      * rewrite <- !join_assoc. rewrite (join_assoc (sel l ss) s).
        rewrite (join_comm (sel l ss) s). rewrite <- !join_assoc.
        rewrite (join_assoc s s). now rewrite join_idem.
      * now rewrite join_assoc.
      * rewrite !join_assoc. f_equal. apply join_comm.
Qed.

Definition mask_rel (ss : list shp) {A} (v : varr A) (m : list bool) : Prop := shape v = sel m ss.
Definition mask_hom (ss : list shp) : hom VB MB.
Proof.
  refine (mkHom VB MB (mask_rel ss) (mask_rel ss) _ _ _ _ _ _ _ _ _ _ _ _ _ _ _ _ _ _ _ _ _ _ _ _ _);
  cbn; unfold mask_rel, vmap3; intros;
  rewrite ?shape_vmap2, ?shape_vmap1, ?sel_orl; cbn [sel shape]; try congruence.
Defined.

(** ** Every function of the table preserves homomorphisms *)
Definition respects (b1 b2 : backend) (H : hom b1 b2) (g : body) : Prop :=
  forall xs ys, Forall2 (hR b1 b2 H) xs ys -> Forall2 (hR b1 b2 H) (g b1 xs) (g b2 ys).

Ltac inv_all := repeat match goal with
  | H : Forall2 _ _ _ |- _ => inversion H; clear H; subst; try (now constructor)
  end.

Section Respects.
Context (b1 b2 : backend) (H : hom b1 b2).
Local Notation Rl := (hR b1 b2 H).

Lemma ap1_respects : forall g : forall b, T b -> T b,
  (forall x x', Rl x x' -> Rl (g b1 x) (g b2 x')) -> respects b1 b2 H (ap1 g).
Proof. intros g Hg xs ys HF. inv_all. repeat constructor. auto. Qed.
Lemma ap2_respects : forall g : forall b, T b -> T b -> T b,
  (forall x x' y y', Rl x x' -> Rl y y' -> Rl (g b1 x y) (g b2 x' y')) -> respects b1 b2 H (ap2 g).
Proof. intros g Hg xs ys HF. inv_all. repeat constructor. auto. Qed.
Lemma ap3_respects : forall g : forall b, T b -> T b -> T b -> T b,
  (forall x x' y y' z z', Rl x x' -> Rl y y' -> Rl z z' -> Rl (g b1 x y z) (g b2 x' y' z')) ->
  respects b1 b2 H (ap3 g).
Proof. intros g Hg xs ys HF. inv_all. repeat constructor. auto. Qed.
Lemma ap4_respects : forall g : forall b, T b -> T b -> T b -> T b -> T b,
  (forall x x' y y' z z' u u', Rl x x' -> Rl y y' -> Rl z z' -> Rl u u' ->
     Rl (g b1 x y z u) (g b2 x' y' z' u')) ->
  respects b1 b2 H (ap4 g).
Proof. intros g Hg xs ys HF. inv_all. repeat constructor. auto. Qed.
Lemma ap5_respects : forall g : forall b, T b -> T b -> T b -> T b -> T b -> T b,
  (forall x x' y y' z z' u u' v v', Rl x x' -> Rl y y' -> Rl z z' -> Rl u u' -> Rl v v' ->
     Rl (g b1 x y z u v) (g b2 x' y' z' u' v')) ->
  respects b1 b2 H (ap5 g).
Proof. intros g Hg xs ys HF. inv_all. repeat constructor. auto. Qed.
Lemma ap6_respects : forall g : forall b, T b -> T b -> T b -> T b -> T b -> T b -> T b,
  (forall x x' y y' z z' u u' v v' w w',
     Rl x x' -> Rl y y' -> Rl z z' -> Rl u u' -> Rl v v' -> Rl w w' ->
     Rl (g b1 x y z u v w) (g b2 x' y' z' u' v' w')) ->
  respects b1 b2 H (ap6 g).
Proof. intros g Hg xs ys HF. inv_all. repeat constructor. auto. Qed.

Lemma backend_table_respects : forall e a f wave gear limit F,
  In F (backend_table e a f wave gear limit) -> respects b1 b2 H (fn_body F).
Proof.
  intros e a f wave gear limit F HF. unfold backend_table in HF. cbn [In] in HF.
  repeat (destruct HF as [<-|HF]; cbn [fn_body]; [
    first
    [ apply ap1_respects; intros;
      first [ simple apply at_thrust_hom; assumption | unfold co2, h2o, soot, sox; hom ]
    | apply ap2_respects; intros;
      first [ simple apply temperature_hom | simple apply pressure_hom | simple apply density_hom
            | simple apply vsound_hom | simple apply h_isa_hom ]; assumption
    | apply ap3_respects; intros;
      first [ simple apply tas2mach_hom | simple apply mach2tas_hom | simple apply eas2tas_hom
            | simple apply tas2eas_hom | simple apply cas2tas_hom | simple apply tas2cas_hom
            | simple apply mach2cas_hom | simple apply cas2mach_hom | simple apply crossover_hom
            | simple apply takeoff_thrust_hom | simple apply cruise_thrust_hom
            | simple apply descent_idle_hom ]; assumption
    | apply ap4_respects; intros;
      first [ simple apply bearing_hom | simple apply climb_thrust_hom ]; assumption
    | apply ap5_respects; intros;
      first [ simple apply distance_hom | simple apply clean_hom ]; assumption
    | apply ap6_respects; intros;
      first [ simple apply nonclean_hom | simple apply enroute_hom ]; assumption
    | idtac ] |]); try contradiction.
  - intros xs ys HF. inv_all.
    match goal with Hx : hR _ _ _ ?h ?h', Hy : hR _ _ _ ?d ?d' |- _ =>
      generalize (atmos_hom b1 b2 H h h' d d' Hx Hy) end.
    destruct (atmos b1 _ _) as [[p r] t], (atmos b2 _ _) as [[p' r'] t']. cbn [fst snd].
    intros (? & ? & ?). repeat constructor; assumption.
  - intros xs ys HF. inv_all.
    match goal with H1 : hR _ _ _ ?x1 ?y1, H2 : hR _ _ _ ?x2 ?y2, H3 : hR _ _ _ ?x3 ?y3,
      H4 : hR _ _ _ ?x4 ?y4, H5 : hR _ _ _ ?x5 ?y5 |- context[latlon b1 ?x1 ?x2 ?x3 ?x4 ?x5] =>
      generalize (latlon_hom b1 b2 H _ _ _ _ _ _ _ _ _ _ H1 H2 H3 H4 H5) end.
    destruct (latlon b1 _ _ _ _ _) as [p q], (latlon b2 _ _ _ _ _) as [p' q']. cbn [fst snd].
    intros (? & ?). repeat constructor; assumption.
  - intros xs ys HF. inv_all.
    match goal with H1 : hR _ _ _ ?x1 ?y1, H2 : hR _ _ _ ?x2 ?y2, H3 : hR _ _ _ ?x3 ?y3
      |- context[takeoff_fuel b1 e f ?x1 (Some ?x2) ?x3] =>
      generalize (takeoff_fuel_hom b1 b2 H e f _ _ _ _ _ _ H1 H2 H3) end.
    destruct (takeoff_fuel b1 _ _ _ _ _), (takeoff_fuel b2 _ _ _ _ _); try contradiction.
    repeat constructor; assumption.
Qed.

Context (HI : forall tbl x x', Rl x x' -> Rl (interp b1 x tbl) (interp b2 x' tbl)).

Lemma interp_table_respects : forall n t1 t2 t3 F,
  In F (interp_table n t1 t2 t3) -> respects b1 b2 H (fn_body F).
Proof.
  intros n t1 t2 t3 F HF. unfold interp_table in HF. cbn [In] in HF.
  repeat (destruct HF as [<-|HF]; cbn [fn_body]; [
    apply ap4_respects; intros;
    first [ simple apply nox_hom | simple apply co_hc_hom ]; try assumption;
    apply HI; apply fl2sl_hom; assumption |]); contradiction.
Qed.

Lemma numpy_table_respects : forall ac fraction to F,
  In F (numpy_table ac fraction to) -> respects b1 b2 H (fn_body F).
Proof.
  intros ac fraction to F HF. unfold numpy_table in HF. cbn [In] in HF.
  repeat (destruct HF as [<-|HF]; cbn [fn_body]; [
    first
    [ apply ap1_respects; intros; first [ simple apply sat_water_hom | simple apply sat_ice_hom ]; assumption
    | apply ap2_respects; intros;
      first [ simple apply rhw2rhi_hom | simple apply crit_water_hom | simple apply rf_longwave_hom ];
      assumption
    | apply ap3_respects; intros;
      first [ simple apply relative_humidity_hom | simple apply rf_shortwave_hom ]; assumption
    | apply ap4_respects; intros; simple apply solar_zenith_hom; assumption
    | apply ap5_respects; intros; simple apply rf_net_hom; assumption
    | idtac ] |]); try contradiction.
  intros xs ys HF. inv_all.
  match goal with H1 : hR _ _ _ ?x1 ?y1, H2 : hR _ _ _ ?x2 ?y2
    |- context[from_range b1 ac ?x1 ?x2 ?fr] =>
    generalize (from_range_hom b1 b2 H ac _ _ _ _ fr H1 H2) end.
  destruct (from_range b1 _ _ _ _), (from_range b2 _ _ _ _); try contradiction;
  repeat constructor; assumption.
Qed.

Lemma api_respects : forall e a f n t1 t2 t3 ac wave gear fraction limit to F,
  In F (api e a f n t1 t2 t3 ac wave gear fraction limit to) -> respects b1 b2 H (fn_body F).
Proof.
  intros *. unfold api. rewrite !in_app_iff. intros [HF|[HF|HF]].
  - eapply backend_table_respects; eassumption.
  - eapply interp_table_respects; eassumption.
  - eapply numpy_table_respects; eassumption.
Qed.
End Respects.
