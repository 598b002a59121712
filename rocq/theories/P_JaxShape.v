(** * C117: which calls of the JAX models return a number, and for which arguments jax.grad works *)
From Coq Require Import Reals List Bool.
From Verif Require Import Num Py Aero Thrust Drag Fuel Emission JaxShape.
Import ListNotations.
Open Scope R_scope.

(** ** Specification *)
(** a number given by the user: traced by jax.grad (or a JAX number), or plain *)
Definition arg (traced : bool) : T SH := inr (mkK traced None).
(** an optional argument *)
Definition oarg (o : option bool) : option (T SH) := option_map arg o.
Definition is_traced (o : option bool) : bool := match o with Some true => true | _ => false end.
(** jax.grad needs a JAX value of shape () *)
Definition number (x : T SH) : Prop := x = inr (mkK true None).
(** an array with one element: jax.grad raises TypeError *)
Definition one_element (x : T SH) : Prop := x = inr (mkK true (Some 1%nat)).

Ltac fin := intros; repeat match goal with
  | x : bool |- _ => destruct x
  | x : option bool |- _ => destruct x as [[|]|]
  end; simpl orb in *; try discriminate; vm_compute; try reflexivity.

Lemma number_dec (c : bool) x : x = (if c then inr (mkK true None) else inr (mkK true (Some 1%nat))) ->
  (c = true -> number x) /\ (c = false -> one_element x).
Proof. intros ->. destruct c; split; intros; try discriminate; reflexivity. Qed.

(** ** The bodies used here are those of the models *)
Theorem C117_same_code (b : backend) a f e :
  (forall mass tas alt cd0 k vs dT, calc_drag b a mass tas alt cd0 k vs dT =
     calc_drag_body b (fun mass tas alt vs dT => cl_qS b a mass tas alt (match vs with Some v => v | None => cst b 0 end) dT) mass tas alt cd0 k vs dT) /\
  (forall w mass tas alt vs dT, clean b a w mass tas alt vs dT =
     clean_body b a w (fun mass tas alt vs dT => cl_qS b a mass tas alt (match vs with Some v => v | None => cst b 0 end) dT) (calc_drag b a) mass tas alt vs dT) /\
  (forall mass tas alt flap vs dT g, nonclean b a mass tas alt flap vs dT g = nonclean_body b a (calc_drag b a) mass tas alt flap vs dT g) /\
  (forall w mass tas alt vs acc dT lim, enroute b a w f mass tas alt vs acc dT lim =
     enroute_body b (clean b a w) (at_thrust b f) mass tas alt vs acc dT) /\
  (forall tas alt th, takeoff_fuel b e f tas (Some alt) th =
     inr (takeoff_body b (fun tas alt => takeoff_thrust b e tas alt (cst b 0)) (at_thrust b f) tas alt th)).
Proof. repeat apply conj; intros; reflexivity. Qed.

(** ** jax.grad by a set of arguments: a number exactly when ... *)
(** clean drag: any traced argument; with wave drag not the vertical rate alone *)
Theorem C117_clean a w m t h (vs dT : option bool) :
  let x := d_clean a w (arg m) (arg t) (arg h) (oarg vs) (oarg dT) in
  let c := m || t || h || is_traced dT || (is_traced vs && negb w) in
  (c = true -> number x) /\ (c = false -> one_element x).
Proof. intros x c. apply number_dec. unfold x, c. fin. Qed.
(** non-clean drag: any argument but the flap angle *)
Theorem C117_nonclean a m t h fl (vs dT : option bool) g :
  let x := d_nonclean a (arg m) (arg t) (arg h) (arg fl) (oarg vs) (oarg dT) g in
  let c := m || t || h || is_traced vs || is_traced dT in
  (c = true -> number x) /\ (c = false -> one_element x).
Proof. intros x c. apply number_dec. unfold x, c. destruct a as [? ? ? ? ? [|] ? ? ? ? ?]; fin. Qed.
(** thrust: any argument *)
Theorem C117_thrust e t h r (alt dT : option bool) :
  (let x := d_takeoff e (arg t) (oarg alt) (oarg dT) in let c := t || is_traced alt || is_traced dT in
   (c = true -> number x) /\ (c = false -> one_element x)) /\
  (let x := d_climb e (arg t) (arg h) (arg r) (oarg dT) in let c := t || h || r || is_traced dT in
   (c = true -> number x) /\ (c = false -> one_element x)) /\
  (let x := d_cruise e (arg t) (arg h) (oarg dT) in let c := t || h || is_traced dT in
   (c = true -> number x) /\ (c = false -> one_element x)) /\
  (let x := d_idle e (arg t) (arg h) (oarg dT) in let c := t || h || is_traced dT in
   (c = true -> number x) /\ (c = false -> one_element x)).
Proof. split; [|split; [|split]]; intros x c; apply number_dec; unfold x, c; fin. Qed.
(** fuel flow: at a thrust; at take-off not by the throttle alone; en route not by the acceleration alone, and with wave
    drag not by vertical rate and acceleration alone *)
Theorem C117_fuel a e f w m t h (vs acc dT th : option bool) :
  (let x := d_at_thrust f (arg t) in (t = true -> number x) /\ (t = false -> one_element x)) /\
  (let x := d_takeoff_fuel e f (arg t) (arg h) (oarg th) in let c := t || h in
   (c = true -> number x) /\ (c = false -> one_element x)) /\
  (let x := d_enroute a f w (arg m) (arg t) (arg h) (oarg vs) (oarg acc) (oarg dT) in
   let c := m || t || h || is_traced dT || (is_traced vs && negb w) in
   (c = true -> number x) /\ (c = false -> one_element x)).
Proof. split; [|split]; [intros x|intros x c|intros x c]; apply number_dec; unfold x; try unfold c; fin. Qed.
(** emissions: any argument; those proportional to the fuel flow are plain numbers for plain numbers *)
Theorem C117_emission n tbl g t (alt dT : option bool) :
  (forall e, In e [nox SH n tbl; co_hc SH n tbl] ->
   let x := d_em e (arg g) (arg t) (oarg alt) (oarg dT) in let c := g || t || is_traced alt || is_traced dT in
   (c = true -> number x) /\ (c = false -> one_element x)) /\
  (forall e, In e [co2 SH; h2o SH; soot SH; sox SH] -> d_prop e (arg g) = arg g).
Proof.
  split.
  - intros e He x c. apply number_dec. unfold x, c. destruct He as [<-|[<-|[]]]; fin.
  - intros e He. destruct He as [<-|[<-|[<-|[<-|[]]]]]; fin.
Qed.

(** ** The claims of the documentation that fail *)
(** "Converts 1-element array outputs back to scalars" *)
Theorem C117_scalar_refuted : ~ (forall a mass tas alt, (forall x, In x [mass; tas; alt] -> exists j, x = arg j) ->
  exists j, d_clean a false mass tas alt None None = inr (mkK j None)).
Proof.
  intros H. destruct (H (mkDrag 1 1 1 None 1 false 1 1 1 1 1) (arg false) (arg false) (arg false)) as [j Hj].
  - intros x [<-|[<-|[<-|[]]]]; eexists; reflexivity.
  - vm_compute in Hj. discriminate.
Qed.
(** "Can be used with JAX transformations": jax.grad by one argument *)
Theorem C117_grad_refuted : forall a e f,
  ~ number (d_nonclean a (arg false) (arg false) (arg false) (arg true) None None false) /\
  ~ number (d_clean a true (arg false) (arg false) (arg false) (Some (arg true)) None) /\
  ~ number (d_enroute a f false (arg false) (arg false) (arg false) None (Some (arg true)) None) /\
  ~ number (d_takeoff_fuel e f (arg false) (arg false) (Some (arg true))).
Proof. intros a e f. unfold number. repeat apply conj; destruct a as [? ? ? ? ? [|] ? ? ? ? ?]; vm_compute; discriminate. Qed.

Example C117_ex : forall a, number (d_clean a true (arg true) (arg false) (arg false) (Some (arg true)) None) /\
  one_element (d_clean a true (arg false) (arg false) (arg false) (Some (arg true)) None) /\
  one_element (d_clean a true (arg false) (arg false) (arg false) None None).
Proof. intros. repeat apply conj; vm_compute; reflexivity. Qed.
