(** * Specification: what an exact derivative is (no model functions except the JAX values themselves) *)
From Coq Require Import Reals.
From Coquelicot Require Import Coquelicot.
From Verif Require Import Num Jax.
Open Scope R_scope.

(** [a] is a JAX value that belongs, at [s0], to the quantity [F] as a function of the differentiated input: near [s0]
    the quantity is a finite real function, the number is its value, the tangent is its derivative, and the pullback
    multiplies by its derivative.  A value that JAX does not trace is constant near [s0]. *)
Definition exact_to (s0 : R) (F : R -> ext) (f : R -> R) (a : jx) : Prop :=
  locally s0 (fun s => F s = Fin (f s)) /\ j_val a = Fin (f s0) /\
  match j_der a with
  | None => locally s0 (fun s => f s = f s0)
  | Some (t, k) => exists d, t = Fin d /\ is_derive f s0 d /\ forall c, k (Fin c) = Fin (c * d)
  end.
Definition exact (s0 : R) (F : R -> ext) (a : jx) : Prop := exists f, exact_to s0 F f a.
(** the value is not traced *)
Definition fixed (a : jx) : Prop := j_der a = None.

(** [F] has the derivative [d] at [s0] *)
Definition has_derivative (F : R -> ext) (s0 d : R) : Prop :=
  exists f, locally s0 (fun s => F s = Fin (f s)) /\ is_derive f s0 d.
(** [jax.grad] and [jax.jvp] both give the derivative of [F] *)
Definition grad_is (F : R -> ext) (s0 : R) (a : jx) : Prop :=
  exists d, has_derivative F s0 d /\ j_jvp a = Fin d /\ j_grad a = Fin d.

Lemma exact_grad : forall s0 F a, exact s0 F a -> grad_is F s0 a.
Proof.
  intros s0 F a (f & H1 & _ & H2). unfold grad_is, j_jvp, j_grad. destruct (j_der a) as [[t k]|].
  - destruct H2 as (d & -> & D & K). exists d. repeat split; [exists f; auto|]. rewrite K. f_equal. ring.
  - exists 0. repeat split. exists f. split; auto. apply (is_derive_ext_loc (fun _ => f s0)).
    + revert H2; apply filter_imp; intros; symmetry; auto.
    + apply (is_derive_const (f s0) s0).
Qed.
(** The derivative is unique. *)
Lemma grad_unique : forall F s0 d d', has_derivative F s0 d -> has_derivative F s0 d' -> d = d'.
Proof.
  intros F s0 d d' (f & H & D) (g & H' & D').
  assert (E : locally s0 (fun s => f s = g s)).
  { generalize (filter_and _ _ H H'). apply filter_imp. intros s [E1 E2]. rewrite E1 in E2. injection E2; auto. }
  apply (is_derive_ext_loc f g s0 d E) in D. rewrite <- (is_derive_unique g s0 d D). apply is_derive_unique. exact D'.
Qed.
(** arguments: a number, and the input itself *)
Lemma exact_const : forall s0 r, exact s0 (fun _ => Fin r) (j_const r).
Proof. intros. exists (fun _ => r). split; [|split; [reflexivity|]]; apply filter_forall; intros; reflexivity. Qed.
Lemma exact_var : forall s0, exact s0 Fin (j_var s0).
Proof.
  intros. exists (fun s => s). split; [apply filter_forall; auto|split; [reflexivity|]].
  exists 1. split; [reflexivity|split]. exact (is_derive_id (K := R_AbsRing) s0). intros; f_equal; ring.
Qed.
