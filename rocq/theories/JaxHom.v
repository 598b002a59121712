(** The JAX values against the NumPy values, and untraced values: two homomorphisms. *)
From Coq Require Import Reals List Bool Lra.
From Verif Require Import Num NumFacts Jax SpecJax Hom JaxFacts.
Open Scope R_scope.

(** the number carried by a JAX value is the NumPy value *)
Definition hom_val : hom JB NP.
Proof.
  refine {| hR := fun (a : T JB) (x : T NP) => j_val a = x; hC := fun (c : C JB) (c' : C NP) => c = c' |}; intros; subst; try reflexivity.
Defined.
(** a function of untraced values is not traced *)
Definition hom_fixed : hom JB JB.
Proof.
  refine {| hR := fun (a _ : T JB) => fixed a; hC := fun (_ _ : C JB) => True |}; unfold fixed; intros; cbn; 
    repeat match goal with H : j_der _ = None |- _ => rewrite H; clear H end; auto.
Defined.
Definition hom_fixed_interp : forall x tbl, fixed x -> fixed (interp JB x tbl).
Proof. unfold fixed. intros. cbn. rewrite H. reflexivity. Qed.
(** a quantity at one value of the differentiated input *)
Definition hom_at (s : R) : hom LE NP.
Proof.
  refine {| hR := fun (F : T LE) (x : T NP) => F s = x; hC := fun (c : C LE) (c' : C NP) => c s = c' |}; intros; subst; reflexivity.
Defined.
