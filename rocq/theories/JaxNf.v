(** Infinite local derivatives spread: lemmas about JAX gradients that are not finite. *)
From Coq Require Import Reals List Bool Lra.
From Verif Require Import Num Jax SpecNum.
Open Scope R_scope.

(** not a finite number *)
Definition nf (x : ext) : Prop := match x with Fin _ => False | _ => True end.
(** traced, and a cotangent that is not finite leads to a gradient that is not finite *)
Definition strict (a : jx) : Prop := match j_der a with Some (_, k) => forall c, nf c -> nf (k c) | None => True end.
Definition traced (a : jx) : Prop := j_der a <> None.
(** neither tangent nor gradient is finite *)
Definition dirty (a : jx) : Prop := match j_der a with Some (t, k) => nf t /\ forall c, nf (k c) | None => False end.

Lemma nf_mul_l : forall x y, nf x -> nf (emul x y).
Proof. intros [x| | |] [y| | |] H; cbn in *; auto; try contradiction; unfold einf_mul; repeat match goal with |- context [if ?c then _ else _] => destruct c end; cbn; auto. Qed.
Lemma nf_mul_r : forall x y, nf y -> nf (emul x y).
Proof. intros [x| | |] [y| | |] H; cbn in *; auto; try contradiction; unfold einf_mul; repeat match goal with |- context [if ?c then _ else _] => destruct c end; cbn; auto. Qed.
Lemma nf_add_l : forall x y, nf x -> nf (eadd x y).
Proof. intros [x| | |] [y| | |] H; cbn in *; auto. Qed.
Lemma nf_add_r : forall x y, nf y -> nf (eadd x y).
Proof. intros [x| | |] [y| | |] H; cbn in *; auto. Qed.
Lemma nf_not : forall x, nf x <-> ~ finite x.
Proof. intros [x| | |]; cbn; split; intros H; auto; try (intros [r E]; discriminate E); try contradiction. apply H. exists x. reflexivity. Qed.

Lemma un_strict : forall v p a, strict a -> strict (j_un v p a).
Proof. unfold strict, j_un. intros v p a H. cbn. destruct (j_der a) as [[t k]|]; auto. intros c N. apply H. apply nf_mul_l; auto. Qed.
Lemma bin_strict : forall v p q a b, strict a -> strict b -> strict (j_bin v p q a b).
Proof.
  unfold strict, j_bin. intros v p q a b H K. cbn. destruct (j_der a) as [[t k]|], (j_der b) as [[u l]|]; auto; intros c N.
  - apply nf_add_l. apply H. apply nf_mul_l; auto.
  - apply H. apply nf_mul_l; auto.
  - apply K. apply nf_mul_l; auto.
Qed.
Lemma un_traced : forall v p a, traced a -> traced (j_un v p a).
Proof. unfold traced, j_un. intros v p a H. cbn. destruct (j_der a) as [[t k]|]; [discriminate|contradiction H; auto]. Qed.
Lemma bin_traced : forall v p q a b, traced a \/ traced b -> traced (j_bin v p q a b).
Proof. unfold traced, j_bin. intros v p q a b H. cbn. destruct (j_der a) as [[t k]|], (j_der b) as [[u l]|]; try discriminate. destruct H as [H|H]; contradiction H; auto. Qed.
Lemma un_dirty : forall v p a, dirty a -> dirty (j_un v p a).
Proof. unfold dirty, j_un. intros v p a H. cbn. destruct (j_der a) as [[t k]|]; auto. destruct H. split; [apply nf_mul_l; auto|auto]. Qed.
Lemma bin_dirty : forall v p q a b, dirty a \/ dirty b -> dirty (j_bin v p q a b).
Proof.
  unfold dirty, j_bin. intros v p q a b H. cbn. destruct (j_der a) as [[t k]|], (j_der b) as [[u l]|]; destruct H as [H|H]; try contradiction; destruct H as [H H']; split; auto;
    try solve [apply nf_mul_l; auto | apply nf_add_l; apply nf_mul_l; auto | apply nf_add_r; apply nf_mul_l; auto]; intros c.
  - apply nf_add_l. auto.
  - apply nf_add_r. auto.
Qed.
Lemma un_start : forall v p a, traced a -> strict a -> nf p -> dirty (j_un v p a).
Proof.
  unfold traced, strict, dirty, j_un. intros v p a T H N. cbn. destruct (j_der a) as [[t k]|]; [|contradiction T; auto]. split; [apply nf_mul_r; auto|].
  intros c. apply H, nf_mul_r; auto.
Qed.
Lemma bin_start : forall v p q a b, strict a -> strict b -> (traced a /\ nf p) \/ (traced b /\ nf q) -> dirty (j_bin v p q a b).
Proof.
  unfold traced, strict, dirty, j_bin. intros v p q a b Sa Sb H. cbn. destruct (j_der a) as [[t k]|], (j_der b) as [[u l]|]; destruct H as [[H N]|[H N]]; try (contradiction H; reflexivity); split;
    try solve [apply nf_mul_r; auto | apply nf_add_l; apply nf_mul_r; auto | apply nf_add_r; apply nf_mul_r; auto]; intros c.
  - apply nf_add_l, Sa, nf_mul_r; auto.
  - apply nf_add_r, Sb, nf_mul_r; auto.
  - apply Sa, nf_mul_r; auto.
  - apply Sb, nf_mul_r; auto.
Qed.
Lemma cst_strict : forall r, strict (j_const r). Proof. intros; exact I. Qed.
Lemma var_strict : forall r, strict (j_var r). Proof. intros r c H. exact H. Qed.
Lemma var_traced : forall r, traced (j_var r). Proof. intros; discriminate. Qed.
Lemma dirty_grad : forall a, dirty a -> ~ finite (j_grad a) /\ ~ finite (j_jvp a).
Proof.
  unfold dirty, j_grad, j_jvp. intros a H. destruct (j_der a) as [[t k]|]; [|contradiction]. destruct H as [H H']. split; apply nf_not; auto.
Qed.
(** operations made of one primitive *)
Lemma add_strict : forall a b, strict a -> strict b -> strict (add JB a b). Proof. intros; apply bin_strict; auto. Qed.
Lemma sub_strict : forall a b, strict a -> strict b -> strict (sub JB a b). Proof. intros; apply bin_strict; auto. Qed.
Lemma mul_strict : forall a b, strict a -> strict b -> strict (mul JB a b). Proof. intros; apply bin_strict; auto. Qed.
Lemma div_strict : forall a b, strict a -> strict b -> strict (div JB a b). Proof. intros; apply bin_strict; auto. Qed.
Lemma power_strict : forall a b, strict a -> strict b -> strict (power JB a b). Proof. intros; apply bin_strict; auto. Qed.
Lemma max_strict : forall a b, strict a -> strict b -> strict (maximum JB a b). Proof. intros; apply bin_strict; auto. Qed.
Lemma min_strict : forall a b, strict a -> strict b -> strict (minimum JB a b). Proof. intros; apply bin_strict; auto. Qed.
Lemma clip_strict : forall a b c, strict a -> strict b -> strict c -> strict (clip JB a b c). Proof. intros; apply bin_strict; auto. apply bin_strict; auto. Qed.
Lemma atan2_strict : forall a b, strict a -> strict b -> strict (barctan2 JB a b). Proof. intros; apply bin_strict; auto. Qed.
Lemma neg_strict : forall a, strict a -> strict (neg JB a). Proof. intros; apply un_strict; auto. Qed.
Lemma powi_strict : forall a n, strict a -> strict (powi JB a n). Proof. intros; apply un_strict; auto. Qed.
Lemma sqrt_strict : forall a, strict a -> strict (bsqrt JB a). Proof. intros; apply un_strict; auto. Qed.
Lemma exp_strict : forall a, strict a -> strict (bexp JB a). Proof. intros; apply un_strict; auto. Qed.
Lemma sin_strict : forall a, strict a -> strict (bsin JB a). Proof. intros; apply un_strict; auto. Qed.
Lemma cos_strict : forall a, strict a -> strict (bcos JB a). Proof. intros; apply un_strict; auto. Qed.
Lemma cst_strict' : forall r, strict (cst JB r). Proof. intros; exact I. Qed.
Lemma pi_strict : strict (bpi JB). Proof. exact I. Qed.
Ltac st := repeat first [assumption | simple apply cst_strict' | simple apply pi_strict | simple apply var_strict | simple apply cst_strict
  | simple apply add_strict | simple apply sub_strict | simple apply mul_strict | simple apply div_strict | simple apply power_strict | simple apply max_strict | simple apply min_strict
  | simple apply clip_strict | simple apply atan2_strict | simple apply neg_strict | simple apply powi_strict | simple apply sqrt_strict | simple apply exp_strict | simple apply sin_strict | simple apply cos_strict].
(** the derivative of the square root at zero *)
Lemma sqrt_dirty : forall a, j_val (bsqrt JB a) = Fin 0 -> traced a -> strict a -> dirty (bsqrt JB a).
Proof.
  intros a E T S. apply un_start; auto. change (esqrt (j_val a)) with (j_val (bsqrt JB a)). rewrite E. cbn. destruct (Req_EM_T 0 0); [exact I|contradiction].
Qed.
