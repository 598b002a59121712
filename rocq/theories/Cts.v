(** Continuity at a point, with the closure rules needed for the atmosphere functions. *)
From Coq Require Import Reals Lra.
From Verif Require Import Num NumFacts Aero AeroFacts.
Open Scope R_scope.

(** epsilon-delta continuity of f at x (the standard library's [continuity_pt]) *)
Definition cts (f : R -> R) (x : R) : Prop := continuity_pt f x.

Lemma cts_eps : forall f x, cts f x -> forall eps, 0 < eps ->
  exists d, 0 < d /\ forall y, Rabs (y - x) < d -> Rabs (f y - f x) < eps.
Proof.
  intros f x H eps He. destruct (H eps He) as [d [Hd K]]. exists d; split; auto.
  intros y Hy. destruct (Req_dec x y) as [E|N].
  - subst. rewrite Rminus_diag_eq, Rabs_R0; auto.
  - apply K. split; auto. split; [exact I|auto].
Qed.

Lemma cts_const : forall c x, cts (fun _ => c) x.
Proof. intros. apply continuity_pt_const. intros a b. reflexivity. Qed.
Lemma cts_id : forall x, cts (fun y => y) x.
Proof. intros. apply derivable_continuous_pt, derivable_pt_id. Qed.
Lemma cts_plus : forall f g x, cts f x -> cts g x -> cts (fun y => f y + g y) x.
Proof. intros. apply (continuity_pt_plus f g); auto. Qed.
Lemma cts_minus : forall f g x, cts f x -> cts g x -> cts (fun y => f y - g y) x.
Proof. intros. apply (continuity_pt_minus f g); auto. Qed.
Lemma cts_mult : forall f g x, cts f x -> cts g x -> cts (fun y => f y * g y) x.
Proof. intros. apply (continuity_pt_mult f g); auto. Qed.
Lemma cts_opp : forall f x, cts f x -> cts (fun y => - f y) x.
Proof. intros. apply (continuity_pt_opp f); auto. Qed.
Lemma cts_div : forall f g x, cts f x -> cts g x -> g x <> 0 -> cts (fun y => f y / g y) x.
Proof. intros. apply (continuity_pt_div f g); auto. Qed.
Lemma cts_comp : forall g f x, cts f x -> cts g (f x) -> cts (fun y => g (f y)) x.
Proof. intros. apply (continuity_pt_comp f g); auto. Qed.
Lemma cts_exp : forall f x, cts f x -> cts (fun y => exp (f y)) x.
Proof. intros. apply (cts_comp exp); auto. apply derivable_continuous_pt, derivable_pt_exp. Qed.
Lemma cts_ln : forall f x, cts f x -> 0 < f x -> cts (fun y => ln (f y)) x.
Proof.
  intros. apply (cts_comp ln); auto. apply derivable_continuous_pt. exists (/ f x).
  apply derivable_pt_lim_ln; auto.
Qed.
Lemma cts_sqrt : forall f x, cts f x -> 0 <= f x -> cts (fun y => sqrt (f y)) x.
Proof. intros. apply (cts_comp sqrt); auto. apply continuity_pt_sqrt; auto. Qed.
Lemma cts_abs : forall f x, cts f x -> cts (fun y => Rabs (f y)) x.
Proof. intros. apply (cts_comp Rabs); auto. apply Rcontinuity_abs. Qed.
Lemma cts_ext : forall f g x, (forall y, f y = g y) -> cts f x -> cts g x.
Proof.
  intros f g x E H. intros eps He. destruct (H eps He) as [d [Hd K]]. exists d; split; auto.
  intros y Hy. rewrite <- !E. apply K; auto.
Qed.
Lemma cts_max : forall f g x, cts f x -> cts g x -> cts (fun y => Rmax (f y) (g y)) x.
Proof.
  intros f g x Hf Hg. apply (cts_ext (fun y => (f y + g y + Rabs (f y - g y)) / 2)).
  - intros y. unfold Rmax. destruct (Rle_dec (f y) (g y)).
    + rewrite Rabs_left1 by lra. lra.
    + rewrite Rabs_pos_eq by lra. lra.
  - apply cts_div; [|apply cts_const|lra]. apply cts_plus; [apply cts_plus; auto|].
    apply cts_abs, cts_minus; auto.
Qed.
Lemma cts_Rpower : forall f g x, cts f x -> cts g x -> 0 < f x -> cts (fun y => Rpower (f y) (g y)) x.
Proof.
  intros. unfold Rpower. apply cts_exp. apply cts_mult; auto. apply cts_ln; auto.
Qed.
Lemma cts_pow : forall f n x, cts f x -> cts (fun y => f y ^ n) x.
Proof.
  intros f n x H. induction n; cbn. apply cts_const. apply cts_mult; auto.
Qed.

(** Continuity of the atmosphere in altitude *)
Lemma cts_tR : forall h dT, cts (fun y => tR y dT) h.
Proof.
  intros. unfold tR. apply cts_max; [|apply cts_const].
  apply cts_plus; [apply cts_const|]. apply cts_mult; [apply cts_const|apply cts_id].
Qed.
Lemma cts_rhoR : forall h dT, cts (fun y => rhoR y dT) h.
Proof.
  intros. unfold rhoR. apply cts_mult.
  - apply cts_mult; [apply cts_const|]. pose proof (T0s_pos dT). pose proof (tR_pos h dT).
    apply cts_Rpower; [|apply cts_const|].
    + apply cts_div; [apply cts_tR|apply cts_const|lra].
    + apply Rdiv_lt_0_compat; lra.
  - apply cts_exp. apply cts_div; [|apply cts_const|lra]. apply cts_opp, cts_max; [apply cts_const|].
    apply cts_minus; [apply cts_id|apply cts_const].
Qed.
Lemma cts_pR : forall h dT, cts (fun y => pR y dT) h.
Proof.
  intros. unfold pR. apply cts_mult; [|apply cts_tR]. apply cts_mult; [apply cts_rhoR|apply cts_const].
Qed.
Lemma cts_aR : forall h dT, cts (fun y => aR y dT) h.
Proof.
  intros. unfold aR. apply cts_sqrt; [apply cts_mult; [apply cts_const|apply cts_tR]|].
  pose proof (tR_pos h dT). uc. nra.
Qed.
Lemma cts_t2cR : forall v h dT, cts (fun y => t2cR v y dT) h.
Proof.
  intros. pose proof (pR_pos h dT) as Hp. pose proof (rhoR_pos h dT) as Hr. pose proof p0_pos. pose proof rho0_pos.
  pose proof (qd_nonneg (pR h dT) (rhoR h dT) v Hp Hr) as Hq.
  pose proof (vq_sqrt_arg p0 rho0 _ p0_pos rho0_pos Hq) as Hs.
  pose proof (vq_arg p0 _ p0_pos Hq) as Ha.
  pose proof (qd_arg (pR h dT) (rhoR h dT) v Hp Hr) as Hb.
  assert (Hqd : cts (fun y => qd (pR y dT) (rhoR y dT) v) h).
  { unfold qd. apply cts_mult; [apply cts_pR|]. apply cts_minus; [|apply cts_const].
    apply cts_Rpower; [|apply cts_const|lra].
    apply cts_plus; [apply cts_const|]. apply cts_div.
    - apply cts_mult; [|apply cts_const]. apply cts_mult; [apply cts_rhoR|apply cts_const].
    - apply cts_mult; [apply cts_const|apply cts_pR].
    - lra. }
  unfold t2cR, conv, vq. apply cts_sqrt; [|exact Hs].
  apply cts_mult; [apply cts_const|]. apply cts_minus; [|apply cts_const].
  apply cts_Rpower; [|apply cts_const|lra].
  apply cts_plus; [apply cts_const|]. apply cts_div; [auto|apply cts_const|lra].
Qed.
