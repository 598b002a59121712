(** * Property C111: the mathematical functions of [JaxBackend] *)
From Coq Require Import Reals List Bool Lra Lia Psatz.
From Coquelicot Require Import Coquelicot.
From Verif Require Import Num NumFacts SpecNum Jax SpecJax JaxFacts JaxAero JaxNf.
Import ListNotations.
Open Scope R_scope.

Lemma sm_tan : forall s0 F a, exact s0 F a -> (exists r, F s0 = Fin r /\ cos r <> 0) -> exact s0 (btan LE F) (btan JB a).
Proof.
  intros s0 F a (f & J) (r & E & N). pose proof (jd_F _ _ _ _ J) as Ef. rewrite Ef in E. injection E as <-. destruct (J) as (_ & va & _).
  eexists. apply (jd_un s0 F f a (elift tan) tan _ _ (tan (f s0) ^ 2 + 1)); auto.
  - apply filter_forall. reflexivity.
  - cbn. rewrite va. reflexivity.
  - cbn. rewrite va. cbn. f_equal. ring.
  - apply is_derive_tan. exact N.
Qed.
Lemma sm_atan : forall s0 F a, exact s0 F a -> exact s0 (barctan LE F) (barctan JB a).
Proof.
  intros s0 F a (f & J). destruct (J) as (_ & va & _).
  eexists. apply (jd_un s0 F f a (elift_lim atan (PI / 2)) atan _ _ (/ (1 + (f s0) ^ 2))); auto.
  - apply filter_forall. reflexivity.
  - rewrite va. reflexivity.
  - rewrite va. cbn [epowi eadd]. assert (0 <= f s0 ^ 2) by apply pow2_ge_0. rewrite ediv_fin by lra. f_equal. field. lra.
  - apply is_derive_Reals. apply derivable_pt_lim_atan.
Qed.

(** remainder by a divisor that may be traced *)
Lemma sm_fmod2 : forall s0 F G a b, exact s0 F a -> exact s0 G b -> G s0 <> Fin 0 -> (forall k, F s0 <> emul (G s0) (Fin (IZR k))) -> exact s0 (fmod LE F G) (fmod JB a b).
Proof.
  intros s0 F G a b (f & Ja) (g & Jb) Ng Nk. rewrite (jd_F _ _ _ _ Jb) in *. rewrite (jd_F _ _ _ _ Ja) in *.
  assert (Hg : g s0 <> 0) by congruence. assert (H : forall k, f s0 / g s0 <> IZR k).
  { intros k E. apply (Nk k). cbn [emul]. f_equal. rewrite <- E. field. auto. }
  destruct (Ja) as (_ & va & _), (Jb) as (_ & vb & _).
  eexists. apply (jd_bin s0 F f a G g b efmod Rfmod _ _ _ 1 (- IZR (Rtrunc (f s0 / g s0)))); auto.
  - pose proof (jd_cont _ _ _ _ _ Jb (locally_neq0 _ Hg)) as L. revert L. apply filter_imp. intros s N. cbn [efmod]. destruct (Req_EM_T (g s) 0); [contradiction|reflexivity].
  - rewrite va, vb. cbn [efmod]. destruct (Req_EM_T (g s0) 0); [contradiction|reflexivity].
  - rewrite va, vb. cbn [fmod_rhs]. destruct (Req_EM_T (g s0) 0); [contradiction|reflexivity].
  - intros d e Hd He. replace (d * 1 + e * - IZR (Rtrunc (f s0 / g s0))) with (d - (e * IZR (Rtrunc (f s0 / g s0)) + g s0 * 0)) by ring.
    apply (is_derive_ext_loc (fun s => f s - g s * IZR (Rtrunc (f s0 / g s0)))).
    + assert (Cq : continuous (fun s => f s / g s) s0).
      { apply (ex_derive_continuous (K := R_AbsRing) (V := R_NormedModule)). eexists. apply (is_derive_div f g s0 d e Hd He Hg). }
      pose proof (Cq _ (Rtrunc_loc _ H)) as L. change (locally s0 (fun s => Rtrunc (f s / g s) = Rtrunc (f s0 / g s0))) in L. revert L. apply filter_imp. intros s E. unfold Rfmod. rewrite E. reflexivity.
    + exact (is_derive_minus f (fun s => g s * IZR (Rtrunc (f s0 / g s0))) s0 d _ Hd (is_derive_mult g (fun _ => IZR (Rtrunc (f s0 / g s0))) s0 e 0 He (is_derive_const _ s0) Rmult_comm)).
Qed.
Section Prim.
Context (s0 : R) (F G : R -> ext) (a b : jx) (Ha : exact s0 F a) (Hb : exact s0 G b).
(** everywhere differentiable *)
Theorem C111_smooth :
  exact s0 (fun s => bsin NP (F s)) (bsin JB a) /\ exact s0 (fun s => bcos NP (F s)) (bcos JB a) /\ exact s0 (fun s => barctan NP (F s)) (barctan JB a) /\
  exact s0 (fun s => add NP (F s) (G s)) (add JB a b) /\ exact s0 (fun s => sub NP (F s) (G s)) (sub JB a b) /\
  exact s0 (fun s => mul NP (F s) (G s)) (mul JB a b) /\ exact s0 (fun s => neg NP (F s)) (neg JB a) /\
  forall n, exact s0 (fun s => powi NP (F s) n) (powi JB a n).
Proof.
  repeat apply conj.
  - exact (sm_sin s0 F a Ha).
  - exact (sm_cos s0 F a Ha).
  - exact (sm_atan s0 F a Ha).
  - exact (sm_add s0 F G a b Ha Hb).
  - exact (sm_sub s0 F G a b Ha Hb).
  - exact (sm_mul s0 F G a b Ha Hb).
  - exact (sm_neg s0 F a Ha).
  - intros n. exact (sm_powi s0 F a Ha n).
Qed.
(** differentiable on an open set *)
Theorem C111_domain :
  ((exists r, F s0 = Fin r /\ 0 < r) -> exact s0 (fun s => bsqrt NP (F s)) (bsqrt JB a) /\ exact s0 (fun s => blog NP (F s)) (blog JB a) /\ exact s0 (fun s => power NP (F s) (G s)) (power JB a b)) /\
  ((exists r, F s0 = Fin r /\ r < exp_max) -> exact s0 (fun s => bexp NP (F s)) (bexp JB a)) /\
  ((exists r, F s0 = Fin r /\ cos r <> 0) -> exact s0 (fun s => btan NP (F s)) (btan JB a)) /\
  ((exists r, F s0 = Fin r /\ -1 < r < 1) -> exact s0 (fun s => barcsin NP (F s)) (barcsin JB a) /\ exact s0 (fun s => barccos NP (F s)) (barccos JB a)) /\
  (G s0 <> Fin 0 -> exact s0 (fun s => div NP (F s) (G s)) (div JB a b)) /\
  ((exists r, G s0 = Fin r /\ 0 < r) \/ F s0 <> Fin 0 -> exact s0 (fun s => barctan2 NP (F s) (G s)) (barctan2 JB a b)) /\
  (F s0 <> Fin 0 -> exact s0 (fun s => babs NP (F s)) (babs JB a)).
Proof.
  repeat apply conj; intros.
  - repeat apply conj.
    + exact (sm_sqrt s0 F a Ha H).
    + exact (sm_log s0 F a Ha H).
    + exact (sm_power s0 F G a b Ha Hb H).
  - exact (sm_exp s0 F a Ha H).
  - exact (sm_tan s0 F a Ha H).
  - split; [exact (sm_arcsin s0 F a Ha H)|exact (sm_arccos s0 F a Ha H)].
  - exact (sm_div s0 F G a b Ha Hb H).
  - exact (sm_atan2 s0 F G a b Ha Hb H).
  - exact (sm_abs s0 F a Ha (or_introl H)).
Qed.
(** differentiable pieces *)
Theorem C111_pieces : 
  (F s0 <> G s0 -> exact s0 (fun s => maximum NP (F s) (G s)) (maximum JB a b) /\ exact s0 (fun s => minimum NP (F s) (G s)) (minimum JB a b) /\
    forall U V u v, exact s0 U u -> exact s0 V v -> exact s0 (fun s => where_ NP (gt NP (F s) (G s)) (U s) (V s)) (where_ JB (gt JB a b) u v)) /\
  (forall lo hi, lo < hi -> F s0 <> Fin lo -> F s0 <> Fin hi -> exact s0 (fun s => clip NP (F s) (cst NP lo) (cst NP hi)) (clip JB a (cst JB lo) (cst JB hi))) /\
  (G s0 <> Fin 0 -> (forall k : Z, F s0 <> emul (G s0) (Fin (IZR k))) -> exact s0 (fun s => fmod NP (F s) (G s)) (fmod JB a b)) /\
  (forall tbl, tbl <> [] -> (forall p, In p tbl -> F s0 <> Fin (fst p)) -> exact s0 (fun s => interp NP (F s) tbl) (interp JB a tbl)).
Proof.
  repeat apply conj.
  - intros N. assert (P : apart s0 F G) by (left; exact N). repeat apply conj.
    + exact (sm_max s0 F G a b Ha Hb P).
    + exact (sm_min s0 F G a b Ha Hb P).
    + intros U V u v Hu Hv. exact (sm_where s0 U V u v Hu Hv _ _ (sm_gt s0 F G a b Ha Hb P)).
  - intros lo hi L Nl Nh. refine (sm_clip s0 F _ _ a _ _ Ha (sm_cst s0 lo) (sm_cst s0 hi) _ _).
    + left. exact Nl.
    + destruct (exact_fin _ _ _ Ha) as (r & E). left. cbn. rewrite E in *. cbn [emax]. intros Q. injection Q as Q. unfold Rmax in Q. destruct (Rle_dec r lo); [lra|]. apply Nh. subst; reflexivity.
  - intros Ny K. exact (sm_fmod2 s0 F G a b Ha Hb Ny K).
  - intros tbl Nt K. exact (sm_interp s0 F a Ha tbl Nt (or_intror K)).
Qed.
End Prim.
(** on a kink: the mean of the two slopes *)
Theorem C111_ties : forall x,
  j_grad (maximum JB (j_var x) (j_const x)) = Fin (1 / 2) /\ j_grad (maximum JB (j_const x) (j_var x)) = Fin (1 / 2) /\
  j_grad (minimum JB (j_var x) (j_const x)) = Fin (1 / 2) /\ j_grad (minimum JB (j_const x) (j_var x)) = Fin (1 / 2) /\
  j_grad (babs JB (j_var 0)) = Fin 0.
Proof.
  intros x. assert (B : ediv (Fin 1) (Fin 2) = Fin (1 / 2)) by (apply ediv_fin; lra).
  repeat apply conj.
  - cbn [maximum JB j_max j_bin j_val j_der j_var j_const j_grad emax]. unfold Rmax. destruct Rle_dec; unfold j_grad; cbn [j_der]; unfold balanced; rewrite eeqb_refl', B; cbn [emul]; f_equal; lra.
  - cbn [maximum JB j_max j_bin j_val j_der j_var j_const j_grad emax]. unfold Rmax. destruct Rle_dec; unfold j_grad; cbn [j_der]; unfold balanced; rewrite eeqb_refl', B; cbn [emul]; f_equal; lra.
  - cbn [minimum JB j_min j_bin j_val j_der j_var j_const j_grad emin]. unfold Rmin. destruct Rle_dec; unfold j_grad; cbn [j_der]; unfold balanced; rewrite eeqb_refl', B; cbn [emul]; f_equal; lra.
  - cbn [minimum JB j_min j_bin j_val j_der j_var j_const j_grad emin]. unfold Rmin. destruct Rle_dec; unfold j_grad; cbn [j_der]; unfold balanced; rewrite eeqb_refl', B; cbn [emul]; f_equal; lra.
  - cbn. destruct (Rlt_dec 0 0) as [L|_]; [lra|]. cbn. f_equal. ring.
Qed.
(** A branch that [where] does not choose still spoils [jax.grad], though not [jax.jvp]: square root of zero. *)
Theorem C111_where_refuted :
  let a := where_ JB (gt JB (j_var 0) (j_const 0)) (bsqrt JB (j_var 0)) (mul JB (j_const 2) (j_var 0)) in
  j_val a = Fin 0 /\ j_jvp a = Fin 2 /\ ~ finite (j_grad a).
Proof.
  cbn. unfold Rltb. destruct (Rlt_dec 0 0) as [L|_]; [lra|]. split; [f_equal; lra|]. split; [unfold j_jvp; cbn; f_equal; lra|].
  unfold j_grad. cbn. apply nf_not. destruct (Rle_dec 0 0) as [_|L]; [|lra]. cbn. rewrite sqrt_0. destruct (Req_EM_T 0 0); [exact I|contradiction].
Qed.
(** slope of a table between two points *)
Example C111_ex : j_grad (interp JB (j_var 2) [(0, 10); (1, 20); (3, 50)]) = Fin 15.
Proof.
  assert (E : exact 2 (fun s => interp NP (Fin s) [(0, 10); (1, 20); (3, 50)]) (interp JB (j_var 2) [(0, 10); (1, 20); (3, 50)])).
  { destruct (C111_pieces 2 Fin (fun _ => Fin 0) (j_var 2) (j_const 0) (exact_var 2) (exact_const 2 0)) as (_ & _ & _ & K). apply K; [discriminate|].
    intros p [<-|[<-|[<-|[]]]]; cbn; intros Q; injection Q; lra. }
  destruct (exact_grad _ _ _ E) as (d & D & _ & ->). f_equal. apply (grad_unique _ _ _ _ D). exists (fun s => 20 + 15 * (s - 1)). split; [|auto_derive; [trivial|ring]].
  assert (B1 : 1 < 2) by lra. assert (B2 : 2 < 3) by lra. generalize (filter_and _ _ (locally_gt _ _ B1) (locally_lt _ _ B2)). apply filter_imp. intros s [? ?].
  cbn [interp NP einterp np_interp interp_from]. destruct (Rlt_dec s 0) as [L|_]; [lra|]. destruct (Rlt_dec s 1) as [L|_]; [lra|]. destruct (Rlt_dec s 3) as [_|L]; [|lra]. f_equal. field.
Qed.
