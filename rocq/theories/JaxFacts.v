(** Differentiation of the model functions in the JAX backend: lemmas for every operation. *)
From Coq Require Import Reals List Bool Lra Lia Psatz.
From Coquelicot Require Import Coquelicot.
From Verif Require Import Num NumFacts Jax SpecJax GeoFacts.
Import ListNotations.
Open Scope R_scope.

(** functions of one real parameter, pointwise *)
Definition Lift (b : backend) : backend := {|
  T := R -> T b; C := R -> C b;
  cst := fun r _ => cst b r;
  add := fun x y s => add b (x s) (y s); sub := fun x y s => sub b (x s) (y s);
  mul := fun x y s => mul b (x s) (y s); div := fun x y s => div b (x s) (y s);
  neg := fun x s => neg b (x s); powi := fun x n s => powi b (x s) n;
  power := fun x y s => power b (x s) (y s);
  bsqrt := fun x s => bsqrt b (x s); bexp := fun x s => bexp b (x s); blog := fun x s => blog b (x s);
  bsin := fun x s => bsin b (x s); bcos := fun x s => bcos b (x s); btan := fun x s => btan b (x s);
  barcsin := fun x s => barcsin b (x s); barccos := fun x s => barccos b (x s);
  barctan := fun x s => barctan b (x s); btanh := fun x s => btanh b (x s);
  barctan2 := fun x y s => barctan2 b (x s) (y s); babs := fun x s => babs b (x s);
  maximum := fun x y s => maximum b (x s) (y s); minimum := fun x y s => minimum b (x s) (y s);
  clip := fun x y z s => clip b (x s) (y s) (z s); fmod := fun x y s => fmod b (x s) (y s);
  gt := fun x y s => gt b (x s) (y s); where_ := fun c x y s => where_ b (c s) (x s) (y s);
  interp := fun x tbl s => interp b (x s) tbl; bpi := fun _ => bpi b |}.
Definition LE := Lift NP.
Definition LR := Lift RB.

(** exact values with the real function in view *)
Notation jd := exact_to.
Definition jc (s0 : R) (c : R -> option bool) (r : R -> bool) (a : option bool) : Prop :=
  exists b, locally s0 (fun s => c s = Some b /\ r s = b) /\ a = Some b.

Lemma locconst_derive : forall (f : R -> R) (s0 : R), locally s0 (fun s => f s = f s0) -> is_derive f s0 0.
Proof.
  intros f s0 H. apply (is_derive_ext_loc (fun _ => f s0)).
  - revert H; apply filter_imp; intros; symmetry; auto.
  - apply (is_derive_const (f s0) s0).
Qed.

Lemma jd_derive : forall s0 F f a, jd s0 F f a -> exists d, is_derive f s0 d /\
  match j_der a with None => d = 0 | Some (t, k) => t = Fin d /\ forall c, k (Fin c) = Fin (c * d) end.
Proof.
  intros s0 F f a (_ & _ & H). destruct (j_der a) as [[t k]|].
  - destruct H as (d & H1 & H2 & H3). exists d; auto.
  - exists 0; split; auto. apply locconst_derive; auto.
Qed.

Lemma jd_cont : forall s0 F f a (P : R -> Prop), jd s0 F f a -> locally (f s0) P -> locally s0 (fun s => P (f s)).
Proof.
  intros s0 F f a P H HP. destruct (jd_derive _ _ _ _ H) as (d & Hd & _).
  assert (Hc : continuous f s0) by (apply (ex_derive_continuous (K := R_AbsRing) (V := R_NormedModule)); exists d; auto).
  exact (Hc P HP).
Qed.

Lemma jd_F : forall s0 F f a, jd s0 F f a -> F s0 = Fin (f s0).
Proof. intros s0 F f a (H & _ & _). exact (locally_singleton _ _ H). Qed.

(** one operand *)
Lemma jd_un : forall s0 F f a (E : ext -> ext) (g : R -> R) v p q, jd s0 F f a ->
  locally (f s0) (fun y => E (Fin y) = Fin (g y)) -> v = Fin (g (f s0)) ->
  p = Fin q -> is_derive g (f s0) q ->
  jd s0 (fun s => E (F s)) (fun s => g (f s)) (j_un v p a).
Proof.
  intros s0 F f a E g v p q H HE Hv Hp Hg.
  pose proof (jd_cont _ _ _ _ _ H HE) as HE'. destruct H as (HF & Ha & HD).
  split; [|split].
  - generalize (filter_and _ _ HF HE'). apply filter_imp. intros s [-> ->]; auto.
  - exact Hv.
  - cbn [j_un j_der]. destruct (j_der a) as [[t k]|].
    + destruct HD as (d & -> & Hd & Hk). exists (d * q). subst p. split; [reflexivity|split].
      * apply (is_derive_comp g f s0 q d); auto.
      * intros c. cbn [emul]. rewrite Hk. f_equal; ring.
    + revert HD; apply filter_imp; intros s ->; auto.
Qed.

(** one operand that is not traced *)
Lemma jd_un0 : forall s0 F f a (E : ext -> ext) (g : R -> R) v p, jd s0 F f a -> j_der a = None ->
  E (Fin (f s0)) = Fin (g (f s0)) -> v = Fin (g (f s0)) ->
  jd s0 (fun s => E (F s)) (fun s => g (f s)) (j_un v p a).
Proof.
  intros s0 F f a E g v p (HF & Ha & HD) N HE Hv. rewrite N in HD. split; [|split].
  - generalize (filter_and _ _ HF HD). apply filter_imp. intros s [-> ->]; auto.
  - exact Hv.
  - cbn [j_un j_der]. rewrite N. revert HD; apply filter_imp; intros s ->; auto.
Qed.

Lemma jd_bin : forall s0 F f a G g b (E : ext -> ext -> ext) (h : R -> R -> R) v p q p' q',
  jd s0 F f a -> jd s0 G g b ->
  locally s0 (fun s => E (Fin (f s)) (Fin (g s)) = Fin (h (f s) (g s))) ->
  v = Fin (h (f s0) (g s0)) -> p = Fin p' -> q = Fin q' ->
  (forall d e : R, is_derive f s0 d -> is_derive g s0 e -> is_derive (fun s => h (f s) (g s)) s0 (d * p' + e * q')) ->
  jd s0 (fun s => E (F s) (G s)) (fun s => h (f s) (g s)) (j_bin v p q a b).
Proof.
  intros s0 F f a G g b E h v p q p' q' Ha Hb HE Hv Hp Hq Hd.
  destruct (jd_derive _ _ _ _ Ha) as (d & Dd & Kd). destruct (jd_derive _ _ _ _ Hb) as (e & De & Ke).
  specialize (Hd d e Dd De). destruct Ha as (HF & _ & HA), Hb as (HG & _ & HB). split; [|split].
  - generalize (filter_and _ _ HF (filter_and _ _ HG HE)). apply filter_imp. intros s [-> [-> ->]]; auto.
  - exact Hv.
  - cbn [j_bin j_der]. subst p q. destruct (j_der a) as [[t k]|], (j_der b) as [[u l]|].
    + destruct Kd as [-> Kd], Ke as [-> Ke]. exists (d * p' + e * q'). split; [reflexivity|split; [auto|]].
      intros c. cbn [emul]. rewrite Kd, Ke. cbn [eadd]. f_equal; ring.
    + destruct Kd as [-> Kd]. subst e. exists (d * p'). split; [reflexivity|split].
      * replace (d * p') with (d * p' + 0 * q') by ring; auto.
      * intros c. cbn [emul]. rewrite Kd. f_equal; ring.
    + destruct Ke as [-> Ke]. subst d. exists (e * q'). split; [reflexivity|split].
      * replace (e * q') with (0 * p' + e * q') by ring; auto.
      * intros c. cbn [emul]. rewrite Ke. f_equal; ring.
    + generalize (filter_and _ _ HA HB). apply filter_imp. intros s [-> ->]; auto.
Qed.

Lemma jd_bin0 : forall s0 F f a G g b (E : ext -> ext -> ext) (h : R -> R -> R) v p q,
  jd s0 F f a -> jd s0 G g b -> j_der a = None -> j_der b = None ->
  E (Fin (f s0)) (Fin (g s0)) = Fin (h (f s0) (g s0)) -> v = Fin (h (f s0) (g s0)) ->
  jd s0 (fun s => E (F s) (G s)) (fun s => h (f s) (g s)) (j_bin v p q a b).
Proof.
  intros s0 F f a G g b E h v p q (HF & _ & HA) (HG & _ & HB) Na Nb HE Hv. rewrite Na in HA; rewrite Nb in HB.
  split; [|split].
  - generalize (filter_and _ _ HF (filter_and _ _ HG (filter_and _ _ HA HB))). apply filter_imp. intros s [-> [-> [-> ->]]]; auto.
  - exact Hv.
  - cbn [j_bin j_der]. rewrite Na, Nb. generalize (filter_and _ _ HA HB). apply filter_imp. intros s [-> ->]; auto.
Qed.

Lemma jd_cst : forall s0 r, jd s0 (cst LE r) (cst LR r) (cst JB r).
Proof. intros. split; [|split; [reflexivity|]]; apply filter_forall; intros; reflexivity. Qed.
Lemma jd_pi : forall s0, jd s0 (bpi LE) (bpi LR) (bpi JB).
Proof. intros. split; [|split; [reflexivity|]]; apply filter_forall; intros; reflexivity. Qed.
Lemma jd_var : forall s0, jd s0 Fin (fun s => s) (j_var s0).
Proof.
  intros. split; [apply filter_forall; auto|split; [reflexivity|]].
  exists 1. split; [reflexivity|split]. exact (is_derive_id (K := R_AbsRing) s0). intros; f_equal; ring.
Qed.

Section Ops.
Context (s0 : R) (F G : R -> ext) (f g : R -> R) (a b : jx) (Ha : jd s0 F f a) (Hb : jd s0 G g b).
Let va : j_val a = Fin (f s0) := proj1 (proj2 Ha).
Let vb : j_val b = Fin (g s0) := proj1 (proj2 Hb).

Ltac easy2 := first [apply filter_forall; intros; reflexivity | rewrite ?va, ?vb; reflexivity | idtac].

Lemma jd_add : jd s0 (add LE F G) (add LR f g) (add JB a b).
Proof.
  apply (jd_bin s0 F f a G g b eadd Rplus _ _ _ 1 1); auto; easy2.
  intros d e Hd He. rewrite !Rmult_1_r. exact (is_derive_plus f g s0 d e Hd He).
Qed.
Lemma jd_sub : jd s0 (sub LE F G) (sub LR f g) (sub JB a b).
Proof.
  apply (jd_bin s0 F f a G g b esub Rminus _ _ _ 1 (-1)); auto; easy2.
  intros d e Hd He. replace (d * 1 + e * -1) with (d - e) by ring. exact (is_derive_minus f g s0 d e Hd He).
Qed.
Lemma jd_mul : jd s0 (mul LE F G) (mul LR f g) (mul JB a b).
Proof.
  apply (jd_bin s0 F f a G g b emul Rmult _ _ _ (g s0) (f s0)); auto; easy2.
  intros d e Hd He. replace (d * g s0 + e * f s0) with (d * g s0 + f s0 * e) by ring.
  exact (is_derive_mult f g s0 d e Hd He Rmult_comm).
Qed.
Lemma locally_neq0 : forall y : R, y <> 0 -> locally y (fun z => z <> 0).
Proof. intros y Hy. apply (open_neq 0 y Hy). Qed.
Lemma jd_div : g s0 <> 0 -> jd s0 (div LE F G) (div LR f g) (div JB a b).
Proof.
  intros Hn. apply (jd_bin s0 F f a G g b ediv Rdiv _ _ _ (/ g s0) (- f s0 / (g s0) ^ 2)); auto.
  - generalize (jd_cont _ _ _ _ _ Hb (locally_neq0 _ Hn)). apply filter_imp. intros s Hs. apply ediv_fin; auto.
  - rewrite va, vb. apply ediv_fin; auto.
  - rewrite vb, ediv_fin by auto. f_equal. field; auto.
  - rewrite va, vb. cbn [eneg epowi]. rewrite ediv_fin; auto. apply pow_nonzero; auto.
  - intros d e Hd He.
    replace (d * / g s0 + e * (- f s0 / g s0 ^ 2)) with ((d * g s0 - f s0 * e) / (g s0) ^ 2) by (field; auto).
    exact (is_derive_div f g s0 d e Hd He Hn).
Qed.
Lemma jd_neg : jd s0 (neg LE F) (neg LR f) (neg JB a).
Proof.
  apply (jd_un s0 F f a eneg Ropp _ _ (-1)); auto; easy2.
  replace (-1) with (opp 1) by (cbv; ring). exact (is_derive_opp (fun x => x) (f s0) 1 (is_derive_id (K := R_AbsRing) _)).
Qed.
Lemma jd_powi : forall n, jd s0 (powi LE F n) (powi LR f n) (powi JB a n).
Proof.
  intros n. apply (jd_un s0 F f a (fun x => epowi x n) (fun x => x ^ n) _ _ (INR n * (f s0) ^ pred n)); auto; easy2.
  - rewrite va. destruct n; [cbn [INR]; f_equal; ring|reflexivity].
  - replace (INR n * f s0 ^ pred n) with (INR n * 1 * f s0 ^ pred n) by ring.
    exact (is_derive_pow (fun x => x) n (f s0) 1 (is_derive_id (K := R_AbsRing) _)).
Qed.

Lemma locally_gt : forall c y : R, c < y -> locally y (fun z => c < z).
Proof. intros c y Hy. apply (open_gt c y Hy). Qed.
Lemma locally_lt : forall c y : R, y < c -> locally y (fun z => z < c).
Proof. intros c y Hy. apply (open_lt c y Hy). Qed.

Lemma is_derive_Rpower2 : forall (u w : R -> R) (x d e : R), 0 < u x -> is_derive u x d -> is_derive w x e ->
  is_derive (fun s => Rpower (u s) (w s)) x (d * (w x * Rpower (u x) (w x - 1)) + e * (ln (u x) * Rpower (u x) (w x))).
Proof.
  intros u w x d e Hp Hu Hw. unfold Rpower.
  assert (E1 : exp ((w x - 1) * ln (u x)) = exp (w x * ln (u x)) / u x).
  { replace ((w x - 1) * ln (u x)) with (w x * ln (u x) + - ln (u x)) by ring.
    rewrite exp_plus, exp_Ropp, exp_ln by auto. reflexivity. }
  rewrite E1.
  replace (d * (w x * (exp (w x * ln (u x)) / u x)) + e * (ln (u x) * exp (w x * ln (u x))))
    with ((e * ln (u x) + w x * (d * / u x)) * exp (w x * ln (u x))) by (field; lra).
  apply (is_derive_comp exp (fun s => w s * ln (u s)) x). apply is_derive_exp.
  apply (is_derive_mult w (fun s => ln (u s)) x e (d * / u x) Hw); [|exact Rmult_comm].
  apply (is_derive_comp ln u x); auto. apply is_derive_ln; auto.
Qed.
Lemma jd_power : 0 < f s0 -> jd s0 (power LE F G) (power LR f g) (power JB a b).
Proof.
  intros Hp. apply (jd_bin s0 F f a G g b epower Rpower _ _ _ (g s0 * Rpower (f s0) (g s0 - 1)) (ln (f s0) * Rpower (f s0) (g s0))); auto.
  - generalize (jd_cont _ _ _ _ _ Ha (locally_gt 0 _ Hp)). apply filter_imp. intros s Hs. apply epower_fin; auto.
  - rewrite va, vb. apply epower_fin; auto.
  - rewrite va, vb. unfold pow_lhs. cbn [eeqb]. destruct (Req_EM_T (g s0) 0) as [E|E].
    + rewrite E. f_equal; ring.
    + cbn [esub]. rewrite epower_fin by auto. reflexivity.
  - rewrite va, vb, epower_fin by auto. unfold pow_rhs. cbn [eeqb].
    destruct (Req_EM_T (f s0) 0); [lra|]. rewrite elog_fin by auto. reflexivity.
  - intros d e Hd He. apply is_derive_Rpower2; auto.
Qed.
Lemma jd_sqrt : 0 < f s0 -> jd s0 (bsqrt LE F) (bsqrt LR f) (bsqrt JB a).
Proof.
  intros Hp. pose proof (sqrt_lt_R0 _ Hp) as Hs.
  apply (jd_un s0 F f a esqrt sqrt _ _ (/ (2 * sqrt (f s0)))); auto.
  - generalize (locally_gt 0 _ Hp). apply filter_imp. intros y Hy. apply esqrt_fin; lra.
  - rewrite va. apply esqrt_fin; lra.
  - rewrite va, esqrt_fin, ediv_fin by lra. f_equal. replace 0.5 with (/ 2) by lra. field; lra.
  - replace (/ (2 * sqrt (f s0))) with (1 / (2 * sqrt (f s0))) by (field; lra).
    exact (is_derive_sqrt (fun x => x) (f s0) 1 (is_derive_id (K := R_AbsRing) _) Hp).
Qed.
Lemma jd_sqrt0 : 0 <= f s0 -> j_der a = None -> jd s0 (bsqrt LE F) (bsqrt LR f) (bsqrt JB a).
Proof.
  intros Hp N. apply (jd_un0 s0 F f a esqrt sqrt); auto.
  - apply esqrt_fin; auto.
  - rewrite va. apply esqrt_fin; auto.
Qed.
Lemma jd_exp : f s0 < exp_max -> jd s0 (bexp LE F) (bexp LR f) (bexp JB a).
Proof.
  intros Hp. apply (jd_un s0 F f a eexp exp _ _ (exp (f s0))); auto.
  - generalize (locally_lt _ _ Hp). apply filter_imp. intros y Hy. apply eexp_fin; lra.
  - rewrite va. apply eexp_fin; lra.
  - rewrite va. apply eexp_fin; lra.
  - apply is_derive_exp.
Qed.
Lemma jd_log : 0 < f s0 -> jd s0 (blog LE F) (blog LR f) (blog JB a).
Proof.
  intros Hp. apply (jd_un s0 F f a elog ln _ _ (/ f s0)); auto.
  - generalize (locally_gt 0 _ Hp). apply filter_imp. intros y Hy. apply elog_fin; auto.
  - rewrite va. apply elog_fin; auto.
  - rewrite va, ediv_fin by lra. f_equal. field; lra.
  - apply is_derive_ln; auto.
Qed.
Lemma jd_sin : jd s0 (bsin LE F) (bsin LR f) (bsin JB a).
Proof. apply (jd_un s0 F f a (elift sin) sin _ _ (cos (f s0))); auto; easy2. apply is_derive_sin. Qed.
Lemma jd_cos : jd s0 (bcos LE F) (bcos LR f) (bcos JB a).
Proof. apply (jd_un s0 F f a (elift cos) cos _ _ (- sin (f s0))); auto; easy2. apply is_derive_cos. Qed.

Lemma is_derive_asin : forall x, -1 < x < 1 -> is_derive asin x (/ sqrt (1 - x ^ 2)).
Proof.
  intros x Hx. apply is_derive_Reals. replace (x ^ 2) with (Rsqr x) by (unfold Rsqr; ring).
  replace (/ sqrt (1 - Rsqr x)) with (1 / sqrt (1 - Rsqr x)) by (unfold Rdiv; ring). rewrite <- (derive_pt_asin x Hx). apply (derive_pt_eq_1 asin x _ (derivable_pt_asin x Hx)). reflexivity.
Qed.
Lemma is_derive_acos : forall x, -1 < x < 1 -> is_derive acos x (- / sqrt (1 - x ^ 2)).
Proof.
  intros x Hx. apply is_derive_Reals. replace (x ^ 2) with (Rsqr x) by (unfold Rsqr; ring).
  replace (- / sqrt (1 - Rsqr x)) with (- 1 / sqrt (1 - Rsqr x)) by (unfold Rdiv; ring). rewrite <- (derive_pt_acos x Hx). apply (derive_pt_eq_1 acos x _ (derivable_pt_acos x Hx)). reflexivity.
Qed.
Lemma locally_open : forall x, -1 < x < 1 -> locally x (fun z => -1 < z < 1).
Proof. intros x [H1 H2]. apply filter_and; [apply locally_gt|apply locally_lt]; auto. Qed.
Lemma eunit_fin : forall u x, -1 <= x <= 1 -> eunit u (Fin x) = Fin (u x).
Proof. intros u x [H1 H2]. cbn [eunit]. destruct (Rle_dec (-1) x); [|lra]. destruct (Rle_dec x 1); [reflexivity|lra]. Qed.
Lemma root_pos : forall x, -1 < x < 1 -> 0 < 1 - x ^ 2.
Proof. intros x H. nra. Qed.
Lemma jd_arcsin : -1 < f s0 < 1 -> jd s0 (barcsin LE F) (barcsin LR f) (barcsin JB a).
Proof.
  intros Hp. pose proof (root_pos _ Hp) as Q. pose proof (sqrt_lt_R0 _ Q) as Q'. apply (jd_un s0 F f a (eunit asin) asin _ _ (/ sqrt (1 - f s0 ^ 2))); auto.
  - generalize (locally_open _ Hp). apply filter_imp. intros y Hy. apply eunit_fin; lra.
  - rewrite va. apply eunit_fin; lra.
  - rewrite va. cbn [epowi esub]. rewrite esqrt_fin, ediv_fin by lra. f_equal. field; lra.
  - apply is_derive_asin; auto.
Qed.
Lemma jd_arccos : -1 < f s0 < 1 -> jd s0 (barccos LE F) (barccos LR f) (barccos JB a).
Proof.
  intros Hp. pose proof (root_pos _ Hp) as Q. pose proof (sqrt_lt_R0 _ Q) as Q'. apply (jd_un s0 F f a (eunit acos) acos _ _ (- / sqrt (1 - f s0 ^ 2))); auto.
  - generalize (locally_open _ Hp). apply filter_imp. intros y Hy. apply eunit_fin; lra.
  - rewrite va. apply eunit_fin; lra.
  - rewrite va. cbn [epowi esub]. rewrite esqrt_fin, ediv_fin by lra. f_equal. field; lra.
  - apply is_derive_acos; auto.
Qed.
Lemma jd_arcsin0 : -1 <= f s0 <= 1 -> j_der a = None -> jd s0 (barcsin LE F) (barcsin LR f) (barcsin JB a).
Proof. intros Hp N. apply (jd_un0 s0 F f a (eunit asin) asin); auto; [|rewrite va]; apply eunit_fin; auto. Qed.
Lemma jd_arccos0 : -1 <= f s0 <= 1 -> j_der a = None -> jd s0 (barccos LE F) (barccos LR f) (barccos JB a).
Proof. intros Hp N. apply (jd_un0 s0 F f a (eunit acos) acos); auto; [|rewrite va]; apply eunit_fin; auto. Qed.

Lemma jd_abs : f s0 <> 0 \/ j_der a = None -> jd s0 (babs LE F) (babs LR f) (babs JB a).
Proof.
  intros [Hn|N].
  - apply (jd_un s0 F f a eabs Rabs _ _ (sign (f s0))); auto; easy2.
    + rewrite va. cbn [esign]. destruct (Rlt_dec 0 (f s0)); [rewrite sign_eq_1; auto|]. destruct (Rlt_dec (f s0) 0); [rewrite sign_eq_m1; auto|lra].
    + apply is_derive_Reals. destruct (Rtotal_order 0 (f s0)) as [H|[H|H]]; [rewrite sign_eq_1 by auto; apply Rabs_derive_1; auto|lra|rewrite sign_eq_m1 by auto; apply Rabs_derive_2; auto].
  - apply (jd_un0 s0 F f a eabs Rabs); auto. rewrite va. reflexivity.
Qed.

(** two quantities that do not cross at [s0] *)
Definition apartR (u w : R -> R) : Prop := u s0 <> w s0 \/ locally s0 (fun s => u s = w s).

Lemma jd_derive' : forall F' f' a', jd s0 F' f' a' -> exists d, is_derive f' s0 d.
Proof. intros F' f' a' H. destruct (jd_derive _ _ _ _ H) as (d & D & _). eauto. Qed.
Lemma locally_order : f s0 < g s0 -> locally s0 (fun s => f s < g s).
Proof.
  intros L. set (m := (f s0 + g s0) / 2). assert (L1 : f s0 < m) by (unfold m; lra). assert (L2 : m < g s0) by (unfold m; lra).
  generalize (filter_and _ _ (jd_cont _ _ _ _ _ Ha (locally_lt m _ L1)) (jd_cont _ _ _ _ _ Hb (locally_gt m _ L2))). apply filter_imp. intros s []. lra.
Qed.
Lemma locally_order' : g s0 < f s0 -> locally s0 (fun s => g s < f s).
Proof.
  intros L. set (m := (f s0 + g s0) / 2). assert (L1 : m < f s0) by (unfold m; lra). assert (L2 : g s0 < m) by (unfold m; lra).
  generalize (filter_and _ _ (jd_cont _ _ _ _ _ Ha (locally_gt m _ L1)) (jd_cont _ _ _ _ _ Hb (locally_lt m _ L2))). apply filter_imp. intros s []. lra.
Qed.
Lemma eeqb_fin : forall x y, eeqb (Fin x) (Fin y) = true <-> x = y.
Proof. intros. cbn [eeqb]. destruct (Req_EM_T x y); split; intros; try discriminate; auto; contradiction. Qed.
Lemma eeqb_fin' : forall x y, x <> y -> eeqb (Fin x) (Fin y) = false.
Proof. intros. cbn [eeqb]. destruct (Req_EM_T x y); auto; contradiction. Qed.
Lemma eeqb_refl' : forall x, eeqb (Fin x) (Fin x) = true.
Proof. intros. apply eeqb_fin; auto. Qed.

Ltac bal := unfold balanced; rewrite ?eeqb_refl', ?eeqb_fin' by lra; rewrite ediv_fin by lra; f_equal; try lra.
Lemma jd_max : apartR f g -> jd s0 (maximum LE F G) (maximum LR f g) (maximum JB a b).
Proof.
  intros A. destruct (Rtotal_order (f s0) (g s0)) as [L|[E|L]].
  - apply (jd_bin s0 F f a G g b emax Rmax _ _ _ 0 1); auto; easy2; rewrite ?va, ?vb; cbn [emax]; rewrite ?Rmax_right by lra; try (bal; fail).
    intros d e Hd He. replace (d * 0 + e * 1) with e by ring. apply (is_derive_ext_loc g); auto. generalize (locally_order L). apply filter_imp. intros s Hs. rewrite Rmax_right; lra.
  - destruct A as [A|A]; [contradiction|].
    apply (jd_bin s0 F f a G g b emax Rmax _ _ _ (/ 2) (/ 2)); auto; easy2; rewrite ?va, ?vb; cbn [emax]; rewrite ?E, ?Rmax_left by lra; try (bal; fail).
    intros d e Hd He. assert (d = e) as <-.
    { apply (is_derive_ext_loc f g s0 d A) in Hd. rewrite <- (is_derive_unique g s0 d Hd). apply is_derive_unique. exact He. }
    replace (d * / 2 + d * / 2) with d by field. apply (is_derive_ext_loc f); auto. revert A. apply filter_imp. intros s ->. rewrite Rmax_left; lra.
  - apply (jd_bin s0 F f a G g b emax Rmax _ _ _ 1 0); auto; easy2; rewrite ?va, ?vb; cbn [emax]; rewrite ?Rmax_left by lra; try (bal; fail).
    intros d e Hd He. replace (d * 1 + e * 0) with d by ring. apply (is_derive_ext_loc f); auto. generalize (locally_order' L). apply filter_imp. intros s Hs. rewrite Rmax_left; lra.
Qed.
Lemma jd_min : apartR f g -> jd s0 (minimum LE F G) (minimum LR f g) (minimum JB a b).
Proof.
  intros A. destruct (Rtotal_order (f s0) (g s0)) as [L|[E|L]].
  - apply (jd_bin s0 F f a G g b emin Rmin _ _ _ 1 0); auto; easy2; rewrite ?va, ?vb; cbn [emin]; rewrite ?Rmin_left by lra; try (bal; fail).
    intros d e Hd He. replace (d * 1 + e * 0) with d by ring. apply (is_derive_ext_loc f); auto. generalize (locally_order L). apply filter_imp. intros s Hs. rewrite Rmin_left; lra.
  - destruct A as [A|A]; [contradiction|].
    apply (jd_bin s0 F f a G g b emin Rmin _ _ _ (/ 2) (/ 2)); auto; easy2; rewrite ?va, ?vb; cbn [emin]; rewrite ?E, ?Rmin_left by lra; try (bal; fail).
    intros d e Hd He. assert (d = e) as <-.
    { apply (is_derive_ext_loc f g s0 d A) in Hd. rewrite <- (is_derive_unique g s0 d Hd). apply is_derive_unique. exact He. }
    replace (d * / 2 + d * / 2) with d by field. apply (is_derive_ext_loc f); auto. revert A. apply filter_imp. intros s ->. rewrite Rmin_left; lra.
  - apply (jd_bin s0 F f a G g b emin Rmin _ _ _ 0 1); auto; easy2; rewrite ?va, ?vb; cbn [emin]; rewrite ?Rmin_right by lra; try (bal; fail).
    intros d e Hd He. replace (d * 0 + e * 1) with e by ring. apply (is_derive_ext_loc g); auto. generalize (locally_order' L). apply filter_imp. intros s Hs. rewrite Rmin_right; lra.
Qed.
Lemma jd_gt : apartR f g -> jc s0 (gt LE F G) (gt LR f g) (gt JB a b).
Proof.
  intros A. pose proof (filter_and _ _ (proj1 Ha) (proj1 Hb)) as FG.
  assert (K : locally s0 (fun s => Rltb (g s) (f s) = Rltb (g s0) (f s0))).
  { destruct (Rtotal_order (f s0) (g s0)) as [L|[E|L]].
    - generalize (locally_order L). apply filter_imp. intros s Hs. unfold Rltb. destruct (Rlt_dec (g s) (f s)), (Rlt_dec (g s0) (f s0)); auto; lra.
    - destruct A as [A|A]; [contradiction|]. revert A. apply filter_imp. intros s Hs. unfold Rltb. destruct (Rlt_dec (g s) (f s)), (Rlt_dec (g s0) (f s0)); auto; lra.
    - generalize (locally_order' L). apply filter_imp. intros s Hs. unfold Rltb. destruct (Rlt_dec (g s) (f s)), (Rlt_dec (g s0) (f s0)); auto; lra. }
  exists (Rltb (g s0) (f s0)). split.
  - generalize (filter_and _ _ FG K). apply filter_imp. intros s [[E1 E2] E3]. cbn. rewrite E1, E2. cbn [egt]. rewrite E3. auto.
  - cbn. rewrite va, vb. reflexivity.
Qed.
Lemma jd_where : forall c r z, jc s0 c r z -> jd s0 (where_ LE c F G) (where_ LR r f g) (where_ JB z a b).
Proof.
  intros c r z (v & K & ->). clearbody va vb. destruct (jd_derive _ _ _ _ Ha) as (d & Dd & Kd). destruct (jd_derive _ _ _ _ Hb) as (e & De & Ke).
  assert (S : r s0 = v) by exact (proj2 (locally_singleton _ _ K)).
  assert (L : is_derive (where_ LR r f g) s0 (if v then d else e)).
  { destruct v; [apply (is_derive_ext_loc f)|apply (is_derive_ext_loc g)]; auto; revert K; apply filter_imp; intros s [_ E]; cbn; rewrite E; reflexivity. }
  pose proof Ha as (HF & _ & HA); pose proof Hb as (HG & _ & HB). split; [|split].
  - generalize (filter_and _ _ K (filter_and _ _ HF HG)). apply filter_imp. intros s [[E1 E2] [E3 E4]]. cbn. rewrite E1, E2. destruct v; cbn; auto.
  - cbn. rewrite S. destruct v; cbn; auto.
  - cbn [where_ JB j_where j_der]. destruct (j_der a) as [[t k]|], (j_der b) as [[u l]|].
    + destruct Kd as [-> Kd], Ke as [-> Ke]. exists (if v then d else e). split; [destruct v; reflexivity|]. split; [exact L|].
      intros w. destruct v; cbn [ewhere]; rewrite Kd, Ke; cbn [eadd]; f_equal; ring.
    + destruct Kd as [-> Kd]. subst e. exists (if v then d else 0). split; [destruct v; reflexivity|]. split; [exact L|].
      intros w. destruct v; cbn [ewhere]; rewrite Kd; f_equal; ring.
    + destruct Ke as [-> Ke]. subst d. exists (if v then 0 else e). split; [destruct v; reflexivity|]. split; [exact L|].
      intros w. destruct v; cbn [ewhere]; rewrite Ke; f_equal; ring.
    + generalize (filter_and _ _ K (filter_and _ _ HA HB)). apply filter_imp. intros s [[_ E2] [E3 E4]]. cbn. rewrite E2, S. destruct v; auto.
Qed.

Lemma Ratan2_up : forall y x, 0 < y -> Ratan2 y x = PI / 2 - atan (x / y).
Proof.
  intros y x Hy. unfold Ratan2. destruct (Rlt_dec 0 x) as [P|P].
  - replace (y / x) with (/ (x / y)) by (field; lra). apply atan_inv. apply Rdiv_lt_0_compat; auto.
  - destruct (Rlt_dec x 0) as [N|N].
    + destruct (Rle_dec 0 y); [|lra]. replace (y / x) with (- / (- x / y)) by (field; lra). rewrite atan_opp, atan_inv by (apply Rdiv_lt_0_compat; lra).
      replace (- x / y) with (- (x / y)) by (field; lra). rewrite atan_opp. lra.
    + replace x with 0 by lra. destruct (Rlt_dec 0 y); [|lra]. replace (0 / y) with 0 by (field; lra). rewrite atan_0. lra.
Qed.
Lemma Ratan2_down : forall y x, y < 0 -> Ratan2 y x = - (PI / 2) - atan (x / y).
Proof.
  intros y x Hy. unfold Ratan2. destruct (Rlt_dec 0 x) as [P|P].
  - replace (y / x) with (- / (x / - y)) by (field; lra). rewrite atan_opp, atan_inv by (apply Rdiv_lt_0_compat; lra).
    replace (x / - y) with (- (x / y)) by (field; lra). rewrite atan_opp. lra.
  - destruct (Rlt_dec x 0) as [N|N].
    + destruct (Rle_dec 0 y); [lra|]. replace (y / x) with (/ (x / y)) by (field; lra). rewrite atan_inv. lra.
      replace (x / y) with (- x / - y) by (field; lra). apply Rdiv_lt_0_compat; lra.
    + replace x with 0 by lra. destruct (Rlt_dec 0 y); [lra|]. destruct (Rlt_dec y 0); [|lra]. replace (0 / y) with 0 by (field; lra). rewrite atan_0. lra.
Qed.
Lemma Ratan2_right : forall y x, 0 < x -> Ratan2 y x = atan (y / x).
Proof. intros y x Hx. unfold Ratan2. destruct (Rlt_dec 0 x); [reflexivity|lra]. Qed.
Lemma is_derive_quot_atan : forall (u w : R -> R) (x d e : R), w x <> 0 -> is_derive u x d -> is_derive w x e ->
  is_derive (fun s => atan (u s / w s)) x ((d * w x - u x * e) / (u x ^ 2 + w x ^ 2)).
Proof.
  intros u w x d e Hw Hu He.
  assert (P : u x ^ 2 + w x ^ 2 <> 0) by (pose proof (pow2_ge_0 (u x)); pose proof (pow2_gt_0 (w x) Hw); lra).
  replace ((d * w x - u x * e) / (u x ^ 2 + w x ^ 2)) with (((d * w x - u x * e) / (w x) ^ 2) * (/ (1 + (u x / w x)²))).
  2:{ unfold Rsqr. field. repeat split; auto; try (intros Q; apply P; rewrite <- Q; ring). }
  apply (is_derive_comp atan (fun s => u s / w s) x). apply is_derive_atan. exact (is_derive_div u w x d e Hu He Hw).
Qed.
Lemma jd_atan2 : (0 < g s0 \/ f s0 <> 0) -> jd s0 (barctan2 LE F G) (barctan2 LR f g) (barctan2 JB a b).
Proof.
  intros C. assert (P : (f s0) ^ 2 + (g s0) ^ 2 <> 0).
  { pose proof (pow2_ge_0 (f s0)); pose proof (pow2_ge_0 (g s0)). destruct C as [C|C]; [assert (0 < g s0 ^ 2) by (apply pow2_gt_0; lra)|assert (0 < f s0 ^ 2) by (apply pow2_gt_0; auto)]; lra. }
  apply (jd_bin s0 F f a G g b eatan2 Ratan2 _ _ _ (g s0 / ((f s0) ^ 2 + (g s0) ^ 2)) (- f s0 / ((f s0) ^ 2 + (g s0) ^ 2))); auto; easy2.
  - rewrite va, vb. cbn [epowi eadd]. apply ediv_fin; auto.
  - rewrite va, vb. cbn [epowi eadd eneg]. apply ediv_fin; auto.
  - intros d e Hd He. replace (d * (g s0 / (f s0 ^ 2 + g s0 ^ 2)) + e * (- f s0 / (f s0 ^ 2 + g s0 ^ 2))) with ((d * g s0 - f s0 * e) / (f s0 ^ 2 + g s0 ^ 2)) by (field; auto).
    destruct (Rlt_dec 0 (g s0)) as [Pg|Pg].
    + apply (is_derive_ext_loc (fun s => atan (f s / g s))); [|apply is_derive_quot_atan; auto; lra].
      generalize (jd_cont _ _ _ _ _ Hb (locally_gt 0 _ Pg)). apply filter_imp. intros s Hs. symmetry. apply Ratan2_right; auto.
    + assert (N : f s0 <> 0) by (destruct C; [contradiction|auto]).
      assert (Q : is_derive (fun s => atan (g s / f s)) s0 ((e * f s0 - g s0 * d) / (g s0 ^ 2 + f s0 ^ 2))) by (apply is_derive_quot_atan; auto).
      assert (Q' : forall c : R, is_derive (fun s => c - atan (g s / f s)) s0 ((d * g s0 - f s0 * e) / (f s0 ^ 2 + g s0 ^ 2))).
      { intros c. replace ((d * g s0 - f s0 * e) / (f s0 ^ 2 + g s0 ^ 2)) with (0 - (e * f s0 - g s0 * d) / (g s0 ^ 2 + f s0 ^ 2)).
        - exact (is_derive_minus (fun _ => c) (fun s => atan (g s / f s)) s0 0 _ (is_derive_const c s0) Q).
        - rewrite (Rplus_comm (g s0 ^ 2)). field; auto. }
      destruct (Rtotal_order 0 (f s0)) as [Pf|[Pf|Pf]]; [|congruence|].
      * apply (is_derive_ext_loc (fun s => PI / 2 - atan (g s / f s))); auto.
        generalize (jd_cont _ _ _ _ _ Ha (locally_gt 0 _ Pf)). apply filter_imp. intros s Hs. symmetry. apply Ratan2_up; auto.
      * apply (is_derive_ext_loc (fun s => - (PI / 2) - atan (g s / f s))); auto.
        generalize (jd_cont _ _ _ _ _ Ha (locally_lt 0 _ Pf)). apply filter_imp. intros s Hs. symmetry. apply Ratan2_down; auto.
Qed.
Lemma jd_atan20 : j_der a = None -> j_der b = None -> jd s0 (barctan2 LE F G) (barctan2 LR f g) (barctan2 JB a b).
Proof. intros Na Nb. apply (jd_bin0 s0 F f a G g b eatan2 Ratan2); auto; easy2. Qed.

(** interpolation away from the knots *)
Definition off_knots (x : R) (tbl : list (R * R)) : Prop := forall p, In p tbl -> fst p <> x.
Lemma affine_derive : forall y0 k x0 x, is_derive (fun s => y0 + k * (s - x0)) x k.
Proof.
  intros. auto_derive; [trivial|ring].
Qed.
Lemma interp_from_derive : forall tl x x0 y0, x0 < x -> off_knots x tl -> is_derive (fun s => interp_from s x0 y0 tl) x (slope_from x x0 y0 tl).
Proof.
  induction tl as [|[x1 y1] tl IH]; intros x x0 y0 H O; cbn [interp_from slope_from].
  - exact (is_derive_const y0 x).
  - assert (N : x1 <> x) by exact (O (x1, y1) (or_introl eq_refl)).
    assert (O' : off_knots x tl) by (intros p Hp; apply O; right; auto).
    destruct (Rlt_dec x x1) as [L|L].
    + assert (E : (if Req_EM_T x1 x0 then 0 else (y1 - y0) / (x1 - x0)) = (y1 - y0) / (x1 - x0)) by (destruct (Req_EM_T x1 x0); [lra|reflexivity]).
      apply (is_derive_ext_loc (fun s => y0 + (y1 - y0) / (x1 - x0) * (s - x0))).
      * generalize (locally_lt _ _ L). apply filter_imp. intros s Hs. destruct (Rlt_dec s x1); [reflexivity|lra].
      * destruct tl; [destruct (Rle_dec x x1); [|lra]|]; rewrite E; apply affine_derive.
    + assert (L' : x1 < x) by lra. apply (is_derive_ext_loc (fun s => interp_from s x1 y1 tl)).
      * generalize (locally_gt _ _ L'). apply filter_imp. intros s Hs. destruct (Rlt_dec s x1); [lra|reflexivity].
      * destruct tl; [destruct (Rle_dec x x1); [lra|]; exact (is_derive_const y1 x)|]. apply IH; auto.
Qed.
Lemma jd_interp : forall tbl, tbl <> [] -> off_knots (f s0) tbl -> jd s0 (interp LE F tbl) (interp LR f tbl) (interp JB a tbl).
Proof.
  intros [|[x0 y0] tl] H O; [contradiction|]. assert (N : x0 <> f s0) by exact (O (x0, y0) (or_introl eq_refl)).
  assert (O' : off_knots (f s0) tl) by (intros p Hp; apply O; right; auto).
  apply (jd_un s0 F f a (fun x => einterp x ((x0, y0) :: tl)) (fun x => match np_interp x ((x0, y0) :: tl) with Some r => r | None => 0 end) _ _ (if Rlt_dec (f s0) x0 then 0 else slope_from (f s0) x0 y0 tl)); auto; easy2.
  cbn [np_interp]. destruct (Rlt_dec (f s0) x0) as [L|L].
  - apply (is_derive_ext_loc (fun _ => y0)); [|exact (is_derive_const y0 (f s0))]. generalize (locally_lt _ _ L). apply filter_imp. intros s Hs. destruct (Rlt_dec s x0); [reflexivity|lra].
  - assert (L' : x0 < f s0) by lra. apply (is_derive_ext_loc (fun s => interp_from s x0 y0 tl)); [|apply interp_from_derive; auto].
    generalize (locally_gt _ _ L'). apply filter_imp. intros s Hs. destruct (Rlt_dec s x0); [lra|reflexivity].
Qed.
Lemma jd_interp0 : forall tbl, tbl <> [] -> j_der a = None -> jd s0 (interp LE F tbl) (interp LR f tbl) (interp JB a tbl).
Proof.
  intros [|[x0 y0] tl] H N; [contradiction|].
  apply (jd_un0 s0 F f a (fun x => einterp x ((x0, y0) :: tl)) (fun x => match np_interp x ((x0, y0) :: tl) with Some r => r | None => 0 end)); auto; easy2.
Qed.

(** remainder by a constant away from the jumps *)
Lemma Rtrunc_loc : forall x, (forall k : Z, x <> IZR k) -> locally x (fun y => Rtrunc y = Rtrunc x).
Proof.
  intros x H. destruct (base_Int_part x) as [B1 B2]. pose proof (H (Int_part x)) as N1.
  assert (L1 : IZR (Int_part x) < x) by lra. assert (L2 : x < IZR (Int_part x) + 1) by lra.
  assert (I : forall y, IZR (Int_part x) < y < IZR (Int_part x) + 1 -> Int_part y = Int_part x).
  { intros y [H1 H2]. apply Int_part_unique; lra. }
  assert (I' : forall y, IZR (Int_part x) < y < IZR (Int_part x) + 1 -> Int_part (- y) = (- Int_part x - 1)%Z).
  { intros y [H1 H2]. apply Int_part_unique. rewrite minus_IZR, opp_IZR. lra. }
  generalize (filter_and _ _ (locally_gt _ _ L1) (locally_lt _ _ L2)). apply filter_imp. intros y Hy. unfold Rtrunc.
  assert (S : 0 <= y <-> 0 <= x).
  { destruct (Z_le_gt_dec 0 (Int_part x)) as [Z|Z].
    - apply IZR_le in Z. split; lra.
    - assert (Z' : (Int_part x + 1 <= 0)%Z) by lia. apply IZR_le in Z'. rewrite plus_IZR in Z'. split; lra. }
  destruct (Rle_dec 0 y), (Rle_dec 0 x); try tauto; [apply I; auto|]. rewrite (I' y Hy), (I' x (conj L1 L2)). reflexivity.
Qed.
Lemma jd_fmod : j_der b = None -> g s0 <> 0 -> (j_der a = None \/ forall k : Z, f s0 / g s0 <> IZR k) -> jd s0 (fmod LE F G) (fmod LR f g) (fmod JB a b).
Proof.
  intros Nb Hg [Na|H].
  - apply (jd_bin0 s0 F f a G g b efmod Rfmod); auto; rewrite ?va, ?vb; cbn [efmod]; destruct (Req_EM_T (g s0) 0); congruence.
  - assert (Kg : locally s0 (fun s => g s = g s0)) by (pose proof (proj2 (proj2 Hb)) as K; rewrite Nb in K; exact K).
    apply (jd_bin s0 F f a G g b efmod Rfmod _ _ _ 1 (- IZR (Rtrunc (f s0 / g s0)))); auto.
    + revert Kg. apply filter_imp. intros s ->. cbn [efmod]. destruct (Req_EM_T (g s0) 0); [contradiction|reflexivity].
    + rewrite va, vb. cbn [efmod]. destruct (Req_EM_T (g s0) 0); [contradiction|reflexivity].
    + rewrite va, vb. cbn [fmod_rhs]. destruct (Req_EM_T (g s0) 0); [contradiction|reflexivity].
    + intros d e Hd He. assert (e = 0) as ->. { rewrite <- (is_derive_unique g s0 e He). apply is_derive_unique. apply locconst_derive. exact Kg. }
      replace (d * 1 + 0 * - IZR (Rtrunc (f s0 / g s0))) with (d - 0) by ring.
      apply (is_derive_ext_loc (fun s => f s - g s0 * IZR (Rtrunc (f s0 / g s0)))).
      * assert (Q : locally s0 (fun s => Rtrunc (f s / g s0) = Rtrunc (f s0 / g s0))).
        { assert (Cq : continuous (fun s => f s / g s0) s0).
          { apply (ex_derive_continuous (K := R_AbsRing) (V := R_NormedModule)). exists (d * / g s0 + f s0 * 0).
            exact (is_derive_mult f (fun _ => / g s0) s0 d 0 Hd (is_derive_const (/ g s0) s0) Rmult_comm). }
          exact (Cq _ (Rtrunc_loc _ H)). }
        generalize (filter_and _ _ Q Kg). apply filter_imp. intros s [E ->]. unfold Rfmod. rewrite E. reflexivity.
      * exact (is_derive_minus f (fun _ => g s0 * IZR (Rtrunc (f s0 / g s0))) s0 d 0 Hd (is_derive_const _ s0)).
Qed.
End Ops.

(** ** Without the real functions *)
Definition isr (P : R -> Prop) (x : ext) : Prop := exists r, x = Fin r /\ P r.
Definition posi (x : ext) : Prop := isr (fun r => 0 < r) x.
(** quantities that do not cross at [s0] *)
Definition apart (s0 : R) (F G : R -> ext) : Prop := F s0 <> G s0 \/ locally s0 (fun s => F s = G s).
Definition cexact (s0 : R) (c : R -> option bool) (z : option bool) : Prop := exists r, jc s0 c r z.

Lemma apart_apartR : forall s0 F G f g a b, jd s0 F f a -> jd s0 G g b -> apart s0 F G -> apartR s0 f g.
Proof.
  intros s0 F G f g a b Ha Hb [A|A].
  - left. intros E. apply A. rewrite (jd_F _ _ _ _ Ha), (jd_F _ _ _ _ Hb), E. reflexivity.
  - right. generalize (filter_and _ _ A (filter_and _ _ (proj1 Ha) (proj1 Hb))). apply filter_imp. intros s [E [E1 E2]]. rewrite E1, E2 in E. injection E; auto.
Qed.
Lemma fixed_loc : forall s0 F a, exact s0 F a -> fixed a -> locally s0 (fun s => F s = F s0).
Proof.
  intros s0 F a (f & Ha) N. pose proof (jd_F _ _ _ _ Ha) as E0. destruct Ha as (HF & _ & HD). unfold fixed in N. rewrite N in HD.
  generalize (filter_and _ _ HF HD). apply filter_imp. intros s [-> ->]. symmetry; exact E0.
Qed.
Lemma apart_fixed : forall s0 F G a b, exact s0 F a -> exact s0 G b -> fixed a -> fixed b -> apart s0 F G.
Proof.
  intros s0 F G a b Ha Hb Na Nb. pose proof (fixed_loc _ _ _ Ha Na) as La. pose proof (fixed_loc _ _ _ Hb Nb) as Lb.
  destruct Ha as (f & Ha), Hb as (g & Hb). pose proof (jd_F _ _ _ _ Ha) as Ea. pose proof (jd_F _ _ _ _ Hb) as Eb.
  destruct (Req_EM_T (f s0) (g s0)) as [E|E].
  - right. generalize (filter_and _ _ La Lb). apply filter_imp. intros s [-> ->]. rewrite Ea, Eb, E. reflexivity.
  - left. rewrite Ea, Eb. congruence.
Qed.
Lemma exact_fin : forall s0 F a, exact s0 F a -> exists r, F s0 = Fin r.
Proof. intros s0 F a (f & Ha). exists (f s0). exact (jd_F _ _ _ _ Ha). Qed.
Lemma exact_val : forall s0 F a, exact s0 F a -> j_val a = F s0.
Proof. intros s0 F a (f & Ha). rewrite (jd_F _ _ _ _ Ha). exact (proj1 (proj2 Ha)). Qed.
Lemma exact_ext : forall s0 F G a, exact s0 F a -> (forall s, F s = G s) -> exact s0 G a.
Proof. intros s0 F G a (f & H & K) E. exists f. split; [|exact K]. revert H. apply filter_imp. intros s <-. symmetry. apply E. Qed.
Lemma exact_loc : forall s0 F a, exact s0 F a -> locally s0 (fun s => exists r, F s = Fin r).
Proof. intros s0 F a (f & H & K). revert H. apply filter_imp. eauto. Qed.

Section Exact.
Context (s0 : R) (F G : R -> ext) (a b : jx) (Ha : exact s0 F a) (Hb : exact s0 G b).
Ltac tk := destruct Ha as (f & Ja), Hb as (g & Jb); pose proof (jd_F _ _ _ _ Ja) as Ea; pose proof (jd_F _ _ _ _ Jb) as Eb.
Ltac tk1 := destruct Ha as (f & Ja); pose proof (jd_F _ _ _ _ Ja) as Ea.
Lemma sm_add : exact s0 (add LE F G) (add JB a b). Proof. tk. eexists. apply jd_add; eauto. Qed.
Lemma sm_sub : exact s0 (sub LE F G) (sub JB a b). Proof. tk. eexists. apply jd_sub; eauto. Qed.
Lemma sm_mul : exact s0 (mul LE F G) (mul JB a b). Proof. tk. eexists. apply jd_mul; eauto. Qed.
Lemma sm_div : G s0 <> Fin 0 -> exact s0 (div LE F G) (div JB a b).
Proof. intros H. tk. eexists. eapply jd_div; eauto. rewrite Eb in H. congruence. Qed.
Lemma sm_neg : exact s0 (neg LE F) (neg JB a). Proof. tk1. eexists. apply jd_neg; eauto. Qed.
Lemma sm_powi : forall n, exact s0 (powi LE F n) (powi JB a n). Proof. intros. tk1. eexists. apply jd_powi; eauto. Qed.
Lemma sm_power : posi (F s0) -> exact s0 (power LE F G) (power JB a b).
Proof. intros (r & E & H). tk. eexists. eapply jd_power; eauto. rewrite Ea in E. injection E as ->. auto. Qed.
Lemma sm_sqrt : posi (F s0) -> exact s0 (bsqrt LE F) (bsqrt JB a).
Proof. intros (r & E & H). tk1. eexists. apply jd_sqrt; eauto. rewrite Ea in E. injection E as ->. auto. Qed.
Lemma sm_sqrt0 : isr (fun r => 0 <= r) (F s0) -> fixed a -> exact s0 (bsqrt LE F) (bsqrt JB a).
Proof. intros (r & E & H) N. tk1. eexists. apply jd_sqrt0; eauto. rewrite Ea in E. injection E as ->. auto. Qed.
Lemma sm_exp : isr (fun r => r < exp_max) (F s0) -> exact s0 (bexp LE F) (bexp JB a).
Proof. intros (r & E & H). tk1. eexists. apply jd_exp; eauto. rewrite Ea in E. injection E as ->. auto. Qed.
Lemma sm_log : posi (F s0) -> exact s0 (blog LE F) (blog JB a).
Proof. intros (r & E & H). tk1. eexists. apply jd_log; eauto. rewrite Ea in E. injection E as ->. auto. Qed.
Lemma sm_sin : exact s0 (bsin LE F) (bsin JB a). Proof. tk1. eexists. apply jd_sin; eauto. Qed.
Lemma sm_cos : exact s0 (bcos LE F) (bcos JB a). Proof. tk1. eexists. apply jd_cos; eauto. Qed.
Lemma sm_arcsin : isr (fun r => -1 < r < 1) (F s0) -> exact s0 (barcsin LE F) (barcsin JB a).
Proof. intros (r & E & H). tk1. eexists. apply jd_arcsin; eauto. rewrite Ea in E. injection E as ->. auto. Qed.
Lemma sm_arccos : isr (fun r => -1 < r < 1) (F s0) -> exact s0 (barccos LE F) (barccos JB a).
Proof. intros (r & E & H). tk1. eexists. apply jd_arccos; eauto. rewrite Ea in E. injection E as ->. auto. Qed.
Lemma sm_atan2 : posi (G s0) \/ F s0 <> Fin 0 -> exact s0 (barctan2 LE F G) (barctan2 JB a b).
Proof. intros H. tk. eexists. eapply jd_atan2; eauto. destruct H as [(r & E & H)|H]; [left; rewrite Eb in E; injection E as ->; auto|right; rewrite Ea in H; congruence]. Qed.
Lemma sm_atan20 : fixed a -> fixed b -> exact s0 (barctan2 LE F G) (barctan2 JB a b).
Proof. intros. tk. eexists. apply jd_atan20; eauto. Qed.
Lemma sm_abs : F s0 <> Fin 0 \/ fixed a -> exact s0 (babs LE F) (babs JB a).
Proof. intros H. tk1. eexists. apply jd_abs; eauto. destruct H as [H|H]; [left; rewrite Ea in H; congruence|auto]. Qed.
Lemma sm_max : apart s0 F G -> exact s0 (maximum LE F G) (maximum JB a b).
Proof. intros H. tk. eexists. apply jd_max; eauto. eapply apart_apartR; eauto. Qed.
Lemma sm_min : apart s0 F G -> exact s0 (minimum LE F G) (minimum JB a b).
Proof. intros H. tk. eexists. apply jd_min; eauto. eapply apart_apartR; eauto. Qed.
Lemma sm_gt : apart s0 F G -> cexact s0 (gt LE F G) (gt JB a b).
Proof. intros H. tk. eexists. eapply jd_gt; eauto. eapply apart_apartR; eauto. Qed.
Lemma sm_where : forall c z, cexact s0 c z -> exact s0 (where_ LE c F G) (where_ JB z a b).
Proof. intros c z (r & H). tk. eexists. eapply jd_where; eauto. Qed.
Lemma sm_interp : forall tbl, tbl <> [] -> (fixed a \/ forall p, In p tbl -> F s0 <> Fin (fst p)) -> exact s0 (interp LE F tbl) (interp JB a tbl).
Proof.
  intros tbl N H. tk1. destruct H as [H|H]; eexists; [apply jd_interp0|apply jd_interp]; eauto. intros p Hp E. apply (H p Hp). rewrite Ea, E. reflexivity.
Qed.
Lemma sm_fmod : fixed b -> G s0 <> Fin 0 -> (fixed a \/ forall k, F s0 <> emul (G s0) (Fin (IZR k))) -> exact s0 (fmod LE F G) (fmod JB a b).
Proof.
  intros N H K. tk. eexists. eapply jd_fmod; eauto; [rewrite Eb in H; congruence|]. destruct K as [K|K]; [left; auto|right]. intros k E. apply (K k). rewrite Ea, Eb. cbn [emul]. f_equal.
  rewrite <- E. field. rewrite Eb in H. congruence.
Qed.
End Exact.
Lemma sm_cst : forall s0 r, exact s0 (cst LE r) (cst JB r).
Proof. intros. eexists. apply jd_cst. Qed.
Lemma sm_pi : forall s0, exact s0 (bpi LE) (bpi JB).
Proof. intros. eexists. apply jd_pi. Qed.
Lemma sm_clip : forall s0 F G H a b c, exact s0 F a -> exact s0 G b -> exact s0 H c -> apart s0 F G -> apart s0 (maximum LE F G) H ->
  exact s0 (clip LE F G H) (clip JB a b c).
Proof. intros. change (exact s0 (minimum LE (maximum LE F G) H) (minimum JB (maximum JB a b) c)). apply sm_min; auto. apply sm_max; auto. Qed.
