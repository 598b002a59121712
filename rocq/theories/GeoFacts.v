(** Lemmas about the model of openap/geo.py: spherical geometry. *)
From Coq Require Import Reals List Bool Lra Lia Psatz.
From Verif Require Import Num NumFacts Geo.
Open Scope R_scope.

(** ** atan2 *)

Lemma Ratan2_range : forall y x, - PI < Ratan2 y x <= PI.
Proof.
  intros y x. unfold Ratan2. pose proof PI_RGT_0.
  destruct (Rlt_dec 0 x).
  { pose proof (atan_bound (y / x)). lra. }
  destruct (Rlt_dec x 0).
  { destruct (Rle_dec 0 y).
    - pose proof (atan_bound (y / x)).
      assert (atan (y / x) <= 0); [|lra].
      assert (y / x <= 0).
      { unfold Rdiv. assert (/ x < 0) by (apply Rinv_lt_0_compat; auto). nra. }
      destruct H1 as [H1|H1]; [|rewrite H1, atan_0; lra].
      left. rewrite <- atan_0. apply atan_increasing; auto.
    - pose proof (atan_bound (y / x)).
      assert (0 < atan (y / x)); [|lra].
      assert (0 < y / x).
      { unfold Rdiv. assert (/ x < 0) by (apply Rinv_lt_0_compat; auto). nra. }
      rewrite <- atan_0. apply atan_increasing; auto. }
  destruct (Rlt_dec 0 y); [lra|]. destruct (Rlt_dec y 0); lra.
Qed.

Definition hyp (y x : R) : R := sqrt (x * x + y * y).

Lemma hyp_pos_x : forall y x, x <> 0 -> hyp y x = Rabs x * sqrt (1 + (y / x)²).
Proof.
  intros. unfold hyp. rewrite <- sqrt_Rsqr_abs. rewrite <- sqrt_mult_alt by apply Rle_0_sqr.
  f_equal. unfold Rsqr. field; auto.
Qed.

Lemma sqrt1_pos : forall z, 0 < sqrt (1 + z²).
Proof. intros. apply sqrt_lt_R0. pose proof (Rle_0_sqr z). lra. Qed.

(** (x,y) = r (cos, sin) of its atan2 *)
Lemma Ratan2_polar : forall y x,
  hyp y x * cos (Ratan2 y x) = x /\ hyp y x * sin (Ratan2 y x) = y.
Proof.
  intros y x. unfold Ratan2.
  destruct (Rlt_dec 0 x) as [Hx|Hx].
  { rewrite hyp_pos_x by lra. rewrite Rabs_pos_eq by lra. rewrite cos_atan, sin_atan.
    pose proof (sqrt1_pos (y / x)). split; field; lra. }
  destruct (Rlt_dec x 0) as [Hx'|Hx'].
  { rewrite hyp_pos_x by lra. rewrite Rabs_left by lra. pose proof (sqrt1_pos (y / x)).
    destruct (Rle_dec 0 y).
    - rewrite neg_cos, neg_sin, cos_atan, sin_atan. split; field; lra.
    - unfold Rminus. rewrite cos_plus, sin_plus, cos_neg, sin_neg, cos_PI, sin_PI, cos_atan, sin_atan.
      split; field; lra. }
  assert (x = 0) by lra. subst x. unfold hyp.
  replace (0 * 0 + y * y) with (Rsqr y) by (unfold Rsqr; ring). rewrite sqrt_Rsqr_abs.
  destruct (Rlt_dec 0 y).
  { rewrite cos_PI2, sin_PI2, Rabs_pos_eq by lra. lra. }
  destruct (Rlt_dec y 0).
  { rewrite cos_neg, sin_neg, cos_PI2, sin_PI2, Rabs_left by lra. lra. }
  assert (y = 0) by lra. subst. rewrite Rabs_R0. lra.
Qed.

Lemma hyp_sq : forall y x, hyp y x * hyp y x = x * x + y * y.
Proof. intros; unfold hyp; apply sqrt_sqrt. nra. Qed.
Lemma hyp_nonneg : forall y x, 0 <= hyp y x.
Proof. intros; apply sqrt_pos. Qed.

(** angles in (-pi,pi] are determined by cosine and sine *)
Lemma angle_unique : forall a c, - PI < a <= PI -> - PI < c <= PI ->
  cos a = cos c -> sin a = sin c -> a = c.
Proof.
  intros a c Ha Hc Ec Es.
  assert (H : cos (a - c) = 1).
  { rewrite cos_minus, Ec, Es. pose proof (sin2_cos2 c). unfold Rsqr in H. lra. }
  assert (Hs : sin (a - c) = 0) by (rewrite sin_minus, Ec, Es; ring).
  (* a - c in (-2pi, 2pi), sin = 0, cos = 1 *)
  set (d := a - c) in *. assert (Hd : - (2 * PI) < d < 2 * PI) by (unfold d; lra).
  assert (Hz : forall e, 0 < e < 2 * PI -> sin e = 0 -> cos e = 1 -> False).
  { intros e He Hse Hce. destruct (Rtotal_order e PI) as [L|[L|L]].
    - pose proof (sin_gt_0 e ltac:(lra) L). lra.
    - rewrite L, cos_PI in Hce. lra.
    - pose proof (sin_lt_0 e L ltac:(lra)). lra. }
  destruct (Rtotal_order d 0) as [L|[L|L]].
  - exfalso. apply (Hz (- d)); [lra|rewrite sin_neg; lra|rewrite cos_neg; auto].
  - unfold d in L. lra.
  - exfalso. apply (Hz d); auto. lra.
Qed.

Lemma Ratan2_angle : forall k t, 0 < k -> - PI < t <= PI -> Ratan2 (k * sin t) (k * cos t) = t.
Proof.
  intros k t Hk Ht.
  assert (Hh : hyp (k * sin t) (k * cos t) = k).
  { unfold hyp. replace (k * cos t * (k * cos t) + k * sin t * (k * sin t)) with (Rsqr k).
    - apply sqrt_Rsqr; lra.
    - pose proof (sin2_cos2 t) as E. unfold Rsqr in *. nra. }
  destruct (Ratan2_polar (k * sin t) (k * cos t)) as [Hc Hs]. rewrite Hh in Hc, Hs.
  apply angle_unique; auto using Ratan2_range.
  - apply Rmult_eq_reg_l with k; lra.
  - apply Rmult_eq_reg_l with k; lra.
Qed.

Lemma Ratan2_angle_2pi : forall k t, 0 < k -> 0 <= t < 2 * PI ->
  Ratan2 (k * sin t) (k * cos t) = if Rle_dec t PI then t else t - 2 * PI.
Proof.
  intros k t Hk Ht. pose proof PI_RGT_0. destruct (Rle_dec t PI).
  - apply Ratan2_angle; lra.
  - replace (sin t) with (sin (t - 2 * PI)). replace (cos t) with (cos (t - 2 * PI)).
    + apply Ratan2_angle; lra.
    + rewrite cos_minus, cos_2PI, sin_2PI. ring.
    + rewrite sin_minus, cos_2PI, sin_2PI. ring.
Qed.

(** ** fmod *)
Lemma Int_part_range : forall x, IZR (Int_part x) <= x < IZR (Int_part x) + 1.
Proof. intros. pose proof (base_Int_part x). lra. Qed.

Lemma Rfmod_pos : forall x y, 0 <= x -> 0 < y -> 0 <= Rfmod x y < y.
Proof.
  intros x y Hx Hy. unfold Rfmod, Rtrunc.
  assert (0 <= x / y) by (apply Rmult_le_pos; auto; left; apply Rinv_0_lt_compat; auto).
  destruct (Rle_dec 0 (x / y)); [|contradiction].
  pose proof (Int_part_range (x / y)) as [H1 H2].
  apply (Rmult_le_compat_l y) in H1; [|lra]. apply (Rmult_lt_compat_l y) in H2; [|lra].
  replace (y * (x / y)) with x in * by (field; lra). lra.
Qed.

Lemma Int_part_unique : forall x z, IZR z <= x < IZR z + 1 -> Int_part x = z.
Proof.
  intros x z H. pose proof (Int_part_range x).
  assert (IZR (Int_part x) < IZR (z + 1)) by (rewrite plus_IZR; lra).
  assert (IZR z < IZR (Int_part x + 1)) by (rewrite plus_IZR; lra).
  apply lt_IZR in H1. apply lt_IZR in H2. lia.
Qed.

Lemma Rfmod_eq : forall x y z, 0 <= x -> 0 < y -> IZR z * y <= x < (IZR z + 1) * y ->
  Rfmod x y = x - y * IZR z.
Proof.
  intros x y z Hx Hy Hz. unfold Rfmod, Rtrunc.
  assert (0 <= x / y) by (apply Rmult_le_pos; auto; left; apply Rinv_0_lt_compat; auto).
  destruct (Rle_dec 0 (x / y)); [|contradiction].
  rewrite (Int_part_unique _ z); auto.
  assert (E : x = x / y * y) by (field; lra). rewrite E in Hz.
  split; [apply Rmult_le_reg_r with y|apply Rmult_lt_reg_r with y]; lra.
Qed.

(** ** Unit vectors *)

(** cosine of the angle between the directions (f1,l1) and (f2,l2) (radians) *)
Definition dotp (f1 l1 f2 l2 : R) : R := cos f1 * cos f2 * cos (l2 - l1) + sin f1 * sin f2.

Lemma dotp_xyz : forall f1 l1 f2 l2, dotp f1 l1 f2 l2 =
  (cos f1 * cos l1) * (cos f2 * cos l2) + (cos f1 * sin l1) * (cos f2 * sin l2) + sin f1 * sin f2.
Proof. intros; unfold dotp; rewrite cos_minus; ring. Qed.

Lemma unit_xyz : forall f l, (cos f * cos l) * (cos f * cos l) + (cos f * sin l) * (cos f * sin l) + sin f * sin f = 1.
Proof.
  intros. pose proof (sin2_cos2 f) as H1. pose proof (sin2_cos2 l) as H2. unfold Rsqr in *.
  replace (cos f * cos l * (cos f * cos l) + cos f * sin l * (cos f * sin l) + sin f * sin f)
    with (cos f * cos f * (sin l * sin l + cos l * cos l) + sin f * sin f) by ring.
  rewrite H2. lra.
Qed.

Lemma dot_bound : forall a1 a2 a3 b1 b2 b3,
  a1*a1+a2*a2+a3*a3 = 1 -> b1*b1+b2*b2+b3*b3 = 1 -> -1 <= a1*b1+a2*b2+a3*b3 <= 1.
Proof.
  intros. split.
  - pose proof (Rle_0_sqr (a1+b1)). pose proof (Rle_0_sqr (a2+b2)). pose proof (Rle_0_sqr (a3+b3)).
    unfold Rsqr in *. lra.
  - pose proof (Rle_0_sqr (a1-b1)). pose proof (Rle_0_sqr (a2-b2)). pose proof (Rle_0_sqr (a3-b3)).
    unfold Rsqr in *. lra.
Qed.

Lemma dotp_range : forall f1 l1 f2 l2, -1 <= dotp f1 l1 f2 l2 <= 1.
Proof. intros. rewrite dotp_xyz. apply dot_bound; apply unit_xyz. Qed.

(** Cauchy-Schwarz *)
Lemma cauchy3 : forall a1 a2 a3 b1 b2 b3,
  (a1*b1+a2*b2+a3*b3)*(a1*b1+a2*b2+a3*b3) <= (a1*a1+a2*a2+a3*a3)*(b1*b1+b2*b2+b3*b3).
Proof.
  intros. pose proof (Rle_0_sqr (a1*b2-a2*b1)). pose proof (Rle_0_sqr (a1*b3-a3*b1)).
  pose proof (Rle_0_sqr (a2*b3-a3*b2)). unfold Rsqr in *. lra.
Qed.

Lemma gram : forall u1 u2 u3 v1 v2 v3 w1 w2 w3,
  u1*u1+u2*u2+u3*u3 = 1 -> v1*v1+v2*v2+v3*v3 = 1 -> w1*w1+w2*w2+w3*w3 = 1 ->
  let uv := u1*v1+u2*v2+u3*v3 in let vw := v1*w1+v2*w2+v3*w3 in let uw := u1*w1+u2*w2+u3*w3 in
  (uw - uv * vw) * (uw - uv * vw) <= (1 - uv * uv) * (1 - vw * vw).
Proof.
  intros u1 u2 u3 v1 v2 v3 w1 w2 w3 Hu Hv Hw uv vw uw.
  pose proof (cauchy3 (u1 - uv*v1) (u2 - uv*v2) (u3 - uv*v3) (w1 - vw*v1) (w2 - vw*v2) (w3 - vw*v3)) as H.
  replace ((u1 - uv * v1) * (w1 - vw * v1) + (u2 - uv * v2) * (w2 - vw * v2) + (u3 - uv * v3) * (w3 - vw * v3))
    with (uw - uv * vw + uv * vw * ((v1*v1+v2*v2+v3*v3) - 1)) in H by (unfold uw, uv, vw; ring).
  replace ((u1 - uv * v1) * (u1 - uv * v1) + (u2 - uv * v2) * (u2 - uv * v2) + (u3 - uv * v3) * (u3 - uv * v3))
    with ((u1*u1+u2*u2+u3*u3) - uv * uv + uv * uv * ((v1*v1+v2*v2+v3*v3) - 1)) in H by (unfold uv; ring).
  replace ((w1 - vw * v1) * (w1 - vw * v1) + (w2 - vw * v2) * (w2 - vw * v2) + (w3 - vw * v3) * (w3 - vw * v3))
    with ((w1*w1+w2*w2+w3*w3) - vw * vw + vw * vw * ((v1*v1+v2*v2+v3*v3) - 1)) in H by (unfold vw; ring).
  rewrite Hu, Hv, Hw in H. 
  replace (uw - uv * vw + uv * vw * (1 - 1)) with (uw - uv * vw) in H by ring.
  replace (1 - uv * uv + uv * uv * (1 - 1)) with (1 - uv * uv) in H by ring.
  replace (1 - vw * vw + vw * vw * (1 - 1)) with (1 - vw * vw) in H by ring.
  exact H.
Qed.

Lemma acos_range : forall x, 0 <= acos x <= PI.
Proof. intros; pose proof (acos_bound x); lra. Qed.

Lemma acos_triangle : forall uv vw uw, -1 <= uv <= 1 -> -1 <= vw <= 1 -> -1 <= uw <= 1 ->
  (uw - uv * vw) * (uw - uv * vw) <= (1 - uv * uv) * (1 - vw * vw) ->
  acos uw <= acos uv + acos vw.
Proof.
  intros uv vw uw H1 H2 H3 H.
  pose proof (acos_range uv) as A1. pose proof (acos_range vw) as A2. pose proof (acos_range uw) as A3.
  destruct (Rle_dec PI (acos uv + acos vw)) as [Hp|Hp]; [lra|].
  set (s := acos uv + acos vw) in *.
  assert (Hcos : cos s <= uw).
  { unfold s. rewrite cos_plus, !cos_acos, !sin_acos by auto.
    rewrite <- sqrt_mult_alt by (unfold Rsqr; nra).
    assert (Hr : Rabs (uw - uv * vw) <= sqrt ((1 - uv²) * (1 - vw²))).
    { rewrite <- sqrt_Rsqr_abs. apply sqrt_le_1_alt. unfold Rsqr. exact H. }
    pose proof (Rle_abs (- (uw - uv * vw))) as Ha. rewrite Rabs_Ropp in Ha. lra. }
  destruct (Rle_dec (acos uw) s) as [|Hn]; auto. exfalso.
  assert (cos (acos uw) < cos s) by (apply cos_decreasing_1; unfold s in *; lra).
  rewrite cos_acos in H0 by auto. lra.
Qed.

(** haversine *)
Lemma hav : forall f1 l1 f2 l2,
  sin ((f2 - f1) / 2) ^ 2 + cos f1 * cos f2 * sin ((l2 - l1) / 2) ^ 2 = (1 - dotp f1 l1 f2 l2) / 2.
Proof.
  intros.
  assert (E : forall x, sin (x / 2) ^ 2 = (1 - cos x) / 2).
  { intros. replace x with (2 * (x / 2)) at 2 by field. rewrite cos_2a_sin. simpl. field. }
  rewrite !E. unfold dotp. rewrite (cos_minus f2 f1). field.
Qed.

(** twice the arcsine of the root of (1-c)/2 is the arccosine of c *)
Lemma two_asin : forall c, -1 <= c <= 1 -> 2 * asin (sqrt ((1 - c) / 2)) = acos c.
Proof.
  intros c Hc. pose proof PI_RGT_0.
  set (s := sqrt ((1 - c) / 2)).
  assert (Hs0 : 0 <= s) by apply sqrt_pos.
  assert (Hss : s * s = (1 - c) / 2) by (apply sqrt_sqrt; lra).
  assert (Hs1 : s <= 1) by nra.
  assert (Ha : 0 <= asin s <= PI / 2).
  { pose proof (asin_bound s). split; [|lra].
    destruct (Rle_dec 0 (asin s)); auto. exfalso.
    assert (sin (asin s) < 0) by (apply sin_lt_0_var; lra).
    rewrite sin_asin in H1 by lra. lra. }
  rewrite <- (acos_cos (2 * asin s)) by lra. f_equal.
  rewrite cos_2a_sin, sin_asin by lra. lra.
Qed.

(** ** distance *)
Definition rad (x : R) : R := x * (PI / 180.0).
Definition deg (x : R) : R := x * (180.0 / PI).

Lemma rad_deg : forall x, rad (deg x) = x.
Proof. intros; unfold rad, deg. pose proof PI_RGT_0. qr. field. lra. Qed.
Lemma deg_rad : forall x, deg (rad x) = x.
Proof. intros; unfold rad, deg. pose proof PI_RGT_0. qr. field. lra. Qed.
Lemma rad_360 : forall x, rad (x + 360) = rad x + 2 * PI.
Proof. intros; unfold rad. qr. field. Qed.
Lemma rad_le : forall x y, x <= y -> rad x <= rad y.
Proof. intros; unfold rad. pose proof PI_RGT_0. apply Rmult_le_compat_r; lra. Qed.
Lemma rad_lt : forall x y, x < y -> rad x < rad y.
Proof. intros; unfold rad. pose proof PI_RGT_0. apply Rmult_lt_compat_r; lra. Qed.
Lemma deg_le : forall x y, x <= y -> deg x <= deg y.
Proof. intros; unfold deg. pose proof PI_RGT_0. apply Rmult_le_compat_r; auto. left; apply Rdiv_lt_0_compat; lra. Qed.
Lemma deg_lt : forall x y, x < y -> deg x < deg y.
Proof. intros; unfold deg. pose proof PI_RGT_0. apply Rmult_lt_compat_r; auto. apply Rdiv_lt_0_compat; lra. Qed.

Definition ang (lat1 lon1 lat2 lon2 : R) : R := acos (dotp (rad lat1) (rad lon1) (rad lat2) (rad lon2)).

Lemma distance_NP : forall lat1 lon1 lat2 lon2 h,
  distance NP (Fin lat1) (Fin lon1) (Fin lat2) (Fin lon2) (Fin h)
  = Fin (ang lat1 lon1 lat2 lon2 * (6371000 + h)).
Proof.
  intros. unfold distance. cbn -[ediv esqrt eunit pow].
  rewrite (ediv_fin PI) by lra. cbn -[ediv esqrt eunit pow].
  fold (rad lat1). fold (rad lat2). fold (rad lon1). fold (rad lon2).
  rewrite !ediv_fin by lra. cbn -[ediv esqrt eunit pow].
  rewrite hav. set (c := dotp _ _ _ _). pose proof (dotp_range (rad lat1) (rad lon1) (rad lat2) (rad lon2)) as Hc.
  fold c in Hc. rewrite esqrt_fin by lra.
  assert (Hs : 0 <= sqrt ((1 - c) / 2)) by apply sqrt_pos.
  assert (Hss : sqrt ((1 - c) / 2) * sqrt ((1 - c) / 2) = (1 - c) / 2) by (apply sqrt_sqrt; lra).
  rewrite eunit_fin by nra. cbn -[pow]. f_equal.
  rewrite two_asin by auto. unfold ang, c, geo_r_earth. f_equal. lra.
Qed.

(** ** bearing *)
Definition bx (f1 l1 f2 l2 : R) : R := sin (l2 - l1) * cos f2.
Definition by_ (f1 l1 f2 l2 : R) : R := cos f1 * sin f2 - sin f1 * cos f2 * cos (l2 - l1).

Lemma bearing_NP : forall lat1 lon1 lat2 lon2,
  bearing NP (Fin lat1) (Fin lon1) (Fin lat2) (Fin lon2) =
  Fin (Rfmod (deg (Ratan2 (bx (rad lat1) (rad lon1) (rad lat2) (rad lon2))
                          (by_ (rad lat1) (rad lon1) (rad lat2) (rad lon2))) + 360) 360).
Proof.
  intros. unfold bearing. cbn -[ediv efmod]. pose proof PI_RGT_0.
  rewrite (ediv_fin PI) by lra. rewrite (ediv_fin 180.0) by lra.
  cbn -[ediv efmod]. rewrite efmod_fin by lra. reflexivity.
Qed.

(** ** latlon *)
Definition ll_s (f1 t dl : R) : R := sin f1 * cos dl + cos f1 * sin dl * cos t.
Definition ll_x (f1 t dl : R) : R := sin t * sin dl * cos f1.
Definition ll_y (f1 t dl : R) : R := cos dl - sin f1 * ll_s f1 t dl.

Lemma ll_s_range : forall f1 t dl, -1 <= ll_s f1 t dl <= 1.
Proof.
  intros. unfold ll_s.
  pose proof (unit_xyz dl t) as H2. pose proof (sin2_cos2 f1) as H1. unfold Rsqr in H1.
  pose proof (sin2_cos2 dl) as H3. pose proof (sin2_cos2 t) as H4. unfold Rsqr in *.
  assert (E : forall s, s * s <= 1 -> -1 <= s <= 1) by (intros; split; nra).
  apply E.
  pose proof (cauchy3 (sin f1) (cos f1) 0 (cos dl) (sin dl * cos t) 0) as Hc.
  assert (sin dl * cos t * (sin dl * cos t) <= sin dl * sin dl).
  { assert (cos t * cos t <= 1) by nra. assert (0 <= sin dl * sin dl) by nra. nra. }
  nra.
Qed.

Definition ll_f2 (f1 t dl : R) : R := asin (ll_s f1 t dl).

Lemma ll_sin_f2 : forall f1 t dl, sin (ll_f2 f1 t dl) = ll_s f1 t dl.
Proof. intros; apply sin_asin, ll_s_range. Qed.

Lemma ll_cos_f2 : forall f1 t dl, 0 <= cos (ll_f2 f1 t dl).
Proof.
  intros. unfold ll_f2. pose proof (asin_bound (ll_s f1 t dl)). apply cos_ge_0; lra.
Qed.

Lemma ll_cos2_f2 : forall f1 t dl,
  cos (ll_f2 f1 t dl) * cos (ll_f2 f1 t dl) = 1 - ll_s f1 t dl * ll_s f1 t dl.
Proof.
  intros. pose proof (sin2_cos2 (ll_f2 f1 t dl)) as H. unfold Rsqr in H. rewrite ll_sin_f2 in H. lra.
Qed.

Lemma latlon_NP : forall lat1 lon1 d brg h, 6371000 + h <> 0 ->
  let f1 := rad lat1 in let t := rad brg in let dl := d / (6371000 + h) in
  latlon NP (Fin lat1) (Fin lon1) (Fin d) (Fin brg) (Fin h) =
  (Fin (deg (ll_f2 f1 t dl)), Fin (deg (rad lon1 + Ratan2 (ll_x f1 t dl) (ll_y f1 t dl)))).
Proof.
  intros lat1 lon1 d brg h Hh f1 t dl. unfold latlon. cbn -[ediv eunit]. pose proof PI_RGT_0.
  rewrite (ediv_fin PI) by lra. rewrite (ediv_fin 180.0) by lra.
  rewrite (ediv_fin d) by (unfold geo_r_earth; lra).
  cbn -[ediv eunit]. fold (rad lat1) (rad lon1) (rad brg). fold f1 t.
  replace (d / (geo_r_earth + h)) with dl by (unfold dl, geo_r_earth; f_equal; lra).
  fold (ll_s f1 t dl). rewrite eunit_fin by apply ll_s_range. cbn -[ediv eunit].
  fold (ll_f2 f1 t dl). rewrite ll_sin_f2. reflexivity.
Qed.

(** X^2 + Y^2 = cos^2 f1 cos^2 f2 *)
Lemma ll_norm : forall f1 t dl,
  ll_y f1 t dl * ll_y f1 t dl + ll_x f1 t dl * ll_x f1 t dl =
  (cos f1 * cos (ll_f2 f1 t dl)) * (cos f1 * cos (ll_f2 f1 t dl)).
Proof.
  intros.
  replace ((cos f1 * cos (ll_f2 f1 t dl)) * (cos f1 * cos (ll_f2 f1 t dl)))
    with (cos f1 * cos f1 * (cos (ll_f2 f1 t dl) * cos (ll_f2 f1 t dl))) by ring.
  rewrite ll_cos2_f2. unfold ll_y, ll_x, ll_s.
  pose proof (sin2_cos2 f1) as H1. pose proof (sin2_cos2 dl) as H2. pose proof (sin2_cos2 t) as H3.
  unfold Rsqr in *.
  assert (E1 : sin f1 * sin f1 = 1 - cos f1 * cos f1) by lra.
  assert (E2 : sin dl * sin dl = 1 - cos dl * cos dl) by lra.
  assert (E3 : sin t * sin t = 1 - cos t * cos t) by lra.
  set (sf := sin f1) in *. set (cf := cos f1) in *. set (sd := sin dl) in *. set (cd := cos dl) in *.
  set (st := sin t) in *. set (ct := cos t) in *.
  (* both sides as polynomials, eliminate sf^2, sd^2, st^2 *)
  replace ((cd - sf * (sf * cd + cf * sd * ct)) * (cd - sf * (sf * cd + cf * sd * ct)) + st * sd * cf * (st * sd * cf))
    with (cd * cd * (1 - sf * sf) * (1 - sf * sf) - 2 * cd * (1 - sf * sf) * sf * cf * sd * ct
          + sf * sf * cf * cf * (sd * sd) * ct * ct + (st * st) * (sd * sd) * cf * cf) by ring.
  replace (cf * cf * (1 - (sf * cd + cf * sd * ct) * (sf * cd + cf * sd * ct)))
    with (cf * cf * (1 - sf * sf * cd * cd - 2 * sf * cd * cf * sd * ct - cf * cf * (sd * sd) * ct * ct)) by ring.
  rewrite E1, E2, E3. ring.
Qed.

Lemma ll_hyp : forall f1 t dl, 0 <= cos f1 ->
  hyp (ll_x f1 t dl) (ll_y f1 t dl) = cos f1 * cos (ll_f2 f1 t dl).
Proof.
  intros f1 t dl Hf. unfold hyp. rewrite ll_norm. fold (Rsqr (cos f1 * cos (ll_f2 f1 t dl))).
  apply sqrt_Rsqr. apply Rmult_le_pos; auto. apply ll_cos_f2.
Qed.

Lemma ll_dot : forall f1 l1 t dl, 0 <= cos f1 ->
  dotp f1 l1 (ll_f2 f1 t dl) (l1 + Ratan2 (ll_x f1 t dl) (ll_y f1 t dl)) = cos dl.
Proof.
  intros f1 l1 t dl Hf. unfold dotp.
  replace (l1 + Ratan2 (ll_x f1 t dl) (ll_y f1 t dl) - l1) with (Ratan2 (ll_x f1 t dl) (ll_y f1 t dl)) by ring.
  destruct (Ratan2_polar (ll_x f1 t dl) (ll_y f1 t dl)) as [Hc _].
  rewrite ll_hyp in Hc by auto. rewrite Hc, ll_sin_f2. unfold ll_y. ring.
Qed.

Lemma ll_bearing : forall f1 l1 t dl, 0 < cos f1 ->
  let f2 := ll_f2 f1 t dl in let l2 := l1 + Ratan2 (ll_x f1 t dl) (ll_y f1 t dl) in
  bx f1 l1 f2 l2 = sin dl * sin t /\ by_ f1 l1 f2 l2 = sin dl * cos t.
Proof.
  intros f1 l1 t dl Hf f2 l2. unfold bx, by_.
  replace (l2 - l1) with (Ratan2 (ll_x f1 t dl) (ll_y f1 t dl)) by (unfold l2; ring).
  destruct (Ratan2_polar (ll_x f1 t dl) (ll_y f1 t dl)) as [Hc Hs].
  rewrite ll_hyp in Hc, Hs by lra. fold f2 in Hc, Hs.
  set (A := Ratan2 _ _) in *. split.
  - apply Rmult_eq_reg_l with (cos f1); [|lra].
    replace (cos f1 * (sin A * cos f2)) with (cos f1 * cos f2 * sin A) by ring.
    rewrite Hs. unfold ll_x. ring.
  - apply Rmult_eq_reg_l with (cos f1); [|lra].
    replace (cos f1 * (cos f1 * sin f2 - sin f1 * cos f2 * cos A))
      with (cos f1 * cos f1 * sin f2 - sin f1 * (cos f1 * cos f2 * cos A)) by ring.
    rewrite Hc. unfold f2. rewrite ll_sin_f2. unfold ll_y.
    pose proof (sin2_cos2 f1) as H1. unfold Rsqr in H1.
    replace (cos f1 * cos f1 * ll_s f1 t dl - sin f1 * (cos dl - sin f1 * ll_s f1 t dl))
      with ((sin f1 * sin f1 + cos f1 * cos f1) * ll_s f1 t dl - sin f1 * cos dl) by ring.
    rewrite H1. unfold ll_s. ring.
Qed.
