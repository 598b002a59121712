(** Lemmas about integer arguments: values without integer arrays behave as in [NP]; an integer that meets a fractional
    constant becomes a float. *)
From Coq Require Import Reals ZArith Bool List Lra Lia.
From Verif Require Import Num NumFacts Aero Geo Thrust Drag Fuel Emission Hom IntArg.
Import ListNotations.
Open Scope R_scope.

(** ** Python numbers and floats *)
Definition soft (x : inum) (y : ext) : Prop :=
  match x with Fl v => v = y | KI z => Fin (IZR z) = y | _ => False end.
Lemma soft_val x y : soft x y -> val x = y.
Proof. destruct x; cbn; tauto. Qed.
Lemma soft_cst r : soft (icst r) (Fin r).
Proof. unfold icst. destruct (Req_EM_T r (IZR (Int_part r))) as [E | E]; cbn; [rewrite <- E; reflexivity | reflexivity]. Qed.
Lemma soft_int2 g fl x x' y y' : soft x x' -> soft y y' -> soft (int2 g fl x y) (fl x' y').
Proof. destruct x, y; cbn; try tauto; intros <- <-; reflexivity. Qed.
Lemma soft_fl2 fl x x' y y' : soft x x' -> soft y y' -> soft (fl2 fl x y) (fl x' y').
Proof. destruct x, y; cbn; try tauto; intros <- <-; reflexivity. Qed.
Lemma soft_fun2 fl x x' y y' : soft x x' -> soft y y' -> soft (fun2 fl x y) (fl x' y').
Proof. destruct x, y; cbn; try tauto; intros <- <-; reflexivity. Qed.
Lemma soft_fun1 fl x x' : soft x x' -> soft (fun1 fl x) (fl x').
Proof. destruct x; cbn; try tauto; intros <-; reflexivity. Qed.
Lemma soft_int1 g fl x x' : soft x x' -> soft (int1 g fl x) (fl x').
Proof. destruct x; cbn; try tauto; intros <-; reflexivity. Qed.
Lemma soft_iclip x x' l l' h h' : soft x x' -> soft l l' -> soft h h' -> soft (iclip x l h) (eclip x' l' h').
Proof. destruct x, l, h; cbn [soft iclip]; try tauto; intros <- <- <-; reflexivity. Qed.
Definition soft_hom : hom IB NP.
Proof.
  refine (mkHom IB NP soft (fun c d => c = d) _ _ _ _ _ _ _ _ _ _ _ _ _ _ _ _ _ _ _ _ _ _ _ _ _);
  cbn [IB NP T C cst add sub mul div neg powi power bsqrt bexp blog bsin bcos barcsin barccos btanh barctan2 babs maximum minimum
       clip fmod gt where_ bpi];
  intros; try (first [apply soft_cst | apply soft_int2 | apply soft_fl2 | apply soft_fun2 | apply soft_fun1 | apply soft_int1]; assumption).
  - reflexivity.
  - apply (soft_int1 _ (fun v => epowi v n)). assumption.
  - apply soft_iclip; [assumption | apply soft_cst | apply soft_cst].
  - unfold igt. rewrite (soft_val _ _ H), (soft_val _ _ H0). reflexivity.
  - subst c'. destruct x, y; cbn in *; try tauto; subst; reflexivity.
Defined.
Lemma hom_soft : hR IB NP soft_hom = soft.
Proof. reflexivity. Qed.
Lemma soft_interp tbl x x' : soft x x' -> soft (interp IB x tbl) (interp NP x' tbl).
Proof. destruct x; cbn; try tauto; intros <-; reflexivity. Qed.

(** ** Constants *)
Lemma cst_frac n r : IZR n < r < IZR n + 1 -> icst r = Fl (Fin r).
Proof.
  intros H. unfold icst. destruct (Req_EM_T r (IZR (Int_part r))) as [E | E]; [exfalso | reflexivity].
  rewrite E in H. destruct H as [H1 H2]. apply lt_IZR in H1. rewrite <- plus_IZR in H2. apply lt_IZR in H2. lia.
Qed.
Lemma cst_int n : icst (IZR n) = KI n.
Proof.
  assert (E : Int_part (IZR n) = n) by (unfold Int_part; rewrite <- (tech_up (IZR n) (n + 1)); [lia | rewrite plus_IZR; lra | rewrite plus_IZR; lra]).
  unfold icst. rewrite E. destruct (Req_EM_T (IZR n) (IZR n)); [reflexivity | contradiction].
Qed.

(** ** Arguments *)
Definition good (x : inum) : Prop := match x with A t z => in_type t z = true | Bad => False | _ => True end.
Lemma good_float x : good (as_float x). Proof. exact I. Qed.
Lemma as_float_soft x : soft (as_float x) (val x). Proof. reflexivity. Qed.

(** an argument times a float *)
Lemma mul_l x r : good x -> (exists n, IZR n < r < IZR n + 1) -> mul IB x (cst IB r) = mul IB (as_float x) (cst IB r).
Proof. intros G [n H]. cbn [IB cst mul]. rewrite (cst_frac n r H). destruct x; cbn in *; try reflexivity. tauto. Qed.
Lemma mul_r x r : good x -> (exists n, IZR n < r < IZR n + 1) -> mul IB (cst IB r) x = mul IB (cst IB r) (as_float x).
Proof. intros G [n H]. cbn [IB cst mul]. rewrite (cst_frac n r H). destruct x; cbn in *; try reflexivity. tauto. Qed.
Lemma mul_fl x v : good x -> mul IB x (Fl v) = mul IB (as_float x) (Fl v).
Proof. intros G. destruct x; cbn in *; try reflexivity. tauto. Qed.
Lemma mul_fr x v : good x -> mul IB (Fl v) x = mul IB (Fl v) (as_float x).
Proof. intros G. destruct x; cbn in *; try reflexivity. tauto. Qed.
Lemma div_l x y : good x -> div IB x y = div IB (as_float x) y.
Proof. intros G. destruct x, y; cbn in *; try reflexivity; tauto. Qed.
Lemma gt_l x y : gt IB x y = gt IB (as_float x) y.
Proof. reflexivity. Qed.

(** ** Types *)
Lemma in_type_spec t z : in_type t z = true <-> (ilo t <= z <= ihi t)%Z.
Proof. unfold in_type. rewrite andb_true_iff, !Z.leb_le. reflexivity. Qed.
Lemma type_size t : (ihi t = ilo t + 2 ^ bits (i_width t) - 1)%Z.
Proof. destruct t as [[|] []]; reflexivity. Qed.
Lemma wrap_id t z : in_type t z = true -> wrap t z = z.
Proof. rewrite in_type_spec, type_size. intros H. unfold wrap. rewrite Z.mod_small by lia. lia. Qed.
Lemma wrap_in t z : in_type t (wrap t z) = true.
Proof.
  rewrite in_type_spec, type_size. unfold wrap.
  assert (P : (0 < 2 ^ bits (i_width t))%Z) by (destruct t as [? []]; reflexivity).
  pose proof (Z.mod_pos_bound (z - ilo t) _ P). lia.
Qed.
Lemma wrap_mod t z : exists k, (wrap t z = z - k * 2 ^ bits (i_width t))%Z.
Proof.
  assert (P : (0 < 2 ^ bits (i_width t))%Z) by (destruct t as [? []]; reflexivity).
  exists ((z - ilo t) / 2 ^ bits (i_width t))%Z. unfold wrap. rewrite Z.mod_eq by lia. lia.
Qed.
(** a number above the type loses at least one full turn *)
Lemma wrap_above t z : (ilo t <= z)%Z -> (wrap t z <= z)%Z.
Proof.
  intros H. destruct (in_type t z) eqn:E; [rewrite wrap_id by exact E; lia |].
  pose proof (wrap_in t z) as W. rewrite in_type_spec in W. assert (~ (ilo t <= z <= ihi t))%Z by (rewrite <- in_type_spec, E; discriminate). lia.
Qed.

(** ** The temperature shift *)
Lemma IZR_clip z l h : IZR (Z.min (Z.max z l) h) = Rmin (Rmax (IZR z) (IZR l)) (IZR h).
Proof.
  assert (M : forall a b, IZR (Z.max a b) = Rmax (IZR a) (IZR b)).
  { intros a b. destruct (Z.max_spec a b) as [[H ->] | [H ->]]; [rewrite Rmax_right; [reflexivity | apply IZR_le; lia] |
      rewrite Rmax_left; [reflexivity | apply IZR_le; lia]]. }
  rewrite <- M. destruct (Z.min_spec (Z.max z l) h) as [[H ->] | [H ->]]; [rewrite Rmin_left; [reflexivity | apply IZR_le; lia] |
      rewrite Rmin_right; [reflexivity | apply IZR_le; lia]].
Qed.
Lemma clip_in t z : in_type t z = true -> in_type t (Z.min (Z.max z (-25)) 15) = true.
Proof. rewrite !in_type_spec. destruct t as [[|] []]; unfold ilo, ihi; cbn; lia. Qed.
Lemma shift_add x r : good x -> (exists n, IZR n < r < IZR n + 1) ->
  add IB (cst IB r) (clip IB x (cst IB (-25)) (cst IB 15)) = add IB (cst IB r) (clip IB (as_float x) (cst IB (-25)) (cst IB 15)).
Proof.
  intros G [n H]. cbn [IB cst add clip]. rewrite (cst_frac n r H).
  replace (icst (-25)) with (KI (-25)) by (symmetry; apply (cst_int (-25))). replace (icst 15) with (KI 15) by (symmetry; apply (cst_int 15)).
  destruct x as [t z | z | v |]; cbn in G; try (exfalso; exact G); try reflexivity.
  unfold iclip, as_float. cbv zeta. rewrite (clip_in t z G). cbn [int2 val eclip emin emax eadd]. rewrite IZR_clip. reflexivity.
Qed.
Lemma atmos_shift h x : good x -> atmos IB h x = atmos IB h (as_float x).
Proof.
  intros G. unfold atmos. cbv zeta. rewrite (shift_add x T0 G), (shift_add x 216.65 G); [reflexivity | exists 216%Z; lra | exists 288%Z; unfold T0; lra].
Qed.
Lemma temperature_shift h x : good x -> temperature IB h x = temperature IB h (as_float x).
Proof. intros G. unfold temperature. rewrite atmos_shift by exact G. reflexivity. Qed.
Lemma pressure_shift h x : good x -> pressure IB h x = pressure IB h (as_float x).
Proof. intros G. unfold pressure. rewrite atmos_shift by exact G. reflexivity. Qed.
Lemma density_shift h x : good x -> density IB h x = density IB h (as_float x).
Proof. intros G. unfold density. rewrite atmos_shift by exact G. reflexivity. Qed.
Lemma tas2mach_shift v h x : good x -> tas2mach IB v h x = tas2mach IB v h (as_float x).
Proof. intros G. unfold tas2mach, vsound. rewrite temperature_shift by exact G. reflexivity. Qed.
Lemma mach2tas_shift v h x : good x -> mach2tas IB v h x = mach2tas IB v h (as_float x).
Proof. intros G. unfold mach2tas, vsound. rewrite temperature_shift by exact G. reflexivity. Qed.
Lemma tas2cas_shift v h x : good x -> tas2cas IB v h x = tas2cas IB v h (as_float x).
Proof. intros G. unfold tas2cas. rewrite atmos_shift by exact G. reflexivity. Qed.
Lemma mach2cas_shift v h x : good x -> mach2cas IB v h x = mach2cas IB v h (as_float x).
Proof. intros G. unfold mach2cas. rewrite mach2tas_shift, tas2cas_shift by exact G. reflexivity. Qed.

(** ** Units *)
Lemma mul_kts x : good x -> mul IB x (cst IB kts) = mul IB (as_float x) (cst IB kts).
Proof. intros G. apply mul_l; [exact G | exists 0%Z; unfold kts; lra]. Qed.
Lemma mul_ft x : good x -> mul IB x (cst IB ft) = mul IB (as_float x) (cst IB ft).
Proof. intros G. apply mul_l; [exact G | exists 0%Z; unfold ft; lra]. Qed.
Lemma mul_fpm x : good x -> mul IB x (cst IB fpm) = mul IB (as_float x) (cst IB fpm).
Proof. intros G. apply mul_l; [exact G | exists 0%Z; unfold fpm; lra]. Qed.
Lemma mul_g0 x : good x -> mul IB x (cst IB g0) = mul IB (as_float x) (cst IB g0).
Proof. intros G. apply mul_l; [exact G | exists 9%Z; unfold g0; lra]. Qed.

(** the last operation makes a float *)
Lemma mul_float u v y : soft (mul IB u v) y -> mul IB u v = Fl y.
Proof. cbn [IB mul]. destruct u, v; cbn; try tauto; try (destruct (promote _ _)); try (destruct (in_type _ _)); cbn; try tauto; intros <-; reflexivity. Qed.

(** ** Drag *)
Lemma cl_qS_int a m v h s d : good m -> good v -> good h -> good s -> good d ->
  cl_qS IB a m v h s d = cl_qS IB a (as_float m) (as_float v) (as_float h) (as_float s) (as_float d).
Proof.
  intros Gm Gv Gh Gs Gd. unfold cl_qS. cbv zeta.
  rewrite (mul_kts v Gv), (mul_ft h Gh), (mul_fpm s Gs), (mul_g0 m Gm), (density_shift _ d Gd). reflexivity.
Qed.
Lemma calc_drag_int a m v h c k s d : good m -> good v -> good h -> good s -> good d ->
  calc_drag IB a m v h c k s d = calc_drag IB a (as_float m) (as_float v) (as_float h) c k (as_float s) (as_float d).
Proof. intros. unfold calc_drag. rewrite cl_qS_int by assumption. reflexivity. Qed.
Lemma as_float2 x : as_float (as_float x) = as_float x. Proof. reflexivity. Qed.
Lemma good_cst r : good (cst IB r).
Proof. cbn [IB cst]. pose proof (soft_cst r) as S. destruct (icst r); cbn in *; tauto. Qed.
Lemma wave_int a m v h d : good m -> good v -> good h -> good d ->
  wave_cd IB a m v h d = wave_cd IB a (as_float m) (as_float v) (as_float h) (as_float d).
Proof.
  intros Gm Gv Gh Gd. unfold wave_cd, mach_crit. rewrite (mul_kts v Gv), (mul_ft h Gh), (tas2mach_shift _ _ d Gd).
  rewrite (cl_qS_int a m v h _ d) by (try assumption; apply good_cst).
  rewrite (cl_qS_int a (as_float m) (as_float v) (as_float h) (cst IB 0) (as_float d)) by (try exact I; apply good_cst). reflexivity.
Qed.
Lemma clean_int a w m v h s d : good m -> good v -> good h -> good s -> good d ->
  clean IB a w m v h s d = clean IB a w (as_float m) (as_float v) (as_float h) (as_float s) (as_float d).
Proof. intros. unfold clean. cbv zeta. rewrite calc_drag_int by assumption. destruct w; [rewrite wave_int by assumption |]; reflexivity. Qed.
Lemma nonclean_int a m v h f s d g : good m -> good v -> good h -> good f -> good s -> good d ->
  nonclean IB a m v h f s d g = nonclean IB a (as_float m) (as_float v) (as_float h) (as_float f) (as_float s) (as_float d) g.
Proof.
  intros Gm Gv Gh Gf Gs Gd. unfold nonclean. cbv zeta. rewrite calc_drag_int by assumption.
  change (bpi IB) with (Fl (Fin PI)). rewrite (mul_fl f _ Gf).
  assert (E : forall r, (exists n, IZR n < r < IZR n + 1) -> mul IB (cst IB r) f = mul IB (cst IB r) (as_float f)) by (intros; apply mul_r; assumption).
  destruct (rear_mounted a); rewrite E by (exists 0%Z; lra); reflexivity.
Qed.

(** ** Thrust *)
Lemma takeoff_int e v h d : good v -> good h -> good d ->
  takeoff_thrust IB e v h d = takeoff_thrust IB e (as_float v) (as_float h) (as_float d).
Proof.
  intros Gv Gh Gd. unfold takeoff_thrust. cbv zeta. rewrite (mul_kts v Gv), (mul_ft h Gh), (tas2mach_shift _ _ d Gd), (pressure_shift _ d Gd). reflexivity.
Qed.
Lemma floor_int v : good v -> mul IB (maximum IB (cst IB 10) v) (cst IB kts) = mul IB (maximum IB (cst IB 10) (as_float v)) (cst IB kts).
Proof.
  intros G. cbn [IB cst mul maximum]. rewrite (cst_frac 0 kts) by (unfold kts; lra). replace (icst 10) with (KI 10) by (symmetry; apply (cst_int 10)).
  destruct v as [t z | z | x |]; cbn in G; try (exfalso; exact G); try reflexivity.
  assert (T10 : in_type t 10 = true) by (destruct t as [[|] []]; reflexivity). cbn [int2 as_float val emax]. rewrite T10.
  rewrite wrap_id.
  - cbn [int2 val emul]. do 3 f_equal. destruct (Z.max_spec 10 z) as [[H ->] | [H ->]];
      [rewrite Rmax_right; [reflexivity | apply IZR_le; lia] | rewrite Rmax_left; [reflexivity | apply IZR_le; lia]].
  - destruct (Z.max_spec 10 z) as [[H ->] | [H ->]]; assumption.
Qed.

(** climb thrust from its parts, with the square of the rate of climb as a separate argument *)
Definition climb_core (b : backend) (e : thrust_par) (mach vcas P P10 Pcr vcas_ref r1 r2 r3 : T b) (c30 c10 : C b) : T b :=
  let Fcr := mul b (cst b (eng_cruise_thrust e)) (cst b (eng_number e)) in
  let d := dfunc b (div b mach (cst b (cruise_mach e))) in
  let bcoef := power b (div b mach (cst b (cruise_mach e))) (cst b (-0.11)) in
  let ratio_seg3 := add b (mul b d (blog b (div b P Pcr))) bcoef in
  let a := power b (div b vcas vcas_ref) (cst b (-0.1)) in
  let n := add b r1 (cst b 0.8633) in
  let ex := add b (mul b (cst b (-0.355)) (div b vcas vcas_ref)) n in
  let ratio_seg2 := mul b a (power b (div b P Pcr) ex) in
  let F10 := mul b (mul b Fcr a) (power b (div b P10 Pcr) ex) in
  let m := add b (add b (sub b (mul b (cst b (-1.2043e-1)) (div b vcas vcas_ref)) r2) r3) (cst b 4.7379e-1) in
  let ratio_seg1 := add b (mul b m (div b P Pcr)) (sub b (div b F10 Fcr) (mul b m (div b P10 Pcr))) in
  let ratio := where_ b c30 ratio_seg3 (where_ b c10 ratio_seg2 ratio_seg1) in
  mul b ratio Fcr.
Definition climb_with (b : backend) (e : thrust_par) (tas alt roc1 roc2 dT : T b) : T b :=
  climb_core b e
    (tas2mach b (mul b (maximum b (cst b 10) tas) (cst b kts)) (mul b alt (cst b ft)) dT)
    (tas2cas b (mul b (maximum b (cst b 10) tas) (cst b kts)) (mul b alt (cst b ft)) dT)
    (pressure b (mul b alt (cst b ft)) dT)
    (pressure b (mul b (cst b 10000) (cst b ft)) dT)
    (pressure b (mul b (cst b (cruise_alt e)) (cst b ft)) dT)
    (mach2cas b (cst b (cruise_mach e)) (mul b (cst b (cruise_alt e)) (cst b ft)) dT)
    (mul b (cst b 2.667e-05) roc1) (mul b (cst b 8.8889e-9) roc2) (mul b (cst b 2.4444e-5) roc1)
    (gt b alt (cst b 30000)) (gt b alt (cst b 10000)).
Lemma climb_is_with b e tas alt roc dT :
  climb_thrust b e tas alt roc dT = climb_with b e tas alt (babs b roc) (powi b (babs b roc) 2) dT.
Proof. reflexivity. Qed.
Lemma climb_with_hom b1 b2 (H : hom b1 b2) e v v' h h' r r' q q' d d' :
  hR b1 b2 H v v' -> hR b1 b2 H h h' -> hR b1 b2 H r r' -> hR b1 b2 H q q' -> hR b1 b2 H d d' ->
  hR b1 b2 H (climb_with b1 e v h r q d) (climb_with b2 e v' h' r' q' d').
Proof.
  intros. unfold climb_with, climb_core, dfunc.
  hom; first [simple apply tas2mach_hom | simple apply tas2cas_hom | simple apply mach2cas_hom | simple apply pressure_hom]; hom.
Qed.
Lemma climb_with_int e v h r q d : good v -> good h -> good r -> good q -> good d ->
  climb_with IB e v h r q d = climb_with IB e (as_float v) (as_float h) (as_float r) (as_float q) (as_float d).
Proof.
  intros Gv Gh Gr Gq Gd. unfold climb_with.
  pose proof (floor_int v Gv) as E1. pose proof (mul_ft h Gh) as E2.
  pose proof (mul_r r 2.667e-05 Gr ltac:(exists 0%Z; lra)) as E3. pose proof (mul_r q 8.8889e-9 Gq ltac:(exists 0%Z; lra)) as E4.
  pose proof (mul_r r 2.4444e-5 Gr ltac:(exists 0%Z; lra)) as E5.
  set (v1 := mul IB (maximum IB (cst IB 10) v) (cst IB kts)) in *. set (v2 := mul IB (maximum IB (cst IB 10) (as_float v)) (cst IB kts)) in *.
  set (h1 := mul IB h (cst IB ft)) in *. set (h2 := mul IB (as_float h) (cst IB ft)) in *.
  set (a1 := mul IB (cst IB 2.667e-05) r) in *. set (a2 := mul IB (cst IB 2.667e-05) (as_float r)) in *.
  set (b1 := mul IB (cst IB 8.8889e-9) q) in *. set (b2 := mul IB (cst IB 8.8889e-9) (as_float q)) in *.
  set (c1 := mul IB (cst IB 2.4444e-5) r) in *. set (c2 := mul IB (cst IB 2.4444e-5) (as_float r)) in *.
  clearbody v1 v2 h1 h2 a1 a2 b1 b2 c1 c2. subst v1 h1 a1 b1 c1.
  generalize (mul IB (cst IB 10000) (cst IB ft)) (mul IB (cst IB (cruise_alt e)) (cst IB ft)) (cst IB (cruise_mach e)). intros k1 k2 k3.
  rewrite (tas2mach_shift v2 h2 d Gd), (tas2cas_shift v2 h2 d Gd), (mach2cas_shift k3 k2 d Gd), (pressure_shift h2 d Gd), (pressure_shift k1 d Gd), (pressure_shift k2 d Gd).
  reflexivity.
Qed.
