(** Differentiation of the geometry functions in the JAX backend. *)
From Coq Require Import Reals List Bool Lra Lia Psatz.
From Coquelicot Require Import Coquelicot.
From Verif Require Import Num NumFacts Aero AeroFacts Geo GeoFacts Jax SpecJax JaxFacts JaxAero Hom JaxHom JaxDrag.
Import ListNotations.
Open Scope R_scope.

Lemma sm_rad : forall s0 X x, exact s0 X x -> exact s0 (mul LE X (div LE (bpi LE) (cst LE 180.0))) (mul JB x (div JB (bpi JB) (cst JB 180.0))).
Proof. intros. apply sm_mul; auto. apply sm_div; [apply sm_pi|apply sm_cst|apply nz; lra]. Qed.
Lemma rad_val : forall s0 X x, X s0 = Fin x -> mul LE X (div LE (bpi LE) (cst LE 180.0)) s0 = Fin (rad x).
Proof. intros. apply mul_val; auto. apply (div_val s0 (bpi LE) (cst LE 180.0) PI 180.0); auto. lra. Qed.
Lemma sm_k : forall s0, exact s0 (div LE (cst LE 180.0) (bpi LE)) (div JB (cst JB 180.0) (bpi JB)).
Proof. intros. apply sm_div; [apply sm_cst|apply sm_pi|apply nz; pose proof PI_RGT_0; lra]. Qed.
Lemma k_val : forall s0, div LE (cst LE 180.0) (bpi LE) s0 = Fin (180.0 / PI).
Proof. intros. apply div_val; auto. pose proof PI_RGT_0; lra. Qed.

Section DistJ.
Context (s0 : R) (A1 O1 A2 O2 H : R -> ext) (a1 o1 a2 o2 h : jx)
  (Ha1 : exact s0 A1 a1) (Ho1 : exact s0 O1 o1) (Ha2 : exact s0 A2 a2) (Ho2 : exact s0 O2 o2) (Hh : exact s0 H h).
(** the two points are neither the same nor antipodal, or their coordinates are not traced *)
Definition off_poles : Prop :=
  (fixed a1 /\ fixed o1 /\ fixed a2 /\ fixed o2) \/
  isr (fun r => 0 < r < PI * 6371000) (distance NP (A1 s0) (O1 s0) (A2 s0) (O2 s0) (Fin 0)).
Context (Od : off_poles).
Lemma distance_sm : exact s0 (distance LE A1 O1 A2 O2 H) (distance JB a1 o1 a2 o2 h).
Proof.
  finr Ha1 f1 Ef1. finr Ho1 l1 El1. finr Ha2 f2 Ef2. finr Ho2 l2 El2.
  assert (K : isr (fun r => 0 < r < PI * 6371000) (distance NP (A1 s0) (O1 s0) (A2 s0) (O2 s0) (Fin 0)) -> -1 < dotp (rad f1) (rad l1) (rad f2) (rad l2) < 1).
  { rewrite Ef1, El1, Ef2, El2, distance_NP. intros (r & E & B). injection E as <-. unfold ang in B.
    pose proof (dotp_range (rad f1) (rad l1) (rad f2) (rad l2)) as Rg. set (c := dotp _ _ _ _) in *. pose proof PI_RGT_0.
    destruct (Req_dec c 1) as [E1|N1]; [rewrite E1, acos_1 in B; lra|]. destruct (Req_dec c (-1)) as [E2|N2]; [|lra].
    replace (-1) with (- (1)) in E2 by lra. rewrite E2, acos_opp, acos_1 in B. lra. }
  pose proof (sm_rad s0 A1 a1 Ha1) as S1. pose proof (sm_rad s0 O1 o1 Ho1) as S2. pose proof (sm_rad s0 A2 a2 Ha2) as S3. pose proof (sm_rad s0 O2 o2 Ho2) as S4.
  pose proof (rad_val s0 A1 f1 Ef1) as V1. pose proof (rad_val s0 O1 l1 El1) as V2. pose proof (rad_val s0 A2 f2 Ef2) as V3. pose proof (rad_val s0 O2 l2 El2) as V4.
  assert (FX : fixed a1 /\ fixed o1 /\ fixed a2 /\ fixed o2 -> forall x : jx, x = mul JB a1 (div JB (bpi JB) (cst JB 180.0)) \/ x = mul JB o1 (div JB (bpi JB) (cst JB 180.0)) \/
     x = mul JB a2 (div JB (bpi JB) (cst JB 180.0)) \/ x = mul JB o2 (div JB (bpi JB) (cst JB 180.0)) -> fixed x).
  { intros (N1 & N2 & N3 & N4) x [ -> | [ -> | [ -> | -> ] ] ]; fx. }
  unfold distance. cbv zeta.
  set (F1 := mul LE A1 _) in *. set (L1 := mul LE O1 _) in *. set (F2 := mul LE A2 _) in *. set (L2 := mul LE O2 _) in *.
  set (f1' := mul JB a1 _) in *. set (l1' := mul JB o1 _) in *. set (f2' := mul JB a2 _) in *. set (l2' := mul JB o2 _) in *.
  clearbody F1 L1 F2 L2 f1' l1' f2' l2'.
  set (HA := add LE (powi LE (bsin LE (div LE (sub LE F2 F1) (cst LE 2))) 2) (mul LE (mul LE (bcos LE F1) (bcos LE F2)) (powi LE (bsin LE (div LE (sub LE L2 L1) (cst LE 2))) 2))).
  set (ha := add JB (powi JB (bsin JB (div JB (sub JB f2' f1') (cst JB 2))) 2) (mul JB (mul JB (bcos JB f1') (bcos JB f2')) (powi JB (bsin JB (div JB (sub JB l2' l1') (cst JB 2))) 2))).
  assert (SA : exact s0 HA ha).
  { assert (forall X Y x y, exact s0 X x -> exact s0 Y y -> exact s0 (powi LE (bsin LE (div LE (sub LE Y X) (cst LE 2))) 2) (powi JB (bsin JB (div JB (sub JB y x) (cst JB 2))) 2)).
    { intros. apply sm_powi. apply sm_sin. apply sm_div; [apply sm_sub; auto|apply sm_cst|apply nz; lra]. }
    apply sm_add; [auto|]. apply sm_mul; auto. apply sm_mul; apply sm_cos; auto. }
  assert (EA : HA s0 = Fin ((1 - dotp (rad f1) (rad l1) (rad f2) (rad l2)) / 2)).
  { rewrite <- hav. unfold HA.
    assert (forall X Y x y, X s0 = Fin x -> Y s0 = Fin y -> div LE (sub LE Y X) (cst LE 2) s0 = Fin ((y - x) / 2)).
    { intros X Y x y E1 E2. apply div_val; [|reflexivity|lra]. change (esub (Y s0) (X s0) = Fin (y - x)). rewrite E1, E2. reflexivity. }
    match goal with |- add LE (powi LE (bsin LE ?P) 2) (mul LE _ (powi LE (bsin LE ?Q) 2)) s0 = _ =>
      change (eadd (epowi (elift sin (P s0)) 2) (emul (emul (elift cos (F1 s0)) (elift cos (F2 s0))) (epowi (elift sin (Q s0)) 2)) = Fin (sin ((rad f2 - rad f1) / 2) ^ 2 + cos (rad f1) * cos (rad f2) * sin ((rad l2 - rad l1) / 2) ^ 2)) end.
    rewrite (H0 _ _ _ _ V1 V3), (H0 _ _ _ _ V2 V4), V1, V3. reflexivity. }
  pose proof (dotp_range (rad f1) (rad l1) (rad f2) (rad l2)) as Rg. set (c := dotp _ _ _ _) in *. clearbody c.
  assert (FA : fixed a1 /\ fixed o1 /\ fixed a2 /\ fixed o2 -> fixed ha).
  { intros N. pose proof (FX N f1' ltac:(tauto)) as N1. pose proof (FX N f2' ltac:(tauto)) as N2. pose proof (FX N l1' ltac:(tauto)) as N3. pose proof (FX N l2' ltac:(tauto)) as N4. unfold ha. fx. }
  clearbody HA ha.
  assert (Sq : exact s0 (barcsin LE (bsqrt LE HA)) (barcsin JB (bsqrt JB ha))).
  { assert (ES : bsqrt LE HA s0 = Fin (sqrt ((1 - c) / 2))) by (change (esqrt (HA s0) = Fin (sqrt ((1 - c) / 2))); rewrite EA; apply esqrt_fin; lra).
    assert (Hs : 0 <= sqrt ((1 - c) / 2)) by apply sqrt_pos.
    assert (Hss : sqrt ((1 - c) / 2) * sqrt ((1 - c) / 2) = (1 - c) / 2) by (apply sqrt_sqrt; lra).
    destruct Od as [N|N].
    - destruct (sm_sqrt0 s0 HA ha SA) as (u & Hu); [rewrite EA; apply isr_fin; lra|apply FA; auto|].
      eexists. apply jd_arcsin0; [exact Hu|apply jd_F in Hu; rewrite ES in Hu; injection Hu as <-; nra|]. pose proof (FA N) as N'. clear - N'. unfold fixed in N'. cbn. rewrite N'. reflexivity.
    - apply K in N. apply sm_arcsin; [apply sm_sqrt; [auto|rewrite EA; apply isr_fin; lra]|]. rewrite ES. apply isr_fin. split; [lra|]. nra. }
  apply sm_mul; [apply sm_mul; [apply sm_cst|exact Sq]|apply sm_add; [apply sm_cst|auto]].
Qed.
End DistJ.

(** ** heading: the angle of a vector, in degrees, counted from 0 to 360 *)
Lemma Rfmod_360 : forall x, 0 <= x < 360 -> Rfmod (x + 360) 360 = x.
Proof. intros. rewrite (Rfmod_eq (x + 360) 360 1); lra. Qed.
Lemma Rfmod_id : forall x, 0 <= x < 360 -> Rfmod x 360 = x.
Proof. intros. rewrite (Rfmod_eq x 360 0); lra. Qed.
Lemma atan2_zero : forall y x, Ratan2 y x = 0 -> y = 0.
Proof. intros y x E. destruct (Ratan2_polar y x) as [_ P]. rewrite E, sin_0 in P. lra. Qed.
Lemma Ratan2_left : forall y x, x < 0 -> Ratan2 y x = atan (y / x) + PI \/ Ratan2 y x = atan (y / x) - PI.
Proof.
  intros y x H. unfold Ratan2. destruct (Rlt_dec 0 x); [lra|]. destruct (Rlt_dec x 0); [|lra]. destruct (Rle_dec 0 y); auto.
Qed.
Lemma exact_reader : forall s0 F G a b, exact s0 G b -> locally s0 (fun s => F s = G s) -> j_val a = j_val b -> j_der a = j_der b -> exact s0 F a.
Proof.
  intros s0 F G a b (g & H1 & H2 & H3) L V D. exists g. split; [|split].
  - generalize (filter_and _ _ L H1). apply filter_imp. intros s [-> E]. exact E.
  - congruence.
  - rewrite D. exact H3.
Qed.
Lemma heading_left : forall y x, x < 0 -> Rfmod (Ratan2 y x * (180.0 / PI) + 360) 360 = atan (y / x) * (180.0 / PI) + 180 + 0.
Proof.
  intros y x H. pose proof PI_RGT_0 as Pp. pose proof (atan_bound (y / x)) as [B1 B2]. set (p := atan (y / x)) in *.
  assert (K : 0 < 180.0 / PI) by (apply Rdiv_lt_0_compat; lra). assert (KP : PI * (180.0 / PI) = 180) by (field_simplify; lra).
  assert (B : -90 < p * (180.0 / PI) < 90) by (split; nra). set (k := 180.0 / PI) in *.
  destruct (Ratan2_left y x H) as [E|E]; fold p in E; rewrite E.
  - replace ((p + PI) * k + 360) with (p * k + 180 + 360) by lra. rewrite Rfmod_360; lra.
  - replace ((p - PI) * k + 360) with (p * k + 180) by lra. rewrite Rfmod_id; lra.
Qed.
Definition quot_atan (x y : ext) : ext := match x, y with Fin a, Fin b => Fin (atan (a / b)) | _, _ => NaN end.
Lemma sm_heading : forall s0 X Y x y, exact s0 X x -> exact s0 Y y -> fmod NP (add NP (mul NP (barctan2 NP (X s0) (Y s0)) (div NP (Fin 180.0) (Fin PI))) (Fin 360)) (Fin 360) <> Fin 0 ->
  exact s0 (fmod LE (add LE (mul LE (barctan2 LE X Y) (div LE (cst LE 180.0) (bpi LE))) (cst LE 360)) (cst LE 360))
           (fmod JB (add JB (mul JB (barctan2 JB x y) (div JB (cst JB 180.0) (bpi JB))) (cst JB 360)) (cst JB 360)).
Proof.
  intros s0 X Y x y Hx Hy N. finr Hx u Eu. finr Hy w Ew. pose proof PI_RGT_0 as Pp. cbn [NP fmod add mul barctan2 div] in N.
  rewrite Eu, Ew, ediv_fin in N by lra. cbn [eatan2 emul eadd] in N. rewrite efmod_fin in N by lra.
  destruct (Req_EM_T u 0) as [->|Nu].
  - assert (Lw : w < 0).
    { destruct (Rlt_dec w 0); auto. exfalso. apply N. assert (E : Ratan2 0 w = 0).
      { unfold Ratan2. destruct (Rlt_dec 0 w); [unfold Rdiv; rewrite Rmult_0_l; apply atan_0|]. destruct (Rlt_dec w 0); [lra|]. destruct (Rlt_dec 0 0); [lra|]. reflexivity. }
      rewrite E, Rmult_0_l. f_equal. rewrite Rfmod_360; lra. }
    destruct Hx as (f & Hx), Hy as (g & Hy). pose proof (jd_F _ _ _ _ Hx) as Ef. pose proof (jd_F _ _ _ _ Hy) as Eg. rewrite Eu in Ef. rewrite Ew in Eg. injection Ef as Ef. injection Eg as Eg.
    set (q := mkJ (Fin (atan (f s0 / g s0))) (j_der (barctan2 JB x y))).
    assert (Sq : exact s0 (fun s => quot_atan (X s) (Y s)) q).
    { exists (fun s => atan (f s / g s)). pose proof Hx as (HF & Vx & _). pose proof Hy as (HG & Vy & _).
      assert (NZ : f s0 ^ 2 + g s0 ^ 2 <> 0) by (rewrite <- Ef, <- Eg; assert (0 < w ^ 2) by (apply pow2_gt_0; lra); lra).
      apply (jd_bin s0 X f x Y g y quot_atan (fun a b => atan (a / b)) _ _ _ (g s0 / (f s0 ^ 2 + g s0 ^ 2)) (- f s0 / (f s0 ^ 2 + g s0 ^ 2))); auto.
      - apply filter_forall. reflexivity.
      - rewrite Vx, Vy. cbn [epowi eadd]. apply ediv_fin. auto.
      - rewrite Vx, Vy. cbn [epowi eadd eneg]. apply ediv_fin. auto.
      - intros d e Hd He. replace (d * (g s0 / (f s0 ^ 2 + g s0 ^ 2)) + e * (- f s0 / (f s0 ^ 2 + g s0 ^ 2))) with ((d * g s0 - f s0 * e) / (f s0 ^ 2 + g s0 ^ 2)) by (field; auto).
        apply is_derive_quot_atan; auto. lra. }
    set (r := add JB (add JB (mul JB q (div JB (cst JB 180.0) (bpi JB))) (cst JB 180)) (cst JB 0)).
    apply (exact_reader s0 _ (add LE (add LE (mul LE (fun s => quot_atan (X s) (Y s)) (div LE (cst LE 180.0) (bpi LE))) (cst LE 180)) (cst LE 0)) _ r).
    + apply sm_add; [|apply sm_cst]. apply sm_add; [|apply sm_cst]. apply sm_mul; [exact Sq|apply sm_k].
    + pose proof Hx as (HF & _ & _). pose proof Hy as (HG & _ & _). assert (Lg : g s0 < 0) by lra.
      generalize (filter_and _ _ (filter_and _ _ HF HG) (jd_cont _ _ _ _ _ Hy (locally_lt 0 _ Lg))). apply filter_imp. intros s [[E1 E2] E3].
      match goal with |- fmod LE (add LE (mul LE _ ?K) _) _ s = add LE (add LE (mul LE ?Q _) _) _ s => 
        change (efmod (eadd (emul (eatan2 (X s) (Y s)) (K s)) (Fin 360)) (Fin 360) = eadd (eadd (emul (quot_atan (X s) (Y s)) (K s)) (Fin 180)) (Fin 0)) end.
      rewrite k_val, E1, E2. cbn [eatan2 emul eadd quot_atan]. rewrite efmod_fin by lra. f_equal. apply heading_left. auto.
    + pose proof Hx as (_ & Vx & _). pose proof Hy as (_ & Vy & _).
      change (efmod (eadd (emul (eatan2 (j_val x) (j_val y)) (ediv (Fin 180.0) (Fin PI))) (Fin 360)) (Fin 360) = eadd (eadd (emul (Fin (atan (f s0 / g s0))) (ediv (Fin 180.0) (Fin PI))) (Fin 180)) (Fin 0)).
      rewrite Vx, Vy, ediv_fin by lra. cbn [eatan2 emul eadd]. rewrite efmod_fin by lra. f_equal. apply heading_left. lra.
    + unfold r, q. cbn [JB add mul fmod barctan2 j_bin j_der cst j_const div bpi j_val]. destruct (j_der x) as [[t k]|], (j_der y) as [[t' k']|]; reflexivity.
  - apply sm_fmod; [apply sm_add; [apply sm_mul; [apply sm_atan2; auto; right; rewrite Eu; apply nz; auto|apply sm_k]|apply sm_cst]|apply sm_cst|reflexivity|apply nz; lra|].
    right. intros k E.
    assert (EE : add LE (mul LE (barctan2 LE X Y) (div LE (cst LE 180.0) (bpi LE))) (cst LE 360) s0 = Fin (Ratan2 u w * (180.0 / PI) + 360)).
    { match goal with |- add LE (mul LE _ ?K) _ s0 = _ => change (eadd (emul (eatan2 (X s0) (Y s0)) (K s0)) (Fin 360) = Fin (Ratan2 u w * (180.0 / PI) + 360)) end. rewrite Eu, Ew, k_val. reflexivity. }
    rewrite EE in E. cbn [cst LE Lift NP emul] in E. injection E as E.
    pose proof (Ratan2_range u w) as Rg. assert (B : -180 < Ratan2 u w * (180.0 / PI) <= 180).
    { assert (K : 0 < 180.0 / PI) by (apply Rdiv_lt_0_compat; lra). assert (PI * (180.0 / PI) = 180) by (field_simplify; lra). nra. }
    assert (k = 1)%Z as ->. { assert (L1 : 0 < IZR k) by lra. assert (L2 : IZR k < 2) by lra. apply lt_IZR in L1, L2. lia. }
    assert (Ratan2 u w * (180.0 / PI) = 0) as Z by lra. apply Rmult_integral in Z. destruct Z as [Z|Z]; [apply atan2_zero in Z; auto|].
    assert (K : 0 < 180.0 / PI) by (apply Rdiv_lt_0_compat; lra). lra.
Qed.

Section BearingJ.
Context (s0 : R) (A1 O1 A2 O2 : R -> ext) (a1 o1 a2 o2 : jx)
  (Ha1 : exact s0 A1 a1) (Ho1 : exact s0 O1 o1) (Ha2 : exact s0 A2 a2) (Ho2 : exact s0 O2 o2).
Lemma bearing_sm : bearing NP (A1 s0) (O1 s0) (A2 s0) (O2 s0) <> Fin 0 -> exact s0 (bearing LE A1 O1 A2 O2) (bearing JB a1 o1 a2 o2).
Proof.
  intros N. unfold bearing. cbv zeta. apply sm_heading; [| |exact N].
  - apply sm_mul; [apply sm_sin; apply sm_sub; apply sm_rad; auto|apply sm_cos; apply sm_rad; auto].
  - apply sm_sub; apply sm_mul; try apply sm_mul; try apply sm_sin; try apply sm_cos; try apply sm_sub; apply sm_rad; auto.
Qed.
End BearingJ.

Section LatlonJ.
Context (s0 : R) (A O D B H : R -> ext) (a o d b h : jx)
  (Ha : exact s0 A a) (Ho : exact s0 O o) (Hd : exact s0 D d) (Hb : exact s0 B b) (Hh : exact s0 H h)
  (Ph : H s0 <> Fin (-6371000)).
Lemma ll_ang_sm : exact s0 (div LE D (add LE (cst LE geo_r_earth) H)) (div JB d (add JB (cst JB geo_r_earth) h)).
Proof.
  finr Hh z Ez. apply sm_div; auto. apply sm_add; [apply sm_cst|auto]. cbn. rewrite Ez in *. cbn [eadd]. apply nz. intros Q. apply Ph. f_equal. unfold geo_r_earth in Q. lra.
Qed.
(** the destination is not a pole *)
Context (Np : fst (latlon NP (A s0) (O s0) (D s0) (B s0) (H s0)) <> Fin 90 /\ fst (latlon NP (A s0) (O s0) (D s0) (B s0) (H s0)) <> Fin (-90)).
Let AR := mul LE A (div LE (bpi LE) (cst LE 180.0)). Let BRG := mul LE B (div LE (bpi LE) (cst LE 180.0)). Let DL := div LE D (add LE (cst LE geo_r_earth) H).
Let ar := mul JB a (div JB (bpi JB) (cst JB 180.0)). Let brg := mul JB b (div JB (bpi JB) (cst JB 180.0)). Let dl := div JB d (add JB (cst JB geo_r_earth) h).
Definition S_LE := add LE (mul LE (bsin LE AR) (bcos LE DL)) (mul LE (mul LE (bcos LE AR) (bsin LE DL)) (bcos LE BRG)).
Definition S_JB := add JB (mul JB (bsin JB ar) (bcos JB dl)) (mul JB (mul JB (bcos JB ar) (bsin JB dl)) (bcos JB brg)).
Lemma ll_vals : exists f1 o1 t x z, A s0 = Fin f1 /\ O s0 = Fin o1 /\ B s0 = Fin t /\ D s0 = Fin x /\ H s0 = Fin z /\ 6371000 + z <> 0 /\ AR s0 = Fin (rad f1) /\ BRG s0 = Fin (rad t) /\ DL s0 = Fin (x / (6371000 + z)).
Proof.
  finr Ha f1 E1'. finr Ho o1 E2'. finr Hb t E3'. finr Hd x E4'. finr Hh z E5'. exists f1, o1, t, x, z. 
  assert (6371000 + z <> 0) by (intros Q; apply Ph; rewrite E5'; f_equal; lra).
  repeat split; auto; try (apply rad_val; auto). replace (6371000 + z) with (geo_r_earth + z) in * by (unfold geo_r_earth; lra). apply div_val; auto.
  change (eadd (Fin geo_r_earth) (H s0) = Fin (geo_r_earth + z)). rewrite E5'. reflexivity.
Qed.
Lemma S_sm : exact s0 S_LE S_JB.
Proof.
  pose proof ll_ang_sm. apply sm_add; [apply sm_mul|apply sm_mul; [apply sm_mul|]]; first [apply sm_sin|apply sm_cos]; auto; apply sm_rad; auto.
Qed.
Lemma S_val : isr (fun r => -1 < r < 1) (S_LE s0).
Proof.
  destruct ll_vals as (f1 & o1 & t & x & z & V1 & V2 & V3 & V4 & V5 & V6 & V7 & V8 & V9).
  change (isr (fun r => -1 < r < 1) (eadd (emul (elift sin (AR s0)) (elift cos (DL s0))) (emul (emul (elift cos (AR s0)) (elift sin (DL s0))) (elift cos (BRG s0))))).
  rewrite V7, V8, V9. cbn [elift emul eadd]. apply isr_fin. destruct Np as [N1 N2]. rewrite V1, V2, V3, V4, V5, latlon_NP in N1, N2 by auto. cbn [fst] in *.
  pose proof (ll_s_range (rad f1) (rad t) (x / (6371000 + z))) as Rg. unfold ll_f2 in *. fold (ll_s (rad f1) (rad t) (x / (6371000 + z))). set (c := ll_s _ _ _) in *.
  pose proof PI_RGT_0. split.
  - destruct Rg as [[Rg|Rg] _]; auto. exfalso. apply N2. rewrite <- Rg. replace (-1) with (- (1)) by lra. rewrite asin_opp, asin_1. unfold deg. f_equal. replace 180.0 with 180 by lra. field; lra.
  - destruct Rg as [_ [Rg|Rg]]; auto. exfalso. apply N1. rewrite Rg, asin_1. unfold deg. f_equal. replace 180.0 with 180 by lra. field; lra.
Qed.
Lemma lat2_sm : exact s0 (fst (latlon LE A O D B H)) (fst (latlon JB a o d b h)).
Proof. unfold latlon. cbn [fst]. apply sm_mul; [|apply sm_k]. apply (sm_arcsin s0 S_LE S_JB S_sm S_val). Qed.
(** the start is not a pole and the destination is not on the opposite meridian *)
Context (Ns : isr (fun r => -90 < r < 90) (A s0)) (Nm : snd (latlon NP (A s0) (O s0) (D s0) (B s0) (H s0)) <> eadd (O s0) (Fin 180)).
Lemma lon2_sm : exact s0 (snd (latlon LE A O D B H)) (snd (latlon JB a o d b h)).
Proof.
  pose proof ll_ang_sm as Sd. pose proof (sm_arcsin s0 S_LE S_JB S_sm S_val) as Sa. pose proof S_val as Sv.
  destruct ll_vals as (f1 & o1 & t & x & z & V1 & V2 & V3 & V4 & V5 & V6 & V7 & V8 & V9).
  rewrite V1, V2, V3, V4, V5, latlon_NP in Nm by auto. cbn [snd eadd] in Nm.
  unfold latlon. cbn [snd]. fold AR BRG DL ar brg dl. apply sm_mul; [|apply sm_k]. apply sm_add; [apply sm_rad; auto|].
  change (exact s0 (barctan2 LE (mul LE (mul LE (bsin LE BRG) (bsin LE DL)) (bcos LE AR)) (sub LE (bcos LE DL) (mul LE (bsin LE AR) (bsin LE (barcsin LE S_LE)))))
    (barctan2 JB (mul JB (mul JB (bsin JB brg) (bsin JB dl)) (bcos JB ar)) (sub JB (bcos JB dl) (mul JB (bsin JB ar) (bsin JB (barcsin JB S_JB)))))).
  apply sm_atan2.
  - apply sm_mul; [apply sm_mul|]; first [apply sm_sin|apply sm_cos]; auto; apply sm_rad; auto.
  - apply sm_sub; [apply sm_cos; auto|]. apply sm_mul; apply sm_sin; auto. apply sm_rad; auto.
  - set (dd := x / (6371000 + z)) in *.
    assert (EX : mul LE (mul LE (bsin LE BRG) (bsin LE DL)) (bcos LE AR) s0 = Fin (ll_x (rad f1) (rad t) dd)).
    { change (emul (emul (elift sin (BRG s0)) (elift sin (DL s0))) (elift cos (AR s0)) = Fin (ll_x (rad f1) (rad t) dd)). rewrite V7, V8, V9. reflexivity. }
    assert (ES : S_LE s0 = Fin (ll_s (rad f1) (rad t) dd)).
    { change (eadd (emul (elift sin (AR s0)) (elift cos (DL s0))) (emul (emul (elift cos (AR s0)) (elift sin (DL s0))) (elift cos (BRG s0))) = Fin (ll_s (rad f1) (rad t) dd)). rewrite V7, V8, V9. reflexivity. }
    pose proof (ll_s_range (rad f1) (rad t) dd) as Rg.
    assert (EY : sub LE (bcos LE DL) (mul LE (bsin LE AR) (bsin LE (barcsin LE S_LE))) s0 = Fin (ll_y (rad f1) (rad t) dd)).
    { change (esub (elift cos (DL s0)) (emul (elift sin (AR s0)) (elift sin (eunit asin (S_LE s0)))) = Fin (ll_y (rad f1) (rad t) dd)).
      rewrite V7, V9, ES, eunit_fin by auto. cbn [elift emul esub]. rewrite sin_asin by auto. reflexivity. }
    rewrite EX, EY. destruct (Req_dec (ll_x (rad f1) (rad t) dd) 0) as [Zx|Zx]; [left|right; apply nz; auto]. apply isr_fin.
    pose proof (ll_norm (rad f1) (rad t) dd) as Nn. rewrite Zx in Nn.
    assert (C1 : 0 < cos (rad f1)).
    { destruct Ns as (r & E & Br). rewrite V1 in E. injection E as <-. pose proof PI_RGT_0. apply cos_gt_0; unfold rad.
      - assert (- (PI / 2) = -90 * (PI / 180.0)) as -> by (replace 180.0 with 180 by lra; field; lra). apply Rmult_lt_compat_r; [apply Rdiv_lt_0_compat; lra|lra].
      - assert (PI / 2 = 90 * (PI / 180.0)) as -> by (replace 180.0 with 180 by lra; field; lra). apply Rmult_lt_compat_r; [apply Rdiv_lt_0_compat; lra|lra]. }
    assert (C2 : 0 < cos (ll_f2 (rad f1) (rad t) dd)).
    { destruct Sv as (r & E & Br). rewrite ES in E. injection E as <-. pose proof (ll_cos_f2 (rad f1) (rad t) dd) as [C|C]; auto. exfalso. pose proof (ll_cos2_f2 (rad f1) (rad t) dd) as Q. rewrite <- C in Q. nra. }
    assert (Zy : ll_y (rad f1) (rad t) dd <> 0). { intros Q. rewrite Q in Nn. assert (0 < cos (rad f1) * cos (ll_f2 (rad f1) (rad t) dd)) by (apply Rmult_lt_0_compat; auto). nra. }
    destruct (Rtotal_order (ll_y (rad f1) (rad t) dd) 0) as [L|[L|L]]; [|contradiction|lra]. exfalso. apply Nm. rewrite Zx.
    assert (E : Ratan2 0 (ll_y (rad f1) (rad t) dd) = PI).
    { unfold Ratan2. destruct (Rlt_dec 0 (ll_y (rad f1) (rad t) dd)); [lra|]. destruct (Rlt_dec (ll_y (rad f1) (rad t) dd) 0); [|lra]. destruct (Rle_dec 0 0); [|lra]. unfold Rdiv. rewrite Rmult_0_l, atan_0. ring. }
    rewrite E. f_equal. pose proof PI_RGT_0. unfold deg, rad. replace 180.0 with 180 by lra. field; lra.
Qed.
End LatlonJ.
