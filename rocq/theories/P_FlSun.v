(** * Property C115: bearings and sun angles in binary64 *)
From Coq Require Import Reals List ZArith Lra Lia Psatz.
From Flocq Require Import Core.
From Coquelicot Require Import Coquelicot.
From Interval Require Import Tactic.
From Verif Require Import Num NumFacts SpecNum Geo GeoFacts Fl SpecFl FlFacts P_Fl P_Geo P_FlGeo.
Import ListNotations.
Open Scope R_scope.

(** a bounded exact number [x] and its approximation *)
Definition nb (x p a : R) (X : ext) : Prop := Rabs x <= p /\ a <= 1e9 /\ na x a X.
Section Calc.
Context (rd : rounding) (Hrd : accurate rd).
Lemma nb_k : forall x p a X, nb x p a X -> 0 <= p /\ 0 <= a.
Proof. intros x p a X (P & _ & (y & _ & H)). pose proof (Rabs_pos x). pose proof (Rabs_pos (y - x)). pose proof v_pos. split; [lra|nra]. Qed.
Lemma nb_exact : forall x p, Rabs x <= p -> nb x p 0 (Fin x).
Proof. intros x p H. split; [auto|split; [lra|apply na_exact]]. Qed.
Lemma nb_cst : forall r p, Rabs r <= p -> p <= 1e8 -> nb r p (1.02 * p) (cst (FL rd) r).
Proof. intros r p H P. split; [auto|split; [lra|]]. apply nr_na with 1; [apply (nr_cst rd Hrd)|lra|]. lra. Qed.
Lemma nb_add : forall x p a X y q c Y, nb x p a X -> nb y q c Y -> 1.04 * (a + c + p + q) <= 1e9 -> nb (x + y) (p + q) (1.04 * (a + c + p + q)) (add (FL rd) X Y).
Proof.
  intros x p a X y q c Y HX HY L. pose proof (nb_k _ _ _ _ HX). pose proof (nb_k _ _ _ _ HY). destruct HX as (Px & A & HX). destruct HY as (Py & C & HY).
  assert (Rabs (x + y) <= p + q) by (eapply Rle_trans; [apply Rabs_triang|lra]). split; [auto|split; [auto|]]. eapply na_w; [apply (na_add rd Hrd); [exact HX|exact HY|lra]|lra].
Qed.
Lemma nb_sub : forall x p a X y q c Y, nb x p a X -> nb y q c Y -> 1.04 * (a + c + p + q) <= 1e9 -> nb (x - y) (p + q) (1.04 * (a + c + p + q)) (sub (FL rd) X Y).
Proof.
  intros x p a X y q c Y HX HY L. pose proof (nb_k _ _ _ _ HX). pose proof (nb_k _ _ _ _ HY). destruct HX as (Px & A & HX). destruct HY as (Py & C & HY).
  assert (Rabs (x - y) <= p + q) by (unfold Rminus; eapply Rle_trans; [apply Rabs_triang|rewrite Rabs_Ropp; lra]). split; [auto|split; [auto|]]. eapply na_w; [apply (na_sub rd Hrd); [exact HX|exact HY|lra]|lra].
Qed.
Lemma nb_mul : forall x p a X y q c Y, nb x p a X -> nb y q c Y -> 1.04 * (a * q + c * p + p * q + a / 1000) <= 1e9 -> nb (x * y) (p * q) (1.04 * (a * q + c * p + p * q + a / 1000)) (mul (FL rd) X Y).
Proof.
  intros x p a X y q c Y HX HY L. pose proof (nb_k _ _ _ _ HX). pose proof (nb_k _ _ _ _ HY). destruct HX as (Px & A & (x' & -> & EX)). destruct HY as (Py & C & (y' & -> & EY)).
  pose proof (Rabs_pos x). pose proof (Rabs_pos y). pose proof v_pos. pose proof v_small. pose proof (Rabs_pos (x' - x)). pose proof (Rabs_pos (y' - y)).
  assert (B : Rabs (x * y) <= p * q) by (rewrite Rabs_mult; apply Rmult_le_compat; lra). split; [auto|split; [auto|]].
  assert (M : na (x * y) (a * q + c * p + a / 1e5) (Fin (x' * y'))).
  { eexists. split; [reflexivity|]. replace (x' * y' - x * y) with ((x' - x) * y + x * (y' - y) + (x' - x) * (y' - y)) by ring.
    eapply Rle_trans; [apply Rabs_triang|]. eapply Rle_trans; [apply Rplus_le_compat_r, Rabs_triang|]. rewrite !Rabs_mult.
    assert (Rabs (x' - x) * Rabs y <= a * v * q) by (apply Rmult_le_compat; lra). assert (Rabs x * Rabs (y' - y) <= p * (c * v)) by (apply Rmult_le_compat; lra).
    assert (Rabs (x' - x) * Rabs (y' - y) <= a * v * (c * v)) by (apply Rmult_le_compat; lra). assert (c * v <= 1e-6) by nra. assert (0 <= a * v) by nra. assert (a * v * (c * v) <= a * v * 1e-6) by (apply Rmult_le_compat_l; lra). nra. }
  eapply na_w; [apply (na_rnd rd Hrd Omul [Fin x'; Fin y'] _ _ _ M)|]; nra.
Qed.
Lemma nb_div4 : forall x p a X, nb x p a X -> 1.04 * (a + p) / 4 <= 1e9 -> nb (x / 4) (p / 4) (1.04 * (a + p) / 4) (div (FL rd) X (Fin 4)).
Proof.
  intros x p a X HX L. pose proof (nb_k _ _ _ _ HX). destruct HX as (Px & A & (x' & -> & EX)).
  assert (B : Rabs (x / 4) <= p / 4) by (unfold Rdiv; rewrite Rabs_mult, (Rabs_pos_eq (/ 4)) by lra; lra). split; [auto|split; [auto|]].
  cbn [div FL]. unfold fdiv. rewrite ediv_fin by lra. eapply na_w; [apply (na_rnd rd Hrd Odiv _ (x / 4) (a / 4))|]; [|lra|lra]. eexists. split; [reflexivity|].
  replace (x' / 4 - x / 4) with ((x' - x) / 4) by lra. unfold Rdiv. rewrite Rabs_mult, (Rabs_pos_eq (/ 4)) by lra. lra.
Qed.
Lemma nb_sin : forall x p a X, nb x p a X -> a <= 9e8 -> nb (sin x) 1 (1.04 * (a + 1)) (bsin (FL rd) X).
Proof.
  intros x p a X HX L. pose proof (nb_k _ _ _ _ HX). destruct HX as (Px & A & HX). split; [apply Rabs_le; pose proof (SIN_bound x); lra|]. split; [lra|]. eapply na_w; [apply (na_sin rd Hrd); [exact HX|lra]|lra].
Qed.
Lemma nb_cos : forall x p a X, nb x p a X -> a <= 9e8 -> nb (cos x) 1 (1.04 * (a + 1)) (bcos (FL rd) X).
Proof.
  intros x p a X HX L. pose proof (nb_k _ _ _ _ HX). destruct HX as (Px & A & HX). split; [apply Rabs_le; pose proof (COS_bound x); lra|]. split; [lra|]. eapply na_w; [apply (na_cos rd Hrd); [exact HX|lra]|lra].
Qed.
Lemma nb_w : forall x p a X p' a', nb x p a X -> p <= p' -> a <= a' -> a' <= 1e9 -> nb x p' a' X.
Proof. intros x p a X p' a' (P & A & H) Lp La L9. split; [lra|split; [lra|]]. eapply na_w; eauto. Qed.
Lemma nb_of_nr : forall x k X p a, nr x k X -> Rabs x <= p -> k <= 1e6 -> 1.02 * k * p <= a -> a <= 1e9 -> nb x p a X.
Proof. intros x k X p a H P K L A. pose proof (nr_k _ _ _ H). split; [auto|split; [auto|]]. apply nr_na with k; auto; nra. Qed.

(** ** the sun *)
Lemma gamma_fl : forall day, 1 <= day <= 367 -> nb (2 * PI * (day - 1) / 365) 6.31 33 (solar_gamma (FL rd) (Fin day)).
Proof.
  intros day H. unfold solar_gamma. rewrite (cst_int rd Hrd 2), (cst_int rd Hrd 1), (cst_int rd Hrd 365) by (cbn; lia).
  assert (Hp : 3.1415 <= PI <= 3.1416) by (clear; split; interval). assert (Npi : nr PI 1 (bpi (FL rd))) by (pose proof (nr_rnd rd Hrd Opi [] PI 0 (Fin PI) (nr_exact PI)) as Q; rewrite Rplus_0_l in Q; exact Q).
  eapply nb_of_nr; [apply (nr_div rd Hrd); [apply (nr_mul rd Hrd); [apply (nr_mul rd Hrd); [apply nr_exact|exact Npi]|apply (nr_sub0 rd Hrd)]|apply nr_exact|lra]| |lra|lra|lra].
  rewrite Rabs_pos_eq; [|apply Rmult_le_pos; [nra|lra]]. nra.
Qed.
Ltac cs := first [apply nb_cst; [rewrite Rabs_pos_eq; lra | lra]].
Lemma c23 : cst (FL rd) 2 = Fin 2 /\ cst (FL rd) 3 = Fin 3 /\ cst (FL rd) 4 = Fin 4 /\ cst (FL rd) 60 = Fin 60 /\ cst (FL rd) 180 = Fin 180.
Proof. repeat apply conj; apply (cst_int rd Hrd); cbn; lia. Qed.
Lemma nb_ex : forall x, 0 <= x -> nb x x 0 (Fin x).
Proof. intros x H. apply nb_exact. rewrite Rabs_pos_eq; lra. Qed.
Lemma nb_cs : forall r, 0 <= r -> r <= 1e8 -> nb r r (1.02 * r) (cst (FL rd) r).
Proof. intros r H L. apply nb_cst; auto. rewrite Rabs_pos_eq; lra. Qed.
Ltac step :=
  first [ eassumption
        | simple eapply nb_add; [step|step|]
        | simple eapply nb_sub; [step|step|]
        | simple eapply nb_mul; [step|step|]
        | simple eapply nb_sin; [step|]
        | simple eapply nb_cos; [step|]
        | simple eapply nb_div4; [step|]
        | simple eapply nb_ex
        | simple eapply nb_cs ].
Lemma decl_fl : forall day, 1 <= day <= 367 -> nb (decl day) 0.5 40 (solar_declination (FL rd) (solar_gamma (FL rd) (Fin day))).
Proof.
  intros day H. pose proof (gamma_fl day H) as G. set (g := 2 * PI * (day - 1) / 365) in *.
  replace (decl day) with (0.006918 - 0.399912 * cos g + 0.070257 * sin g - 0.006758 * cos (2 * g) + 0.000907 * sin (2 * g) - 0.002697 * cos (3 * g) + 0.00148 * sin (3 * g)).
  2:{ unfold decl, solar_gamma. cbn -[ediv]. rewrite ediv_fin by lra. reflexivity. }
  clearbody g. set (GG := solar_gamma (FL rd) (Fin day)) in *. clearbody GG. unfold solar_declination. destruct c23 as (-> & -> & _).
  eapply nb_w; [step|..]; lra.
Qed.

Lemma eqt_fl : forall day, 1 <= day <= 367 -> nb (eqt day) 21 3000 (equation_of_time (FL rd) (solar_gamma (FL rd) (Fin day))).
Proof.
  intros day H. pose proof (gamma_fl day H) as G. set (g := 2 * PI * (day - 1) / 365) in *.
  replace (eqt day) with (229.18 * (0.000075 + 0.001868 * cos g - 0.032077 * sin g - 0.014615 * cos (2 * g) - 0.040849 * sin (2 * g))).
  2:{ unfold eqt, solar_gamma. cbn -[ediv]. rewrite ediv_fin by lra. reflexivity. }
  clearbody g. set (GG := solar_gamma (FL rd) (Fin day)) in *. clearbody GG. unfold equation_of_time. destruct c23 as (-> & _).
  eapply nb_w; [step|..]; lra.
Qed.
Lemma d2r_fl : nb (PI / 180) 0.018 0.04 (div (FL rd) (bpi (FL rd)) (Fin 180)).
Proof.
  assert (Hp : 3.1415 <= PI <= 3.1416) by (clear; split; interval).
  eapply nb_of_nr; [apply (nr_div rd Hrd); [|apply nr_exact|lra]|..]; [pose proof (nr_rnd rd Hrd Opi [] PI 0 (Fin PI) (nr_exact PI)) as Q; exact Q|rewrite Rabs_pos_eq; lra|lra|lra|lra].
Qed.
Lemma cz_fl : forall lat lon day hour, Rabs lat <= 90 -> Rabs lon <= 360 -> 1 <= day <= 367 -> 0 <= hour <= 24 ->
  exists c c', cos_zenith NP (Fin lat) (Fin lon) (Fin day) (Fin hour) = Fin c /\ cos_zenith (FL rd) (Fin lat) (Fin lon) (Fin day) (Fin hour) = Fin c' /\ Rabs (c' - c) <= 1e-12.
Proof.
  intros lat lon day hour Hla Hlo Hd Hh. rewrite cos_zenith_NP. unfold hangle, cos_zenith, deg2rad_. cbv zeta. destruct c23 as (_ & _ & E4 & E60 & E180). rewrite E4, E60, E180.
  pose proof (decl_fl day Hd) as ND. pose proof (eqt_fl day Hd) as NE. pose proof d2r_fl as NR. pose proof (nb_exact lat 90 Hla) as NLA. pose proof (nb_exact lon 360 Hlo) as NLO.
  assert (NH : nb hour 24 0 (Fin hour)) by (apply nb_exact; rewrite Rabs_pos_eq; lra).
  set (D := solar_declination (FL rd) _) in *. set (Q := equation_of_time (FL rd) _) in *. clearbody D Q.
  set (d := decl day) in *. set (e := eqt day) in *. set (k := PI / 180) in *. set (K := div (FL rd) (bpi (FL rd)) (Fin 180)) in *. clearbody d e k K.
  match goal with |- exists c c', Fin ?x = Fin c /\ ?Y = Fin c' /\ _ => assert (N : nb x 2 1100 Y) end.
  { eapply nb_w; [step|..]; lra. }
  destruct N as (_ & _ & (y & -> & B)). do 2 eexists. split; [reflexivity|]. split; [reflexivity|]. pose proof v_small. lra.
Qed.
Lemma sin_half : forall d, 0 <= d <= PI / 2 -> 0.49 * d <= sin d.
Proof.
  intros d H. assert (Hp : 3.1415 <= PI <= 3.1416) by (clear; split; interval).
  assert (C : forall c, 0 <= c <= d / 2 -> 0.707 <= cos c). { intros c Hc. apply Rle_trans with (cos (PI / 4)); [clear; interval|]. apply cos_decr_1; lra. }
  destruct (MVT_gen sin 0 (d / 2) cos) as (c & Bc & E).
  - intros x _. auto_derive; auto; ring.
  - intros x _. apply continuity_sin.
  - rewrite Rmin_left, Rmax_right in Bc by lra. rewrite sin_0, !Rminus_0_r in E. pose proof (C c Bc). pose proof (C (d / 2) ltac:(lra)).
    replace d with (2 * (d / 2)) at 2 by field. rewrite sin_2a, E. assert (0.49 <= cos c * cos (d / 2)) by nra. replace (2 * (cos c * (d / 2)) * cos (d / 2)) with (d * (cos c * cos (d / 2))) by field. nra.
Qed.
Lemma cos_gap : forall x y, 0 <= x <= y -> y <= PI -> 0.12 * (y - x) ^ 2 <= cos x - cos y.
Proof.
  intros x y Hx Hy. pose proof PI_RGT_0. rewrite form2. set (d := (y - x) / 2). replace ((x - y) / 2) with (- d) by (unfold d; field). rewrite sin_neg.
  pose proof (sin_half d ltac:(unfold d; lra)) as S1. assert (S2 : sin d <= sin ((x + y) / 2)).
  { apply Rminus_le. rewrite form4. replace ((d - (x + y) / 2) / 2) with (- (x / 2)) by (unfold d; field). replace ((d + (x + y) / 2) / 2) with (y / 2) by (unfold d; field). rewrite sin_neg.
    pose proof (sin_ge_0 (x / 2) ltac:(lra) ltac:(lra)). pose proof (cos_ge_0 (y / 2) ltac:(lra) ltac:(lra)). nra. }
  assert (0 <= d) by (unfold d; lra). replace (0.12 * (y - x) ^ 2) with (0.48 * (d * d)) by (unfold d; lra). nra.
Qed.
Lemma acos_err : forall a b e, -1 <= a <= 1 -> -1 <= b <= 1 -> Rabs (a - b) <= 1e-12 -> 2.9e-6 <= e -> Rabs (acos a - acos b) <= e.
Proof.
  assert (W : forall a b e, -1 <= a <= 1 -> -1 <= b <= 1 -> Rabs (a - b) <= 1e-12 -> 2.9e-6 <= e -> acos a <= acos b -> Rabs (acos a - acos b) <= e).
  { intros a b e Ha Hb H He L. pose proof (acos_range a). pose proof (acos_range b). pose proof (cos_gap (acos a) (acos b) ltac:(lra) ltac:(lra)) as G. rewrite !cos_acos in G by lra.
    apply Rabs_le_inv in H. rewrite Rabs_left1 by lra. apply Rnot_lt_le. intros N. nra. }
  intros a b e Ha Hb H He. destruct (Rle_dec (acos a) (acos b)); [apply W; auto|]. rewrite Rabs_minus_sym. apply W; auto; [rewrite Rabs_minus_sym; auto|lra].
Qed.
(** The zenith angle is a number and right to 0.0002 degrees. *)
Theorem C115_sun : forall lat lon day hour, Rabs lat <= 90 -> Rabs lon <= 360 -> 1 <= day <= 367 -> 0 <= hour <= 24 ->
  fclose 1e-12 (cos_zenith NP (Fin lat) (Fin lon) (Fin day) (Fin hour)) (cos_zenith (FL rd) (Fin lat) (Fin lon) (Fin day) (Fin hour)) /\
  fclose 2e-4 (solar_zenith NP (Fin lat) (Fin lon) (Fin day) (Fin hour)) (solar_zenith (FL rd) (Fin lat) (Fin lon) (Fin day) (Fin hour)) /\
  fle (Fin 0) (solar_zenith (FL rd) (Fin lat) (Fin lon) (Fin day) (Fin hour)).
Proof.
  intros lat lon day hour Hla Hlo Hd Hh. destruct (cz_fl lat lon day hour Hla Hlo Hd Hh) as (c & c' & E & E' & B). unfold solar_zenith. rewrite E, E'.
  split; [cbn; rewrite Rabs_minus_sym; auto|]. unfold rad2deg_. destruct c23 as (_ & _ & _ & _ & E180). rewrite E180, (cst_int rd Hrd (-1)), (cst_int rd Hrd 1) by (cbn; lia).
  assert (Hp : 3.1415 <= PI <= 3.1416) by (clear; split; interval).
  set (x := Rmin (Rmax c (-1)) 1). set (x' := Rmin (Rmax c' (-1)) 1).
  assert (Rx : -1 <= x <= 1) by (unfold x, Rmin, Rmax; repeat destruct Rle_dec; lra). assert (Rx' : -1 <= x' <= 1) by (unfold x', Rmin, Rmax; repeat destruct Rle_dec; lra).
  assert (D : Rabs (x' - x) <= 1e-12) by (apply Rmin_lip; [apply Rmax_lip; auto; rewrite Rminus_eq_0, Rabs_R0; lra|rewrite Rminus_eq_0, Rabs_R0; lra]).
  assert (F1 : mul NP (barccos NP (clip NP (Fin c) (cst NP (-1)) (cst NP 1))) (div NP (cst NP 180) (bpi NP)) = Fin (acos x * (180 / PI))).
  { cbn -[ediv eunit Rmin Rmax]. fold x. rewrite eunit_fin, ediv_fin by lra. reflexivity. }
  rewrite F1. change (clip (FL rd) (Fin c') (Fin (-1)) (Fin 1)) with (Fin x'). 
  assert (N : nr (acos x' * (180 / PI)) 4 (mul (FL rd) (barccos (FL rd) (Fin x')) (div (FL rd) (Fin 180) (bpi (FL rd))))).
  { eapply nr_w; [apply (nr_mul rd Hrd); [cbn [barccos FL]; rewrite eunit_fin by lra; apply (nr_rnd rd Hrd), nr_exact|apply (nr_div rd Hrd); [apply nr_exact|exact (nr_rnd rd Hrd Opi [] PI 0 (Fin PI) (nr_exact PI))|lra]]|lra]. }
  pose proof (acos_range x') as Ra. assert (K : 57 <= 180 / PI <= 57.3) by (clear; split; interval). assert (P0 : 0 <= acos x' * (180 / PI)) by (apply Rmult_le_pos; lra).
  destruct (nr_na _ _ _ (1.02 * 4 * 181) N ltac:(lra)) as (z & Ez & Hz). { apply Rmult_le_compat_l; [lra|]. rewrite Rabs_pos_eq by auto. nra. }
  split.
  - rewrite Ez. cbn [fclose]. pose proof (acos_err x' x 2.9e-6 Rx' Rx D ltac:(lra)) as Q. pose proof v_small. 
    assert (Q2 : Rabs (acos x' * (180 / PI) - acos x * (180 / PI)) <= 1.7e-4). { rewrite <- Rmult_minus_distr_r, Rabs_mult, (Rabs_pos_eq (180 / PI)) by lra. pose proof (Rabs_pos (acos x' - acos x)). nra. }
    apply Rabs_le_inv in Q2, Hz. apply Rabs_le. lra.
  - destruct N as (t & -> & _). cbn [fle]. apply Rmult_le_pos; [auto|left; apply exp_pos].
Qed.
(** A bearing is a number and stays in [0, 360), for all numbers. *)
Theorem C115_bearing : forall lat1 lon1 lat2 lon2, exists r, bearing (FL rd) (Fin lat1) (Fin lon1) (Fin lat2) (Fin lon2) = Fin r /\ 0 <= r < 360.
Proof.
  intros lat1 lon1 lat2 lon2. unfold bearing. cbv zeta. replace 180.0 with 180 by lra. destruct c23 as (_ & _ & _ & _ & E180). rewrite E180, (cst_int rd Hrd 360) by (cbn; lia).
  assert (Hp : 3.1415 <= PI <= 3.1416) by (clear; split; interval).
  assert (Fpi : nr PI 1 (bpi (FL rd))) by (pose proof (nr_rnd rd Hrd Opi [] PI 0 (Fin PI) (nr_exact PI)) as Q; rewrite Rplus_0_l in Q; exact Q).
  assert (Ek : nr (180 / PI) 2 (div (FL rd) (Fin 180) (bpi (FL rd)))) by (eapply nr_w; [apply (nr_div rd Hrd); [apply nr_exact|exact Fpi|lra]|lra]).
  assert (Ed : exists d, div (FL rd) (bpi (FL rd)) (Fin 180) = Fin d). { cbn [div FL bpi]. unfold fdiv. rewrite ediv_fin by lra. eexists. reflexivity. }
  destruct Ed as (d & ->). match goal with |- context [barctan2 (FL rd) ?x ?y] => assert (exists p, x = Fin p) as [p ->] by (eexists; reflexivity); assert (exists q, y = Fin q) as [q ->] by (eexists; reflexivity) end.
  assert (N : exists w, nr w 1 (barctan2 (FL rd) (Fin p) (Fin q)) /\ Rabs w <= PI).
  { cbn [barctan2 FL]. pose proof (Ratan2_range p q) as R. exists (Ratan2 p q). split; [|apply Rabs_le; lra]. replace 1 with (0 + 1) by ring. change (eatan2 (Fin p) (Fin q)) with (Fin (Ratan2 p q)). apply (nr_rnd rd Hrd), nr_exact. }
  destruct N as (w & Nw & Bw). pose proof (nr_mul rd Hrd _ _ _ _ _ _ Nw Ek) as (t & -> & Ht). 
  cbn [add FL]. unfold fadd. cbn [eadd rnd]. match goal with |- context [rd Oadd ?l ?z] => destruct (rd_exp rd Hrd Oadd l z) as (s & -> & Hs) end.
  cbn [fmod FL]. rewrite efmod_fin by lra. eexists. split; [reflexivity|]. apply Rfmod_pos; [|lra]. apply Rmult_le_pos; [|left; apply exp_pos].
  assert (K : 57 <= 180 / PI <= 57.3) by (clear; split; interval). pose proof v_pos. pose proof v_small. pose proof (exp_m1 t 0.001 ltac:(lra) ltac:(lra)) as Q. apply Rabs_le_inv in Q, Bw.
  assert (Rabs (w * (180 / PI)) <= 181) by (rewrite Rabs_mult, (Rabs_pos_eq (180 / PI)) by lra; assert (Rabs w <= PI) by (apply Rabs_le; lra); pose proof (Rabs_pos w); nra).
  apply Rabs_le_inv in H1. nra.
Qed.
End Calc.
Example C115_ex : exists r, bearing (FL binary64) (Fin 52) (Fin 4) (Fin 48) (Fin 2) = Fin r /\ 0 <= r < 360.
Proof. apply (C115_bearing binary64 (proj1 C112_binary64)). Qed.
Example C115_ex_sun : fclose 2e-4 (solar_zenith NP (Fin 52) (Fin 4) (Fin 172) (Fin 12)) (solar_zenith (FL binary64) (Fin 52) (Fin 4) (Fin 172) (Fin 12)).
Proof. apply (C115_sun binary64 (proj1 C112_binary64)); try (rewrite Rabs_pos_eq; lra); lra. Qed.
