(** * Property C86: the altitude correction of specific fuel consumption *)
From Coq Require Import String List Bool ZArith QArith Qabs Qround Lia Lqa.
From Verif Require Import Str Py PropPy DataEng PropFacts P_Prop.
Import ListNotations.
Open Scope Q_scope.

(** ** Specification of rounding: nearest multiple of 1e-8, ties to the even multiple *)
Definition rounds8 (x y : Q) : Prop :=
  exists z : Z, y == inject_Z z / 100000000 /\ Qabs (x - y) <= (5 # 1000000000) /\ (Qabs (x - y) == (5 # 1000000000) -> Z.even z = true).

Lemma round_even_spec : forall x, Qabs (x - inject_Z (Qround_even x)) <= 1 # 2 /\ (Qabs (x - inject_Z (Qround_even x)) == 1 # 2 -> Z.even (Qround_even x) = true).
Proof.
  intros x. unfold Qround_even. cbv zeta. pose proof (Qfloor_le x) as L. pose proof (Qlt_floor x) as U.
  rewrite inject_Z_plus in U. change (inject_Z 1) with 1 in U. set (f := inject_Z (Qfloor x)) in *.
  destruct ((x - f) ?= 1 # 2) eqn:C.
  - apply Qeq_alt in C. destruct (Z.even (Qfloor x)) eqn:E.
    + fold f. split; [|auto]. rewrite C. cbn. lra.
    + rewrite inject_Z_plus. fold f. change (inject_Z 1) with 1. assert (H : x - (f + 1) == -(1 # 2)) by lra.
      split; [rewrite H; cbn; lra|]. intros _. rewrite Z.even_add, E. reflexivity.
  - apply Qlt_alt in C. fold f. assert (P : Qabs (x - f) == x - f) by (apply Qabs_pos; lra). rewrite P. split; [lra|intros; lra].
  - apply Qgt_alt in C. rewrite inject_Z_plus. fold f. change (inject_Z 1) with 1.
    assert (P : Qabs (x - (f + 1)) == -(x - (f + 1))) by (apply Qabs_neg; lra). rewrite P. split; [lra|intros; lra].
Qed.
Lemma round8_ok : forall x, rounds8 x (np_round8 x).
Proof.
  intros x. exists (Qround_even (x * 100000000)). unfold np_round8. destruct (round_even_spec (x * 100000000)) as [H1 H2].
  set (z := Qround_even (x * 100000000)) in *. clearbody z.
  assert (E : Qabs (x - inject_Z z / 100000000) == Qabs (x * 100000000 - inject_Z z) * (1 # 100000000)).
  { rewrite <- (Qabs_pos (1 # 100000000)) at 1 by lra. rewrite <- Qabs_Qmult. apply Qabs_wd. field. }
  split; [reflexivity|]. split.
  - rewrite E. lra.
  - intros H. apply H2. rewrite E in H. lra.
Qed.
(** specific fuel consumption at take-off, per kilonewton, from the databank row *)
Definition takeoff_ff (r : engrec) : Q := fst (fst (fst (en_ff r))).
Theorem C86_correction_factor : forall d name e, engine d name = inr e ->
  (en_cr_sfc (er_row e) = None -> er_fuel_ch e = Some 6.7e-7) /\
  (forall sfc mt alt, en_cr_sfc (er_row e) = Some sfc -> en_max_thrust (er_row e) = Some mt -> en_cr_alt (er_row e) = Some alt ->
    0 < mt -> 0 < alt ->
    exists c, er_fuel_ch e = Some c /\ rounds8 ((sfc - takeoff_ff (er_row e) * 1000 / mt) / (alt * 0.3048)) c /\
    (* consumption at the cruise altitude of the databank, predicted from take-off *)
    Qabs (sfc - (takeoff_ff (er_row e) * 1000 / mt + c * (alt * 0.3048))) <= (5 # 1000000000) * (alt * 0.3048)).
Proof.
  intros d name e H. unfold engine in H. cbv zeta in H. destruct (filter _ _) as [|r t]; [discriminate|]. injection H as <-.
  cbn [er_row er_fuel_ch]. unfold fuel_ch. split.
  - intros ->. reflexivity.
  - intros sfc mt alt -> -> -> M A. unfold takeoff_ff. destruct (en_ff r) as [[[ff a] b] c]. cbn [fst]. cbv zeta.
    set (y := (sfc - ff * 1000 / mt) / (alt * 0.3048)).
    assert (E : (sfc - ff / (mt / 1000)) / (alt * 0.3048) == y) by (unfold y; field; lra).
    eexists. split; [reflexivity|].
    assert (R : rounds8 y (np_round8 ((sfc - ff / (mt / 1000)) / (alt * 0.3048)))).
    { destruct (round8_ok ((sfc - ff / (mt / 1000)) / (alt * 0.3048))) as (z & H1 & H2 & H3). exists z.
      assert (X : (sfc - ff / (mt / 1000)) / (alt * 0.3048) - np_round8 ((sfc - ff / (mt / 1000)) / (alt * 0.3048)) ==
        y - np_round8 ((sfc - ff / (mt / 1000)) / (alt * 0.3048))) by (rewrite E at 1; reflexivity).
      split; [exact H1|]. split; [rewrite <- X; exact H2|intros H; apply H3; rewrite X; exact H]. }
    split; [exact R|]. destruct R as (z & _ & R & _). set (q := np_round8 _) in *. clearbody q.
    assert (P : sfc - (ff * 1000 / mt + q * (alt * 0.3048)) == (y - q) * (alt * 0.3048)) by (unfold y; field; lra).
    rewrite P, Qabs_Qmult, (Qabs_pos (alt * 0.3048)) by lra. apply Qmult_le_compat_r; [exact R|lra].
Qed.
(** on the shipped databank the factor is always a number, between 1e-7 and 1e-6: consumption per newton grows with altitude *)
Lemma fuel_ch_checked : forallb (fun r => match fuel_ch r with Some c => Qle_bool 1e-7 c && Qle_bool c 1e-6 | None => false end) shipped_engines = true.
Proof. vm_compute. reflexivity. Qed.
Theorem C86_positive_on_shipped_data : forall d, ships d -> forall name e, engine d name = inr e ->
  exists c, er_fuel_ch e = Some c /\ 1e-7 <= c <= 1e-6.
Proof.
  intros d S name e H. unfold engine in H. cbv zeta in H. rewrite (sh_engines d S) in H.
  destruct (filter _ _) as [|r t] eqn:E; [discriminate|]. injection H as <-. cbn [er_fuel_ch].
  assert (I : In r shipped_engines).
  { eapply proj1. apply filter_In. rewrite E. left. reflexivity. }
  pose proof fuel_ch_checked as F. rewrite forallb_forall in F. specialize (F r I). destruct (fuel_ch r) as [c|]; [|discriminate].
  apply andb_prop in F. destruct F as [F1 F2]. apply Qle_bool_iff in F1, F2. eauto.
Qed.
Example C86_ex : exists e, engine shipped0 "CFM56-5B4" = inr e /\ er_fuel_ch e <> None /\ en_cr_sfc (er_row e) <> None /\
  exists e', engine shipped0 "CFM56-5B6" = inr e' /\ er_fuel_ch e' = Some 6.7e-7.
Proof.
  vm_compute. eexists. split; [reflexivity|]. split; [discriminate|]. split; [discriminate|]. eexists. split; reflexivity.
Qed.
