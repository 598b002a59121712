(** * Properties C102 and C103: fuel flow of the BADA4 add-on (with the attribute [sci] present) *)
From Coq Require Import String List Bool Arith Lia.
From Coq Require Import Reals Lra Psatz.
From Verif Require Import Num NumFacts SpecNum Py Aero AeroFacts GeoFacts Nd NdFacts Bada4 Bada4Facts P_Bada4 P_Bada4Drag P_Bada4Thr.
Import ListNotations.
Open Scope list_scope.
Open Scope R_scope.

(** ** Specification *)
(** fuel flow for a fuel coefficient: reference weight times speed of sound over heating value, scaled with the air *)
Definition flow (m : b4_fuel) (d t c : R) : R := d * sqrt t * (f_mref m * 9.80665) * 340.293988 / f_lhv m * c.
(** fuel coefficient at idle *)
Definition idle_coef (m : b4_fuel) (M d : R) : R := form (f_fi m) 3 3 (pow d) (pow M).
(** fuel coefficient for a thrust *)
Definition power_coef (m : b4_fuel) (M d thr : R) : R := form (f_f m) 5 5 (pow (thr / (d * f_mref m * 9.80665))) (pow M).
(** sine of the flight-path angle for a horizontal and a vertical speed *)
Definition sine (v w s : R) : Prop := (v = 0 /\ w = 0 /\ s = 0) \/ ((v <> 0 \/ w <> 0) /\ s = w / sqrt (v * v + w * w)).
(** as many coefficients as the model needs, a drag model, a positive reference mass and heating value *)
Definition complete_fuel (m : b4_fuel) : Prop :=
  length (f_fi m) = 9%nat /\ length (f_f m) = 25%nat /\ usable_drag (f_drag m) /\ 0 < f_mref m /\ 0 < f_lhv m.
(** what the methods give for numbers *)
Definition idles (m : b4_fuel) (tas alt : R) (x : ext) : Prop := b4_ff_idle m (num_arg (Fin tas)) (num_arg (Fin alt)) = num_arg x.
Definition burns (m : b4_fuel) (mass tas alt vs : R) (x : ext) : Prop :=
  b4_ff_enroute m (num_arg (Fin mass)) (num_arg (Fin tas)) (num_arg (Fin alt)) (Some (num_arg (Fin vs))) = num_arg x.

(** ** Lemmas *)
Lemma sine_spec : forall tas vs s, sine (tas * 0.514444) (vs * 0.00508) s -> s = sin (Ratan2 (vs * fpm) (tas * kts)).
Proof.
  intros tas vs s [[Hv [Hw ->]]|[H ->]]; unfold fpm, kts.
  - rewrite Hv, Hw. unfold Ratan2. destruct (Rlt_dec 0 0); [lra|]. destruct (Rlt_dec 0 0); [lra|]. destruct (Rlt_dec 0 0); [lra|]. destruct (Rlt_dec 0 0); [lra|]. rewrite sin_0. reflexivity.
  - set (w := vs * 0.00508) in *. set (v := tas * 0.514444) in *. destruct (Ratan2_polar w v) as [_ E]. unfold hyp in E.
    assert (0 < sqrt (v * v + w * w)).
    { apply sqrt_lt_R0. destruct H as [H|H]; apply Rsqr_pos_lt in H; unfold Rsqr in H; pose proof (Rle_0_sqr v); pose proof (Rle_0_sqr w); unfold Rsqr in *; lra. }
    rewrite <- E at 1. field. lra.
Qed.
Lemma sine_ex : forall v w, exists s, sine v w s.
Proof.
  intros v w. destruct (Req_dec v 0) as [->|Hv]; [|exists (w / sqrt (v * v + w * w)); right; auto].
  destruct (Req_dec w 0) as [->|Hw]; [exists 0; left; auto|exists (w / sqrt (0 * 0 + w * w)); right; auto].
Qed.
Lemma calc_fin : forall m d t c, 0 < t -> f_lhv m <> 0 -> calc_row m (Fin d) (Fin t) (Fin c) = Fin (flow m d t c).
Proof.
  intros m d t c Ht Hl. unfold calc_row, flow. rewrite epower_fin by assumption. cbn [emul]. f_equal.
  replace 0.5 with (/ 2) by (qr; lra). rewrite Rpower_sqrt by assumption. unfold g0, a0. field. assumption.
Qed.
Lemma ratios_t : forall alt d t a, ratios alt d t a -> 0 < d /\ 0 < t /\ 0 < a.
Proof.
  intros alt d t a (E1 & E2 & E3). rewrite pressure_NP in E1. rewrite temperature_NP in E2. rewrite vsound_NP in E3.
  injection E1 as E1. injection E2 as E2. injection E3 as E3. pose proof (pR_pos (alt * 0.3048) 0). pose proof (tR_pos (alt * 0.3048) 0). pose proof (aR_pos (alt * 0.3048) 0).
  rewrite E1 in *. rewrite E2 in *. rewrite E3 in *. repeat split; [lra| |lra]. apply Rmult_lt_reg_r with 288.15; qr; lra.
Qed.
Lemma idle_num : forall m tas alt, f_lhv m <> 0 -> length (f_fi m) = 9%nat -> b4_ff_idle m (num_arg tas) (num_arg alt) = num_arg (ff_idle_row m tas alt).
Proof.
  intros m tas alt Hl L. pose proof (ff_idle_isc 1 (le_n 1) m _ _ _ _ Hl L (num_isc 1 tas) (num_isc 1 alt)) as K.
  unfold b4_ff_idle in *. cbv zeta in *. apply one_row in K. exact K.
Qed.
Lemma enroute_num : forall m mass tas alt vs, f_lhv m <> 0 -> length (f_fi m) = 9%nat -> length (f_f m) = 25%nat -> (15 <= length (d_d (f_drag m)))%nat ->
  b4_ff_enroute m (num_arg mass) (num_arg tas) (num_arg alt) (Some (num_arg vs)) = num_arg (ff_row m mass tas alt vs).
Proof.
  intros m mass tas alt vs Hl L1 L2 L3.
  pose proof (ff_isc 1 (le_n 1) m _ _ _ (Some (num_arg vs)) _ _ _ _ Hl L1 L2 L3 (num_isc 1 mass) (num_isc 1 tas) (num_isc 1 alt) (num_isc 1 vs)) as K.
  unfold b4_ff_enroute in *. cbv zeta in *. apply one_row in K. exact K.
Qed.
Lemma enroute_num0 : forall m mass tas alt, f_lhv m <> 0 -> length (f_fi m) = 9%nat -> length (f_f m) = 25%nat -> (15 <= length (d_d (f_drag m)))%nat ->
  b4_ff_enroute m (num_arg mass) (num_arg tas) (num_arg alt) None = num_arg (ff_row m mass tas alt (Fin 0)).
Proof.
  intros m mass tas alt Hl L1 L2 L3.
  pose proof (ff_isc 1 (le_n 1) m _ _ _ None _ _ _ _ Hl L1 L2 L3 (num_isc 1 mass) (num_isc 1 tas) (num_isc 1 alt) (num_isc 1 (Fin 0))) as K.
  unfold b4_ff_enroute in *. cbv zeta in *. apply one_row in K. exact K.
Qed.
Lemma idle_row_flow : forall m tas alt d t a, f_lhv m <> 0 -> ratios alt d t a ->
  ff_idle_row m (Fin tas) (Fin alt) = Fin (flow m d t (idle_coef m (tas * 0.514444 / a) d)).
Proof.
  intros m tas alt d t a Hl A. pose proof (ratios_t _ _ _ _ A) as (_ & Ht & _). apply ratios_unique in A. destruct A as (E1 & E2 & _ & ->).
  unfold ff_idle_row. rewrite E1, E2, mach_fin, !epowi_fun, poly_fin. apply calc_fin; assumption.
Qed.

(** ** C103 *)
Theorem C103_idle : forall m tas alt d t a x, complete_fuel m -> ratios alt d t a ->
  (idles m tas alt x <-> x = Fin (flow m d t (idle_coef m (tas * 0.514444 / a) d))).
Proof.
  intros m tas alt d t a x (L1 & L2 & U & Hm & Hl) A. unfold idles. rewrite idle_num by (auto; lra). rewrite (idle_row_flow m tas alt d t a) by (auto; lra).
  split; [intros E; apply num_inj in E; auto|intros ->; reflexivity].
Qed.
(** In level flight, climb and descents up to 250 ft/min: the fuel for the thrust that balances drag and weight. *)
Theorem C103_enroute : forall m mass tas alt vs d t a D s x, complete_fuel m -> 0 <= tas -> -250 <= vs -> ratios alt d t a ->
  clean_of (f_drag m) mass tas alt (Fin D) -> sine (tas * 0.514444) (vs * 0.00508) s ->
  (burns m mass tas alt vs x <-> x = Fin (flow m d t (power_coef m (tas * 0.514444 / a) d (D + mass * 9.80665 * s)))).
Proof.
  intros m mass tas alt vs d t a D s x (L1 & L2 & U & Hm & Hl) Hv Hvs A HD Hs. unfold burns. rewrite enroute_num by (auto; try lra; apply U).
  unfold clean_of in HD. rewrite clean_num in HD by apply U. apply num_inj in HD. apply sine_spec in Hs.
  pose proof (ratios_t _ _ _ _ A) as (Hd & Ht & _). apply ratios_unique in A. destruct A as (E1 & E2 & _ & ->).
  assert (E : ff_row m (Fin mass) (Fin tas) (Fin alt) (Fin vs) = Fin (flow m d t (power_coef m (tas * 0.514444 / aR (alt * ft) 0) d (D + mass * 9.80665 * s)))).
  { unfold ff_row. cbn [egt]. rewrite Rltb_false by lra. cbn [ewhere]. unfold ct_row. rewrite HD, E1, E2, mach_fin. cbn [emul eatan2 elift eadd]. rewrite <- Hs.
    rewrite ediv_fin. 2:{ apply Rgt_not_eq. apply Rmult_lt_0_compat; [apply Rmult_lt_0_compat; auto|unfold g0; qr; lra]. }
    rewrite !epowi_fun, poly_fin. rewrite calc_fin by (auto; lra). reflexivity. }
  rewrite E. split; [intros Q; apply num_inj in Q; auto|intros ->; reflexivity].
Qed.
(** In faster descents: the fuel at idle, whatever the mass. *)
Theorem C103_descent : forall m mass tas alt vs x, complete_fuel m -> vs < -250 -> (burns m mass tas alt vs x <-> idles m tas alt x).
Proof.
  intros m mass tas alt vs x (L1 & L2 & U & Hm & Hl) Hvs. unfold burns, idles. rewrite enroute_num by (auto; try lra; apply U). rewrite idle_num by (auto; lra).
  unfold ff_row. cbn [egt]. rewrite Rltb_true by lra. cbn [ewhere]. reflexivity.
Qed.
(** Without a vertical rate: as in level flight. *)
Theorem C103_default : forall m mass tas alt x, complete_fuel m ->
  (b4_ff_enroute m (num_arg (Fin mass)) (num_arg (Fin tas)) (num_arg (Fin alt)) None = num_arg x <-> burns m mass tas alt 0 x).
Proof.
  intros m mass tas alt x (L1 & L2 & U & Hm & Hl). unfold burns. rewrite enroute_num, enroute_num0 by (auto; try lra; apply U). reflexivity.
Qed.
(** Every call with numbers and a non-negative speed gives a finite number. *)
Theorem C103_finite : forall m mass tas alt vs, complete_fuel m -> 0 <= tas ->
  (exists x, idles m tas alt x /\ finite x) /\ (exists x, burns m mass tas alt vs x /\ finite x).
Proof.
  intros m mass tas alt vs C Hv. destruct (ratios_ex alt) as (d & t & a & A & _).
  assert (I1 : exists x, idles m tas alt x /\ finite x).
  { eexists. split; [apply (C103_idle m tas alt d t a _ C A); reflexivity|eexists; reflexivity]. }
  split; [exact I1|]. destruct (Rlt_dec vs (-250)) as [L|L].
  - destruct I1 as (x & E & F). exists x. split; auto. apply C103_descent; auto.
  - destruct (sine_ex (tas * 0.514444) (vs * 0.00508)) as (s & Hs). pose proof C as (_ & _ & U & _).
    pose proof (proj2 (C100_drag (f_drag m) mass tas alt _ _ _ U Hv (conj (density_NP _ _) (vsound_NP _ _))) eq_refl) as DD.
    eexists. split; [|eexists; reflexivity]. apply (C103_enroute m mass tas alt vs d t a _ s _ C Hv ltac:(lra) A DD Hs). reflexivity.
Qed.
(** A heating value of zero raises. *)
Theorem C103_no_heat : forall m tas alt, length (f_fi m) = 9%nat -> f_lhv m = 0 -> b4_ff_idle m (num_arg tas) (num_arg alt) = inl ZeroDivisionError.
Proof.
  intros m tas alt L Hl. unfold b4_ff_idle. cbn [num_arg col]. unfold matrix. rewrite L. unfold b4_calc_fuel. destruct (Req_EM_T (f_lhv m) 0); [|contradiction]. reflexivity.
Qed.
Lemma total_le : forall n f g, (forall i, (i < n)%nat -> f i <= g i) -> total n f <= total n g.
Proof.
  intros n f g H. unfold total. assert (G : forall l, (forall i, In i l -> f i <= g i) -> fold_right Rplus 0 (map f l) <= fold_right Rplus 0 (map g l)).
  { induction l as [|x l IH]; intros Hl; cbn [map fold_right]; [lra|]. pose proof (Hl x (or_introl eq_refl)). pose proof (IH (fun i Hi => Hl i (or_intror Hi))). lra. }
  apply G. intros i Hi. apply in_seq in Hi. apply H. lia.
Qed.
Lemma power_coef_incr : forall m M d thr thr', (forall i, 0 <= nth i (f_f m) 0) -> 0 <= M -> 0 < d -> 0 < f_mref m -> 0 <= thr <= thr' -> power_coef m M d thr <= power_coef m M d thr'.
Proof.
  intros m M d thr thr' Hf HM Hd Hr Ht. unfold power_coef, form. apply total_le. intros i _. apply total_le. intros j _.
  assert (P : 0 < d * f_mref m * 9.80665) by (apply Rmult_lt_0_compat; [apply Rmult_lt_0_compat; auto|qr; lra]).
  assert (Pi : 0 < / (d * f_mref m * 9.80665)) by (apply Rinv_0_lt_compat; auto).
  apply Rmult_le_compat_r; [apply pow_le; auto|]. apply Rmult_le_compat_l; auto. apply pow_incr. unfold Rdiv. split; [apply Rmult_le_pos; lra|apply Rmult_le_compat_r; lra].
Qed.
Lemma flow_incr : forall m d t c c', 0 < d -> 0 < t -> 0 < f_mref m -> 0 < f_lhv m -> c <= c' -> flow m d t c <= flow m d t c'.
Proof.
  intros m d t c c' Hd Ht Hm Hl Hc. unfold flow. apply Rmult_le_compat_l; auto. assert (0 < sqrt t) by (apply sqrt_lt_R0; auto).
  left. repeat apply Rmult_lt_0_compat; auto; try (qr; lra). apply Rinv_0_lt_compat; auto.
Qed.
Lemma sine_sign : forall v w s, 0 <= w -> sine v w s -> 0 <= s.
Proof.
  intros v w s Hw [(_ & _ & ->)|(H & ->)]; [lra|]. apply Rmult_le_pos; auto. left. apply Rinv_0_lt_compat. apply sqrt_lt_R0.
  destruct H as [H|H]; apply Rsqr_pos_lt in H; unfold Rsqr in H; pose proof (Rle_0_sqr v); pose proof (Rle_0_sqr w); unfold Rsqr in *; lra.
Qed.
Lemma sine_incr : forall v w w' s s', 0 < v -> 0 <= w <= w' -> sine v w s -> sine v w' s' -> s <= s'.
Proof.
  intros v w w' s s' Hv Hw [(? & _)|(_ & ->)] [(? & _)|(_ & ->)]; try lra.
  assert (P : 0 < sqrt (v * v + w * w)) by (apply sqrt_lt_R0; nra). assert (P' : 0 < sqrt (v * v + w' * w')) by (apply sqrt_lt_R0; nra).
  apply Rmult_le_reg_r with (sqrt (v * v + w * w) * sqrt (v * v + w' * w')); [apply Rmult_lt_0_compat; auto|].
  replace (w / sqrt (v * v + w * w) * (sqrt (v * v + w * w) * sqrt (v * v + w' * w'))) with (w * sqrt (v * v + w' * w')) by (field; lra).
  replace (w' / sqrt (v * v + w' * w') * (sqrt (v * v + w * w) * sqrt (v * v + w' * w'))) with (w' * sqrt (v * v + w * w)) by (field; lra).
  apply Rsqr_incr_0; try (apply Rmult_le_pos; lra). rewrite !Rsqr_mult, !Rsqr_sqrt by nra. unfold Rsqr.
  assert (w * w <= w' * w') by nra. assert (0 <= (w' * w' - w * w) * (v * v)) by (apply Rmult_le_pos; nra). lra.
Qed.
(** With non-negative coefficients, a heavier aircraft does not burn less in level flight and climb, ... *)
Theorem C103_mass_monotone : forall m mass mass' tas alt vs x x', complete_fuel m -> (forall i, 0 <= nth i (f_f m) 0) ->
  0 <= d_scalar (f_drag m) -> 0 <= d_S (f_drag m) -> (forall i, 0 <= co (f_drag m) i) -> 0 <= tas -> 0 <= vs -> 0 <= mass <= mass' ->
  burns m mass tas alt vs x -> burns m mass' tas alt vs x' -> fle x x'.
Proof.
  intros m mass mass' tas alt vs x x' C Hf Hk HS Hc Hv Hvs Hm E E'. pose proof C as (_ & _ & U & Hr & Hl).
  destruct (ratios_ex alt) as (d & t & a & A & Hd & Ht & Ha). destruct (sine_ex (tas * 0.514444) (vs * 0.00508)) as (s & Hs).
  pose proof (fun ms => proj2 (C100_drag (f_drag m) ms tas alt _ _ _ U Hv (conj (density_NP _ _) (vsound_NP _ _))) eq_refl) as DD.
  pose proof (C100_mass_monotone _ _ _ _ _ _ _ U Hk HS Hc Hv Hm (DD mass) (DD mass')) as DM. cbn in DM.
  pose proof (C100_nonnegative _ _ _ _ _ U Hk HS Hc Hv (proj1 Hm) (DD mass)) as D0. cbn in D0.
  assert (V0 : -250 <= vs) by lra.
  apply (C103_enroute m _ _ _ _ _ _ _ _ _ _ C Hv V0 A (DD mass) Hs) in E. apply (C103_enroute m _ _ _ _ _ _ _ _ _ _ C Hv V0 A (DD mass') Hs) in E'.
  subst. cbn. apply flow_incr; auto. apply sine_sign in Hs; [|qr; lra].
  apply power_coef_incr; auto; [apply Rmult_le_pos; [qr; lra|left; apply Rinv_0_lt_compat; auto]|].
  assert (0 <= mass * 9.80665 * s <= mass' * 9.80665 * s). { split; [apply Rmult_le_pos; auto; qr; lra|apply Rmult_le_compat_r; auto; qr; lra]. }
  lra.
Qed.
(** ... and a steeper climb does not burn less. *)
Theorem C103_climb_monotone : forall m mass tas alt vs vs' x x', complete_fuel m -> (forall i, 0 <= nth i (f_f m) 0) ->
  0 <= d_scalar (f_drag m) -> 0 <= d_S (f_drag m) -> (forall i, 0 <= co (f_drag m) i) -> 0 < tas -> 0 <= vs <= vs' -> 0 <= mass ->
  burns m mass tas alt vs x -> burns m mass tas alt vs' x' -> fle x x'.
Proof.
  intros m mass tas alt vs vs' x x' C Hf Hk HS Hc Hv Hvs Hm E E'. pose proof C as (_ & _ & U & Hr & Hl).
  destruct (ratios_ex alt) as (d & t & a & A & Hd & Ht & Ha).
  destruct (sine_ex (tas * 0.514444) (vs * 0.00508)) as (s & Hs). destruct (sine_ex (tas * 0.514444) (vs' * 0.00508)) as (s' & Hs').
  pose proof (proj2 (C100_drag (f_drag m) mass tas alt _ _ _ U (Rlt_le _ _ Hv) (conj (density_NP _ _) (vsound_NP _ _))) eq_refl) as DD.
  pose proof (C100_nonnegative _ _ _ _ _ U Hk HS Hc (Rlt_le _ _ Hv) Hm DD) as D0. cbn in D0.
  assert (V0 : -250 <= vs) by lra. assert (V1 : -250 <= vs') by lra.
  apply (C103_enroute m _ _ _ _ _ _ _ _ _ _ C (Rlt_le _ _ Hv) V0 A DD Hs) in E. apply (C103_enroute m _ _ _ _ _ _ _ _ _ _ C (Rlt_le _ _ Hv) V1 A DD Hs') in E'.
  subst. cbn. apply flow_incr; auto. pose proof (sine_incr (tas * 0.514444) (vs * 0.00508) (vs' * 0.00508) s s' ltac:(qr; lra) ltac:(qr; lra) Hs Hs') as Si. apply sine_sign in Hs; [|qr; lra].
  apply power_coef_incr; auto; [apply Rmult_le_pos; [qr; lra|left; apply Rinv_0_lt_compat; auto]|].
  assert (0 <= mass * 9.80665 * s <= mass * 9.80665 * s').
  { split; [apply Rmult_le_pos; auto; qr; lra|apply Rmult_le_compat_l; auto; qr; lra]. }
  lra.
Qed.

(** ** C102, fuel: points of a trajectory *)
Theorem C102_fuel : forall m n mass tas alt vs fm fv fa fs, f_lhv m <> 0 -> length (f_fi m) = 9%nat -> length (f_f m) = 25%nat -> (15 <= length (d_d (f_drag m)))%nat -> (1 < n)%nat ->
  argument n mass fm -> argument n tas fv -> argument n alt fa -> argument n vs fs ->
  (~ (is_number tas /\ is_number alt) -> exists f, column_of n (b4_ff_idle m tas alt) f /\
    forall i, (i < n)%nat -> b4_ff_idle m (num_arg (fv i)) (num_arg (fa i)) = num_arg (f i)) /\
  (~ (is_number mass /\ is_number tas /\ is_number alt /\ is_number vs) -> exists f, column_of n (b4_ff_enroute m mass tas alt (Some vs)) f /\
    forall i, (i < n)%nat -> b4_ff_enroute m (num_arg (fm i)) (num_arg (fv i)) (num_arg (fa i)) (Some (num_arg (fs i))) = num_arg (f i)).
Proof.
  intros m n mass tas alt vs fm fv fa fs Hl L1 L2 L3 Hn K1 K2 K3 K4.
  destruct (arg_isc n _ _ ltac:(lia) K1) as (b1 & I1 & N1). destruct (arg_isc n _ _ ltac:(lia) K2) as (b2 & I2 & N2).
  destruct (arg_isc n _ _ ltac:(lia) K3) as (b3 & I3 & N3). destruct (arg_isc n _ _ ltac:(lia) K4) as (b4 & I4 & N4). split; intros N.
  - exists (fun i => ff_idle_row m (fv i) (fa i)). split; [|intros i Hi; apply idle_num; assumption].
    replace (b4_ff_idle m tas alt) with (b4_ff_idle m (col tas) (col alt)) by (unfold b4_ff_idle; rewrite !col_idem; reflexivity).
    pose proof (ff_idle_isc n ltac:(lia) m _ _ _ _ Hl L1 I2 I3) as K. cbn [fst snd] in K. unfold b4_ff_idle in *. cbv zeta in *. apply (points n _ _ _ Hn K).
    destruct b2; [reflexivity|]. destruct b3; [reflexivity|]. exfalso. apply N.
    destruct (N2 eq_refl) as (e2 & E2 & _), (N3 eq_refl) as (e3 & E3 & _). split; eexists; eassumption.
  - exists (fun i => ff_row m (fm i) (fv i) (fa i) (fs i)). split; [|intros i Hi; apply enroute_num; assumption].
    replace (b4_ff_enroute m mass tas alt (Some vs)) with (b4_ff_enroute m (col mass) (col tas) (col alt) (Some (col vs))) by (unfold b4_ff_enroute; rewrite !col_idem; reflexivity).
    pose proof (ff_isc n ltac:(lia) m _ _ _ (Some (col vs)) _ _ _ _ Hl L1 L2 L3 I1 I2 I3 I4) as K. cbn [fst snd] in K. unfold b4_ff_enroute in *. cbv zeta in *. apply (points n _ _ _ Hn K).
    destruct b1; [reflexivity|]. destruct b2; [reflexivity|]. destruct b3; [reflexivity|]. destruct b4; [reflexivity|]. exfalso. apply N.
    destruct (N1 eq_refl) as (e1 & E1 & _), (N2 eq_refl) as (e2 & E2 & _), (N3 eq_refl) as (e3 & E3 & _), (N4 eq_refl) as (e4 & E4 & _). repeat split; eexists; eassumption.
Qed.

(** ** Examples *)
(** fuel coefficient equal to the thrust coefficient, 0.05 at idle *)
Definition fm1 : b4_fuel := mkB4f m1 d1 60000 (0 :: 1 :: repeat 0 23) (0.05 :: repeat 0 8) 43e6.
Lemma fm1_complete : complete_fuel fm1.
Proof. split; [reflexivity|]. split; [reflexivity|]. split; [apply C100_ex|]. split; cbn; qr; lra. Qed.
Lemma fm1_coef : forall M d thr, power_coef fm1 M d thr = thr / (d * 60000 * 9.80665) /\ idle_coef fm1 M d = 0.05.
Proof.
  intros M d thr. unfold power_coef, idle_coef, form, total. cbn [f_f f_fi fm1 f_mref seq map fold_right Nat.mul Nat.add nth repeat].
  rewrite ?Rmult_0_l, ?Rplus_0_l, ?Rplus_0_r. cbn [pow]. split; ring.
Qed.
(** The fuel flow with power is not bounded below by the idle one: an aircraft at rest. *)
Theorem C103_floor_refuted : exists m mass tas alt vs x y, complete_fuel m /\ (forall i, 0 <= nth i (f_f m) 0) /\ 0 <= tas /\ 0 <= vs /\
  burns m mass tas alt vs x /\ idles m tas alt y /\ flt x y.
Proof.
  destruct (ratios_ex 0) as (d & t & a & A & Hd & Ht & Ha). exists fm1, 60000, 0, 0, 0. eexists. eexists. split; [exact fm1_complete|].
  split. { intros i. cbn [f_f fm1]. do 25 (destruct i as [|i]; [cbn; lra|]). destruct i; cbn; lra. }
  split; [lra|]. split; [lra|].
  assert (D0 : clean_of (f_drag fm1) 60000 0 0 (Fin 0)).
  { pose proof (proj2 (C100_drag d1 60000 0 0 _ _ _ (proj1 C100_ex) (Rle_refl 0) (conj (density_NP _ _) (vsound_NP _ _))) eq_refl) as E.
    pose proof (C100_rest _ _ _ _ (proj1 C100_ex) E) as Q. rewrite Q in E. exact E. }
  assert (S0 : sine (0 * 0.514444) (0 * 0.00508) 0) by (left; repeat split; ring).
  split; [apply (C103_enroute fm1 60000 0 0 0 d t a 0 0 _ fm1_complete (Rle_refl 0) ltac:(lra) A D0 S0); reflexivity|].
  split; [apply (C103_idle fm1 0 0 d t a _ fm1_complete A); reflexivity|].
  cbn [flt]. destruct (fm1_coef (0 * 0.514444 / a) d (0 + 60000 * 9.80665 * 0)) as [-> ->]. unfold flow. cbn [f_mref f_lhv fm1].
  replace ((0 + 60000 * 9.80665 * 0) / (d * 60000 * 9.80665)) with 0 by (unfold Rdiv; ring).
  assert (0 < sqrt t) by (apply sqrt_lt_R0; auto). rewrite Rmult_0_r. repeat apply Rmult_lt_0_compat; auto; qr; lra.
Qed.
(** Fuel flow jumps at a descent of 250 ft/min. *)
Theorem C103_jump : exists m mass tas alt x y, complete_fuel m /\ 0 <= tas /\ 0 < mass /\ burns m mass tas alt (-250) x /\ (forall vs, vs < -250 -> burns m mass tas alt vs y) /\ flt x y.
Proof.
  destruct (ratios_ex 0) as (d & t & a & A & Hd & Ht & Ha). exists fm1, 60000, 0, 0. eexists. eexists. split; [exact fm1_complete|]. split; [lra|]. split; [lra|].
  assert (D0 : clean_of (f_drag fm1) 60000 0 0 (Fin 0)).
  { pose proof (proj2 (C100_drag d1 60000 0 0 _ _ _ (proj1 C100_ex) (Rle_refl 0) (conj (density_NP _ _) (vsound_NP _ _))) eq_refl) as E.
    pose proof (C100_rest _ _ _ _ (proj1 C100_ex) E) as Q. rewrite Q in E. exact E. }
  assert (S0 : sine (0 * 0.514444) (-250 * 0.00508) (-1)).
  { right. split; [right; qr; lra|]. replace (0 * 0.514444 * (0 * 0.514444) + -250 * 0.00508 * (-250 * 0.00508)) with (1.27 * 1.27) by (qr; lra). rewrite sqrt_square by (qr; lra). replace (-250 * 0.00508) with (-(1.27)) by (qr; lra). field. qr; lra. }
  split; [apply (C103_enroute fm1 60000 0 0 (-250) d t a 0 (-1) _ fm1_complete (Rle_refl 0) ltac:(lra) A D0 S0); reflexivity|].
  split; [intros vs Hvs; apply (C103_descent fm1 60000 0 0 vs _ fm1_complete Hvs); apply (C103_idle fm1 0 0 d t a _ fm1_complete A); reflexivity|].
  cbn [flt]. destruct (fm1_coef (0 * 0.514444 / a) d (0 + 60000 * 9.80665 * -1)) as [-> ->]. unfold flow. cbn [f_mref f_lhv fm1].
  replace ((0 + 60000 * 9.80665 * -1) / (d * 60000 * 9.80665)) with (- / d) by (field; split; [qr; lra|lra]).
  assert (0 < sqrt t) by (apply sqrt_lt_R0; auto). apply Rmult_lt_compat_l; [repeat apply Rmult_lt_0_compat; auto; qr; lra|]. pose proof (Rinv_0_lt_compat d Hd). qr; lra.
Qed.
Example C103_ex : exists x y, burns fm1 60000 450 35000 0 x /\ finite x /\ idles fm1 450 35000 y /\ finite y /\ burns fm1 50000 450 35000 (-1500) y.
Proof.
  destruct (C103_finite fm1 60000 450 35000 0 fm1_complete ltac:(lra)) as ((y & Iy & Fy) & (x & Bx & Fx)). exists x, y.
  repeat (split; [assumption|]). apply (C103_descent fm1 50000 450 35000 (-1500) y fm1_complete); [lra|exact Iy].
Qed.
