(** * Properties C82 and C83: how one generated row follows from the previous one, how long the level
    parts last, and which numbers the generator flies by *)
From Coq Require Import Reals List Bool ZArith Lra Lia Psatz.
From Interval Require Import Tactic.
From Verif Require Import Num NumFacts SpecNum Aero AeroFacts AeroFacts2 AeroFacts3 AeroFacts4 Fuel Phase PhaseFacts Gen GenFacts GenFacts2 P_Gen P_Gen2.
Import ListNotations.
Open Scope R_scope.

(** ** C82: climb *)
(** [r'] continues [r] at constant acceleration [a], except that the CAS is held at [cas] once it is reached:
    from below when [up], from above otherwise *)
Definition accelerates (up : bool) (a dt cas : R) (r r' : rrow) : Prop :=
  exists c, tas2cas NP (Fin (a_v r + a * dt)) (Fin (a_h r')) (Fin 0) = Fin c /\
    let reached := if up then cas <= c else c < cas in
    (~ reached -> a_v r' = a_v r + a * dt) /\
    (reached -> tas2cas NP (Fin (a_v r')) (Fin (a_h r')) (Fin 0) = Fin cas /\ 0 <= a_v r').

(** the segment flown after a row, read off the speed of that row and the altitude reached *)
Definition climb_segment (p : cparams) (hx v h : R) : seg :=
  if Rlt_dec v (c_vtof p) then sTO else
  if Rlt_dec h (1500 * 0.3048) then sIC else
  if Rlt_dec h (c_hcas p) then sPRE else
  if Rlt_dec h hx then sCAS else
  if Rlt_dec h (c_alt p * 0.3048) then sMACH else sCR.

Lemma Rltb_dec : forall a b (A : Type) (x y : A), (if Rltb a b then x else y) = if Rlt_dec a b then x else y.
Proof. intros. destruct (Rltb_spec a b), (Rlt_dec a b); auto; lra. Qed.

Theorem C82_climb_rows : forall p fuel rows hx, valid_climb p -> climb p fuel = Some rows ->
  crossover_alt NP (Fin (c_cas p * kts)) (Fin (c_mach p)) (Fin 0) = Fin hx ->
  exists l, rows = map fin_row l /\ forall i, (S i < length l)%nat ->
    let r := at_ l i in let r' := at_ l (S i) in
    a_seg r' = Some (climb_segment p hx (a_v r) (a_h r')) /\
    (a_seg r' = Some sTO -> a_v r' = a_v r + c_atof p * c_dt p) /\
    (a_seg r' = Some sIC \/ a_seg r' = Some sPRE -> accelerates true 0.5 (c_dt p) (c_cas p * kts) r r').
Proof.
  intros p fuel rows hx V E EX. destruct (climb_states p fuel rows V E) as (m & -> & H1 & H2).
  destruct V as (V1 & V2 & V3 & V4 & V5 & V6 & V7 & V8).
  rewrite crossover_NP in EX by (apply vcas_pos; auto). apply Fin_inj in EX. change (hmachR p = hx) in EX.
  eexists. split; [reflexivity|]. rewrite map_length, seq_length. intros i Hi. cbv zeta. unfold at_.
  rewrite !nth_map_seq by lia. cbn [it]. set (x := it (climb_stepR p) i x0).
  unfold climb_stepR. rewrite EX. cbv zeta. unfold rr_of.
  assert (A : forall t h s vs sg, accelerates true 0.5 (c_dt p) (c_cas p * kts) (mkRR (z_t x) (z_h x) (z_s x) (z_v x) (z_vs x) (z_seg x))
                (mkRR t h s (accelR p (z_v x) h) vs sg)).
  { intros. unfold accelerates. cbn [a_v a_h]. eexists. rewrite tas2cas_NP. split; [reflexivity|]. cbv zeta.
    unfold accelR. fold (vcasR p). destruct (Rleb_spec (vcasR p) (t2cR (z_v x + 0.5 * c_dt p) h 0)) as [L|L].
    - split; [lra|]. intros _. rewrite tas2cas_NP, t2cR_c2tR. rewrite Rabs_right by (left; apply vcas_pos; auto).
      split; [reflexivity|apply c2tR_nonneg].
    - split; [auto|lra]. }
  unfold climb_segment. change 0.3048 with ft. fold (hcrR p).
  destruct (Rltb_spec (z_v x) (c_vtof p)) as [L1|L1]; cbn [fst z_t z_h z_s z_v z_vs z_seg a_seg a_v a_h].
  { destruct (Rlt_dec (z_v x) (c_vtof p)); [|lra]. split; auto. split; auto. intros [F|F]; discriminate. }
  destruct (Rlt_dec (z_v x) (c_vtof p)); [lra|].
  repeat match goal with |- context [Rltb ?a ?b] => let L := fresh "L" in
    destruct (Rltb_spec a b) as [L|L]; cbn [fst z_t z_h z_s z_v z_vs z_seg a_seg a_v a_h] end;
  repeat match goal with |- context [Rlt_dec ?a ?b] => destruct (Rlt_dec a b); try lra end;
  (split; [reflexivity|]; split; [discriminate|]; intros [F|F]; try discriminate; apply A).
Qed.

(** the level stretch at the end of a climb lasts a minute, up to one time step *)
Theorem C82_climb_ends_with_a_level_minute : forall p fuel rows, valid_climb p -> climb p fuel = Some rows ->
  c_vtof p <= 295 * c_mach p ->
  exists l k, rows = map fin_row l /\ (k < length l)%nat /\
    (forall i, (i < length l)%nat -> (a_seg (at_ l i) = Some sCR <-> (k <= i)%nat)) /\
    (forall i, (k <= i < length l)%nat -> a_h (at_ l i) = a_h (at_ l k) /\ a_vs (at_ l i) = 0) /\
    a_t (last_ l) - a_t (at_ l k) <= 60 < a_t (last_ l) - a_t (at_ l k) + c_dt p.
Proof.
  intros p fuel rows V E HM. destruct (climb_states p fuel rows V E) as (m & -> & H1 & H2).
  destruct V as (V1 & V2 & V3 & V4 & V5 & V6 & V7 & V8). pose proof (conj V5 (conj V6 (conj V7 V8))) as VV.
  set (st := fun i => it (climb_stepR p) i x0) in *.
  assert (T : forall i, z_t (st i) = INR i * c_dt p).
  { induction i as [|i IH]; [cbn; ring|]. unfold st. cbn [it]. fold (st i).
    destruct (step_cases p (st i)) as (Ht & _). rewrite Ht, IH, S_INR. ring. }
  (* either level flight has not been reached, or it has been flown from row k on *)
  assert (J : forall i, (z_tcr (st i) = 0 /\ forall j, (j <= i)%nat -> z_seg (st j) <> Some sCR) \/
    exists k, (0 < k <= i)%nat /\ z_tcr (st i) = INR k * c_dt p /\ (forall j, (j < k)%nat -> z_seg (st j) <> Some sCR) /\
      forall j, (k <= j <= i)%nat -> z_seg (st j) = Some sCR /\ z_h (st j) = z_h (st k) /\ z_vs (st j) = 0 /\ Lalt p <= z_h (st j) /\ c_vtof p <= z_v (st j)).
  { induction i as [|i IH].
    - left. split; [reflexivity|]. intros j Hj. replace j with 0%nat by lia. cbn. discriminate.
    - assert (Es : st (S i) = fst (climb_stepR p (st i))) by reflexivity.
      destruct (step_cases p (st i)) as (Ht & Hs & Hh & C). rewrite <- Es in *.
      destruct IH as [(Z & N)|(k & Hk & Z & N & A)].
      + destruct C as [(C1 & C2 & _ & _ & _ & C5)|[(_ & _ & _ & _ & C5 & C)|(C1 & C2 & C3 & C5 & C4 & C6 & _)]].
        * left. split; [congruence|]. intros j Hj. destruct (Nat.eq_dec j (S i)) as [->|]; [congruence|apply N; lia].
        * left. split; [congruence|]. intros j Hj. destruct (Nat.eq_dec j (S i)) as [->|]; [|apply N; lia].
          destruct C as [(-> & _)|[(-> & _)|[(-> & _)|(-> & _)]]]; discriminate.
        * right. exists (S i). rewrite Z in C6. destruct (Req_EM_T 0 0) as [_|Q]; [|lra].
          split; [lia|]. split; [rewrite C6, T; reflexivity|]. split; [intros j Hj; apply N; lia|].
          intros j Hj. replace j with (S i) by lia. rewrite Hh. unfold eff in *.
          split; [auto|]. split; [auto|]. split; [auto|]. split; [lra|].
          rewrite C5. pose proof (aR_ge (z_h (st i) + z_vs (st i) * c_dt p)). nra.
      + destruct (A i ltac:(lia)) as (A1 & A2 & A3 & A4 & A5).
        assert (Q : z_tcr (st i) <> 0).
        { rewrite Z. apply Rgt_not_eq, Rmult_lt_0_compat; auto. apply lt_0_INR. lia. }
        destruct C as [(C1 & _)|[(C1 & C2 & _)|(C1 & C2 & C3 & C5 & C4 & C6 & _)]].
        * lra.
        * unfold eff in *. rewrite A3 in *. lra.
        * right. exists k. destruct (Req_EM_T (z_tcr (st i)) 0) as [F|_]; [contradiction|].
          split; [lia|]. split; [congruence|]. split; [auto|]. intros j Hj.
          destruct (Nat.eq_dec j (S i)) as [->|]; [|apply A; lia].
          rewrite Hh. unfold eff in *. rewrite A3 in *. rewrite Rmult_0_l, Rplus_0_r in *.
          split; [auto|]. split; [auto|]. split; [auto|]. split; [auto|].
          rewrite C5. pose proof (aR_ge (z_h (st i))). nra. }
  (* the loop stops in level flight *)
  destruct (step_cases p (st m)) as (Ht & _ & _ & C). fold (st m) in H2. rewrite H2 in C.
  destruct C as [(_ & _ & _ & _ & F & _)|[(_ & _ & _ & F & _)|(C1 & C2 & _ & _ & _ & C6 & C7)]]; try discriminate.
  destruct (J m) as [(Z & N)|(k & Hk & Z & N & A)].
  { rewrite Z in C6. destruct (Req_EM_T 0 0) as [_|Q]; [|lra]. rewrite C6 in C7. rewrite Rminus_diag_eq in C7 by reflexivity.
    destruct (Rltb_spec 60 0); [lra|discriminate]. }
  exists (map (fun i => rr_of (st i)) (seq 0 (S m))), k. split; [reflexivity|]. rewrite map_length, seq_length.
  split; [lia|]. unfold last_, at_. rewrite map_length, seq_length. replace (S m - 1)%nat with m by lia.
  assert (Q : z_tcr (st m) <> 0).
  { rewrite Z. apply Rgt_not_eq, Rmult_lt_0_compat; auto. apply lt_0_INR. lia. }
  split; [|split].
  - intros i Hi. rewrite nth_map_seq by lia. cbn [rr_of a_seg]. split.
    + intros F. destruct (le_lt_dec k i) as [|L]; auto. exfalso. exact (N i L F).
    + intros L. apply A. lia.
  - intros i Hi. rewrite !nth_map_seq by lia. cbn [rr_of a_h a_vs]. destruct (A i ltac:(lia)) as (_ & B & D & _). auto.
  - rewrite !nth_map_seq by lia. cbn [rr_of a_t]. rewrite !T. split.
    + destruct (Nat.eq_dec k m) as [->|]; [lra|]. destruct m as [|m']; [lia|].
      specialize (H1 m' ltac:(lia)). fold (st m') in H1. destruct (step_cases p (st m')) as (Ht' & _ & _ & C').
      assert (Es : st (S m') = fst (climb_stepR p (st m'))) by reflexivity. rewrite <- Es in *. rewrite H1 in C'.
      destruct C' as [(F & _)|[(F0 & F1 & F2 & _)|(_ & _ & _ & _ & _ & D6 & D7)]].
      * destruct (A m' ltac:(lia)) as (_ & _ & _ & _ & A5). lra.
      * destruct (A m' ltac:(lia)) as (_ & _ & A3 & A4 & _). unfold eff in *. rewrite A3 in *. lra.
      * rewrite Z in D7. rewrite T in D7.
        destruct (Rltb_spec 60 (INR (S m') * c_dt p - INR k * c_dt p)); [discriminate|lra].
    + destruct (Req_EM_T (z_tcr (st m)) 0) as [F|_]; [contradiction|]. rewrite C6, Z, Ht, T in C7.
      destruct (Rltb_spec 60 (INR m * c_dt p + c_dt p - INR k * c_dt p)); [lra|discriminate].
Qed.

(** ** C82: descent *)
(** [t] and [h]: time and (unclipped) altitude reached *)
Definition descent_segment (p : dparams) (hx t h : R) : seg :=
  match Rlt_dec t 60, e_withcr p with
  | left _, true => sCR
  | _, _ =>
    if Rlt_dec hx h then sMACH else if Rlt_dec (e_hcas p) h then sCAS else
    if Rlt_dec (1000 * 0.3048) h then sPOST else if Rlt_dec 0 h then sFA else sLD
  end.

Theorem C82_descent_rows : forall p fuel rows hx, valid_descent p -> descent p fuel = Some rows -> 0 <= e_vapp p ->
  crossover_alt NP (Fin (e_cas p * kts)) (Fin (e_mach p)) (Fin 0) = Fin hx ->
  exists l, rows = map fin_row l /\ (0 < length l)%nat /\
    (forall i, (S i < length l)%nat ->
      let r := at_ l i in let r' := at_ l (S i) in
      a_seg r' = Some (descent_segment p hx (a_t r') (a_h r + a_vs r * e_dt p)) /\
      (a_seg r' = Some sPOST -> accelerates false (-0.2) (e_dt p) (e_vapp p) r r') /\
      (a_seg r' = Some sLD -> a_v r' = a_v r + e_alnd p * e_dt p /\ 0 < a_v r')) /\
    (* the rows end when one more step would bring the aircraft to a stop *)
    let r := last_ l in
    descent_segment p hx (a_t r + e_dt p) (a_h r + a_vs r * e_dt p) = sLD /\ a_v r + e_alnd p * e_dt p <= 0.
Proof.
  intros p fuel rows hx V E Hva EX. destruct (valid_hm p V) as [Hm Hc].
  destruct V as (V1 & V2 & V3 & V4 & V5 & V6 & V7 & V8 & V9 & V10 & V11).
  destruct (descent_states p fuel rows V3 E) as (m & -> & H1 & H2).
  rewrite crossover_NP in EX by (apply evcas_pos; auto). apply Fin_inj in EX. change (ehmachR p = hx) in EX.
  assert (Key : forall x, let x' := fst (descent_stepR p x) in
    y_seg x' = Some (descent_segment p hx (y_t x + e_dt p) (y_h x + y_vs x * e_dt p)) /\ y_t x' = y_t x + e_dt p /\
    (y_seg x' = Some sPOST -> accelerates false (-0.2) (e_dt p) (e_vapp p) (rd_of x) (rd_of x')) /\
    (y_seg x' = Some sLD -> y_v x' = y_v x + e_alnd p * e_dt p /\ snd (descent_stepR p x) = Rleb (y_v x') 0) /\
    (y_seg x' <> Some sLD -> snd (descent_stepR p x) = false)).
  { intros x. cbv zeta. unfold descent_stepR. rewrite EX. cbv zeta.
    assert (A : forall t h s vs sg, accelerates false (-0.2) (e_dt p) (e_vapp p) (rd_of x) (mkRR t h s (decelR p (y_v x) h) vs sg)).
    { intros. unfold accelerates, rd_of. cbn [a_v a_h]. eexists. rewrite tas2cas_NP. split; [reflexivity|]. cbv zeta.
      unfold decelR. destruct (Rltb_spec (t2cR (y_v x + -0.2 * e_dt p) h 0) (e_vapp p)) as [L|L].
      - split; [lra|]. intros _. rewrite tas2cas_NP, t2cR_c2tR, Rabs_right by lra.
        split; [reflexivity|apply c2tR_nonneg].
      - split; [auto|lra]. }
    unfold descent_segment. change 0.3048 with ft. 
    destruct (Rltb_spec (y_t x + e_dt p) 60) as [L|L], (e_withcr p); cbn [andb];
      repeat match goal with |- context [Rltb ?a ?b] => let L := fresh "L" in destruct (Rltb_spec a b) as [L|L] end;
      cbn [fst snd y_t y_h y_s y_v y_vs y_seg];
      repeat match goal with |- context [Rlt_dec ?a ?b] => destruct (Rlt_dec a b); try lra end;
      (split; [reflexivity|]; split; [reflexivity|]; split; [first [discriminate|intros _; apply A]|]; split;
       [first [discriminate|intros _; split; reflexivity]|]; intros F; first [reflexivity|congruence]). }
  exists (map (fun i => rd_of (it (descent_stepR p) i (y0 p))) (seq 0 (S m))). split; [reflexivity|].
  unfold last_. rewrite map_length, seq_length. split; [lia|]. replace (S m - 1)%nat with m by lia. unfold at_. split.
  - intros i Hi. cbv zeta. rewrite !nth_map_seq by lia. cbn [it]. destruct (Key (it (descent_stepR p) i (y0 p))) as (K1 & K2 & K3 & K4 & _).
    cbn [rd_of a_seg a_t a_h a_vs a_v] in *. rewrite K2. split; [exact K1|]. split; [exact K3|].
    intros F. destruct (K4 F) as [K5 K6]. split; [exact K5|]. rewrite H1 in K6 by lia.
    destruct (Rleb_spec (y_v (fst (descent_stepR p (it (descent_stepR p) i (y0 p))))) 0); [discriminate|lra].
  - cbv zeta. rewrite nth_map_seq by lia. destruct (Key (it (descent_stepR p) m (y0 p))) as (K1 & _ & _ & K4 & K5).
    cbn [rd_of a_t a_h a_vs a_v] in *. set (x := it (descent_stepR p) m (y0 p)) in *.
    destruct (descent_segment p hx (y_t x + e_dt p) (y_h x + y_vs x * e_dt p)) eqn:Es;
      try (rewrite K5 in H2 by (rewrite K1; discriminate); discriminate).
    split; auto. destruct (K4 K1) as [K6 K7]. rewrite H2, K6 in K7. destruct (Rleb_spec (y_v x + e_alnd p * e_dt p) 0); [auto|discriminate].
Qed.

(** the A320 of the shipped data *)
Example C82_ex : exists fuel l k, climb a320_climb fuel = Some (map fin_row l) /\ (k < length l)%nat /\
  a_seg (at_ l k) = Some sCR /\ 59 < a_t (last_ l) - a_t (at_ l k) <= 60.
Proof.
  destruct (C46_climb_terminates _ a320_valid) as (fuel & rows & E).
  destruct (C82_climb_ends_with_a_level_minute _ _ _ a320_valid E) as (l & k & -> & L & S & _ & T); [cbn; lra|].
  exists fuel, l, k. split; auto. split; auto. split; [apply S; auto|]. cbn [c_dt a320_climb] in T. lra.
Qed.
Example C82_ex2 : exists fuel l, descent a320_descent fuel = Some (map fin_row l) /\ a_v (last_ l) <= 1.22.
Proof.
  destruct (C49_descent_terminates _ a320_dvalid) as (fuel & rows & E).
  assert (P : 0 < e_cas a320_descent * kts) by (cbn; unfold kts; lra).
  assert (Q : 0 <= e_vapp a320_descent) by (cbn; lra).
  destruct (C82_descent_rows _ _ _ _ a320_dvalid E Q (crossover_NP _ _ _ P)) as (l & -> & _ & _ & _ & T).
  exists fuel, l. split; auto. cbn [e_dt e_alnd a320_descent] in T. lra.
Qed.

(** ** C83: which numbers the generator flies by *)
(** [v] is the keyword's value if it was given, else [dflt] *)
Definition chosen {A : Type} (kw : option A) (dflt v : A) : Prop :=
  (forall x, kw = Some x -> v = x) /\ (kw = None -> v = dflt).
(** [fl] is a multiple of a hundred feet nearest to [a] *)
Definition flight_level (a fl : R) : Prop := (exists z : Z, fl = 100 * IZR z) /\ Rabs (fl - a) <= 50.

Lemma chosen_getkw : forall A (o : option A) d, chosen o d (getkw o d).
Proof. intros. destruct o; split; cbn; intros; congruence. Qed.
Lemma py_round_within : forall x, Rabs (IZR (py_round x) - x) <= 1 / 2.
Proof.
  intros x. unfold py_round. destruct (base_Int_part x) as [B1 B2]. set (n := Int_part x) in *.
  destruct (Rltb_spec (x - IZR n) (1 / 2)); [apply Rabs_le; lra|].
  destruct (Rltb_spec (1 / 2) (x - IZR n)); [rewrite plus_IZR; apply Rabs_le; lra|].
  destruct (Z.even n); [apply Rabs_le; lra|]. rewrite plus_IZR. apply Rabs_le; lra.
Qed.
Lemma round_fl_spec : forall a, flight_level a (round_fl a).
Proof.
  intros a. unfold round_fl. split; [eauto|]. pose proof (py_round_within (a / 100)) as H.
  unfold Rabs in *. destruct (Rcase_abs (IZR (py_round (a / 100)) - a / 100)), (Rcase_abs (100 * IZR (py_round (a / 100)) - a)); lra.
Qed.

(** the constants that relate the units: a knot is 0.514444 m/s, a foot 0.3048 m *)
(** climb without [random]: the shipped defaults, converted, unless a keyword says otherwise; the CAS is
    raised to the take-off speed where necessary *)
Theorem C83_climb_parameters : forall w k d, k_random k = None \/ k_random k = Some false ->
  let p := climb_params w k d in
  chosen (k_dt k) 1 (c_dt p) /\
  c_atof p = w_def (takeoff_acceleration w) /\ c_vtof p = w_def (takeoff_speed w) /\
  (exists cas, chosen (k_cas_const_cl k) (w_def (climb_const_vcas w) / 0.514444) cas /\
     cas <= c_cas p /\ c_vtof p <= c_cas p * 0.514444 /\ (c_cas p = cas \/ c_cas p * 0.514444 = c_vtof p)) /\
  chosen (k_mach_const_cl k) (w_def (climb_const_mach w)) (c_mach p) /\
  (exists a, chosen (k_alt_cr k) (w_def (cruise_alt w) * 1000 / 0.3048) a /\ flight_level a (c_alt p)) /\
  c_vsic p = w_def (initclimb_vs w) /\ c_vspre p = w_def (climb_vs_pre_concas w) /\
  c_vscas p = w_def (climb_vs_concas w) /\ c_vsmach p = w_def (climb_vs_conmach w) /\
  c_hcas p = 1000 * w_def (climb_cross_alt_concas w).
Proof.
  intros w k d R p. assert (ER : getkw (k_random k) false = false) by (destruct R as [-> | ->]; reflexivity).
  subst p. unfold climb_params. rewrite ER. cbn [c_dt c_atof c_vtof c_cas c_mach c_alt c_vsic c_vspre c_vscas c_vsmach c_hcas].
  split; [apply chosen_getkw|]. split; [reflexivity|]. split; [reflexivity|]. split.
  { exists (getkw (k_cas_const_cl k) (w_def (climb_const_vcas w) / kts)). split; [apply chosen_getkw|].
    split; [apply Rmax_l|]. change 0.514444 with kts. set (c := getkw _ _). set (v := w_def (takeoff_speed w)).
    assert (K : v / kts * kts = v) by (field; pose proof kts_pos; lra). pose proof kts_pos as P. split.
    - rewrite <- K at 1. apply Rmult_le_compat_r; [lra|apply Rmax_r].
    - unfold Rmax. destruct (Rle_dec c (v / kts)); [right; exact K|left; reflexivity]. }
  split; [apply chosen_getkw|]. split; [eexists; split; [apply chosen_getkw|apply round_fl_spec]|].
  repeat (split; [reflexivity|]). ring.
Qed.
(** with [random]: what is not given is the drawn value, in the same units; nothing relates the CAS to the
    take-off speed *)
Theorem C83_random_climb_parameters : forall w k d, k_random k = Some true ->
  let p := climb_params w k d in
  chosen (k_dt k) 1 (c_dt p) /\
  c_atof p = w_def (takeoff_acceleration w) /\ c_vtof p = w_def (takeoff_speed w) /\
  chosen (k_cas_const_cl k) (d_cas d / 0.514444) (c_cas p) /\ chosen (k_mach_const_cl k) (d_mach d) (c_mach p) /\
  (exists a, chosen (k_alt_cr k) (d_alt d * 1000 / 0.3048) a /\ flight_level a (c_alt p)) /\
  c_vsic p = w_def (initclimb_vs w) /\ c_vspre p = d_vspre d /\ c_vscas p = d_vscas d /\ c_vsmach p = d_vsmach d /\
  c_hcas p = 1000 * w_def (climb_cross_alt_concas w).
Proof.
  intros w k d R p. subst p. unfold climb_params. rewrite R. cbn [getkw c_dt c_atof c_vtof c_cas c_mach c_alt c_vsic c_vspre c_vscas c_vsmach c_hcas].
  repeat (split; [first [apply chosen_getkw|reflexivity|eexists; split; [apply chosen_getkw|apply round_fl_spec]]|]). ring.
Qed.
Theorem C83_descent_parameters : forall w k d,
  let p := descent_params w k d in
  let random := k_random k = Some true in
  chosen (k_dt k) 1 (e_dt p) /\ chosen (k_withcr k) true (e_withcr p) /\
  e_alnd p = w_def (landing_acceleration w) /\ e_vapp p = w_def (finalapp_vcas w) /\ e_vsfa p = w_def (finalapp_vs w) /\
  e_hcas p = 1000 * w_def (descent_cross_alt_concas w) /\
  (~ random -> chosen (k_cas_const_de k) (w_def (descent_const_vcas w) / 0.514444) (e_cas p) /\
     chosen (k_mach_const_de k) (w_def (descent_const_mach w)) (e_mach p) /\
     (exists a, chosen (k_alt_cr k) (w_def (cruise_alt w) * 1000 / 0.3048) a /\ flight_level a (e_alt p)) /\
     e_vsmach p = w_def (descent_vs_conmach w) /\ e_vscas p = w_def (descent_vs_concas w) /\ e_vspost p = w_def (descent_vs_post_concas w)) /\
  (random -> chosen (k_cas_const_de k) (g_cas d / 0.514444) (e_cas p) /\
     chosen (k_mach_const_de k) (g_mach d) (e_mach p) /\
     (exists a, chosen (k_alt_cr k) (g_alt d * 1000 / 0.3048) a /\ flight_level a (e_alt p)) /\
     e_vsmach p = g_vsmach d /\ e_vscas p = g_vscas d /\ e_vspost p = g_vspost d).
Proof.
  intros w k d p random. subst p random. unfold descent_params.
  cbn [e_dt e_withcr e_alnd e_vapp e_cas e_mach e_alt e_vsmach e_vscas e_vspost e_vsfa e_hcas].
  split; [apply chosen_getkw|]. split; [apply chosen_getkw|]. do 3 (split; [reflexivity|]). split; [ring|].
  destruct (k_random k) as [[|]|]; cbn [getkw]; (split; [intros N|intros N]); try congruence;
    repeat (split; [first [apply chosen_getkw|reflexivity|eexists; split; [apply chosen_getkw|apply round_fl_spec]]|]); reflexivity.
Qed.
Theorem C83_cruise_parameters : forall w k d,
  let p := cruise_params w k d in
  let random := k_random k = Some true in
  chosen (k_dt k) 1 (x_dt p) /\
  (~ random -> chosen (k_range_cr k) (1000 * w_def (cruise_range w)) (x_distance p) /\
     chosen (k_mach_cr k) (w_def (cruise_mach w)) (x_mach p) /\
     exists a, chosen (k_alt_cr k) (w_def (cruise_alt w) * 1000 / 0.3048) a /\ flight_level a (x_alt p)) /\
  (random -> chosen (k_range_cr k) (1000 * q_range d) (x_distance p) /\
     chosen (k_mach_cr k) (q_mach d) (x_mach p) /\
     exists a, chosen (k_alt_cr k) (q_alt d * 1000 / 0.3048) a /\ flight_level a (x_alt p)).
Proof.
  intros w k d p random. subst p random. unfold cruise_params. cbn [x_dt x_distance x_alt x_mach].
  split; [apply chosen_getkw|].
  destruct (k_random k) as [[|]|]; cbn [getkw]; (split; [intros N|intros N]); try congruence;
    (split; [rewrite (Rmult_comm _ 1000); apply chosen_getkw|]; split; [apply chosen_getkw|eexists; split; [apply chosen_getkw|apply round_fl_spec]]).
Qed.
(** flight levels are kept: a level that is already a whole hundred of feet is flown as given *)
Theorem C83_flight_level_kept : forall z, round_fl (100 * IZR z) = 100 * IZR z.
Proof.
  intros z. unfold round_fl. replace (100 * IZR z / 100) with (IZR z) by field.
  rewrite (py_round_near (IZR z) z); auto. rewrite Rminus_diag_eq, Rabs_R0 by reflexivity. lra.
Qed.
(** a CAS below the take-off speed is silently raised without [random] but taken as it is with it *)
Theorem C83_slow_cas_taken_in_random_mode_refuted : forall w k d cas, k_random k = Some true -> k_cas_const_cl k = Some cas ->
  cas * kts < w_def (takeoff_speed w) -> c_cas (climb_params w k d) * kts < c_vtof (climb_params w k d).
Proof. intros w k d cas R C H. unfold climb_params. rewrite R, C. cbn. exact H. Qed.

(** the parts of a complete flight are generated for the same Mach number and the same flight level *)
Theorem C83_complete_consistent : forall w k dr dc dd fuel rows, complete w k dr dc dd fuel = Some (inr rows) ->
  exists pc pd cl cr de, let px := cruise_params w k dr in
    cruise px fuel = Some cr /\ climb pc fuel = Some cl /\ descent pd fuel = Some de /\
    c_mach pc = x_mach px /\ e_mach pd = x_mach px /\ c_alt pc = x_alt px /\ e_alt pd = x_alt px /\
    c_dt pc = x_dt px /\ e_dt pd = x_dt px /\
    length rows = (length cl + length cr + length de)%nat /\
    map r_h rows = map r_h cl ++ map r_h cr ++ map r_h de /\
    map r_v rows = map r_v cl ++ map r_v cr ++ map r_v de /\
    map r_vs rows = map r_vs cl ++ map r_vs cr ++ map r_vs de.
Proof.
  intros w k dr dc dd fuel rows E. unfold complete in E. remember (cruise_params w k dr) as px eqn:Epx.
  destruct (cruise px fuel) as [cr|] eqn:E1; [|discriminate].
  destruct (call_with_mach_cl _ _) as [e|kc] eqn:E2; [discriminate|].
  destruct (climb _ fuel) as [cl|] eqn:E3; [|discriminate].
  destruct (call_with_mach_de _ _) as [e|kd] eqn:E4; [discriminate|].
  destruct (descent _ fuel) as [de|] eqn:E5; [|discriminate]. injection E as <-.
  exists (climb_params w kc dc), (descent_params w kd dd), cl, cr, de. cbv zeta.
  do 3 (split; [assumption|]).
  assert (FL : round_fl (x_alt px) = x_alt px).
  { rewrite Epx. unfold cruise_params. cbn [x_alt]. unfold round_fl at 2 3. apply C83_flight_level_kept. }
  assert (A : k_alt_cr (set_alt k (x_alt px)) = Some (getkw (k_alt_cr k) (x_alt px)) /\ k_dt (set_alt k (x_alt px)) = k_dt k).
  { unfold set_alt. destruct (k_alt_cr k) eqn:Ek; cbn; rewrite ?Ek; auto. }
  destruct A as [A1 A2].
  unfold call_with_mach_cl in E2. destruct (k_mach_const_cl _); [discriminate|]. injection E2 as <-.
  unfold call_with_mach_de in E4. destruct (k_mach_const_de _); [discriminate|]. injection E4 as <-.
  unfold climb_params, descent_params. cbn [k_mach_const_cl k_mach_const_de k_alt_cr k_dt getkw c_mach e_mach c_alt e_alt c_dt e_dt].
  rewrite A1, A2. cbn [getkw]. split; [reflexivity|]. split; [reflexivity|].
  assert (B : round_fl (getkw (k_alt_cr k) (x_alt px)) = x_alt px).
  { destruct (k_alt_cr k) eqn:Ek; cbn [getkw]; [|exact FL]. rewrite Epx. unfold cruise_params. cbn [x_alt]. rewrite Ek. reflexivity. }
  split; [exact B|]. split; [exact B|]. split; [rewrite Epx; reflexivity|]. split; [rewrite Epx; reflexivity|].
  unfold join. rewrite !app_length, !map_length, !map_app, !map_map. split; [lia|]. repeat split.
Qed.

Example C83_ex : let p := climb_params a320_wrap no_kw (mkCd 0 0 0 0 0 0) in
  c_hcas p = 3700 /\ c_cas p * 0.514444 = w_def (climb_const_vcas a320_wrap) /\ exists z, c_alt p = 100 * IZR z.
Proof.
  destruct (C83_climb_parameters a320_wrap no_kw (mkCd 0 0 0 0 0 0) (or_introl eq_refl))
    as (_ & _ & _ & (c & (_ & C) & _ & _ & D) & _ & (a & _ & (Z & _)) & _ & _ & _ & _ & H).
  specialize (C eq_refl). cbv zeta. rewrite H. split; [cbn; lra|]. split; auto.
  destruct D as [D|D]; [rewrite D, C; field; lra|]. exfalso.
  assert (c_cas (climb_params a320_wrap no_kw (mkCd 0 0 0 0 0 0)) = 151 / kts) as Q by (apply Rmax_left; cbn; unfold kts; lra).
  rewrite Q in D. change 0.514444 with kts in D. replace (151 / kts * kts) with 151 in D by (field; pose proof kts_pos; lra).
  change (c_vtof (climb_params a320_wrap no_kw (mkCd 0 0 0 0 0 0))) with 85.3 in D.
  lra.
Qed.
