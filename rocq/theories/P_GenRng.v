(** * Properties C87 and C88: random parameters, reported columns, reproducibility and noise *)
From Coq Require Import String Ascii List Bool Arith Lia QArith Qreals Reals Lra.
From Verif Require Import Num NumFacts SpecNum Aero AeroFacts AeroFacts2 AeroFacts3 AeroFacts4 Fuel Phase Py PropPy DataWrap Build Gen GenFacts GenFacts2 GenRng
  Kinematic Params PropFacts P_Prop P_Gen P_Gen2 P_Gen3 P_Data P_Kin P_DataGen.
Import ListNotations.
Open Scope list_scope.
Open Scope R_scope.

(** the minimum of every variable that is drawn from is not above its maximum *)
Definition ordered (w : wrapdata) : Prop :=
  forall v, In v [climb_const_vcas w; climb_const_mach w; cruise_alt w; climb_vs_pre_concas w; climb_vs_concas w; climb_vs_conmach w;
                  descent_const_mach w; descent_const_vcas w; descent_vs_conmach w; descent_vs_concas w; descent_vs_post_concas w;
                  cruise_range w; cruise_mach w] -> w_min v <= w_max v.

Section Rng.
Context {G : Type} (next01 gauss : G -> R * G).
Notation uniform := (uniform next01).
Notation climb_m := (climb_m next01 gauss).
Notation descent_m := (descent_m next01 gauss).
Notation cruise_m := (cruise_m next01 gauss).
Notation complete_m := (complete_m next01 gauss).

(** ** Specification *)
(** a standard uniform draw lies in the unit interval *)
Definition unit_draws : Prop := forall g, 0 <= fst (next01 g) <= 1.
(** state of the random generator after [n] uniform resp. normal draws, and the [i]-th normal draw *)
Definition after01 (n : nat) (g : G) : G := Nat.iter n (fun g => snd (next01 g)) g.
Definition after (n : nat) (g : G) : G := Nat.iter n (fun g => snd (gauss g)) g.
Definition z_ (g : G) (i : nat) : R := fst (gauss (after i g)).
Definition random (k : kwargs) : Prop := k_random k = Some true.
Definition fixed (k : kwargs) : Prop := k_random k = None \/ k_random k = Some false.
(** the object with noise switched off *)
Definition quiet (o : @genobj G) : @genobj G := mkGen (o_wrap o) (o_sv o) (o_svs o) (o_sh o) (o_ss o) (o_rng o) false.

(** ** Lemmas *)
Lemma uniform_eq : forall v g, uniform v g = (w_min v + (w_max v - w_min v) * fst (next01 g), snd (next01 g)).
Proof. intros. unfold GenRng.uniform. destruct (next01 g); auto. Qed.
Lemma uniform_in : unit_draws -> forall v g, w_min v <= w_max v -> drawn v (fst (uniform v g)).
Proof. intros U v g H. rewrite uniform_eq. cbn [fst]. specialize (U g). unfold drawn. split; nra. Qed.
Lemma uniform_next : forall v g, snd (uniform v g) = snd (next01 g).
Proof. intros. rewrite uniform_eq. auto. Qed.
Lemma draw_climb_in : unit_draws -> forall w g, ordered w -> climb_draws w (fst (draw_climb next01 w g)) /\ snd (draw_climb next01 w g) = after01 6 g.
Proof.
  intros U w g O. unfold draw_climb. rewrite !uniform_eq. cbn [fst snd].
  split; [|reflexivity]. unfold climb_draws. cbn [d_cas d_mach d_alt d_vspre d_vscas d_vsmach].
  repeat split; unfold drawn; try (match goal with |- context [fst (next01 ?h)] => pose proof (U h) end;
    match goal with |- context [w_max ?v - w_min ?v] => assert (w_min v <= w_max v) by (apply O; cbn; auto 20) end; nra).
Qed.
Lemma draw_descent_in : unit_draws -> forall w g, ordered w -> descent_draws w (fst (draw_descent next01 w g)) /\ snd (draw_descent next01 w g) = after01 6 g.
Proof.
  intros U w g O. unfold draw_descent. rewrite !uniform_eq. cbn [fst snd].
  split; [|reflexivity]. unfold descent_draws. cbn [g_alt g_mach g_cas g_vsmach g_vscas g_vspost].
  repeat split; unfold drawn; try (match goal with |- context [fst (next01 ?h)] => pose proof (U h) end;
    match goal with |- context [w_max ?v - w_min ?v] => assert (w_min v <= w_max v) by (apply O; cbn; auto 20) end; nra).
Qed.
Lemma draw_cruise_in : unit_draws -> forall w g, ordered w -> cruise_draws w (fst (draw_cruise next01 w g)) /\ snd (draw_cruise next01 w g) = after01 3 g.
Proof.
  intros U w g O. unfold draw_cruise. rewrite !uniform_eq. cbn [fst snd].
  split; [|reflexivity]. unfold cruise_draws. cbn [q_range q_alt q_mach].
  repeat split; unfold drawn; try (match goal with |- context [fst (next01 ?h)] => pose proof (U h) end;
    match goal with |- context [w_max ?v - w_min ?v] => assert (w_min v <= w_max v) by (apply O; cbn; auto 20) end; nra).
Qed.
(** without [random] the draws do not matter *)
Lemma climb_params_fixed : forall w k d d', fixed k -> climb_params w k d = climb_params w k d'.
Proof. intros w k d d' F. unfold climb_params. destruct F as [-> | ->]; reflexivity. Qed.
Lemma descent_params_fixed : forall w k d d', fixed k -> descent_params w k d = descent_params w k d'.
Proof. intros w k d d' F. unfold descent_params. destruct F as [-> | ->]; reflexivity. Qed.
Lemma cruise_params_fixed : forall w k d d', fixed k -> cruise_params w k d = cruise_params w k d'.
Proof. intros w k d d' F. unfold cruise_params. destruct F as [-> | ->]; reflexivity. Qed.
Lemma fixed_or_random : forall k, fixed k \/ random k.
Proof. intros k. unfold fixed, random. destruct (k_random k) as [[|]|]; auto. Qed.
Lemma if_fixed : forall {A} k (f : G -> A * G) u g, fixed k -> if_random k f u g = (u, g).
Proof. intros A k f u g [E|E]; unfold if_random; rewrite E; reflexivity. Qed.
Lemma if_rand : forall {A} k (f : G -> A * G) u g, random k -> if_random k f u g = f g.
Proof. intros A k f u g E. unfold if_random. rewrite E. reflexivity. Qed.
Lemma quiet_noise : forall (o : @genobj G) l (g : G), o_noise o = false -> add_noise gauss o l g = (l, g).
Proof. intros o l g E. unfold add_noise. rewrite E. auto. Qed.
(** the numbers used for the loop, and the state afterwards, of a noise-free call *)
Lemma climb_m_quiet : forall o k, o_noise o = false -> exists d g, if_random k (draw_climb next01 (o_wrap o)) (mkCd 0 0 0 0 0 0) (o_rng o) = (d, g) /\
  forall fuel, climb_m o k fuel = option_map (fun l => (let p := climb_params (o_wrap o) k d in
    mkCdf l (c_cas p) (c_mach p) (c_hcas p) (c_hmach p) (c_alt p), with_rng o g)) (climb (climb_params (o_wrap o) k d) fuel).
Proof.
  intros o k Q. unfold GenRng.climb_m. destruct (if_random _ _ _ _) as [d g]. exists d, g. split; auto. intros fuel. cbv zeta.
  destruct (climb _ fuel) as [l|]; auto. rewrite quiet_noise by auto. reflexivity.
Qed.
Lemma descent_m_quiet : forall o k, o_noise o = false -> exists d g, if_random k (draw_descent next01 (o_wrap o)) (mkDd 0 0 0 0 0 0) (o_rng o) = (d, g) /\
  forall fuel, descent_m o k fuel = option_map (fun l => (let p := descent_params (o_wrap o) k d in
    mkDdf l (e_cas p) (e_vcas p) (e_mach p) (e_vapp p) (e_vsmach p) (e_vscas p) (e_hmach p) (e_hcas p) (e_alt p), with_rng o g)) (descent (descent_params (o_wrap o) k d) fuel).
Proof.
  intros o k Q. unfold GenRng.descent_m. destruct (if_random _ _ _ _) as [d g]. exists d, g. split; auto. intros fuel. cbv zeta.
  destruct (descent _ fuel) as [l|]; auto. rewrite quiet_noise by auto. reflexivity.
Qed.
Lemma cruise_m_quiet : forall o k, o_noise o = false -> exists d g, if_random k (draw_cruise next01 (o_wrap o)) (mkRd 0 0 0) (o_rng o) = (d, g) /\
  forall fuel, cruise_m o k fuel = option_map (fun l => (let p := cruise_params (o_wrap o) k d in
    mkRdf l (x_alt p) (x_mach p), with_rng o g)) (cruise (cruise_params (o_wrap o) k d) fuel).
Proof.
  intros o k Q. unfold GenRng.cruise_m. destruct (if_random _ _ _ _) as [d g]. exists d, g. split; auto. intros fuel. cbv zeta.
  destruct (cruise _ fuel) as [l|]; auto. rewrite quiet_noise by auto. reflexivity.
Qed.
(** draws within the limits, for every keyword set *)
Definition some_climb (w : wrapdata) : cdraws :=
  mkCd (w_min (climb_const_vcas w)) (w_min (climb_const_mach w)) (w_min (cruise_alt w)) (w_min (climb_vs_pre_concas w)) (w_min (climb_vs_concas w)) (w_min (climb_vs_conmach w)).
Definition some_descent (w : wrapdata) : ddraws :=
  mkDd (w_min (cruise_alt w)) (w_min (descent_const_mach w)) (w_min (descent_const_vcas w)) (w_min (descent_vs_conmach w)) (w_min (descent_vs_concas w)) (w_min (descent_vs_post_concas w)).
Definition some_cruise (w : wrapdata) : rdraws := mkRd (w_min (cruise_range w)) (w_min (cruise_alt w)) (w_min (cruise_mach w)).
Lemma climb_oracle : unit_draws -> forall w k g, ordered w -> exists d, climb_draws w d /\
  climb_params w k d = climb_params w k (fst (if_random k (draw_climb next01 w) (mkCd 0 0 0 0 0 0) g)).
Proof.
  intros U w k g O. destruct (fixed_or_random k) as [F|F].
  - exists (some_climb w). split; [|apply climb_params_fixed, F]. unfold climb_draws, some_climb, drawn. cbn.
    repeat split; try lra; apply O; cbn; auto 20.
  - rewrite if_rand by auto. exists (fst (draw_climb next01 w g)). split; auto. apply draw_climb_in; auto.
Qed.
Lemma descent_oracle : unit_draws -> forall w k g, ordered w -> exists d, descent_draws w d /\
  descent_params w k d = descent_params w k (fst (if_random k (draw_descent next01 w) (mkDd 0 0 0 0 0 0) g)).
Proof.
  intros U w k g O. destruct (fixed_or_random k) as [F|F].
  - exists (some_descent w). split; [|apply descent_params_fixed, F]. unfold descent_draws, some_descent, drawn. cbn.
    repeat split; try lra; apply O; cbn; auto 20.
  - rewrite if_rand by auto. exists (fst (draw_descent next01 w g)). split; auto. apply draw_descent_in; auto.
Qed.
Lemma cruise_oracle : unit_draws -> forall w k g, ordered w -> exists d, cruise_draws w d /\
  cruise_params w k d = cruise_params w k (fst (if_random k (draw_cruise next01 w) (mkRd 0 0 0) g)).
Proof.
  intros U w k g O. destruct (fixed_or_random k) as [F|F].
  - exists (some_cruise w). split; [|apply cruise_params_fixed, F]. unfold cruise_draws, some_cruise, drawn. cbn.
    repeat split; try lra; apply O; cbn; auto 20.
  - rewrite if_rand by auto. exists (fst (draw_cruise next01 w g)). split; auto. apply draw_cruise_in; auto.
Qed.

(** ** C87: noise-free calls *)
(** Without [random] the result does not depend on the random generator and the generator object is left as it was: calls can
    be repeated and reordered. *)
Theorem C87_fixed_calls_are_reproducible : forall o k fuel, o_noise o = false -> fixed k ->
  (forall df o', climb_m o k fuel = Some (df, o') -> o' = o /\ forall g, climb_m (with_rng o g) k fuel = Some (df, with_rng o g)) /\
  (forall df o', descent_m o k fuel = Some (df, o') -> o' = o /\ forall g, descent_m (with_rng o g) k fuel = Some (df, with_rng o g)) /\
  (forall df o', cruise_m o k fuel = Some (df, o') -> o' = o /\ forall g, cruise_m (with_rng o g) k fuel = Some (df, with_rng o g)) /\
  (forall res o', complete_m o k fuel = Some (res, o') -> o' = o /\ forall g, complete_m (with_rng o g) k fuel = Some (res, with_rng o g)).
Proof.
  intros o k fuel Q F.
  assert (Same : forall x : @genobj G, with_rng x (o_rng x) = x) by (intros []; reflexivity).
  assert (C1 : forall o k fuel, o_noise o = false -> fixed k -> forall df o', climb_m o k fuel = Some (df, o') -> o' = o /\ forall g, climb_m (with_rng o g) k fuel = Some (df, with_rng o g)).
  { clear - Same. intros o k fuel Q F df o' H. unfold GenRng.climb_m in *. cbn [o_wrap with_rng o_rng]. rewrite if_fixed in H by auto. cbv zeta in H.
    destruct (climb _ fuel) as [l|] eqn:E; [|discriminate]. rewrite quiet_noise in H by auto. injection H as <- <-. split; [apply Same|].
    intros g. rewrite if_fixed by auto. cbv zeta. rewrite E, quiet_noise by auto. reflexivity. }
  assert (C2 : forall o k fuel, o_noise o = false -> fixed k -> forall df o', descent_m o k fuel = Some (df, o') -> o' = o /\ forall g, descent_m (with_rng o g) k fuel = Some (df, with_rng o g)).
  { clear - Same. intros o k fuel Q F df o' H. unfold GenRng.descent_m in *. cbn [o_wrap with_rng o_rng]. rewrite if_fixed in H by auto. cbv zeta in H.
    destruct (descent _ fuel) as [l|] eqn:E; [|discriminate]. rewrite quiet_noise in H by auto. injection H as <- <-. split; [apply Same|].
    intros g. rewrite if_fixed by auto. cbv zeta. rewrite E, quiet_noise by auto. reflexivity. }
  assert (C3 : forall df o', cruise_m o k fuel = Some (df, o') -> o' = o /\ forall g, cruise_m (with_rng o g) k fuel = Some (df, with_rng o g)).
  { intros df o' H. unfold GenRng.cruise_m in *. cbn [o_wrap with_rng o_rng]. rewrite if_fixed in H by auto. cbv zeta in H.
    destruct (cruise _ fuel) as [l|] eqn:E; [|discriminate]. rewrite quiet_noise in H by auto. injection H as <- <-. split; [apply Same|].
    intros g. rewrite if_fixed by auto. cbv zeta. rewrite E, quiet_noise by auto. reflexivity. }
  split; [apply C1; auto|]. split; [apply C2; auto|]. split; [exact C3|].
  intros res o' H. unfold GenRng.complete_m in H. unfold GenRng.complete_m.
  destruct (cruise_m o k fuel) as [[cr o1]|] eqn:E1; [|discriminate]. destruct (C3 _ _ eq_refl) as [-> R1].
  assert (F' : forall a, fixed (set_alt k a)) by (intros a; unfold set_alt, fixed in *; destruct (k_alt_cr k); exact F).
  destruct (call_with_mach_cl (set_alt k (rd_alt cr)) (rd_mach cr)) as [e|kc] eqn:E2.
  { injection H as <- <-. split; auto. intros g. rewrite R1, E2. reflexivity. }
  assert (Fc : fixed kc). { unfold call_with_mach_cl in E2. destruct (k_mach_const_cl _); [discriminate|]. injection E2 as <-. apply (F' (rd_alt cr)). }
  destruct (climb_m o kc fuel) as [[cl o2]|] eqn:E3; [|discriminate]. destruct (C1 _ _ _ Q Fc _ _ E3) as [-> R2].
  destruct (call_with_mach_de (set_alt k (rd_alt cr)) (rd_mach cr)) as [e|kd] eqn:E4.
  { injection H as <- <-. split; auto. intros g. rewrite R1, E2, R2, E4. reflexivity. }
  assert (Fd : fixed kd). { unfold call_with_mach_de in E4. destruct (k_mach_const_de _); [discriminate|]. injection E4 as <-. apply (F' (rd_alt cr)). }
  destruct (descent_m o kd fuel) as [[de o3]|] eqn:E5; [|discriminate]. destruct (C2 _ _ _ Q Fd _ _ E5) as [-> R3].
  injection H as <- <-. split; auto. intros g. rewrite R1, E2, R2, E4, R3. reflexivity.
Qed.

(** With [random=True] every parameter is drawn, whether or not a keyword overrides it: overriding one leaves the other
    parameters and the state of the random generator as they were. *)
Theorem C87_override_keeps_the_rest : forall o k k' fuel fuel', o_noise o = false -> random k -> random k' ->
  (forall df o1 df' o1', climb_m o k fuel = Some (df, o1) -> climb_m o k' fuel' = Some (df', o1') ->
     o1' = o1 /\ o_rng o1 = after01 6 (o_rng o) /\
     (k_cas_const_cl k = k_cas_const_cl k' -> cd_cas df = cd_cas df') /\
     (k_mach_const_cl k = k_mach_const_cl k' -> cd_mach df = cd_mach df') /\
     (k_alt_cr k = k_alt_cr k' -> cd_alt df = cd_alt df')) /\
  (forall df o1 df' o1', descent_m o k fuel = Some (df, o1) -> descent_m o k' fuel' = Some (df', o1') ->
     o1' = o1 /\ o_rng o1 = after01 6 (o_rng o) /\ dd_vsmach df = dd_vsmach df' /\ dd_vscas df = dd_vscas df' /\
     (k_cas_const_de k = k_cas_const_de k' -> dd_cas df = dd_cas df') /\
     (k_mach_const_de k = k_mach_const_de k' -> dd_mach df = dd_mach df') /\
     (k_alt_cr k = k_alt_cr k' -> dd_alt df = dd_alt df')) /\
  (forall df o1 df' o1', cruise_m o k fuel = Some (df, o1) -> cruise_m o k' fuel' = Some (df', o1') ->
     o1' = o1 /\ o_rng o1 = after01 3 (o_rng o) /\
     (k_mach_cr k = k_mach_cr k' -> rd_mach df = rd_mach df') /\ (k_alt_cr k = k_alt_cr k' -> rd_alt df = rd_alt df')).
Proof.
  intros o k k' fuel fuel' Q R R'. split; [|split].
  - intros df o1 df' o1' H H'. unfold GenRng.climb_m in *. rewrite if_rand in H, H' by auto.
    assert (A : snd (draw_climb next01 (o_wrap o) (o_rng o)) = after01 6 (o_rng o)) by (unfold draw_climb; rewrite !uniform_eq; reflexivity).
    destruct (draw_climb next01 (o_wrap o) (o_rng o)) as [d g]. cbn [snd] in A. subst g. cbv zeta in *.
    destruct (climb _ fuel) as [l|]; [|discriminate]. destruct (climb _ fuel') as [l'|]; [|discriminate].
    rewrite quiet_noise in H, H' by auto. injection H as <- <-. injection H' as <- <-. split; auto. split; auto.
    unfold climb_params. rewrite R, R'. cbn [cd_cas cd_mach cd_alt c_cas c_mach c_alt getkw]. split; [|split]; intros ->; auto.
  - intros df o1 df' o1' H H'. unfold GenRng.descent_m in *. rewrite if_rand in H, H' by auto.
    assert (A : snd (draw_descent next01 (o_wrap o) (o_rng o)) = after01 6 (o_rng o)) by (unfold draw_descent; rewrite !uniform_eq; reflexivity).
    destruct (draw_descent next01 (o_wrap o) (o_rng o)) as [d g]. cbn [snd] in A. subst g. cbv zeta in *.
    destruct (descent _ fuel) as [l|]; [|discriminate]. destruct (descent _ fuel') as [l'|]; [|discriminate].
    rewrite quiet_noise in H, H' by auto. injection H as <- <-. injection H' as <- <-. split; auto. split; auto.
    unfold descent_params. rewrite R, R'. cbn [dd_cas dd_mach dd_alt dd_vsmach dd_vscas e_cas e_mach e_alt e_vsmach e_vscas getkw].
    split; auto. split; auto. split; [|split]; intros ->; auto.
  - intros df o1 df' o1' H H'. unfold GenRng.cruise_m in *. rewrite if_rand in H, H' by auto.
    assert (A : snd (draw_cruise next01 (o_wrap o) (o_rng o)) = after01 3 (o_rng o)) by (unfold draw_cruise; rewrite !uniform_eq; reflexivity).
    destruct (draw_cruise next01 (o_wrap o) (o_rng o)) as [d g]. cbn [snd] in A. subst g. cbv zeta in *.
    destruct (cruise _ fuel) as [l|]; [|discriminate]. destruct (cruise _ fuel') as [l'|]; [|discriminate].
    rewrite quiet_noise in H, H' by auto. injection H as <- <-. injection H' as <- <-. split; auto. split; auto.
    unfold cruise_params. rewrite R, R'. cbn [rd_mach rd_alt x_mach x_alt getkw]. split; intros ->; auto.
Qed.

(** The parameters of a random flight lie within the limits of the model, and the flight is one of those the theorems about
    [complete] speak of: the random generator only supplies draws within the limits. *)
Theorem C87_random_flights_use_drawn_parameters : unit_draws -> forall o k, o_noise o = false -> ordered (o_wrap o) ->
  exists dr dc dd, cruise_draws (o_wrap o) dr /\ climb_draws (o_wrap o) dc /\ descent_draws (o_wrap o) dd /\
  forall fuel, option_map fst (complete_m o k fuel) = complete (o_wrap o) k dr dc dd fuel.
Proof.
  intros U o k Q O. destruct (cruise_m_quiet o k Q) as (d1 & g1 & E1 & H1).
  destruct (cruise_oracle U (o_wrap o) k (o_rng o) O) as (dr & Dr & Er). rewrite E1 in Er. cbn [fst] in Er.
  remember (cruise_params (o_wrap o) k dr) as px eqn:Epx. set (o1 := with_rng o g1) in *.
  set (k1 := set_alt k (x_alt px)). 
  destruct (call_with_mach_cl k1 (x_mach px)) as [e|kc] eqn:Ec.
  { exists dr, (some_climb (o_wrap o)), (some_descent (o_wrap o)). split; [exact Dr|].
    split; [unfold climb_draws, some_climb, drawn; cbn; repeat split; try lra; apply O; cbn; auto 20|].
    split; [unfold descent_draws, some_descent, drawn; cbn; repeat split; try lra; apply O; cbn; auto 20|].
    intros fuel. unfold GenRng.complete_m, complete. rewrite H1, <- Epx, <- Er. destruct (cruise px fuel) as [l|]; auto. cbn [option_map].
    cbv zeta. cbn [rd_alt rd_mach]. fold k1. rewrite Ec. reflexivity. }
  assert (Q1 : o_noise o1 = false) by exact Q.
  destruct (climb_m_quiet o1 kc Q1) as (d2 & g2 & E2 & H2).
  destruct (climb_oracle U (o_wrap o) kc (o_rng o1) O) as (dc & Dc & Ec2). change (o_wrap o) with (o_wrap o1) in Ec2. rewrite E2 in Ec2. cbn [fst] in Ec2.
  set (o2 := with_rng o1 g2) in *.
  destruct (call_with_mach_de k1 (x_mach px)) as [e|kd] eqn:Ed.
  { exists dr, dc, (some_descent (o_wrap o)). split; [exact Dr|]. split; [exact Dc|].
    split; [unfold descent_draws, some_descent, drawn; cbn; repeat split; try lra; apply O; cbn; auto 20|].
    intros fuel. unfold GenRng.complete_m, complete. rewrite H1, <- Epx, <- Er. destruct (cruise px fuel) as [l|]; auto. cbn [option_map].
    cbv zeta. cbn [rd_alt rd_mach]. fold k1 o1. rewrite Ec, H2. change (o_wrap o) with (o_wrap o1). rewrite Ec2.
    destruct (climb _ fuel); auto. cbn [option_map]. rewrite Ed. reflexivity. }
  assert (Q2 : o_noise o2 = false) by exact Q.
  destruct (descent_m_quiet o2 kd Q2) as (d3 & g3 & E3 & H3).
  destruct (descent_oracle U (o_wrap o) kd (o_rng o2) O) as (dd & Dd & Ed2). change (o_wrap o) with (o_wrap o2) in Ed2. rewrite E3 in Ed2. cbn [fst] in Ed2.
  exists dr, dc, dd. split; [exact Dr|]. split; [exact Dc|]. split; [exact Dd|].
  intros fuel. unfold GenRng.complete_m, complete. rewrite H1, <- Epx, <- Er. destruct (cruise px fuel) as [l|]; auto. cbn [option_map].
  cbv zeta. cbn [rd_alt rd_mach]. fold k1 o1. rewrite Ec, H2. change (o_wrap o) with (o_wrap o1). rewrite Ec2.
  destruct (climb _ fuel); auto. cbn [option_map]. rewrite Ed. fold o2. rewrite H3. change (o_wrap o1) with (o_wrap o2). rewrite Ed2.
  destruct (descent _ fuel); auto.
Qed.

(** *** On the shipped models *)
Section Shipped.
Context (d : db) (SH : ships d).
Lemma ordered_shipped : forall ac s r w, wrap_new d ac s = inr r -> wrap_of r = inr w -> ordered w.
Proof.
  intros ac s r w H E. unfold wrap_of in E. rewrite !(access_vof d SH _ _ _ _ H) in E. cbn [bind] in E. injection E as <-.
  assert (V : forall a, w_min (vof r a) <= w_max (vof r a)).
  { intros a. destruct (C79_accessors_of_shipped_models d SH ac s r a H) as (v & E & L & _). rewrite (access_vof d SH _ _ _ _ H) in E.
    injection E as <-. lra. }
  intros v I. cbn [climb_const_vcas climb_const_mach cruise_alt climb_vs_pre_concas climb_vs_concas climb_vs_conmach
                  descent_const_mach descent_const_vcas descent_vs_conmach descent_vs_concas descent_vs_post_concas cruise_range cruise_mach In] in I.
  repeat destruct I as [<-|I]; try apply V. destruct I.
Qed.

(** With any random generator, every complete flight of a shipped model ends, random or not. *)
Theorem C87_complete_flights_end : unit_draws -> forall ac s a r, gen_new d ac s = inr (a, r) ->
  exists w, wrap_of r = inr w /\ forall g k, let o := gen_init w g in
    k_cas_const_cl k = None -> k_mach_const_cl k = None -> k_cas_const_de k = None -> k_mach_const_de k = None -> k_mach_cr k = None ->
    pos_if_given (k_dt k) -> getkw (k_dt k) 1 <= 200 -> nonneg_if_given (k_alt_cr k) -> nonneg_if_given (k_range_cr k) ->
    (fixed k \/ ~ In (wr_code r) ["a343"; "b744"; "b789"]%string) ->
    exists fuel rows o', complete_m o k fuel = Some (inr rows, o') /\ o_wrap o' = w /\ o_noise o' = false.
Proof.
  intros U ac s a r H. destruct (C78_complete_flights d SH _ _ _ _ H) as (w & Ew & C). exists w. split; auto.
  intros g k o K1 K2 K3 K4 K5 K6 K7 K8 K9 K10.
  assert (Or : ordered w). { pose proof H as H'. unfold gen_new in H'. binds H'. injection H' as <- <-. eapply ordered_shipped; eauto. }
  destruct (C87_random_flights_use_drawn_parameters U o k eq_refl Or) as (dr & dc & dd & D1 & D2 & D3 & E).
  assert (X : 0 <= x_distance (cruise_params w k dr)).
  { destruct (k_range_cr k) as [x|] eqn:Kr.
    - unfold cruise_params. cbn [x_distance]. rewrite Kr. exact K9.
    - left. eapply C78_cruise_distance; eauto. destruct K10 as [[->| ->]|K10]; auto. }
  destruct (C k dr dc dd D1 D2 D3 K1 K2 K3 K4 K5 K6 K7 K8 X) as ((fuel & rows & E1) & _).
  specialize (E fuel). change (o_wrap o) with w in E. rewrite E1 in E.
  destruct (complete_m o k fuel) as [[res o']|] eqn:E2; [|discriminate]. cbn [option_map fst] in E. injection E as ->.
  exists fuel, rows, o'. split; auto.
  (* the object is only touched in its random state *)
  unfold GenRng.complete_m in E2. destruct (cruise_m o k fuel) as [[x1 o1]|] eqn:A1; [|discriminate].
  destruct (call_with_mach_cl _ _) as [e|kc]; [discriminate|].
  destruct (climb_m o1 kc fuel) as [[x2 o2]|] eqn:A2; [|discriminate].
  destruct (call_with_mach_de _ _) as [e|kd]; [discriminate|].
  destruct (descent_m o2 kd fuel) as [[x3 o3]|] eqn:A3; [|discriminate]. injection E2 as <- <-.
  assert (W1 : o_wrap o1 = w /\ o_noise o1 = false).
  { unfold GenRng.cruise_m in A1. destruct (if_random _ _ _ _). cbv zeta in A1. destruct (cruise _ _); [|discriminate].
    rewrite quiet_noise in A1 by reflexivity. injection A1 as _ <-. auto. }
  assert (W2 : o_wrap o2 = w /\ o_noise o2 = false).
  { unfold GenRng.climb_m in A2. destruct (if_random _ _ _ _). cbv zeta in A2. destruct (climb _ _); [|discriminate].
    rewrite quiet_noise in A2 by apply W1. injection A2 as _ <-. auto. }
  unfold GenRng.descent_m in A3. destruct (if_random _ _ _ _). cbv zeta in A3. destruct (descent _ _); [|discriminate].
  rewrite quiet_noise in A3 by apply W2. injection A3 as _ <-. auto.
Qed.

(** The constant columns of a noise-free frame describe its rows. *)
Theorem C87_columns_describe_the_rows : unit_draws -> forall ac s a r, gen_new d ac s = inr (a, r) ->
  exists w, wrap_of r = inr w /\ forall o k fuel, o_wrap o = w -> o_noise o = false -> pos_if_given (k_dt k) ->
  (pos_if_given (k_cas_const_cl k) -> pos_if_given (k_mach_const_cl k) -> forall df o', climb_m o k fuel = Some (df, o') ->
    (exists h, r_h (last_row (cd_rows df)) = Fin h /\ cd_alt df * 0.3048 <= h) /\ finite (cd_hmach df) /\
    forall x, In x (cd_rows df) ->
      (r_seg x = Some sPRE -> flt (r_h x) (Fin (cd_hcas df))) /\
      (r_seg x = Some sCAS -> tas2cas NP (r_v x) (r_h x) (Fin 0) = Fin (cd_cas df * 0.514444) /\
                              fle (Fin (cd_hcas df)) (r_h x) /\ flt (r_h x) (cd_hmach df)) /\
      (r_seg x = Some sMACH \/ r_seg x = Some sCR -> tas2mach NP (r_v x) (r_h x) (Fin 0) = Fin (cd_mach df) /\ fle (cd_hmach df) (r_h x)) /\
      (r_seg x = Some sMACH -> flt (r_h x) (Fin (cd_alt df * 0.3048)))) /\
  (nonneg_if_given (k_alt_cr k) -> k_cas_const_de k = None -> k_mach_const_de k = None -> forall df o', descent_m o k fuel = Some (df, o') ->
    dd_vcas df = Fin (dd_cas df * 0.514444) /\ finite (dd_hmach df) /\
    forall x, In x (dd_rows df) ->
      (r_seg x = None \/ r_seg x = Some sCR -> r_h x = Fin (dd_alt df * 0.3048)) /\
      (r_seg x = None \/ r_seg x = Some sCR \/ r_seg x = Some sMACH -> tas2mach NP (r_v x) (r_h x) (Fin 0) = Fin (dd_mach df)) /\
      (r_seg x = Some sMACH -> r_vs x = Fin (dd_vsmach df) /\ flt (dd_hmach df) (r_h x)) /\
      (r_seg x = Some sCAS -> tas2cas NP (r_v x) (r_h x) (Fin 0) = Fin (dd_cas df * 0.514444) /\ r_vs x = Fin (dd_vscas df) /\
                              flt (Fin (dd_hcas df)) (r_h x) /\ fle (r_h x) (dd_hmach df)) /\
      (r_seg x = Some sFA -> r_v x = Fin (dd_vapp df))) /\
  (forall df o', cruise_m o k fuel = Some (df, o') -> forall x, In x (rd_rows df) ->
      r_h x = Fin (rd_alt df * 0.3048) /\ tas2mach NP (r_v x) (r_h x) (Fin 0) = Fin (rd_mach df)).
Proof.
  intros U ac s a r H. pose proof H as H'. unfold gen_new in H'. binds H'. injection H' as <- <-.
  destruct (wrap_good_of d SH _ _ _ E0) as (w & Ew & Gd). exists w. split; auto.
  assert (Or : ordered w) by (eapply ordered_shipped; eauto).
  intros o k fuel <- Q K1. split; [|split].
  - intros K2 K3 df o' HC. destruct (climb_m_quiet o k Q) as (dr & g & E1 & HQ). rewrite HQ in HC.
    destruct (climb_oracle U (o_wrap o) k (o_rng o) Or) as (c & Dc & Ec). rewrite E1 in Ec. cbn [fst] in Ec. rewrite <- Ec in HC.
    assert (V := valid_climb_shipped (o_wrap o) k c Gd Dc K1 K2 K3). remember (climb_params (o_wrap o) k c) as p eqn:Ep. clear Ep.
    destruct (climb p fuel) as [l|] eqn:El; [|discriminate]. cbn [option_map] in HC. injection HC as <- <-. cbv zeta.
    cbn [cd_rows cd_alt cd_hmach cd_hcas cd_cas cd_mach].
    assert (Hx : exists hx, crossover_alt NP (Fin (c_cas p * kts)) (Fin (c_mach p)) (Fin 0) = Fin hx).
    { rewrite crossover_NP; eauto. destruct V as (_ & _ & V3 & _). unfold kts. lra. }
    destruct Hx as [hx Hx]. assert (Ehm : c_hmach p = Fin hx) by exact Hx. rewrite Ehm.
    split; [|split].
    + destruct (C47_final_altitude p fuel l hx V El Hx) as (h & E2 & _ & T). exists h. split; auto. eapply Rle_trans; [|apply T].
      eapply Rle_trans; [apply Rmax_r|apply Rmax_r].
    + exists hx; auto.
    + intros xr Ix. pose proof (C48_rows_hold_speeds p fuel l hx V El Hx xr Ix) as Rk. unfold climb_row_ok in Rk. cbv zeta in Rk.
      split; [intros Es; rewrite Es in Rk; apply Rk|]. split; [intros Es; rewrite Es in Rk; split; [apply Rk|split; apply Rk]|].
      split; [intros [Es|Es]; rewrite Es in Rk; split; apply Rk|]. intros Es; rewrite Es in Rk; apply Rk.
  - intros K2 K3 K4 df o' HC. destruct (descent_m_quiet o k Q) as (dr & g & E1 & HQ). rewrite HQ in HC.
    destruct (descent_oracle U (o_wrap o) k (o_rng o) Or) as (c & Dc & Ec). rewrite E1 in Ec. cbn [fst] in Ec. rewrite <- Ec in HC.
    assert (V : valid_descent (descent_params (o_wrap o) k c)) by (apply valid_descent_shipped; auto; rewrite K4; auto).
    assert (Va : 0 <= e_vapp (descent_params (o_wrap o) k c)) by (unfold descent_params; cbn [e_vapp]; destruct Gd; unfold posv in *; lra).
    remember (descent_params (o_wrap o) k c) as p eqn:Ep. clear Ep.
    destruct (descent p fuel) as [l|] eqn:El; [|discriminate]. cbn [option_map] in HC. injection HC as <- <-. cbv zeta.
    cbn [dd_rows dd_alt dd_hmach dd_hcas dd_cas dd_mach dd_vcas dd_vsmach dd_vscas dd_vapp].
    assert (Hx : exists hx, crossover_alt NP (Fin (e_cas p * kts)) (Fin (e_mach p)) (Fin 0) = Fin hx).
    { rewrite crossover_NP; eauto. apply evcas_pos. apply V. }
    destruct Hx as [hx Hx]. assert (Ehm : e_hmach p = Fin hx) by exact Hx. rewrite Ehm.
    split; [reflexivity|]. split; [exists hx; auto|]. intros xr Ix.
    pose proof (C68_rows_hold_speeds p fuel l hx V El Va Hx xr Ix) as Rk. unfold descent_row_ok in Rk. cbv zeta in Rk.
    split; [intros [Es|Es]; rewrite Es in Rk; apply Rk|]. split; [intros [Es|[Es|Es]]; rewrite Es in Rk; apply Rk|].
    split; [intros Es; rewrite Es in Rk; split; apply Rk|]. split; [intros Es; rewrite Es in Rk; split; [apply Rk|split; [apply Rk|split; apply Rk]]|].
    intros Es; rewrite Es in Rk; apply Rk.
  - intros df o' HC xr Ix. unfold GenRng.cruise_m in HC. destruct (if_random _ _ _ _) as [dr g]. cbv zeta in HC.
    remember (cruise_params (o_wrap o) k dr) as p eqn:Ep. clear Ep.
    destruct (cruise p fuel) as [l|] eqn:El; [|discriminate]. rewrite quiet_noise in HC by auto. injection HC as <- <-. cbn [rd_rows rd_alt rd_mach] in *.
    assert (Hr : exists st, xr = cruise_row p st).
    { clear - El Ix. unfold cruise in El. revert El Ix. generalize (Fin 0, Fin 0) as st. revert l.
      induction fuel as [|n IH]; intros l st El Ix; [discriminate|]. cbn [run] in El. destruct (cruise_step p st) as [st' stop].
      destruct stop; [injection El as <-; destruct Ix as [<-|[]]; eauto|].
      destruct (run _ _ n st') as [l'|] eqn:E'; [|discriminate]. cbn [option_map] in El. injection El as <-. destruct Ix as [<-|Ix]; eauto. }
    destruct Hr as [st ->]. unfold cruise_row. cbn [r_h r_v]. change (x_hcr p) with (Fin (x_alt p * ft)). split; [reflexivity|].
    unfold x_v. change (x_hcr p) with (Fin (x_alt p * ft)). rewrite mach2tas_NP. apply mach_back.
Qed.
End Shipped.

(** Passing the reported speeds and altitude of a flight back as keywords reproduces it. *)
Theorem C87_replay : forall o g k fuel, o_noise o = false -> fixed k ->
  (forall df o', climb_m o k fuel = Some (df, o') ->
    option_map fst (climb_m (with_rng o g) (mkKw (k_dt k) (k_random k) (k_withcr k) (Some (cd_cas df)) (Some (cd_mach df)) (Some (cd_alt df))
       (k_cas_const_de k) (k_mach_const_de k) (k_range_cr k) (k_mach_cr k)) fuel) = Some df) /\
  (forall df o', descent_m o k fuel = Some (df, o') ->
    option_map fst (descent_m (with_rng o g) (mkKw (k_dt k) (k_random k) (k_withcr k) (k_cas_const_cl k) (k_mach_const_cl k) (Some (dd_alt df))
       (Some (dd_cas df)) (Some (dd_mach df)) (k_range_cr k) (k_mach_cr k)) fuel) = Some df) /\
  (forall df o', cruise_m o k fuel = Some (df, o') ->
    option_map fst (cruise_m (with_rng o g) (mkKw (k_dt k) (k_random k) (k_withcr k) (k_cas_const_cl k) (k_mach_const_cl k) (Some (rd_alt df))
       (k_cas_const_de k) (k_mach_const_de k) (k_range_cr k) (Some (rd_mach df))) fuel) = Some df).
Proof.
  intros o g k fuel Q F.
  assert (RR : forall x, round_fl (round_fl x) = round_fl x) by (intros x; unfold round_fl at 2 3; apply C83_flight_level_kept).
  assert (RM : forall x y, Rmax (Rmax x y) y = Rmax x y) by (intros x y; apply Rmax_left, Rmax_r).
  assert (ER : getkw (k_random k) false = false) by (destruct F as [-> | ->]; reflexivity).
  split; [|split].
  - intros df o' H. unfold GenRng.climb_m, if_random in *. cbn [k_random o_wrap with_rng o_rng]. rewrite ER in *. cbv zeta in H |- *.
    remember (climb_params (o_wrap o) k _) as p eqn:Ep in H.
    destruct (climb p fuel) as [l|] eqn:E ; [|discriminate]. rewrite quiet_noise in H by auto. injection H as <- <-.
    cbn [cd_cas cd_mach cd_alt].
    match goal with |- context [climb_params (o_wrap o) ?k1 ?z] => replace (climb_params (o_wrap o) k1 z) with p end.
    + rewrite E. rewrite quiet_noise by auto. reflexivity.
    + rewrite Ep. unfold climb_params. cbn [k_dt k_random k_cas_const_cl k_mach_const_cl k_alt_cr getkw c_cas c_mach c_alt]. rewrite ER, RR, RM. reflexivity.
  - intros df o' H. unfold GenRng.descent_m, if_random in *. cbn [k_random o_wrap with_rng o_rng]. rewrite ER in *. cbv zeta in H |- *.
    remember (descent_params (o_wrap o) k _) as p eqn:Ep in H.
    destruct (descent p fuel) as [l|] eqn:E ; [|discriminate]. rewrite quiet_noise in H by auto. injection H as <- <-.
    cbn [dd_cas dd_mach dd_alt].
    match goal with |- context [descent_params (o_wrap o) ?k1 ?z] => replace (descent_params (o_wrap o) k1 z) with p end.
    + rewrite E. rewrite quiet_noise by auto. reflexivity.
    + rewrite Ep. unfold descent_params. cbn [k_dt k_random k_withcr k_cas_const_de k_mach_const_de k_alt_cr getkw e_cas e_mach e_alt]. rewrite ER, RR. reflexivity.
  - intros df o' H. unfold GenRng.cruise_m, if_random in *. cbn [k_random o_wrap with_rng o_rng]. rewrite ER in *. cbv zeta in H |- *.
    remember (cruise_params (o_wrap o) k _) as p eqn:Ep in H.
    destruct (cruise p fuel) as [l|] eqn:E ; [|discriminate]. rewrite quiet_noise in H by auto. injection H as <- <-.
    cbn [rd_mach rd_alt].
    match goal with |- context [cruise_params (o_wrap o) ?k1 ?z] => replace (cruise_params (o_wrap o) k1 z) with p end.
    + rewrite E. rewrite quiet_noise by auto. reflexivity.
    + rewrite Ep. unfold cruise_params. cbn [k_dt k_random k_range_cr k_mach_cr k_alt_cr getkw x_mach x_alt]. rewrite ER, RR. reflexivity.
Qed.

(** ** C88: noise *)
Lemma after_S : forall n g, after (S n) g = after n (snd (gauss g)).
Proof. induction n as [|n IH]; intros g; [reflexivity|]. change (snd (gauss (after (S n) g)) = snd (gauss (after n (snd (gauss g))))). rewrite IH. reflexivity. Qed.
Lemma after_add : forall m n g, after (m + n) g = after n (after m g).
Proof. induction m as [|m IH]; intros n g; [reflexivity|]. cbn [Nat.add]. rewrite !after_S. apply IH. Qed.
Lemma normal_spec : forall sigma n g, normal gauss sigma n g = (map (fun i => sigma * z_ g i) (seq 0 n), after n g).
Proof.
  intros sigma. induction n as [|n IH]; intros g; [reflexivity|]. cbn [normal]. destruct (gauss g) as [z g'] eqn:E. rewrite IH, after_S, E. cbn [snd].
  f_equal. cbn [seq map]. f_equal; [unfold z_, after; cbn; rewrite E; reflexivity|]. rewrite <- seq_shift, map_map. apply map_ext. intros i. unfold z_. rewrite after_S, E. reflexivity.
Qed.
Lemma add_col_length : forall set l z, length z = length l -> length (add_col set l z) = length l.
Proof. intros set. induction l as [|r l IH]; intros [|x z] H; cbn in *; try lia. f_equal. apply IH. lia. Qed.
Lemma add_col_nth : forall set l f dr, forall i, (i < length l)%nat -> forall m,
  nth i (add_col set l (map f (seq m (length l)))) dr = set (nth i l dr) (f (m + i)%nat).
Proof.
  intros set. induction l as [|r l IH]; intros f dr i Hi m; [cbn in Hi; lia|]. cbn [length seq map add_col].
  destruct i as [|i]; cbn [nth]; [rewrite Nat.add_0_r; reflexivity|]. rewrite IH by (cbn in Hi; lia). f_equal. f_equal. lia.
Qed.

(** rows [l'] are rows [l] with errors of the given standard deviations taken from the normal draws after state [g] *)
Definition noisy_rows (g : G) (l l' : list row) : Prop :=
  let n := length l in
  length l' = n /\
  forall i dr, (i < n)%nat ->
    let r := nth i l dr in let r' := nth i l' dr in
    r_t r' = r_t r /\ r_seg r' = r_seg r /\
    (forall h, r_h r = Fin h -> r_h r' = Fin (h + 7.5 * z_ g i)) /\
    (forall s, r_s r = Fin s -> r_s r' = Fin (s + 5 * z_ g (n + i))) /\
    (forall v, r_v r = Fin v -> r_v r' = Fin (v + 0.5 * z_ g (2 * n + i))) /\
    (forall vs, r_vs r = Fin vs -> r_vs r' = Fin (vs + 0.75 * z_ g (3 * n + i))).
Lemma z_after : forall m g i, z_ (after m g) i = z_ g (m + i).
Proof. intros. unfold z_. rewrite after_add. reflexivity. Qed.
Lemma add_noise_spec : forall (o : @genobj G) l g, let '(l', g') := add_noise gauss (enable_noise o) l g in
  noisy_rows g l l' /\ g' = after (4 * length l) g.
Proof.
  intros o l g. unfold add_noise, enable_noise. cbn [o_noise o_sh o_ss o_sv o_svs]. rewrite !normal_spec.
  set (n := length l). set (f1 := fun i => 7.5 * z_ g i). set (l1 := add_col add_h l (map f1 (seq 0 n))).
  assert (L1 : length l1 = n) by (apply add_col_length; rewrite map_length, seq_length; auto).
  set (f2 := fun i => 5 * z_ (after n g) i). set (l2 := add_col add_s l1 (map f2 (seq 0 n))).
  assert (L2 : length l2 = n) by (unfold l2; rewrite add_col_length; auto; rewrite map_length, seq_length; auto).
  set (f3 := fun i => 0.5 * z_ (after n (after n g)) i). set (l3 := add_col add_v l2 (map f3 (seq 0 n))).
  assert (L3 : length l3 = n) by (unfold l3; rewrite add_col_length; auto; rewrite map_length, seq_length; auto).
  set (f4 := fun i => 0.75 * z_ (after n (after n (after n g))) i). set (l4 := add_col add_vs l3 (map f4 (seq 0 n))).
  assert (L4 : length l4 = n) by (unfold l4; rewrite add_col_length; auto; rewrite map_length, seq_length; auto).
  split.
  - unfold noisy_rows. fold n. split; auto. intros i dr Hi. cbv zeta.
    assert (E : nth i l4 dr = add_vs (add_v (add_s (add_h (nth i l dr) (f1 i)) (f2 i)) (f3 i)) (f4 i)).
    { unfold l4. rewrite <- L3 at 1. rewrite add_col_nth by lia. cbn [Nat.add].
      unfold l3. rewrite <- L2 at 1. rewrite add_col_nth by lia. cbn [Nat.add].
      unfold l2. rewrite <- L1 at 1. rewrite add_col_nth by lia. cbn [Nat.add].
      unfold l1, n. rewrite add_col_nth by (fold n; lia). reflexivity. }
    rewrite E. unfold add_vs, add_v, add_s, add_h. cbn [r_t r_seg r_h r_s r_v r_vs].
    unfold f1, f2, f3, f4. rewrite !z_after. replace (n + (n + i))%nat with (2 * n + i)%nat by lia. replace (n + (2 * n + i))%nat with (3 * n + i)%nat by lia.
    split; [reflexivity|]. split; [reflexivity|]. split; [intros h ->; reflexivity|]. split; [intros h ->; reflexivity|].
    split; [intros h ->; reflexivity|intros h ->; reflexivity].
  - rewrite <- !after_add. f_equal. lia.
Qed.

(** After [enable_noise] each method returns the same frame with normal errors on altitude, distance, speed and vertical
    speed; times, segments and the constant columns are exact.  The errors are drawn after the flight parameters. *)
Theorem C88_noise : forall o k fuel, o_noise o = false ->
  (forall df o1, climb_m o k fuel = Some (df, o1) -> exists df' o2, climb_m (enable_noise o) k fuel = Some (df', o2) /\
     noisy_rows (o_rng o1) (cd_rows df) (cd_rows df') /\ cd_cas df' = cd_cas df /\ cd_mach df' = cd_mach df /\ cd_hcas df' = cd_hcas df /\
     cd_hmach df' = cd_hmach df /\ cd_alt df' = cd_alt df /\ o2 = with_rng (enable_noise o) (after (4 * length (cd_rows df)) (o_rng o1))) /\
  (forall df o1, descent_m o k fuel = Some (df, o1) -> exists df' o2, descent_m (enable_noise o) k fuel = Some (df', o2) /\
     noisy_rows (o_rng o1) (dd_rows df) (dd_rows df') /\ dd_cas df' = dd_cas df /\ dd_vcas df' = dd_vcas df /\ dd_mach df' = dd_mach df /\
     dd_vapp df' = dd_vapp df /\ dd_vsmach df' = dd_vsmach df /\ dd_vscas df' = dd_vscas df /\ dd_hmach df' = dd_hmach df /\
     dd_hcas df' = dd_hcas df /\ dd_alt df' = dd_alt df /\ o2 = with_rng (enable_noise o) (after (4 * length (dd_rows df)) (o_rng o1))) /\
  (forall df o1, cruise_m o k fuel = Some (df, o1) -> exists df' o2, cruise_m (enable_noise o) k fuel = Some (df', o2) /\
     noisy_rows (o_rng o1) (rd_rows df) (rd_rows df') /\ rd_mach df' = rd_mach df /\ rd_alt df' = rd_alt df /\
     o2 = with_rng (enable_noise o) (after (4 * length (rd_rows df)) (o_rng o1))).
Proof.
  intros o k fuel Q. split; [|split]; intros df o1 H.
  - unfold GenRng.climb_m in *. cbn [o_wrap o_rng enable_noise]. destruct (if_random _ _ _ _) as [dr g]. cbv zeta in *.
    destruct (climb _ fuel) as [l|]; [|discriminate]. rewrite quiet_noise in H by auto. injection H as <- <-.
    pose proof (add_noise_spec o l g) as S. change (mkGen (o_wrap o) 0.5 0.75 7.5 5 (o_rng o) true) with (enable_noise o).
    destruct (add_noise gauss (enable_noise o) l g) as [l' g']. destruct S as [S ->].
    eexists _, _. split; [reflexivity|]. cbn [cd_rows cd_cas cd_mach cd_hcas cd_hmach cd_alt o_rng with_rng]. auto 12.
  - unfold GenRng.descent_m in *. cbn [o_wrap o_rng enable_noise]. destruct (if_random _ _ _ _) as [dr g]. cbv zeta in *.
    destruct (descent _ fuel) as [l|]; [|discriminate]. rewrite quiet_noise in H by auto. injection H as <- <-.
    pose proof (add_noise_spec o l g) as S. change (mkGen (o_wrap o) 0.5 0.75 7.5 5 (o_rng o) true) with (enable_noise o).
    destruct (add_noise gauss (enable_noise o) l g) as [l' g']. destruct S as [S ->].
    eexists _, _. split; [reflexivity|]. cbn [dd_rows dd_cas dd_vcas dd_mach dd_vapp dd_vsmach dd_vscas dd_hmach dd_hcas dd_alt o_rng with_rng]. auto 20.
  - unfold GenRng.cruise_m in *. cbn [o_wrap o_rng enable_noise]. destruct (if_random _ _ _ _) as [dr g]. cbv zeta in *.
    destruct (cruise _ fuel) as [l|]; [|discriminate]. rewrite quiet_noise in H by auto. injection H as <- <-.
    pose proof (add_noise_spec o l g) as S. change (mkGen (o_wrap o) 0.5 0.75 7.5 5 (o_rng o) true) with (enable_noise o).
    destruct (add_noise gauss (enable_noise o) l g) as [l' g']. destruct S as [S ->].
    eexists _, _. split; [reflexivity|]. cbn [rd_rows rd_mach rd_alt o_rng with_rng]. auto 12.
Qed.
(** noise stays on, and switching it on again changes nothing *)
Theorem C88_noise_stays : forall o k fuel, enable_noise (enable_noise o) = @enable_noise G o /\
  (forall df o', climb_m (enable_noise o) k fuel = Some (df, o') -> enable_noise o' = o') /\
  (forall df o', descent_m (enable_noise o) k fuel = Some (df, o') -> enable_noise o' = o') /\
  (forall df o', cruise_m (enable_noise o) k fuel = Some (df, o') -> enable_noise o' = o').
Proof.
  intros o k fuel. split; [reflexivity|]. split; [|split]; intros df o' H.
  - unfold GenRng.climb_m in H. destruct (if_random _ _ _ _). cbv zeta in H. destruct (climb _ fuel); [|discriminate]. destruct (add_noise _ _ _ _). injection H as _ <-. reflexivity.
  - unfold GenRng.descent_m in H. destruct (if_random _ _ _ _). cbv zeta in H. destruct (descent _ fuel); [|discriminate]. destruct (add_noise _ _ _ _). injection H as _ <-. reflexivity.
  - unfold GenRng.cruise_m in H. destruct (if_random _ _ _ _). cbv zeta in H. destruct (cruise _ fuel); [|discriminate]. destruct (add_noise _ _ _ _). injection H as _ <-. reflexivity.
Qed.

Lemma map_nth_eq : forall {A B} (f : A -> B) (l l' : list A) dr, length l' = length l ->
  (forall i, (i < length l)%nat -> f (nth i l' dr) = f (nth i l dr)) -> map f l' = map f l.
Proof.
  induction l as [|a l IH]; intros [|b l'] dr L H; cbn in L; try lia; auto. cbn [map]. f_equal.
  - apply (H 0%nat). cbn; lia.
  - apply (IH l' dr); [lia|]. intros i Hi. apply (H (S i)). cbn; lia.
Qed.
Lemma noisy_t : forall g l l', noisy_rows g l l' -> map r_t l' = map r_t l.
Proof. intros g l l' [L H]. apply map_nth_eq with (dr := mkRow NaN NaN NaN NaN NaN None); auto. intros i Hi. apply H; auto. Qed.
Lemma last_t : forall l l', map r_t l' = map r_t l -> r_t (last_row l') = r_t (last_row l).
Proof.
  intros l l' E. unfold last_row. set (dr := mkRow NaN NaN NaN NaN NaN None).
  assert (M : forall m : list row, r_t (last m dr) = last (map r_t m) (r_t dr)).
  { induction m as [|x [|y m] IH]; auto. }
  rewrite !M, E. reflexivity.
Qed.
(** the time column of a complete flight with fixed parameters is exact under noise *)
Theorem C88_times_are_exact : forall o k fuel rows o1, o_noise o = false -> fixed k ->
  complete_m o k fuel = Some (inr rows, o1) ->
  exists rows' o2, complete_m (enable_noise o) k fuel = Some (inr rows', o2) /\ map r_t rows' = map r_t rows.
Proof.
  intros o k fuel rows o1 Q F H. unfold GenRng.complete_m in *.
  destruct (cruise_m o k fuel) as [[cr x1]|] eqn:E1; [|discriminate].
  destruct (C87_fixed_calls_are_reproducible o k fuel Q F) as (_ & _ & R1 & _). destruct (R1 _ _ E1) as [-> _].
  destruct (C88_noise o k fuel Q) as (_ & _ & N). destruct (N _ _ E1) as (cr' & o1' & -> & N1 & M1 & A1 & ->). rewrite M1, A1.
  assert (F' : forall a, fixed (set_alt k a)) by (intros a; unfold set_alt, fixed in *; destruct (k_alt_cr k); exact F).
  destruct (call_with_mach_cl (set_alt k (rd_alt cr)) (rd_mach cr)) as [e|kc] eqn:E2; [discriminate|].
  assert (Fc : fixed kc). { unfold call_with_mach_cl in E2. destruct (k_mach_const_cl _); [discriminate|]. injection E2 as <-. apply (F' (rd_alt cr)). }
  destruct (climb_m o kc fuel) as [[cl x2]|] eqn:E3; [|discriminate].
  destruct (C87_fixed_calls_are_reproducible o kc fuel Q Fc) as (R2 & _). destruct (R2 _ _ E3) as [-> R2'].
  match goal with |- context [climb_m (with_rng (enable_noise o) ?g) _ _] => set (g1 := g); change (with_rng (enable_noise o) g1) with (enable_noise (with_rng o g1)) end.
  destruct (C88_noise (with_rng o g1) kc fuel Q) as (N' & _). destruct (N' _ _ (R2' g1)) as (cl' & o2' & -> & N2 & _ & _ & _ & _ & _ & ->).
  destruct (call_with_mach_de (set_alt k (rd_alt cr)) (rd_mach cr)) as [e|kd] eqn:E4; [discriminate|].
  assert (Fd : fixed kd). { unfold call_with_mach_de in E4. destruct (k_mach_const_de _); [discriminate|]. injection E4 as <-. apply (F' (rd_alt cr)). }
  destruct (descent_m o kd fuel) as [[de x3]|] eqn:E5; [|discriminate].
  destruct (C87_fixed_calls_are_reproducible o kd fuel Q Fd) as (_ & R3 & _). destruct (R3 _ _ E5) as [-> R3'].
  match goal with |- context [descent_m (with_rng (enable_noise _) ?g) _ _] => set (g2 := g); change (with_rng (enable_noise (with_rng o g1)) g2) with (enable_noise (with_rng o g2)) end.
  destruct (C88_noise (with_rng o g2) kd fuel Q) as (_ & N'' & _).
  destruct (N'' _ _ (R3' g2)) as (de' & o3' & -> & N3 & _).
  injection H as <- <-. eexists _, _. split; [reflexivity|].
  apply noisy_t in N1, N2, N3. unfold join. rewrite !map_app, !map_map. cbn [r_t shift].
  rewrite (last_t _ _ N1), (last_t _ _ N2), N2.
  assert (MM : forall x l, map (fun r => eadd x (r_t r)) l = map (eadd x) (map r_t l)) by (intros; rewrite map_map; auto).
  rewrite !MM, N1, N3. reflexivity.
Qed.

(** With noise the altitude of a climb can be negative (the first row is the runway, at zero) and its distance need not grow. *)
Theorem C88_altitude_below_zero_refuted : forall o k fuel df o1, o_noise o = false -> climb_m o k fuel = Some (df, o1) ->
  z_ (o_rng o1) 0 < 0 ->
  exists df' o2 r, climb_m (enable_noise o) k fuel = Some (df', o2) /\ In r (cd_rows df') /\ flt (r_h r) (Fin 0).
Proof.
  intros o k fuel df o1 Q H Z. destruct (C88_noise o k fuel Q) as (N & _). destruct (N _ _ H) as (df' & o2 & E & [L NR] & _).
  assert (Z0 : exists l, cd_rows df = mkRow (Fin 0) (Fin 0) (Fin 0) (Fin 0) (Fin 0) None :: l).
  { unfold GenRng.climb_m in H. destruct (if_random _ _ _ _) as [dr g]. cbv zeta in H. destruct (climb _ fuel) as [l|] eqn:El; [|discriminate].
    rewrite quiet_noise in H by auto. injection H as <- _. cbn [cd_rows]. unfold climb in El. destruct fuel as [|n]; [discriminate|]. cbn [run] in El.
    destruct (climb_step _ _) as [st' stop]. destruct stop; [injection El as <-; eexists; reflexivity|].
    destruct (run _ _ n st'); [|discriminate]. injection El as <-. eexists; reflexivity. }
  destruct Z0 as [l Z0]. set (dr := mkRow NaN NaN NaN NaN NaN None).
  assert (P : (0 < length (cd_rows df))%nat) by (rewrite Z0; cbn; lia).
  exists df', o2, (nth 0 (cd_rows df') dr). split; auto. split; [apply nth_In; lia|].
  destruct (NR 0%nat dr P) as (_ & _ & Hh & _). rewrite (Hh 0) by (rewrite Z0; reflexivity). cbn [flt]. lra.
Qed.
End Rng.

(** ** Examples *)
(** a generator that repeats itself: uniform draws 1/2, normal draws -1 *)
Definition half (g : unit) : R * unit := (1 / 2, g).
Definition minus1 (g : unit) : R * unit := (-1, g).
Definition random_kw : kwargs := mkKw None (Some true) None None None None None None None None.
(** FlightGenerator("A320").complete(random=True) *)
Example C87_ex : exists a r w fuel rows o', gen_new shipped0 "A320" false = inr (a, r) /\ wrap_of r = inr w /\
  complete_m half minus1 (gen_init w tt) random_kw fuel = Some (inr rows, o').
Proof.
  assert (U : unit_draws half) by (intros g; cbn; lra).
  destruct (gen_new shipped0 "A320" false) as [e|[a r]] eqn:E; [vm_compute in E; discriminate|].
  destruct (C87_complete_flights_end half minus1 shipped0 shipped0_ships U _ _ _ _ E) as (w & Ew & C).
  destruct (C tt random_kw) as (fuel & rows & o' & H & _); try exact I; try reflexivity.
  - cbn; lra.
  - right. assert (X : wr_code r = "a320"%string) by (vm_compute in E; injection E as <- <-; reflexivity). rewrite X.
    cbn [In]. intros [H|[H|[H|H]]]; try discriminate H; exact H.
  - exists a, r, w, fuel, rows, o'. auto.
Qed.
(** FlightGenerator("A320"), enable_noise(), climb(): the first altitude is -7.5 m *)
Example C88_ex : exists a r w fuel df o' x, gen_new shipped0 "A320" false = inr (a, r) /\ wrap_of r = inr w /\
  climb_m half minus1 (enable_noise (gen_init w tt)) no_kw fuel = Some (df, o') /\ In x (cd_rows df) /\ flt (r_h x) (Fin 0).
Proof.
  assert (U : unit_draws half) by (intros g; cbn; lra).
  destruct (gen_new shipped0 "A320" false) as [e|[a r]] eqn:E; [vm_compute in E; discriminate|].
  destruct (C78_climbs shipped0 shipped0_ships _ _ _ _ E) as (w & Ew & C).
  assert (Or : ordered w). { pose proof E as H'. unfold gen_new in H'. binds H'. injection H' as <- <-. eapply (ordered_shipped shipped0 shipped0_ships); eauto. }
  destruct (climb_oracle half U w no_kw tt Or) as (c & Dc & Ec).
  destruct (C no_kw c Dc I I I) as ((fuel & rows & E1) & _). rewrite Ec in E1.
  destruct (climb_m_quiet half minus1 (gen_init w tt) no_kw eq_refl) as (dr & g & Ed & H). cbn [o_wrap gen_init o_rng] in Ed. rewrite Ed in E1. cbn [fst] in E1.
  specialize (H fuel). change (o_wrap (gen_init w tt)) with w in H. rewrite E1 in H. cbn [option_map] in H.
  destruct (C88_altitude_below_zero_refuted half minus1 (gen_init w tt) _ _ _ _ eq_refl H) as (df' & o2 & x & A1 & A2 & A3).
  - unfold z_. cbn. lra.
  - exists a, r, w, fuel, df', o2, x. auto.
Qed.
