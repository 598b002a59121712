(** * Lemmas about aircraft and engine lookup *)
From Coq Require Import String Ascii List Bool Arith Lia Permutation QArith.
From Verif Require Import Str StrFacts Py PropPy DataAc DataPolar DataWrap DataEng Build.
Import ListNotations.
Open Scope string_scope.

Lemma find_filter : forall {A} (f : A -> bool) l, find f l = match filter f l with x :: _ => Some x | [] => None end.
Proof. intros A f. induction l as [|x l IH]; cbn; auto. destruct (f x); auto. Qed.
Lemma find_ext : forall {A} (f g : A -> bool) l, (forall x, f x = g x) -> find f l = find g l.
Proof. intros A f g l H. induction l as [|x l IH]; cbn; auto. rewrite H, IH. auto. Qed.
Lemma filter_ext' : forall {A} (f g : A -> bool) l, (forall x, f x = g x) -> filter f l = filter g l.
Proof. intros A f g l H. induction l as [|x l IH]; cbn; auto. rewrite H, IH. auto. Qed.
(** [find] by a key that is unique does not depend on the order *)
Lemma find_perm : forall {A} (key : A -> string) c l l', NoDup (map key l) -> Permutation l l' ->
  find (fun r => String.eqb (key r) c) l = find (fun r => String.eqb (key r) c) l'.
Proof.
  intros A key c l l' ND P.
  assert (ND' : NoDup (map key l')) by (eapply Permutation_NoDup; [apply Permutation_map; eauto|auto]).
  assert (U : forall (m : list A), NoDup (map key m) -> forall x, In x m -> key x = c -> find (fun r => String.eqb (key r) c) m = Some x).
  { induction m as [|y m IH]; cbn; intros N x Hx E; [tauto|]. inversion N; subst.
    destruct Hx as [->|Hx]; [rewrite String.eqb_refl; auto|].
    destruct (String.eqb_spec (key y) (key x)) as [Ey|]; [|auto].
    exfalso. apply H1. rewrite Ey. apply in_map. auto. }
  destruct (find (fun r => String.eqb (key r) c) l) as [x|] eqn:E.
  - apply find_some in E. destruct E as [Hx Hk]. apply String.eqb_eq in Hk. symmetry. apply U; auto.
    eapply Permutation_in; eauto.
  - destruct (find (fun r => String.eqb (key r) c) l') as [x|] eqn:E'; auto. exfalso.
    apply find_some in E'. destruct E' as [Hx Hk]. pose proof (find_none _ _ E x) as F. cbn in F.
    rewrite F in Hk; [discriminate|]. eapply Permutation_in; [apply Permutation_sym|]; eauto.
Qed.

Lemma engine_find : forall d e, engine d e =
  match find (fun r => startswith (upper (en_name r)) (upper (strip e))) (d_engines d) with
  | Some r => inr (mkEr e r (fuel_ch r)) | None => inl ValueError end.
Proof. intros. unfold engine. rewrite find_filter. destruct (filter _ _); auto. Qed.

Lemma glob_find : forall d ac, plain ac = true ->
  match glob_aircraft d ac with f :: _ => Some f | [] => None end = find (fun r => String.eqb (ac_code r) ac) (d_aircraft d).
Proof.
  intros d ac H. rewrite find_filter. unfold glob_aircraft.
  erewrite filter_ext'; [reflexivity|]. intros r. cbv beta.
  rewrite glob_plain by (rewrite plain_app, H; reflexivity). rewrite eqb_app_r. apply String.eqb_sym.
Qed.
Lemma aircraft_find : forall d ac s, plain ac = true -> aircraft d ac s =
  match find (fun r => String.eqb (ac_code r) (lower ac)) (d_aircraft d) with
  | Some f => inr f
  | None => match synonym (d_acsyn d) (lower ac) with
            | Some n => if s then match glob_aircraft d n with f :: _ => inr f | [] => inl IndexError end else inl ValueError
            | None => inl ValueError
            end
  end.
Proof.
  intros d ac s H. unfold aircraft. rewrite <- glob_find by (rewrite plain_lower; auto).
  destruct (glob_aircraft d (lower ac)); auto.
Qed.
Lemma synonym_in : forall t ac n, synonym t ac = Some n -> In (ac, n) t.
Proof.
  intros t ac n H. unfold synonym in H. destruct (find _ t) as [[a b]|] eqn:E; [|discriminate].
  apply find_some in E. destruct E as [I E]. cbn in E, H. apply String.eqb_eq in E. congruence.
Qed.
Lemma synonym_none : forall t ac, synonym t ac = None -> ~ In ac (map fst t).
Proof.
  intros t ac H I. unfold synonym in H. destruct (find _ t) as [[a b]|] eqn:E; [discriminate|].
  apply in_map_iff in I. destruct I as ([a b] & E1 & I). cbn in E1. subst.
  pose proof (find_none _ _ E _ I) as F. cbn in F. rewrite String.eqb_refl in F. discriminate.
Qed.
Lemma synonym_some : forall t ac, In ac (map fst t) -> exists n, synonym t ac = Some n.
Proof.
  intros t ac I. destruct (synonym t ac) eqn:E; eauto. exfalso. eapply synonym_none; eauto.
Qed.
Lemma find_code : forall (l : list acrec) c, In c (map ac_code l) <-> exists r, find (fun r => String.eqb (ac_code r) c) l = Some r.
Proof.
  intros l c. split.
  - intros I. destruct (find _ l) as [r|] eqn:E; eauto. exfalso.
    apply in_map_iff in I. destruct I as (r & <- & I). pose proof (find_none _ _ E _ I) as F. cbn in F.
    rewrite String.eqb_refl in F. discriminate.
  - intros (r & E). apply find_some in E. destruct E as [I E]. apply String.eqb_eq in E. subst. apply in_map; auto.
Qed.

(** ** the data files shipped with the package, in whatever order the directory is listed and
    wherever the package is installed *)
Record ships (d : db) : Prop := mkShips {
  sh_ac : Permutation shipped_aircraft (d_aircraft d);
  sh_acsyn : d_acsyn d = shipped_acsyn;
  sh_polar : Permutation shipped_polar (d_polar d);
  sh_polsyn : d_polsyn d = shipped_polsyn;
  sh_wrap : Permutation shipped_wrap (d_wrap d);
  sh_wrapsyn : d_wrapsyn d = shipped_wrapsyn;
  sh_engines : d_engines d = shipped_engines;
  sh_fuel : d_fuel d = shipped_fuel }.
Definition shipped0 : db :=
  mkDb "" shipped_aircraft shipped_acsyn shipped_polar shipped_polsyn shipped_wrap shipped_wrapsyn shipped_engines shipped_fuel.
Lemma shipped0_ships : ships shipped0.
Proof. constructor; auto. Qed.

Fixpoint nodupb (l : list string) : bool := match l with [] => true | x :: t => negb (mem x t) && nodupb t end.
Lemma mem_in : forall x l, mem x l = true <-> In x l.
Proof.
  intros x l. unfold mem. rewrite existsb_exists. split.
  - intros (y & I & E). apply String.eqb_eq in E. subst. auto.
  - intros I. exists x. split; auto. apply String.eqb_refl.
Qed.
Lemma nodupb_ok : forall l, nodupb l = true -> NoDup l.
Proof.
  induction l as [|x l IH]; cbn; intros H; constructor; apply andb_true_iff in H; destruct H as [H1 H2]; auto.
  apply negb_true_iff in H1. intros I. apply mem_in in I. congruence.
Qed.
Lemma ac_nodup : NoDup (map ac_code shipped_aircraft).
Proof. apply nodupb_ok. vm_compute. reflexivity. Qed.
Lemma po_nodup : NoDup (map po_code shipped_polar).
Proof. apply nodupb_ok. vm_compute. reflexivity. Qed.
Lemma wr_nodup : NoDup (map wr_code shipped_wrap).
Proof. apply nodupb_ok. vm_compute. reflexivity. Qed.
Lemma syn_plain : forall n, In n (map snd shipped_acsyn) -> plain n = true.
Proof.
  intros n H. assert (F : forallb plain (map snd shipped_acsyn) = true) by (vm_compute; reflexivity).
  rewrite forallb_forall in F. auto.
Qed.
Lemma ship_aircraft : forall d ac s, ships d -> plain ac = true -> aircraft d ac s = aircraft shipped0 ac s.
Proof.
  intros d ac s [S1 S2 _ _ _ _ _ _] H. rewrite !aircraft_find by auto. rewrite S2. cbn [d_aircraft d_acsyn shipped0].
  rewrite (find_perm ac_code (lower ac) _ _ ac_nodup S1). destruct (find _ (d_aircraft d)); auto.
  destruct (synonym shipped_acsyn (lower ac)) as [n|] eqn:E; auto. destruct s; auto.
  assert (Hn : plain n = true) by (apply syn_plain; apply synonym_in in E; apply (in_map snd) in E; exact E).
  pose proof (glob_find d n Hn) as G1. pose proof (glob_find shipped0 n Hn) as G2. cbn [d_aircraft shipped0] in G2.
  rewrite (find_perm ac_code n _ _ ac_nodup S1) in G2. rewrite <- G1 in G2.
  destruct (glob_aircraft d n), (glob_aircraft shipped0 n); congruence.
Qed.
Lemma mem_perm : forall x l l', Permutation l l' -> mem x l = mem x l'.
Proof.
  intros x l l' P. destruct (mem x l) eqn:E, (mem x l') eqn:E'; auto.
  - apply mem_in in E. eapply Permutation_in in E; eauto. apply mem_in in E. congruence.
  - apply mem_in in E'. eapply Permutation_in in E'; [|apply Permutation_sym; eauto]. apply mem_in in E'. congruence.
Qed.
Lemma codes_len : forall (l : list string), forallb (fun c => Nat.eqb (String.length c) 4) l = true -> forall c, In c l -> String.length c = 4%nat.
Proof. intros l F c I. rewrite forallb_forall in F. apply Nat.eqb_eq. auto. Qed.
Lemma ship_polar_avail : forall d, ships d -> Permutation (polar_available shipped0) (polar_available d).
Proof.
  intros d S. destruct S as [_ _ S _ _ _ _ _]. unfold polar_available.
  apply Permutation_trans with (map (fun r => lower (slice84 (d_dir d ++ po_code r ++ ".yml"))) shipped_polar); [|apply Permutation_map; auto].
  cbn [d_polar d_dir shipped0]. erewrite map_ext_in; [apply Permutation_refl|]. intros r Hr. cbv beta.
  assert (L : String.length (po_code r) = 4%nat) by (apply (codes_len (map po_code shipped_polar)); [vm_compute; reflexivity|apply in_map; auto]).
  rewrite !slice_ok; auto.
Qed.
Lemma ship_wrap_avail : forall d, ships d -> Permutation (wrap_available shipped0) (wrap_available d).
Proof.
  intros d S. destruct S as [_ _ _ _ S _ _ _]. unfold wrap_available.
  apply Permutation_trans with (map (fun r => lower (slice84 (d_dir d ++ wr_code r ++ ".txt"))) shipped_wrap); [|apply Permutation_map; auto].
  cbn [d_wrap d_dir shipped0]. erewrite map_ext_in; [apply Permutation_refl|]. intros r Hr. cbv beta.
  assert (L : String.length (wr_code r) = 4%nat) by (apply (codes_len (map wr_code shipped_wrap)); [vm_compute; reflexivity|apply in_map; auto]).
  rewrite !slice_ok; auto.
Qed.
Lemma ship_polar : forall d ac s, ships d -> load_drag_model d ac s = load_drag_model shipped0 ac s.
Proof.
  intros d ac s S. unfold load_drag_model. rewrite <- (mem_perm ac _ _ (ship_polar_avail d S)).
  destruct S as [_ _ S3 S4 _ _ _ _]. rewrite S4. cbn [d_polsyn shipped0]. unfold bind.
  destruct (if mem ac (polar_available shipped0) then _ else _); auto.
  rewrite <- (find_perm po_code s0 _ _ po_nodup S3). auto.
Qed.
Lemma ship_wrapnew : forall d ac s, ships d -> wrap_new d ac s = wrap_new shipped0 ac s.
Proof.
  intros d ac s S. unfold wrap_new. cbv zeta. rewrite <- (mem_perm (lower ac) _ _ (ship_wrap_avail d S)).
  destruct S as [_ _ _ _ S3 S4 _ _]. rewrite S4. cbn [d_wrapsyn shipped0]. unfold bind.
  destruct (if mem (lower ac) (wrap_available shipped0) then _ else _); auto.
  rewrite <- (find_perm wr_code s0 _ _ wr_nodup S3). auto.
Qed.
Lemma ship_engine : forall d e, ships d -> engine d e = engine shipped0 e.
Proof. intros d e S. unfold engine. rewrite (sh_engines d S). auto. Qed.
Lemma ship_thrust : forall d ac e k, ships d -> plain ac = true -> thrust_new d ac e k = thrust_new shipped0 ac e k.
Proof.
  intros d ac e k S H. unfold thrust_new. rewrite (ship_aircraft d) by auto. destruct (aircraft shipped0 ac _); auto.
  cbn [bind]. cbv zeta. rewrite ship_engine by auto. auto.
Qed.
Lemma ship_drag : forall d ac k, ships d -> plain ac = true -> drag_new d ac k = drag_new shipped0 ac k.
Proof.
  intros d ac k S H. unfold drag_new. cbv zeta. rewrite (ship_aircraft d) by (auto; rewrite plain_lower; auto).
  destruct (aircraft shipped0 (lower ac) _); auto. cbn [bind]. rewrite ship_polar by auto. auto.
Qed.
Lemma ship_fuelmodel : forall d ac t e, ships d -> load_fuel_model d ac t e = load_fuel_model shipped0 ac t e.
Proof.
  intros d ac t e S. unfold load_fuel_model. rewrite (sh_fuel d S). cbn [d_fuel shipped0].
  destruct (find _ shipped_fuel); auto. rewrite ship_engine by auto. auto.
Qed.
Lemma ship_fuel : forall d ac e k, ships d -> plain ac = true -> fuel_new d ac e k = fuel_new shipped0 ac e k.
Proof.
  intros d ac e k S H. unfold fuel_new. cbv zeta. rewrite (ship_aircraft d) by (auto; rewrite plain_lower; auto).
  destruct (aircraft shipped0 (lower ac) _); auto. cbn [bind]. rewrite ship_engine by auto.
  destruct (engine shipped0 _); auto. cbn [bind]. rewrite ship_thrust by auto. destruct (thrust_new shipped0 _ _ _); auto.
  cbn [bind]. rewrite ship_drag by auto. destruct (drag_new shipped0 _ _); auto. cbn [bind]. rewrite ship_wrapnew by auto.
  destruct (wrap_new shipped0 _ _); auto. cbn [bind]. rewrite ship_fuelmodel by auto. auto.
Qed.
(** letter case of the aircraft argument is irrelevant *)
Lemma aircraft_lower : forall d ac s, aircraft d (lower ac) s = aircraft d ac s.
Proof. intros. unfold aircraft. rewrite lower_idem. auto. Qed.
Lemma fuel_lower : forall d ac e k, fuel_new d (lower ac) e k = fuel_new d ac e k.
Proof.
  intros. unfold fuel_new, thrust_new, drag_new, wrap_new. cbv zeta. rewrite lower_idem. rewrite aircraft_lower. auto.
Qed.
