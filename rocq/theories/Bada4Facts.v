(** * The BADA4 methods row by row *)
From Coq Require Import String List Bool Arith Lia.
From Coq Require Import Reals Lra.
From Verif Require Import Num NumFacts Py Str Aero Hom Nd NdFacts Bada4.
Import ListNotations.
Open Scope list_scope.
Open Scope R_scope.

(** ** One row *)
Definition dotp (x : ext) (exps : list nat) (d : list R) : ext :=
  nsum (map (fun p => emul (epowi x (fst p)) (Fin (snd p))) (combine exps d)).
Definition cdb_row (m : b4_drag) (cl mach : ext) : ext :=
  let mm := epower (esub (Fin 1) (epowi mach 2)) (Fin (-0.5)) in
  emul (Fin (d_scalar m))
    (eadd (eadd (dotp mm [0; 1; 2; 3; 4]%nat (part 0 5 (d_d m)))
                (emul (dotp mm [0; 3; 6; 9; 12]%nat (part 5 10 (d_d m))) (epowi cl 2)))
          (emul (eadd (Fin (nth 10 (d_d m) 0)) (dotp mm [14; 15; 16; 17]%nat (part 11 15 (d_d m)))) (epowi cl 6))).
Definition cd_row (m : b4_drag) (cl mach : ext) : ext :=
  let mb := d_mmax m - 0.01 in
  let div_ := emax (ediv (esub mach (Fin mb)) (Fin 0.01)) (Fin 0) in
  ewhere (egt (Fin (d_mmax m)) mach) (cdb_row m cl mach)
    (eadd (cdb_row m cl (Fin mb)) (emul (epower div_ (Fin 1.5)) (esub (cdb_row m cl (Fin (d_mmax m))) (cdb_row m cl (Fin mb))))).
Definition qS_row (m : b4_drag) (tas alt : ext) : ext :=
  emul (emul (emul (Fin 0.5) (density NP (emul alt (Fin ft)) (Fin 0))) (epowi (emul tas (Fin kts)) 2)) (Fin (d_S m)).
Definition cl_row (m : b4_drag) (mass tas alt : ext) : ext :=
  ediv (emul mass (Fin g0)) (emax (qS_row m tas alt) (Fin 1e-3)).
Definition mach_row (tas alt : ext) : ext := tas2mach NP (emul tas (Fin kts)) (emul alt (Fin ft)) (Fin 0).
Definition clean_row (m : b4_drag) (mass tas alt : ext) : ext :=
  emul (cd_row m (cl_row m mass tas alt) (mach_row tas alt)) (qS_row m tas alt).

Definition mat (l : list R) (c i j : nat) : R := nth (i * c + j) l 0.
Definition delta_row (alt : ext) : ext := ediv (pressure NP (emul alt (Fin ft)) (Fin 0)) (Fin p0).
Definition theta_row (alt : ext) : ext := ediv (temperature NP (emul alt (Fin ft)) (Fin 0)) (Fin T0).
Definition lidl_row (m : b4_thrust) (mach delta : ext) : ext :=
  poly (mat (t_ti m) 4) 3 4 (fun j => match j with O => ediv (Fin 1) delta | S k => epowi delta k end) (epowi mach).
Definition rated_row (m : b4_thrust) (r : b4_rating) (flat_rated : bool) (mach delta theta : ext) : ext :=
  let dt := if flat_rated
    then poly (mat (r_b r) 6) 6 6 (epowi mach) (epowi delta)
    else let tt := emul theta (eadd (Fin 1) (ediv (emul (epowi mach 2) (Fin (1.4 - 1))) (Fin 2))) in
         poly (mat (r_c r) 5) 9 5 (epowi mach) (fun i => if Nat.leb i 4 then epowi tt i else epowi delta (i - 4)) in
  poly (mat (t_a m) 6) 6 6 (epowi mach) (epowi dt).
Definition newtons_row (m : b4_thrust) (delta ct : ext) : ext := emul (emul (emul delta (Fin (t_mref m))) (Fin g0)) ct.

Definition calc_row (m : b4_fuel) (delta theta cf : ext) : ext :=
  emul (emul (emul (emul (emul (emul delta (epower theta (Fin 0.5))) (Fin (f_mref m))) (Fin g0)) (Fin a0)) (Fin (1 / f_lhv m))) cf.
Definition ff_idle_row (m : b4_fuel) (tas alt : ext) : ext :=
  calc_row m (delta_row alt) (theta_row alt) (poly (mat (f_fi m) 3) 3 3 (epowi (delta_row alt)) (epowi (mach_row tas alt))).
Definition ct_row (m : b4_fuel) (mass tas alt vs : ext) : ext :=
  ediv (eadd (clean_row (f_drag m) mass tas alt)
             (emul (emul mass (Fin g0)) (elift sin (eatan2 (emul vs (Fin fpm)) (emul tas (Fin kts))))))
       (emul (emul (delta_row alt) (Fin (f_mref m))) (Fin g0)).
Definition ff_row (m : b4_fuel) (mass tas alt vs : ext) : ext :=
  ewhere (egt (Fin (-250)) vs) (ff_idle_row m tas alt)
    (calc_row m (delta_row alt) (theta_row alt) (poly (mat (f_f m) 5) 5 5 (epowi (ct_row m mass tas alt vs)) (epowi (mach_row tas alt)))).

(** ** Rows of a call *)
Section Rows.
Context (n : nat) (Hn : (1 <= n)%nat).
Local Notation isc := (isc n).
Local Notation isf := (isf n).
Local Notation H := (col_hom n).

Lemma isc_eq : forall A (x : py (nd A)) b f b' f', isc x (b, f) -> b = b' -> (forall i, f i = f' i) -> isc x (b', f').
Proof.
  intros A x b f b' f' (a & E & Hc & Hr & Hd & Hd' & Hv) <- Hf. exists a. cbn [fst snd] in *. repeat (split; [solve [auto]|]).
  intros i Hi. rewrite Hv by assumption. apply Hf.
Qed.
Lemma isc_eta : forall A (x : py (nd A)) p, isc x p -> isc x (fst p, snd p).
Proof. intros A x [b f] K. exact K. Qed.

Lemma isc_density : forall h p, isc h p -> isc (density AB h (cst AB 0)) (fst p, fun i => density NP (snd p i) (Fin 0)).
Proof.
  intros h [b f] K. pose proof (density_hom AB FB H h (b, f) (cst AB 0) (cst FB 0) K (h_cst _ _ H 0)) as D.
  apply isc_eta in D. refine (isc_eq _ _ _ _ _ _ D _ _); [destruct b; reflexivity|reflexivity].
Qed.
Lemma isc_pressure : forall h p, isc h p -> isc (pressure AB h (cst AB 0)) (fst p, fun i => pressure NP (snd p i) (Fin 0)).
Proof.
  intros h [b f] K. pose proof (pressure_hom AB FB H h (b, f) (cst AB 0) (cst FB 0) K (h_cst _ _ H 0)) as D.
  apply isc_eta in D. refine (isc_eq _ _ _ _ _ _ D _ _); [destruct b; reflexivity|reflexivity].
Qed.
Lemma isc_temperature : forall h p, isc h p -> isc (temperature AB h (cst AB 0)) (fst p, fun i => temperature NP (snd p i) (Fin 0)).
Proof.
  intros h [b f] K. pose proof (temperature_hom AB FB H h (b, f) (cst AB 0) (cst FB 0) K (h_cst _ _ H 0)) as D.
  apply isc_eta in D. refine (isc_eq _ _ _ _ _ _ D _ _); [destruct b; reflexivity|reflexivity].
Qed.
Lemma isc_tas2mach : forall v h p q, isc v p -> isc h q ->
  isc (tas2mach AB v h (cst AB 0)) (fst p || fst q, fun i => tas2mach NP (snd p i) (snd q i) (Fin 0)).
Proof.
  intros v h [b f] [b' f'] K K'. pose proof (tas2mach_hom AB FB H v (b, f) h (b', f') (cst AB 0) (cst FB 0) K K' (h_cst _ _ H 0)) as D.
  apply isc_eta in D. refine (isc_eq _ _ _ _ _ _ D _ _); [destruct b, b'; reflexivity|reflexivity].
Qed.

(** operators *)
Lemma isc_cst : forall r, isc (cst AB r) (false, fun _ => Fin r).
Proof. intros. apply isc_scalar. Qed.
Lemma isc_add : forall x y p q, isc x p -> isc y q -> isc (add AB x y) (fst p || fst q, fun i => eadd (snd p i) (snd q i)).
Proof. intros x y p q K K'. exact (isc_nd2 n _ _ _ _ _ _ _ _ K K'). Qed.
Lemma isc_sub : forall x y p q, isc x p -> isc y q -> isc (sub AB x y) (fst p || fst q, fun i => esub (snd p i) (snd q i)).
Proof. intros x y p q K K'. exact (isc_nd2 n _ _ _ _ _ _ _ _ K K'). Qed.
Lemma isc_mul : forall x y p q, isc x p -> isc y q -> isc (mul AB x y) (fst p || fst q, fun i => emul (snd p i) (snd q i)).
Proof. intros x y p q K K'. exact (isc_nd2 n _ _ _ _ _ _ _ _ K K'). Qed.
Lemma isc_div : forall x y p q, isc x p -> isc y q -> isc (div AB x y) (fst p || fst q, fun i => ediv (snd p i) (snd q i)).
Proof. intros x y p q K K'. exact (isc_nd2 n _ _ _ _ _ _ _ _ K K'). Qed.
Lemma isc_power : forall x y p q, isc x p -> isc y q -> isc (power AB x y) (fst p || fst q, fun i => epower (snd p i) (snd q i)).
Proof. intros x y p q K K'. exact (isc_nd2 n _ _ _ _ _ _ _ _ K K'). Qed.
Lemma isc_max : forall x y p q, isc x p -> isc y q -> isc (maximum AB x y) (fst p || fst q, fun i => emax (snd p i) (snd q i)).
Proof. intros x y p q K K'. exact (isc_nd2 n _ _ _ _ _ _ _ _ K K'). Qed.
Lemma isc_atan2 : forall x y p q, isc x p -> isc y q -> isc (barctan2 AB x y) (fst p || fst q, fun i => eatan2 (snd p i) (snd q i)).
Proof. intros x y p q K K'. exact (isc_nd2 n _ _ _ _ _ _ _ _ K K'). Qed.
Lemma isc_gt : forall x y p q, isc x p -> isc y q -> isc (gt AB x y) (fst p || fst q, fun i => egt (snd p i) (snd q i)).
Proof. intros x y p q K K'. exact (isc_nd2 n _ _ _ _ _ _ _ _ K K'). Qed.
Lemma isc_where : forall x y z p q r, isc x p -> isc y q -> isc z r ->
  isc (where_ AB x y z) ((fst p || fst q) || fst r, fun i => ewhere (snd p i) (snd q i) (snd r i)).
Proof. intros x y z p q r K K' K2. exact (isc_nd3 n _ _ _ _ _ _ _ _ _ _ _ K K' K2). Qed.
Lemma isc_powi : forall x p k, isc x p -> isc (powi AB x k) (fst p, fun i => epowi (snd p i) k).
Proof. intros x p k K. exact (isc_nd1 n _ _ (fun a => epowi a k) _ _ K). Qed.
Lemma isc_sin : forall x p, isc x p -> isc (bsin AB x) (fst p, fun i => elift sin (snd p i)).
Proof. intros x p K. exact (isc_nd1 n _ _ _ _ _ K). Qed.

Ltac iop := repeat first
  [ eassumption
  | simple eapply isc_cst | simple eapply isc_add | simple eapply isc_sub | simple eapply isc_mul | simple eapply isc_div
  | simple eapply isc_power | simple eapply isc_max | simple eapply isc_atan2 | simple eapply isc_gt | simple eapply isc_where
  | simple eapply isc_powi | simple eapply isc_sin | simple eapply isc_density | simple eapply isc_pressure | simple eapply isc_temperature
  | simple eapply isc_tas2mach | simple eapply isc_col | simple eapply isc_item ].
Ltac flags := cbn [fst snd orb]; rewrite ?orb_false_r, ?orb_true_r, ?orb_diag; repeat match goal with b : bool |- _ => destruct b end; reflexivity.
Ltac ieq := eapply isc_eq; [iop | flags | cbn [fst snd]; reflexivity].
(** name the value of a call *)
Ltac named K a := let E := fresh "E" in destruct K as (a & E & K); rewrite E; clear E.

Lemma isc_inr : forall A (x : py (nd A)) p, isc x p -> exists a, x = inr a /\ isc (inr a) p.
Proof. intros A x p K. pose proof K as (a & -> & _). exists a. auto. Qed.

Lemma dot_powers_isc : forall mm exps d b f, isc (inr mm) (b, f) -> length d = length exps ->
  isc (dot_powers mm exps d) (b, fun i => dotp (f i) exps d).
Proof.
  intros mm exps d b f (a & E & Hc & Hr & Hd & Hd' & Hv) L. injection E as <-. cbn [fst snd] in *.
  unfold dot_powers. rewrite L, Nat.eqb_refl. eexists. split; [reflexivity|]. cbn [nd_dim nd_r nd_c fst snd].
  split; [reflexivity|]. split; [assumption|]. split; [lia|]. split; [auto|].
  intros i Hi. rewrite <- Hv by assumption. unfold nd_get. cbn [nd_r nd_c nd_at]. rewrite Hc, Hr. reflexivity.
Qed.

Lemma part_length : forall a b l, (b <= length l)%nat -> length (part a b l) = (b - a)%nat.
Proof. intros. unfold part. rewrite firstn_length, skipn_length. lia. Qed.

Lemma cdb_isc : forall m cl mach p q, (15 <= length (d_d m))%nat -> isc cl p -> isc mach q ->
  isc (b4_cd_base m cl mach) (fst p || fst q, fun i => cdb_row m (snd p i) (snd q i)).
Proof.
  intros m cl mach [b f] [b' f'] L K K'. unfold b4_cd_base. apply isc_item.
  assert (P : isc (power AB (sub AB (cst AB 1) (powi AB (col mach) 2)) (cst AB (-0.5))) (b', fun i => epower (esub (Fin 1) (epowi (f' i) 2)) (Fin (-0.5)))) by ieq.
  apply isc_inr in P. named P mm.
  pose proof (dot_powers_isc mm [0; 1; 2; 3; 4]%nat (part 0 5 (d_d m)) _ _ P ltac:(rewrite part_length by lia; reflexivity)) as Q0.
  pose proof (dot_powers_isc mm [0; 3; 6; 9; 12]%nat (part 5 10 (d_d m)) _ _ P ltac:(rewrite part_length by lia; reflexivity)) as Q2.
  pose proof (dot_powers_isc mm [14; 15; 16; 17]%nat (part 11 15 (d_d m)) _ _ P ltac:(rewrite part_length by lia; reflexivity)) as Q6.
  apply isc_inr in Q0. named Q0 c0. apply isc_inr in Q2. named Q2 c2.
  destruct (nth_error (d_d m) 10) as [d10|] eqn:E; [|apply nth_error_None in E; lia].
  assert (Q7 : isc (add AB (cst AB d10) (dot_powers mm [14; 15; 16; 17]%nat (part 11 15 (d_d m)))) (b', fun i => eadd (Fin d10) (dotp (epower (esub (Fin 1) (epowi (f' i) 2)) (Fin (-0.5))) [14; 15; 16; 17]%nat (part 11 15 (d_d m))))) by ieq.
  apply isc_inr in Q7. named Q7 c6. eapply isc_eq; [iop|flags|].
  intros i. cbn [fst snd]. unfold cdb_row. rewrite (nth_error_nth _ _ 0 E). reflexivity.
Qed.

Lemma cd_isc : forall m cl mach p q, (15 <= length (d_d m))%nat -> isc cl p -> isc mach q ->
  isc (b4_cd m cl mach) (fst p || fst q, fun i => cd_row m (snd p i) (snd q i)).
Proof.
  intros m cl mach [b f] [b' f'] L K K'. unfold b4_cd. apply isc_item.
  pose proof (cdb_isc m _ _ _ _ L (isc_col _ _ _ _ K) (isc_col _ _ _ _ K')) as A1.
  pose proof (cdb_isc m _ _ _ _ L (isc_col _ _ _ _ K) (isc_cst (d_mmax m))) as A2.
  pose proof (cdb_isc m _ _ _ _ L (isc_col _ _ _ _ K) (isc_cst (d_mmax m - 0.01))) as A3.
  cbv zeta. eapply isc_eq; [iop|flags|]. intros i. reflexivity.
Qed.

Lemma cl_isc : forall m mass tas alt p q r, isc mass p -> isc tas q -> isc alt r ->
  isc (fst (b4_cl m mass tas alt)) (fst p || (fst q || fst r), fun i => cl_row m (snd p i) (snd q i) (snd r i)) /\
  isc (snd (b4_cl m mass tas alt)) (fst q || fst r, fun i => qS_row m (snd q i) (snd r i)).
Proof.
  intros m mass tas alt [b f] [b' f'] [b'' f''] K1 K2 K3. unfold b4_cl. cbv zeta. cbn [fst snd].
  split; (eapply isc_eq; [iop|flags|intros i; reflexivity]).
Qed.

Lemma clean_isc : forall m mass tas alt p q r, (15 <= length (d_d m))%nat -> isc mass p -> isc tas q -> isc alt r ->
  isc (b4_clean m mass tas alt) (fst p || (fst q || fst r), fun i => clean_row m (snd p i) (snd q i) (snd r i)).
Proof.
  intros m mass tas alt [b f] [b' f'] [b'' f''] L K1 K2 K3. unfold b4_clean. cbv zeta. apply isc_item.
  destruct (cl_isc m _ _ _ _ _ _ (isc_col _ _ _ _ K1) (isc_col _ _ _ _ K2) (isc_col _ _ _ _ K3)) as [A1 A2].
  destruct (b4_cl m (col mass) (col tas) (col alt)) as [cl qS]. cbn [fst snd] in A1, A2.
  assert (A3 : isc (tas2mach AB (mul AB (col tas) (cst AB kts)) (mul AB (col alt) (cst AB ft)) (cst AB 0)) (b' || b'', fun i => mach_row (f' i) (f'' i))) by ieq.
  pose proof (cd_isc m _ _ _ _ L A1 A3) as A4. eapply isc_eq; [iop|flags|intros i; reflexivity].
Qed.

(** ** Thrust *)
(** the vector (or the number) a sum over powers gives *)
Definition isrow (v : nd ext) (p : bool * (nat -> ext)) : Prop :=
  isf v p /\ ((rows n (fst p) = 1%nat /\ v = scalar (snd p 0%nat)) \/ (rows n (fst p) <> 1%nat /\ nd_dim v = 1%nat /\ nd_r v = 1%nat /\ nd_c v = rows n (fst p))).
Lemma isf_eq : forall A (a : nd A) b f b' f', isf a (b, f) -> b = b' -> (forall i, f i = f' i) -> isf a (b', f').
Proof. intros A a b f b' f' [Hs Hv] <- Hf. split; auto. cbn [fst snd] in *. intros k Hk. rewrite Hv by assumption. apply Hf. Qed.
Lemma isrow_item : forall v p, isf v p -> nd_dim v = 1%nat -> nd_r v = 1%nat -> nd_c v = rows n (fst p) ->
  exists v', item (inr v) = inr v' /\ isrow v' p.
Proof.
  intros v [b f] K Hd Hr Hc. cbn [fst snd] in *. unfold item, nd_size. rewrite Hr, Hc, Nat.mul_1_l.
  destruct (Nat.eqb_spec (rows n b) 1) as [E|E].
  - eexists. split; [reflexivity|].
    assert (nd_at v 0%nat 0%nat = f 0%nat) as E0.
    { destruct K as [_ Kv]. cbn [fst snd] in Kv. rewrite <- (Kv 0%nat) by lia. rewrite E. unfold flat. rewrite Hc, E. reflexivity. }
    split; [|left; cbn [fst snd]; rewrite E0; auto].
    apply (isf_item n _ v _ (b, f) Hn K). unfold item, nd_size. rewrite Hr, Hc, E. reflexivity.
  - exists v. split; [reflexivity|]. split; [assumption|]. right. auto.
Qed.
Lemma matrix_mat : forall l r c, length l = (r * c)%nat -> matrix l r c = inr (mat l c).
Proof. intros l r c E. unfold matrix. now rewrite E, Nat.eqb_refl. Qed.
Lemma poly_ext : forall m r c p p' q q', (forall j, (j < c)%nat -> p j = p' j) -> (forall i, (i < r)%nat -> q i = q' i) ->
  poly m r c p q = poly m r c p' q'.
Proof.
  intros m r c p p' q q' E E'. unfold poly. apply nsum_ext. intros i Hi. apply nsum_ext. intros j Hj. apply in_seq in Hi. apply in_seq in Hj.
  rewrite E, E' by lia. reflexivity.
Qed.

Definition flat_rated (dT : ext) (kink : R) : bool := match egt dT (Fin kink) with Some b => negb b | None => false end.
Lemma le_kink_one : forall dT e k, nd_size dT = 1%nat -> nd_at dT 0%nat 0%nat = e -> le_kink (column dT) k = inr (flat_rated e k).
Proof.
  intros dT e k Hs He. unfold le_kink, flat_rated. change (nd_size (column dT)) with (nd_size dT * 1)%nat. rewrite Hs. cbn [Nat.eqb Nat.mul Nat.add].
  change (nd_at (column dT) 0%nat 0%nat) with (flat dT 0). unfold flat.
  assert (nd_c dT = 1)%nat as -> by (unfold nd_size in Hs; destruct (nd_r dT) as [|[|]], (nd_c dT) as [|[|]]; cbn in *; lia).
  change (0 / 1)%nat with 0%nat. change (0 mod 1)%nat with 0%nat. rewrite He. destruct (egt e (Fin k)); reflexivity.
Qed.

Lemma col_inr : forall A (x : py (nd A)) p, isc x p -> exists a, col x = inr a /\ isc (inr a) p.
Proof. intros. apply isc_inr. apply isc_col. assumption. Qed.

(** the atmosphere ratios of [cT] *)
Definition delta_m (h : ext) : ext := ediv (pressure NP h (Fin 0)) (Fin p0).
Definition theta_m (h : ext) : ext := ediv (temperature NP h (Fin 0)) (Fin T0).

Lemma cT_idle : forall m mach h p q rating dT, length (t_ti m) = 12%nat -> isc mach p -> isc h q -> upper rating = "LIDL"%string ->
  exists v, b4_cT true m mach h rating (inr dT) = inr v /\
    isrow v (fst p || fst q, fun i => lidl_row m (snd p i) (delta_m (snd q i))).
Proof.
  intros m mach h [b f] [b' f'] rating dT L K K' U. unfold b4_cT.
  destruct (col_inr _ _ _ K) as (am & -> & Am). destruct (col_inr _ _ _ K') as (ah & -> & Ah). cbn [col].
  rewrite U. cbn [String.eqb Ascii.eqb Bool.eqb].
  assert (P : isc (div AB (pressure AB (inr ah) (cst AB 0)) (cst AB p0)) (b', fun i => delta_m (f' i))) by ieq.
  apply isc_inr in P. named P de.
  assert (Q : isc (div AB (temperature AB (inr ah) (cst AB 0)) (cst AB T0)) (b', fun i => theta_m (f' i))) by ieq.
  apply isc_inr in Q. named Q th. cbn [need_sci]. rewrite (matrix_mat _ 3 4) by assumption.
  pose proof (isc_isf _ _ _ _ P) as Pf. pose proof (isc_isf _ _ _ _ Am) as Mf.
  assert (D : isp n 4 (mkNd 2 4 (nd_size de) (fun i k => match i with O => ediv (Fin 1) (flat de k) | S j => epowi (flat de k) j end)) b'
      (fun k j => match j with O => ediv (Fin 1) (delta_m (f' k)) | S i => epowi (delta_m (f' k)) i end)).
  { split; [apply Pf|]. intros j k Hk Hj. cbn [nd_at]. destruct Pf as [_ Pv]. cbn [fst snd] in Pv. rewrite Pv by assumption. reflexivity. }
  destruct (einsum_isf n (mat (t_ti m) 4) 3 4 _ _ _ _ _ _ Hn D (isp_powers n 3 _ _ Mf)) as (v & -> & V1 & V2 & V3 & V4). cbn [fst snd] in V3, V4.
  destruct (isrow_item _ _ V4 V1 V2 V3) as (v' & -> & V5). exists v'. split; auto.
  cbn [fst snd] in *. rewrite (orb_comm b b'). exact V5.
Qed.

Definition named_rating (m : b4_thrust) (rating : string) (r : b4_rating) : Prop :=
  (upper rating = "MCRZ"%string /\ r = t_mcrz m) \/ (upper rating = "MCMB"%string /\ r = t_mcmb m).

Lemma cT_rated : forall m mach h p q rating r dT e, named_rating m rating r ->
  length (t_a m) = 36%nat -> length (r_b r) = 36%nat -> length (r_c r) = 45%nat ->
  isc mach p -> isc h q -> nd_size dT = 1%nat -> nd_at dT 0%nat 0%nat = e ->
  (flat_rated e (r_kink r) = false -> rows n (fst p || fst q) = rows n (fst q)) ->
  exists v, b4_cT true m mach h rating (inr dT) = inr v /\
    isrow v (fst p || fst q, fun i => rated_row m r (flat_rated e (r_kink r)) (snd p i) (delta_m (snd q i)) (theta_m (snd q i))).
Proof.
  intros m mach h [b f] [b' f'] rating r dT e Nr La Lb Lc K K' Hs He Hr. unfold b4_cT.
  destruct (col_inr _ _ _ K) as (am & -> & Am). destruct (col_inr _ _ _ K') as (ah & -> & Ah). cbn [col].
  assert (P : isc (div AB (pressure AB (inr ah) (cst AB 0)) (cst AB p0)) (b', fun i => delta_m (f' i))) by ieq.
  assert (Q : isc (div AB (temperature AB (inr ah) (cst AB 0)) (cst AB T0)) (b', fun i => theta_m (f' i))) by ieq.
  assert (E : forall G : option b4_rating -> T AB, (match (if String.eqb (upper rating) "MCRZ" then inr (Some (t_mcrz m))
      else if String.eqb (upper rating) "MCMB" then inr (Some (t_mcmb m)) else if String.eqb (upper rating) "LIDL" then inr None else inl AssertionError)
      with inl err => inl err | inr rt => G rt end) = G (Some r)).
  { intros G. destruct Nr as [[-> ->]|[-> ->]]; reflexivity. }
  cbv zeta. rewrite E. clear E.
  apply isc_inr in P. named P de. apply isc_inr in Q. named Q th.
  rewrite (le_kink_one _ e) by assumption. cbn [need_sci].
  pose proof (isc_isf _ _ _ _ P) as Pf. pose proof (isc_isf _ _ _ _ Am) as Mf.
  set (fr := flat_rated e (r_kink r)) in *.
  assert (DT : exists w, (if fr then
            match matrix (r_b r) 6 6 with inl err => inl err | inr mb => einsum mb 6 6 (powers 6 am) (powers 6 de) end
          else
            match matrix (r_c r) 9 5 with inl err => inl err | inr mc =>
            match mul AB (inr th) (add AB (cst AB 1) (div AB (mul AB (powi AB (inr am) 2) (cst AB (1.4 - 1))) (cst AB 2))) with inl err => inl err | inr tq =>
            if Nat.eqb (nd_size tq) (nd_size de) then
              einsum mc 9 5 (powers 5 am) (mkNd 2 9 (nd_size tq) (fun i k =>
                if Nat.leb i 4 then epowi (flat tq k) i else epowi (flat de k) (i - 4)))
            else inl ValueError end end) = inr w /\ isf w (b || b', fun i => if fr
              then poly (mat (r_b r) 6) 6 6 (epowi (f i)) (epowi (delta_m (f' i)))
              else let tq := emul (theta_m (f' i)) (eadd (Fin 1) (ediv (emul (epowi (f i) 2) (Fin (1.4 - 1))) (Fin 2))) in
                poly (mat (r_c r) 5) 9 5 (epowi (f i)) (fun j => if Nat.leb j 4 then epowi tq j else epowi (delta_m (f' i)) (j - 4)))).
  { destruct fr.
    - rewrite (matrix_mat _ 6 6) by assumption.
      destruct (einsum_isf n (mat (r_b r) 6) 6 6 _ _ _ _ _ _ Hn (isp_powers n 6 _ _ Mf) (isp_powers n 6 _ _ Pf)) as (v & -> & _ & _ & _ & V4).
      exists v. split; auto.
    - rewrite (matrix_mat _ 9 5) by assumption. cbn [fst snd] in Hr. specialize (Hr eq_refl).
      assert (TT : isc (mul AB (inr th) (add AB (cst AB 1) (div AB (mul AB (powi AB (inr am) 2) (cst AB (1.4 - 1))) (cst AB 2))))
        (b' || b, fun i => emul (theta_m (f' i)) (eadd (Fin 1) (ediv (emul (epowi (f i) 2) (Fin (1.4 - 1))) (Fin 2))))) by ieq.
      apply isc_inr in TT. named TT tq. pose proof (isc_isf _ _ _ _ TT) as Tf. destruct Tf as [Ts Tv]. cbn [fst snd] in Ts, Tv.
      pose proof Pf as [Ps Pv]. cbn [fst snd] in Ps, Pv. rewrite Ts, Ps. rewrite (orb_comm b' b), Hr, Nat.eqb_refl.
      rewrite (orb_comm b' b), Hr in Tv.
      assert (D : isp n 9 (mkNd 2 9 (rows n b') (fun i k => if Nat.leb i 4 then epowi (flat tq k) i else epowi (flat de k) (i - 4))) b'
        (fun k j => if Nat.leb j 4 then epowi (emul (theta_m (f' k)) (eadd (Fin 1) (ediv (emul (epowi (f k) 2) (Fin (1.4 - 1))) (Fin 2)))) j else epowi (delta_m (f' k)) (j - 4))).
      { split; [reflexivity|]. intros j k Hk Hj. cbn [nd_at]. rewrite Tv, Pv by assumption. reflexivity. }
      destruct (einsum_isf n (mat (r_c r) 5) 9 5 _ _ _ _ _ _ Hn (isp_powers n 5 _ _ Mf) D) as (v & -> & _ & _ & _ & V4).
      exists v. split; auto. }
  destruct DT as (w & -> & Wf). rewrite (matrix_mat _ 6 6) by assumption.
  destruct (einsum_isf n (mat (t_a m) 6) 6 6 _ _ _ _ _ _ Hn (isp_powers n 6 _ _ Mf) (isp_powers n 6 _ _ Wf)) as (v & -> & V1 & V2 & V3 & V4).
  cbn [fst snd] in V3, V4. destruct (isrow_item _ _ V4 V1 V2 V3) as (v' & -> & V5). exists v'. split; auto.
  cbn [fst snd] in *. assert (Eb : b || (b || b') = b || b') by (destruct b; reflexivity). rewrite Eb in V5. exact V5.
Qed.

(** the product of a column and a vector is a matrix *)
Lemma outer : forall m x v b b' f g, isc x (b', f) -> isrow v (b, g) ->
  exists A, mul AB (mul AB (mul AB x (cst AB (t_mref m))) (cst AB g0)) (inr v) = inr A /\
    (nd_dim A <= 2)%nat /\ nd_r A = rows n b' /\ nd_c A = rows n b /\ ((nd_r A = 1%nat /\ nd_c A = 1%nat) \/ nd_r A = 1%nat \/ nd_dim A = 2%nat) /\
    (forall i j, (i < n)%nat -> (j < n)%nat -> nd_get A i j = newtons_row m (f i) (g j)).
Proof.
  intros m x v b b' f g K [[Vs Vv] V].
  assert (X : isc (mul AB (mul AB x (cst AB (t_mref m))) (cst AB g0)) (b', fun i => emul (emul (f i) (Fin (t_mref m))) (Fin g0))) by ieq.
  destruct X as (a & -> & Xc & Xr & Xd & Xd' & Xv). cbn [fst snd] in *.
  assert (V1 : nd_r v = 1%nat /\ nd_c v = rows n b /\ (nd_dim v <= 1)%nat /\ forall j, (j < n)%nat -> nd_get v 0%nat j = g j).
  { destruct V as [[E ->]|(E & D1 & R1 & C1)].
    - split; [reflexivity|]. split; [symmetry; exact E|]. split; [cbn; lia|]. intros j Hj. rewrite <- (Vv j) by assumption. reflexivity.
    - split; [assumption|]. split; [assumption|]. split; [lia|]. intros j Hj. rewrite <- (Vv j) by assumption. unfold nd_get, flat. rewrite R1, C1.
      assert (Hp : (pick (rows n b) j < rows n b)%nat).
      { unfold pick. destruct (Nat.eqb_spec (rows n b) 1) as [|_]; [lia|]. destruct b; cbn [rows] in *; lia. }
      rewrite Nat.div_small, Nat.mod_small by assumption. reflexivity. }
  destruct V1 as (V1 & V2 & V3 & V4). unfold mul, AB, nd2. rewrite Xr, Xc, V1, V2.
  assert (B1 : bc (rows n b') 1 = Some (rows n b')) by (unfold bc; destruct (Nat.eqb_spec (rows n b') 1); auto).
  assert (B2 : bc 1 (rows n b) = Some (rows n b)) by (unfold bc; destruct (Nat.eqb_spec 1 (rows n b)); [congruence|auto]).
  rewrite B1, B2. eexists. split; [reflexivity|]. cbn [nd_dim nd_r nd_c]. split; [lia|]. split; auto. split; auto. split; [lia|].
  intros i j Hi Hj. unfold newtons_row. rewrite <- Xv, <- V4 by assumption. unfold nd_get. cbn [nd_dim nd_r nd_c nd_at].
  rewrite Xr, Xc, V1, V2, !pick_idem. reflexivity.
Qed.

Definition is_matrix (m : b4_thrust) (A : nd ext) (b b' : bool) (d c : nat -> ext) : Prop :=
  (nd_dim A <= 2)%nat /\ nd_r A = rows n b' /\ nd_c A = rows n b /\ ((nd_r A = 1%nat /\ nd_c A = 1%nat) \/ nd_r A = 1%nat \/ nd_dim A = 2%nat) /\
  (forall i j, (i < n)%nat -> (j < n)%nat -> nd_get A i j = newtons_row m (d i) (c j)).

Lemma rated_idle : forall m tas alt p q dT, length (t_ti m) = 12%nat -> isc tas p -> isc alt q ->
  exists A, b4_rated true m "LIDL" tas alt (inr dT) = item (inr A) /\
    is_matrix m A (fst p || fst q) (fst q) (fun i => delta_row (snd q i)) (fun j => lidl_row m (mach_row (snd p j) (snd q j)) (delta_row (snd q j))).
Proof.
  intros m tas alt [b f] [b' f'] dT L K K'. unfold b4_rated. cbv zeta.
  assert (A1 : isc (mul AB (col alt) (cst AB ft)) (b', fun i => emul (f' i) (Fin ft))) by ieq.
  assert (A2 : isc (tas2mach AB (mul AB (col tas) (cst AB kts)) (mul AB (col alt) (cst AB ft)) (cst AB 0)) (b || b', fun i => mach_row (f i) (f' i))) by ieq.
  assert (A3 : isc (div AB (pressure AB (mul AB (col alt) (cst AB ft)) (cst AB 0)) (cst AB p0)) (b', fun i => delta_row (f' i))) by ieq.
  apply isc_inr in A2. named A2 am. apply isc_inr in A3. named A3 ad. cbn [col].
  destruct (cT_idle m _ _ _ _ "LIDL" (column dT) L A2 A1 eq_refl) as (v & -> & V). cbn [fst snd] in V.
  assert (Eb : b || b' || b' = b || b') by (destruct b, b'; reflexivity). rewrite Eb in V.
  destruct (outer m _ _ _ _ _ _ A3 V) as (A & -> & HA). exists A. split; [reflexivity|]. exact HA.
Qed.

Lemma rated_named : forall m rating r tas alt p q dT e, named_rating m rating r ->
  length (t_a m) = 36%nat -> length (r_b r) = 36%nat -> length (r_c r) = 45%nat ->
  isc tas p -> isc alt q -> nd_size dT = 1%nat -> nd_at dT 0%nat 0%nat = e ->
  (flat_rated e (r_kink r) = false -> rows n (fst p || fst q) = rows n (fst q)) ->
  exists A, b4_rated true m rating tas alt (inr dT) = item (inr A) /\
    is_matrix m A (fst p || fst q) (fst q) (fun i => delta_row (snd q i))
      (fun j => rated_row m r (flat_rated e (r_kink r)) (mach_row (snd p j) (snd q j)) (delta_row (snd q j)) (theta_row (snd q j))).
Proof.
  intros m rating r tas alt [b f] [b' f'] dT e Nr La Lb Lc K K' Hs He Hr. unfold b4_rated. cbv zeta.
  assert (A1 : isc (mul AB (col alt) (cst AB ft)) (b', fun i => emul (f' i) (Fin ft))) by ieq.
  assert (A2 : isc (tas2mach AB (mul AB (col tas) (cst AB kts)) (mul AB (col alt) (cst AB ft)) (cst AB 0)) (b || b', fun i => mach_row (f i) (f' i))) by ieq.
  assert (A3 : isc (div AB (pressure AB (mul AB (col alt) (cst AB ft)) (cst AB 0)) (cst AB p0)) (b', fun i => delta_row (f' i))) by ieq.
  apply isc_inr in A2. named A2 am. apply isc_inr in A3. named A3 ad. cbn [col].
  assert (Eb : b || b' || b' = b || b') by (destruct b, b'; reflexivity). cbn [fst snd] in Hr.
  assert (Hs' : nd_size (column dT) = 1%nat) by (change (nd_size (column dT)) with (nd_size dT * 1)%nat; lia).
  assert (He' : nd_at (column dT) 0%nat 0%nat = e).
  { change (nd_at (column dT) 0%nat 0%nat) with (flat dT 0). unfold flat.
    assert (nd_c dT = 1)%nat as -> by (unfold nd_size in Hs; destruct (nd_r dT) as [|[|]], (nd_c dT) as [|[|]]; cbn in *; lia). exact He. }
  destruct (cT_rated m _ _ _ _ rating r (column dT) e Nr La Lb Lc A2 A1 Hs' He') as (v & -> & V).
  { cbn [fst]. rewrite Eb. exact Hr. }
  cbn [fst snd] in V. rewrite Eb in V.
  destruct (outer m _ _ _ _ _ _ A3 V) as (A & -> & HA). exists A. split; [reflexivity|]. exact HA.
Qed.

(** temperature-rated thrust at one altitude and several speeds: the rows of the powers do not fit *)
Lemma cT_hot : forall m mach h p q rating r dT e, named_rating m rating r -> length (r_c r) = 45%nat ->
  isc mach p -> isc h q -> nd_size dT = 1%nat -> nd_at dT 0%nat 0%nat = e -> flat_rated e (r_kink r) = false ->
  rows n (fst p || fst q) <> rows n (fst q) -> b4_cT true m mach h rating (inr dT) = inl ValueError.
Proof.
  intros m mach h [b f] [b' f'] rating r dT e Nr Lc K K' Hs He Hf Hr. unfold b4_cT.
  destruct (col_inr _ _ _ K) as (am & -> & Am). destruct (col_inr _ _ _ K') as (ah & -> & Ah). cbn [col].
  assert (P : isc (div AB (pressure AB (inr ah) (cst AB 0)) (cst AB p0)) (b', fun i => delta_m (f' i))) by ieq.
  assert (Q : isc (div AB (temperature AB (inr ah) (cst AB 0)) (cst AB T0)) (b', fun i => theta_m (f' i))) by ieq.
  assert (E : forall G : option b4_rating -> T AB, (match (if String.eqb (upper rating) "MCRZ" then inr (Some (t_mcrz m))
      else if String.eqb (upper rating) "MCMB" then inr (Some (t_mcmb m)) else if String.eqb (upper rating) "LIDL" then inr None else inl AssertionError)
      with inl err => inl err | inr rt => G rt end) = G (Some r)).
  { intros G. destruct Nr as [[-> ->]|[-> ->]]; reflexivity. }
  cbv zeta. rewrite E. clear E.
  apply isc_inr in P. named P de. apply isc_inr in Q. named Q th.
  rewrite (le_kink_one _ e), Hf by assumption. cbn [need_sci]. rewrite (matrix_mat _ 9 5) by assumption.
  assert (TT : isc (mul AB (inr th) (add AB (cst AB 1) (div AB (mul AB (powi AB (inr am) 2) (cst AB (1.4 - 1))) (cst AB 2))))
    (b' || b, fun i => emul (theta_m (f' i)) (eadd (Fin 1) (ediv (emul (epowi (f i) 2) (Fin (1.4 - 1))) (Fin 2))))) by ieq.
  apply isc_inr in TT. named TT tq. pose proof (isc_isf _ _ _ _ TT) as [Ts _]. pose proof (isc_isf _ _ _ _ P) as [Ps _]. cbn [fst snd] in *.
  rewrite Ts, Ps, (orb_comm b' b). apply Nat.eqb_neq in Hr. rewrite Hr. reflexivity.
Qed.
Lemma rated_hot : forall m rating r tas alt p q dT e, named_rating m rating r -> length (r_c r) = 45%nat ->
  isc tas p -> isc alt q -> nd_size dT = 1%nat -> nd_at dT 0%nat 0%nat = e -> flat_rated e (r_kink r) = false ->
  rows n (fst p || fst q) <> rows n (fst q) -> b4_rated true m rating tas alt (inr dT) = inl ValueError.
Proof.
  intros m rating r tas alt [b f] [b' f'] dT e Nr Lc K K' Hs He Hf Hr. unfold b4_rated. cbv zeta.
  assert (A1 : isc (mul AB (col alt) (cst AB ft)) (b', fun i => emul (f' i) (Fin ft))) by ieq.
  assert (A2 : isc (tas2mach AB (mul AB (col tas) (cst AB kts)) (mul AB (col alt) (cst AB ft)) (cst AB 0)) (b || b', fun i => mach_row (f i) (f' i))) by ieq.
  assert (A3 : isc (div AB (pressure AB (mul AB (col alt) (cst AB ft)) (cst AB 0)) (cst AB p0)) (b', fun i => delta_row (f' i))) by ieq.
  apply isc_inr in A2. named A2 am. apply isc_inr in A3. named A3 ad. cbn [col].
  assert (Eb : b || b' || b' = b || b') by (destruct b, b'; reflexivity). cbn [fst snd] in Hr.
  assert (Hs' : nd_size (column dT) = 1%nat) by (change (nd_size (column dT)) with (nd_size dT * 1)%nat; lia).
  assert (He' : nd_at (column dT) 0%nat 0%nat = e).
  { change (nd_at (column dT) 0%nat 0%nat) with (flat dT 0). unfold flat.
    assert (nd_c dT = 1)%nat as -> by (unfold nd_size in Hs; destruct (nd_r dT) as [|[|]], (nd_c dT) as [|[|]]; cbn in *; lia). exact He. }
  rewrite (cT_hot m _ _ _ _ rating r (column dT) e Nr Lc A2 A1 Hs' He' Hf); [reflexivity|]. cbn [fst]. rewrite Eb. exact Hr.
Qed.

(** errors *)
Lemma cT_errors : forall sci m mach h p q rating dT, isc mach p -> isc h q ->
  (upper rating <> "MCRZ" -> upper rating <> "MCMB" -> upper rating <> "LIDL" -> b4_cT sci m mach h rating (inr dT) = inl AssertionError)%string /\
  ((upper rating = "MCRZ" \/ upper rating = "MCMB") -> nd_size dT <> 1%nat -> b4_cT sci m mach h rating (inr dT) = inl ValueError)%string /\
  ((upper rating = "MCRZ" \/ upper rating = "MCMB") -> nd_size dT = 1%nat -> b4_cT false m mach h rating (inr dT) = inl AttributeError)%string /\
  (upper rating = "LIDL" -> b4_cT false m mach h rating (inr dT) = inl AttributeError)%string.
Proof.
  intros sci m mach h [b f] [b' f'] rating dT K K'. unfold b4_cT.
  destruct (col_inr _ _ _ K) as (am & -> & Am). destruct (col_inr _ _ _ K') as (ah & -> & Ah). cbn [col]. cbv zeta.
  assert (P : isc (div AB (pressure AB (inr ah) (cst AB 0)) (cst AB p0)) (b', fun i => delta_m (f' i))) by ieq.
  assert (Q : isc (div AB (temperature AB (inr ah) (cst AB 0)) (cst AB T0)) (b', fun i => theta_m (f' i))) by ieq.
  apply isc_inr in P. destruct P as (de & E1 & P). apply isc_inr in Q. destruct Q as (th & E2 & Q).
  assert (Hs : nd_size (column dT) = nd_size dT) by (change (nd_size (column dT)) with (nd_size dT * 1)%nat; lia).
  repeat split.
  - intros N1 N2 N3. apply String.eqb_neq in N1, N2, N3. rewrite N1, N2, N3. reflexivity.
  - intros [-> | ->] N; cbn [String.eqb Ascii.eqb Bool.eqb]; rewrite E1, E2; unfold le_kink; rewrite Hs; apply Nat.eqb_neq in N; rewrite N; reflexivity.
  - intros [-> | ->] N; cbn [String.eqb Ascii.eqb Bool.eqb]; rewrite E1, E2; unfold le_kink; rewrite Hs, N; cbn [Nat.eqb];
      (destruct (egt (nd_at (column dT) 0%nat 0%nat) (Fin _)); reflexivity).
  - intros ->. cbn [String.eqb Ascii.eqb Bool.eqb]. rewrite E1, E2. reflexivity.
Qed.
Lemma rated_errors : forall sci m tas alt p q rating dT, isc tas p -> isc alt q ->
  ((upper rating = "MCRZ" \/ upper rating = "MCMB") -> nd_size dT <> 1%nat -> b4_rated sci m rating tas alt (inr dT) = inl ValueError)%string /\
  ((upper rating = "MCRZ" \/ upper rating = "MCMB") -> nd_size dT = 1%nat -> b4_rated false m rating tas alt (inr dT) = inl AttributeError)%string /\
  (upper rating = "LIDL" -> b4_rated false m rating tas alt (inr dT) = inl AttributeError)%string.
Proof.
  intros sci m tas alt [b f] [b' f'] rating dT K K'. unfold b4_rated. cbv zeta.
  assert (A1 : isc (mul AB (col alt) (cst AB ft)) (b', fun i => emul (f' i) (Fin ft))) by ieq.
  assert (A2 : isc (tas2mach AB (mul AB (col tas) (cst AB kts)) (mul AB (col alt) (cst AB ft)) (cst AB 0)) (b || b', fun i => mach_row (f i) (f' i))) by ieq.
  assert (A3 : isc (div AB (pressure AB (mul AB (col alt) (cst AB ft)) (cst AB 0)) (cst AB p0)) (b', fun i => delta_row (f' i))) by ieq.
  apply isc_inr in A2. named A2 am. apply isc_inr in A3. named A3 ad. cbn [col].
  assert (Hs : nd_size (column dT) = nd_size dT) by (change (nd_size (column dT)) with (nd_size dT * 1)%nat; lia).
  destruct (cT_errors sci m _ _ _ _ rating (column dT) A2 A1) as (_ & E1 & _ & _).
  destruct (cT_errors sci m _ _ _ _ rating (column dT) A2 A1) as (_ & _ & E2 & E3). rewrite Hs in E1, E2.
  split; [intros; rewrite E1 by assumption; reflexivity|]. split; intros; [rewrite E2 by assumption|rewrite E3 by assumption]; reflexivity.
Qed.

(** ** Fuel flow *)
Lemma calc_isc : forall m delta theta cF p q r, f_lhv m <> 0 -> isc delta p -> isc theta q -> isf cF r ->
  isc (b4_calc_fuel m delta theta (inr cF)) (fst p || (fst q || fst r), fun i => calc_row m (snd p i) (snd q i) (snd r i)).
Proof.
  intros m delta theta cF [b f] [b' f'] [b'' f''] L K1 K2 K3. unfold b4_calc_fuel. cbv zeta. apply isc_item.
  destruct (Req_EM_T (f_lhv m) 0) as [|_]; [contradiction|]. pose proof (isf_col _ _ _ _ K3) as K4.
  eapply isc_eq; [iop|flags|intros i; reflexivity].
Qed.
Lemma ff_idle_isc : forall m tas alt p q, f_lhv m <> 0 -> length (f_fi m) = 9%nat -> isc tas p -> isc alt q ->
  isc (b4_ff_idle m tas alt) (fst p || fst q, fun i => ff_idle_row m (snd p i) (snd q i)).
Proof.
  intros m tas alt [b f] [b' f'] Hl L K K'. unfold b4_ff_idle. cbv zeta. apply isc_item.
  assert (A2 : isc (tas2mach AB (mul AB (col tas) (cst AB kts)) (mul AB (col alt) (cst AB ft)) (cst AB 0)) (b || b', fun i => mach_row (f i) (f' i))) by ieq.
  assert (A3 : isc (div AB (pressure AB (mul AB (col alt) (cst AB ft)) (cst AB 0)) (cst AB p0)) (b', fun i => delta_row (f' i))) by ieq.
  assert (A4 : isc (div AB (temperature AB (mul AB (col alt) (cst AB ft)) (cst AB 0)) (cst AB T0)) (b', fun i => theta_row (f' i))) by ieq.
  apply isc_inr in A2. named A2 am. apply isc_inr in A3. named A3 ad. apply isc_inr in A4. named A4 ath.
  rewrite (matrix_mat _ 3 3) by assumption.
  destruct (einsum_isf n (mat (f_fi m) 3) 3 3 _ _ _ _ _ _ Hn (isp_powers n 3 _ _ (isc_isf _ _ _ _ A3)) (isp_powers n 3 _ _ (isc_isf _ _ _ _ A2))) as (v & -> & _ & _ & _ & V4).
  pose proof (calc_isc m _ _ _ _ _ _ Hl A3 A4 V4) as R1. eapply isc_eq; [exact R1|flags|intros i; reflexivity].
Qed.
Lemma ff_isc : forall m mass tas alt vs p q r s, f_lhv m <> 0 -> length (f_fi m) = 9%nat -> length (f_f m) = 25%nat ->
  (15 <= length (d_d (f_drag m)))%nat ->
  isc mass p -> isc tas q -> isc alt r -> isc (match vs with Some x => x | None => cst AB 0 end) s ->
  isc (b4_ff_enroute m mass tas alt vs)
    (((fst p || fst q) || fst r) || fst s, fun i => ff_row m (snd p i) (snd q i) (snd r i) (snd s i)).
Proof.
  intros m mass tas alt vs [b f] [b' f'] [b2 f2] [b3 f3] Hl Li L Ld K1 K2 K3 K4. unfold b4_ff_enroute. cbv zeta. apply isc_item.
  assert (K5 : isc (match vs with Some x => col x | None => cst AB 0 end) (b3, f3)) by (destruct vs; [apply isc_col|]; exact K4).
  pose proof (clean_isc (f_drag m) _ _ _ _ _ _ Ld (isc_col _ _ _ _ K1) (isc_col _ _ _ _ K2) (isc_col _ _ _ _ K3)) as D.
  pose proof (ff_idle_isc m _ _ _ _ Hl Li (isc_col _ _ _ _ K2) (isc_col _ _ _ _ K3)) as Di. cbn [fst snd] in D, Di.
  assert (A2 : isc (tas2mach AB (mul AB (col tas) (cst AB kts)) (mul AB (col alt) (cst AB ft)) (cst AB 0)) (b' || b2, fun i => mach_row (f' i) (f2 i))) by ieq.
  assert (A3 : isc (div AB (pressure AB (mul AB (col alt) (cst AB ft)) (cst AB 0)) (cst AB p0)) (b2, fun i => delta_row (f2 i))) by ieq.
  assert (A4 : isc (div AB (temperature AB (mul AB (col alt) (cst AB ft)) (cst AB 0)) (cst AB T0)) (b2, fun i => theta_row (f2 i))) by ieq.
  apply isc_inr in A2. named A2 am. apply isc_inr in A3. named A3 ad. apply isc_inr in A4. named A4 ath.
  assert (A5 : forall vs', isc vs' (b3, f3) -> isc (div AB
     (add AB (b4_clean (f_drag m) (col mass) (col tas) (col alt))
        (mul AB (mul AB (col mass) (cst AB g0)) (bsin AB (barctan2 AB (mul AB vs' (cst AB fpm)) (mul AB (col tas) (cst AB kts))))))
     (mul AB (mul AB (col (inr ad)) (cst AB (f_mref m))) (cst AB g0)))
     (((b || b') || b2) || b3, fun i => ct_row m (f i) (f' i) (f2 i) (f3 i))) by (intros; ieq).
  rewrite (matrix_mat _ 5 5) by assumption.
  destruct vs as [x|]; specialize (A5 _ K5); apply isc_inr in A5; named A5 act;
  (destruct (einsum_isf n (mat (f_f m) 5) 5 5 _ _ _ _ _ _ Hn (isp_powers n 5 _ _ (isc_isf _ _ _ _ A5)) (isp_powers n 5 _ _ (isc_isf _ _ _ _ A2))) as (v & -> & _ & _ & _ & V4);
   pose proof (calc_isc m _ _ _ _ _ _ Hl A3 A4 V4) as R1; eapply isc_eq; [iop|flags|intros i; reflexivity]).
Qed.
End Rows.
