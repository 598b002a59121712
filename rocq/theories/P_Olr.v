(** * C118: what load_olr returns *)
From Coq Require Import String Reals List Bool Lra Lia Permutation Sorted.
From Verif Require Import Num Py Stats P_Stats Olr.
Import ListNotations.
Open Scope R_scope.

(** ** Specification *)
(** a and b are neighbouring labels around x, or a = b = x is a label *)
Definition cell (g : list R) (x a b : R) : Prop :=
  In a g /\ In b g /\ a <= x <= b /\ forall y, In y g -> y <= a \/ b <= y.
(** weighted mean by distance *)
Definition mix (x a b u v : R) : R := if Req_EM_T a b then u else u * ((b - x) / (b - a)) + v * ((x - a) / (b - a)).
(** x lies outside the labels *)
Definition outside (g : list R) (x : R) : Prop := (forall y, In y g -> x < y) \/ (forall y, In y g -> y < x).

(** ** One dimension *)
Lemma segment_some s x : StronglySorted Rle s ->
  match segment s x with
  | Some (a, b) => cell s x a b
  | None => outside s x
  end.
Proof.
  induction 1 as [|a t Ht IH Ha]; [left; intros y []|].
  destruct t as [|b t].
  - simpl. destruct (Req_EM_T x a) as [->|N].
    + split; [left; reflexivity|]. split; [left; reflexivity|]. split; [lra|]. intros y [<-|[]]; lra.
    + destruct (Rlt_dec x a); [left|right]; intros y [<-|[]]; lra.
  - change (segment (a :: b :: t) x) with (if Rle_dec a x then if Rle_dec x b then Some (a, b) else segment (b :: t) x else None).
    rewrite Forall_forall in Ha.
    destruct (Rle_dec a x) as [Hax|Hax].
    + destruct (Rle_dec x b) as [Hxb|Hxb].
      * repeat apply conj; [left; reflexivity|right; left; reflexivity|lra|lra|].
        intros y [<-|[<-|Hy]]; [lra|lra|right]. inversion Ht as [|? ? ? Hb]; subst. rewrite Forall_forall in Hb. apply Hb; exact Hy.
      * destruct (segment (b :: t) x) as [[p q]|].
        -- destruct IH as (I1 & I2 & I3 & I4). split; [right; exact I1|]. split; [right; exact I2|]. split; [exact I3|].
           intros y [<-|Hy]; [left|apply I4; exact Hy]. apply Ha; exact I1.
        -- right. destruct IH as [IH|IH]; [specialize (IH b (or_introl eq_refl)); lra|].
           intros y [<-|Hy]; [|apply IH; exact Hy]. specialize (IH b (or_introl eq_refl)). specialize (Ha b (or_introl eq_refl)). lra.
    + left. intros y [<-|Hy]; [lra|]. specialize (Ha y Hy). lra.
Qed.
Lemma cell_perm g g' x a b : Permutation g g' -> cell g x a b -> cell g' x a b.
Proof.
  intros P (A & B & C & D). repeat apply conj; try lra; try (eapply Permutation_in; eassumption).
  intros y Hy. apply D. eapply Permutation_in; [symmetry; exact P|exact Hy].
Qed.
Lemma mix_node g x a b h : cell g x a b -> In x g -> mix x a b (h a) (h b) = h x.
Proof.
  intros (A & B & C & D) Hx. unfold mix. destruct (Req_EM_T a b) as [E|N].
  - f_equal. lra.
  - destruct (D x Hx) as [E|E].
    + assert (x = a) by lra. subst x. field; lra.
    + assert (x = b) by lra. subst x. field; lra.
Qed.
Lemma mix_unique g x a b a' b' h : cell g x a b -> cell g x a' b' -> mix x a b (h a) (h b) = mix x a' b' (h a') (h b').
Proof.
  intros C C'. destruct (Req_dec x a) as [E|Na]; [|destruct (Req_dec x b) as [E|Nb]].
  - assert (Hx : In x g) by (rewrite E; apply C). rewrite (mix_node g), (mix_node g x a' b'); auto.
  - assert (Hx : In x g) by (rewrite E; apply C). rewrite (mix_node g), (mix_node g x a' b'); auto.
  - destruct C as (A & B & C & D), C' as (A' & B' & C' & D').
    assert (a = a') by (destruct (D a' A'), (D' a A); lra).
    assert (b = b') by (destruct (D b' B'), (D' b B); lra). subst. reflexivity.
Qed.
Lemma along_cell g f h x a b : (forall y, In y g -> f y = Fin (h y)) -> cell g x a b ->
  interp_along g f x = Fin (mix x a b (h a) (h b)).
Proof.
  intros Hf C. unfold interp_along. pose proof (segment_some (sort_r g) x (sort_sorted g)) as S.
  destruct (segment (sort_r g) x) as [[p q]|].
  - apply (cell_perm _ g) in S; [|symmetry; apply sort_perm].
    rewrite (mix_unique g x a b p q h C S). destruct S as (P & Q & _). rewrite !Hf by assumption. unfold mix.
    destruct (Req_EM_T p q); [reflexivity|]. simpl. f_equal. field; lra.
  - exfalso. destruct C as (A & B & C & _). pose proof (Permutation_in _ (sort_perm g) A) as A'. pose proof (Permutation_in _ (sort_perm g) B) as B'.
    destruct S as [S|S]; [specialize (S a A')|specialize (S b B')]; lra.
Qed.
Lemma along_outside g f x : outside g x -> interp_along g f x = NaN.
Proof.
  intros O. unfold interp_along. pose proof (segment_some (sort_r g) x (sort_sorted g)) as S.
  destruct (segment (sort_r g) x) as [[p q]|]; [exfalso|reflexivity].
  apply (cell_perm _ g) in S; [|symmetry; apply sort_perm]. destruct S as (P & Q & C & _).
  destruct O as [O|O]; [specialize (O p P)|specialize (O q Q)]; lra.
Qed.
Lemma along_nan g f x : (forall y, f y = NaN) -> interp_along g f x = NaN.
Proof.
  intros Hf. unfold interp_along. destruct (segment (sort_r g) x) as [[p q]|]; [|reflexivity].
  rewrite !Hf. destruct (Req_EM_T p q); reflexivity.
Qed.
Lemma sort_perm_eq l l' : Permutation l l' -> sort_r l = sort_r l'.
Proof.
  intros P. assert (P' : Permutation (sort_r l) (sort_r l')) by (rewrite <- !sort_perm; exact P).
  pose proof (sort_sorted l) as S. pose proof (sort_sorted l') as S'.
  revert P' S S'. generalize (sort_r l) as s, (sort_r l') as s'. clear.
  induction s as [|a t IH]; intros s' P S S'.
  - apply Permutation_nil in P. auto.
  - destruct s' as [|b u]; [apply Permutation_sym, Permutation_nil in P; discriminate|].
    inversion S as [|? ? St Sa]; subst. inversion S' as [|? ? Su Sb]; subst.
    rewrite Forall_forall in Sa, Sb.
    assert (E : a = b).
    { apply Rle_antisym.
      - assert (I : In b (a :: t)) by (eapply Permutation_in; [symmetry; exact P|left; reflexivity]). destruct I as [->|I]; [lra|apply Sa; exact I].
      - assert (I : In a (b :: u)) by (eapply Permutation_in; [exact P|left; reflexivity]). destruct I as [->|I]; [lra|apply Sb; exact I]. }
    subst b. f_equal. apply IH; auto. eapply Permutation_cons_inv; exact P.
Qed.

(** ** A file with the documented content *)
Definition grid (d : R -> R -> R -> R) (var latn lonn : string) (gt gla glo : list R) : dataset :=
  mkDs [(var, fun t la lo => Fin (d t la lo))] [("time"%string, gt); (latn, gla); (lonn, glo)].
Definition var_names : list string := ["olr"; "OLR"; "olr_avg"; "toa_lw_all_daily"]%string.
Definition lat_names : list string := ["lat"; "latitude"]%string.
Definition lon_names : list string := ["lon"; "longitude"]%string.
Ltac names := repeat match goal with H : In _ _ |- _ => simpl in H; repeat destruct H as [H|H]; try contradiction; subst end.

Definition value (d : R -> R -> R -> R) (gt gla glo : list R) (la lo t : R) : ext :=
  interp_along gt (fun t' => interp_along gla (fun la' => interp_along glo (fun lo' => Fin (d t' la' lo')) lo) la) t.
Lemma load_grid d var latn lonn gt gla glo la lo t : In var var_names -> In latn lat_names -> In lonn lon_names ->
  load_olr (grid d var latn lonn gt gla glo) (One la) (One lo) (One t) = inr ([], [value d gt gla glo la lo t]).
Proof. intros H1 H2 H3. names; reflexivity. Qed.

(** *** The value at one place and time: trilinear interpolation in the cell around it *)
Theorem C118_value d var latn lonn gt gla glo la lo t t0 t1 a0 a1 o0 o1 :
  In var var_names -> In latn lat_names -> In lonn lon_names ->
  cell gt t t0 t1 -> cell gla la a0 a1 -> cell glo lo o0 o1 ->
  load_olr (grid d var latn lonn gt gla glo) (One la) (One lo) (One t) =
  inr ([], [Fin (mix t t0 t1
     (mix la a0 a1 (mix lo o0 o1 (d t0 a0 o0) (d t0 a0 o1)) (mix lo o0 o1 (d t0 a1 o0) (d t0 a1 o1)))
     (mix la a0 a1 (mix lo o0 o1 (d t1 a0 o0) (d t1 a0 o1)) (mix lo o0 o1 (d t1 a1 o0) (d t1 a1 o1))))]).
Proof.
  intros H1 H2 H3 Ct Ca Co. rewrite load_grid by assumption. do 3 f_equal. unfold value.
  assert (Eo : forall t' la', interp_along glo (fun lo' => Fin (d t' la' lo')) lo = Fin (mix lo o0 o1 (d t' la' o0) (d t' la' o1))).
  { intros. apply along_cell with (h := fun lo' => d t' la' lo'); auto. }
  assert (Ea : forall t', interp_along gla (fun la' => interp_along glo (fun lo' => Fin (d t' la' lo')) lo) la =
    Fin (mix la a0 a1 (mix lo o0 o1 (d t' a0 o0) (d t' a0 o1)) (mix lo o0 o1 (d t' a1 o0) (d t' a1 o1)))).
  { intros. apply along_cell with (h := fun la' => mix lo o0 o1 (d t' la' o0) (d t' la' o1)); auto. }
  apply along_cell with (h := fun t' => mix la a0 a1 (mix lo o0 o1 (d t' a0 o0) (d t' a0 o1)) (mix lo o0 o1 (d t' a1 o0) (d t' a1 o1))); auto.
Qed.

Lemma cell_exists g x y z : In y g -> In z g -> y <= x <= z -> exists a b, cell g x a b.
Proof.
  intros Hy Hz H. pose proof (segment_some (sort_r g) x (sort_sorted g)) as S.
  destruct (segment (sort_r g) x) as [[p q]|].
  - exists p, q. apply (cell_perm _ g) in S; [exact S|symmetry; apply sort_perm].
  - exfalso. pose proof (Permutation_in _ (sort_perm g) Hy) as A'. pose proof (Permutation_in _ (sort_perm g) Hz) as B'.
    destruct S as [S|S]; [specialize (S y A')|specialize (S z B')]; lra.
Qed.
Lemma mix_bounds x a b u v m M : a <= x <= b -> m <= u <= M -> m <= v <= M -> m <= mix x a b u v <= M.
Proof.
  intros Hx Hu Hv. unfold mix. destruct (Req_EM_T a b); [exact Hu|].
  assert (E : (b - x) / (b - a) = 1 - (x - a) / (b - a)) by (field; lra). rewrite E.
  assert (W : 0 <= (x - a) / (b - a) <= 1).
  { split; [apply Rmult_le_pos; [lra|left; apply Rinv_0_lt_compat; lra]|].
    apply Rmult_le_reg_r with (b - a); [lra|]. unfold Rdiv. rewrite Rmult_assoc, Rinv_l by lra. lra. }
  set (w := (x - a) / (b - a)) in *.
  assert (0 <= (u - m) * (1 - w)) by (apply Rmult_le_pos; lra). assert (0 <= (v - m) * w) by (apply Rmult_le_pos; lra).
  assert (0 <= (M - u) * (1 - w)) by (apply Rmult_le_pos; lra). assert (0 <= (M - v) * w) by (apply Rmult_le_pos; lra).
  lra.
Qed.
Lemma mix_affine x a b p q : a <= x <= b -> mix x a b (p + q * a) (p + q * b) = p + q * x.
Proof. intros Hx. unfold mix. destruct (Req_EM_T a b) as [<-|N]; [f_equal; f_equal; lra|field; lra]. Qed.

(** *** On a grid point the stored value; never outside the range of the data; exact for data that vary linearly *)
Theorem C118_laws d var latn lonn gt gla glo la lo t y1 z1 y2 z2 y3 z3 :
  In var var_names -> In latn lat_names -> In lonn lon_names ->
  In y1 gt -> In z1 gt -> y1 <= t <= z1 -> In y2 gla -> In z2 gla -> y2 <= la <= z2 -> In y3 glo -> In z3 glo -> y3 <= lo <= z3 ->
  exists v, load_olr (grid d var latn lonn gt gla glo) (One la) (One lo) (One t) = inr ([], [Fin v]) /\
    (In t gt -> In la gla -> In lo glo -> v = d t la lo) /\
    (forall m M, (forall t' la' lo', In t' gt -> In la' gla -> In lo' glo -> m <= d t' la' lo' <= M) -> m <= v <= M) /\
    (forall p q r s, (forall t' la' lo', In t' gt -> In la' gla -> In lo' glo -> d t' la' lo' = p + q * t' + r * la' + s * lo') ->
       v = p + q * t + r * la + s * lo).
Proof.
  intros V1 V2 V3 H1 H2 H3 H4 H5 H6 H7 H8 H9.
  destruct (cell_exists gt t y1 z1) as (t0 & t1 & Ct); auto.
  destruct (cell_exists gla la y2 z2) as (a0 & a1 & Ca); auto.
  destruct (cell_exists glo lo y3 z3) as (o0 & o1 & Co); auto.
  eexists. split; [eapply C118_value; eassumption|].
  pose proof Ct as (T0 & T1 & T2 & _). pose proof Ca as (A0 & A1 & A2 & _). pose proof Co as (O0 & O1 & O2 & _).
  repeat apply conj.
  - intros It Ia Io.
    rewrite !(mix_node glo lo o0 o1 (fun o => d _ _ o)) by assumption.
    rewrite !(mix_node gla la a0 a1 (fun o => d _ o lo)) by assumption.
    apply (mix_node gt t t0 t1 (fun o => d o la lo)); assumption.
  - intros m M H. repeat (apply mix_bounds; [assumption| |]); apply H; assumption.
  - intros p q r s H. rewrite !H by assumption.
    rewrite !mix_affine by assumption.
    replace (p + q * t + r * la + s * lo) with (p + r * la + s * lo + q * t) by ring.
    assert (E : forall u, mix la a0 a1 (p + q * u + r * a0 + s * lo) (p + q * u + r * a1 + s * lo) = p + r * la + s * lo + q * u).
    { intros u. replace (p + q * u + r * a0 + s * lo) with ((p + q * u + s * lo) + r * a0) by ring.
      replace (p + q * u + r * a1 + s * lo) with ((p + q * u + s * lo) + r * a1) by ring. rewrite mix_affine by assumption. ring. }
    rewrite !E. apply mix_affine; assumption.
Qed.
(** *** Outside the grid: NaN *)
Theorem C118_outside d var latn lonn gt gla glo la lo t :
  In var var_names -> In latn lat_names -> In lonn lon_names -> outside gt t \/ outside gla la \/ outside glo lo ->
  load_olr (grid d var latn lonn gt gla glo) (One la) (One lo) (One t) = inr ([], [NaN]).
Proof.
  intros H1 H2 H3 H. rewrite load_grid by assumption. do 3 f_equal. unfold value. destruct H as [H|[H|H]].
  - apply along_outside; exact H.
  - apply along_nan. intros. apply along_outside; exact H.
  - apply along_nan. intros. apply along_nan. intros. apply along_outside; exact H.
Qed.
(** *** The order of the labels in the file does not matter *)
Theorem C118_label_order d var latn lonn gt gla glo gt' gla' glo' la lo t :
  Permutation gt gt' -> Permutation gla gla' -> Permutation glo glo' ->
  load_olr (grid d var latn lonn gt gla glo) la lo t = load_olr (grid d var latn lonn gt' gla' glo') la lo t.
Proof.
  intros P1 P2 P3. unfold load_olr, grid. cbn [ds_vars ds_coords].
  destruct (first_name _ [(var, _)]) as [v|]; [|reflexivity].
  assert (C : forall g g' f x, Permutation g g' -> interp_along g f x = interp_along g' f x).
  { intros g g' f x P. unfold interp_along. rewrite (sort_perm_eq g g' P). reflexivity. }
  assert (F : forall n (l l' l'' m m' m'' : list R), (l = m -> True) ->
     match dict_get n [("time"%string, l); (latn, l'); (lonn, l'')], dict_get n [("time"%string, m); (latn, m'); (lonn, m'')] with
     | Some x, Some y => (x, y) = (l, m) \/ (x, y) = (l', m') \/ (x, y) = (l'', m'') | None, None => True | _, _ => False end).
  { intros. simpl. destruct (String.eqb n "time"); auto. destruct (String.eqb n latn); auto. destruct (String.eqb n lonn); auto. }
  assert (G : forall n, match dict_get n [("time"%string, gt); (latn, gla); (lonn, glo)], dict_get n [("time"%string, gt'); (latn, gla'); (lonn, glo')] with
     | Some x, Some y => Permutation x y | None, None => True | _, _ => False end).
  { intros n. specialize (F n gt gla glo gt' gla' glo' (fun _ => I)).
    destruct (dict_get n [("time"%string, gt); _; _]), (dict_get n [("time"%string, gt'); _; _]); auto.
    destruct F as [F|[F|F]]; injection F as -> ->; assumption. }
  assert (N : forall names, match first_name names [("time"%string, gt); (latn, gla); (lonn, glo)], first_name names [("time"%string, gt'); (latn, gla'); (lonn, glo')] with
     | Some x, Some y => Permutation x y | None, None => True | _, _ => False end).
  { induction names as [|n names IH]; [exact I|]. cbn [first_name]. specialize (G n).
    destruct (dict_get n [("time"%string, gt); _; _]), (dict_get n [("time"%string, gt'); _; _]); auto; contradiction. }
  pose proof (N ["lat"; "latitude"]%string) as N1. pose proof (N ["lon"; "longitude"]%string) as N2. pose proof (G "time"%string) as N3.
  destruct (first_name ["lat"; "latitude"]%string [("time"%string, gt); _; _]) as [x1|], (first_name ["lat"; "latitude"]%string [("time"%string, gt'); _; _]) as [y1|]; try contradiction; auto.
  destruct (first_name ["lon"; "longitude"]%string [("time"%string, gt); _; _]) as [x2|], (first_name ["lon"; "longitude"]%string [("time"%string, gt'); _; _]) as [y2|]; try contradiction; auto.
  destruct (dict_get "time"%string [("time"%string, gt); _; _]) as [x3|], (dict_get "time"%string [("time"%string, gt'); _; _]) as [y3|]; try contradiction; auto.
  do 2 f_equal. apply flat_map_ext; intros u. apply flat_map_ext; intros w. apply map_ext; intros z.
  unfold interp_along. rewrite (sort_perm_eq _ _ N1), (sort_perm_eq _ _ N2), (sort_perm_eq _ _ N3). reflexivity.
Qed.
(** *** Names *)
Theorem C118_names ds la lo t :
  (forall n v, ~ In n var_names -> load_olr (mkDs ((n, v) :: ds_vars ds) (ds_coords ds)) la lo t = load_olr ds la lo t) /\
  (forall before n after v, var_names = before ++ n :: after -> (forall m, In m before -> dict_get m (ds_vars ds) = None) -> dict_get n (ds_vars ds) = Some v ->
     load_olr ds la lo t = load_olr (mkDs [("olr"%string, v)] (ds_coords ds)) la lo t) /\
  ((forall n, In n var_names -> dict_get n (ds_vars ds) = None) -> load_olr ds la lo t = inl ValueError) /\
  ((forall n, In n lat_names -> dict_get n (ds_coords ds) = None) \/ (forall n, In n lon_names -> dict_get n (ds_coords ds) = None) ->
     load_olr ds la lo t = inl ValueError).
Proof.
  destruct ds as [vs cs]. cbn [ds_vars ds_coords]. repeat apply conj.
  - intros n v Hn. unfold load_olr. cbn [ds_vars ds_coords].
    assert (E : first_name ["olr"; "OLR"; "olr_avg"; "toa_lw_all_daily"]%string ((n, v) :: vs) = first_name ["olr"; "OLR"; "olr_avg"; "toa_lw_all_daily"]%string vs).
    { cbn [first_name dict_get].
      assert (D : forall k, In k var_names -> String.eqb k n = false) by (intros k Hk; apply String.eqb_neq; intros ->; contradiction).
      rewrite (D "olr"%string), (D "OLR"%string), (D "olr_avg"%string), (D "toa_lw_all_daily"%string) by (unfold var_names; simpl; auto 10). reflexivity. }
    rewrite E. reflexivity.
  - intros before n after v Hs Hb Hv. unfold load_olr. cbn [ds_vars ds_coords].
    assert (E : first_name ["olr"; "OLR"; "olr_avg"; "toa_lw_all_daily"]%string vs = Some v).
    { change ["olr"; "OLR"; "olr_avg"; "toa_lw_all_daily"]%string with var_names. rewrite Hs. clear Hs. induction before as [|b before IH]; cbn [app first_name]; [rewrite Hv; reflexivity|].
      rewrite Hb by (left; reflexivity). apply IH. intros m Hm. apply Hb. right. exact Hm. }
    rewrite E. reflexivity.
  - intros H. unfold load_olr. cbn [ds_vars ds_coords first_name]. rewrite !H by (unfold var_names, lat_names, lon_names; simpl; auto 10). reflexivity.
  - intros H. unfold load_olr. cbn [ds_vars ds_coords].
    destruct (first_name _ vs); [|reflexivity].
    destruct H as [H|H]; cbn [first_name].
    + rewrite (H "lat"%string), (H "latitude"%string) by (unfold lat_names; simpl; auto 10). reflexivity.
    + rewrite (H "lon"%string), (H "longitude"%string) by (unfold lon_names; simpl; auto 10).
      destruct (dict_get "lat"%string cs), (dict_get "latitude"%string cs); reflexivity.
Qed.
(** *** Arrays of places and times span a grid *)
Lemma flat_map_len {A B} (f : A -> list B) l n : (forall a, In a l -> length (f a) = n) -> length (flat_map f l) = (length l * n)%nat.
Proof. induction l; intros H; [reflexivity|]. simpl. rewrite app_length, H, IHl; [lia| |left; reflexivity]. intros; apply H; right; auto. Qed.
Theorem C118_arrays ds las los ts r : load_olr ds (Many las) (Many los) (Many ts) = inr r ->
  fst r = [length ts; length las; length los] /\ length (snd r) = (length ts * length las * length los)%nat /\
  (forall v, In v (snd r) <-> exists la lo t, In la las /\ In lo los /\ In t ts /\ load_olr ds (One la) (One lo) (One t) = inr ([], [v])).
Proof.
  unfold load_olr. destruct (first_name _ (ds_vars ds)) as [v|]; [|discriminate].
  destruct (first_name _ (ds_coords ds)) as [g1|]; [|discriminate]. destruct (first_name _ (ds_coords ds)) as [g2|]; [|discriminate].
  destruct (dict_get _ (ds_coords ds)) as [g3|]; [|discriminate].
  intros H. injection H as <-. cbn [fst snd q_dim q_points app]. split; [reflexivity|]. split.
  - rewrite (flat_map_len _ _ (length las * length los)).
    + lia.
    + intros. rewrite (flat_map_len _ _ (length los)); [reflexivity|]. intros. apply map_length.
  - intros w. rewrite in_flat_map. split.
    + intros (t & Ht & Hw). apply in_flat_map in Hw. destruct Hw as (la & Hla & Hw). apply in_map_iff in Hw.
      destruct Hw as (lo & <- & Hlo). exists la, lo, t. auto.
    + intros (la & lo & t & Hla & Hlo & Ht & E). injection E as <-. exists t. split; [exact Ht|].
      apply in_flat_map. exists la. split; [exact Hla|]. apply in_map_iff. exists lo. auto.
Qed.
(** "OLR values at the specified locations and times": one value for each point of a trajectory *)
Theorem C118_points_refuted : ~ (forall ds las los ts r, length las = length los -> length los = length ts ->
  load_olr ds (Many las) (Many los) (Many ts) = inr r -> length (snd r) = length ts).
Proof.
  intros H.
  pose (ds := grid (fun _ _ _ => 240) "olr" "lat" "lon" [0; 1] [50; 60] [0; 10]).
  assert (E : exists r, load_olr ds (Many [52; 53]) (Many [4; 5]) (Many [0; 1]) = inr r) by (eexists; reflexivity).
  destruct E as (r & E). specialize (H ds [52; 53] [4; 5] [0; 1] r eq_refl eq_refl E).
  apply C118_arrays in E. destruct E as (_ & E & _). rewrite E in H. discriminate H.
Qed.
(** longitudes that differ by 360 degrees are the same meridian *)
Theorem C118_longitude_refuted : exists d gt gla glo la lo t v,
  (forall t' la', d t' la' 0 = d t' la' 360) /\ In 0 glo /\ In 360 glo /\
  load_olr (grid d "olr" "lat" "lon" gt gla glo) (One la) (One (lo + 360)) (One t) = inr ([], [Fin v]) /\
  load_olr (grid d "olr" "lat" "lon" gt gla glo) (One la) (One lo) (One t) = inr ([], [NaN]).
Proof.
  exists (fun _ _ _ => 240), [0; 1], [50; 60], [0; 90; 180; 270; 360], 52, (-5), 0.
  destruct (C118_laws (fun _ _ _ => 240) "olr" "lat" "lon" [0; 1] [50; 60] [0; 90; 180; 270; 360] 52 (-5 + 360) 0 0 1 50 60 0 360) as (v & E & _);
    try (simpl; tauto); try lra.
  exists v. split; [reflexivity|]. split; [simpl; auto|]. split; [simpl; auto 6|]. split; [exact E|].
  apply C118_outside; try (simpl; tauto). right; right; left. intros y Hy. simpl in Hy. lra.
Qed.
Example C118_ex : load_olr (grid (fun t la lo => 200 + t + la + lo) "OLR" "latitude" "longitude" [0; 1] [60; 50] [0; 10]) (One 55) (One 4) (One 0.5)
  = inr ([], [Fin 259.5]).
Proof.
  destruct (C118_laws (fun t la lo => 200 + t + la + lo) "OLR" "latitude" "longitude" [0; 1] [60; 50] [0; 10] 55 4 0.5 0 1 50 60 0 10) as (v & E & _ & _ & A);
    try (simpl; tauto); try lra.
  rewrite E. do 4 f_equal. rewrite (A 200 1 1 1) by (intros; ring). lra.
Qed.
