(** * Columns: a call with arrays is, row by row, a call with numbers

    [FB] is the backend of functions from rows to numbers, with a flag telling whether the value has one row or
    as many as the arrays of the call.  [col_hom] relates NumPy arrays to it. *)
From Coq Require Import Reals List Bool Arith Lia Lra.
From Verif Require Import Num NumFacts Py Aero Hom Nd.
Import ListNotations.
Open Scope nat_scope.

Definition FB : backend := {|
  T := bool * (nat -> ext); C := bool * (nat -> option bool);
  cst := fun r => (false, fun _ => Fin r);
  add := fun x y => (fst x || fst y, fun i => eadd (snd x i) (snd y i));
  sub := fun x y => (fst x || fst y, fun i => esub (snd x i) (snd y i));
  mul := fun x y => (fst x || fst y, fun i => emul (snd x i) (snd y i));
  div := fun x y => (fst x || fst y, fun i => ediv (snd x i) (snd y i));
  neg := fun x => (fst x, fun i => eneg (snd x i));
  powi := fun x n => (fst x, fun i => epowi (snd x i) n);
  power := fun x y => (fst x || fst y, fun i => epower (snd x i) (snd y i));
  bsqrt := fun x => (fst x, fun i => esqrt (snd x i));
  bexp := fun x => (fst x, fun i => eexp (snd x i));
  blog := fun x => (fst x, fun i => elog (snd x i));
  bsin := fun x => (fst x, fun i => elift sin (snd x i));
  bcos := fun x => (fst x, fun i => elift cos (snd x i));
  btan := fun x => (fst x, fun i => elift tan (snd x i));
  barcsin := fun x => (fst x, fun i => eunit asin (snd x i));
  barccos := fun x => (fst x, fun i => eunit acos (snd x i));
  barctan := fun x => (fst x, fun i => elift_lim atan (PI / 2) (snd x i));
  btanh := fun x => (fst x, fun i => elift_lim tanh 1 (snd x i));
  barctan2 := fun x y => (fst x || fst y, fun i => eatan2 (snd x i) (snd y i));
  babs := fun x => (fst x, fun i => eabs (snd x i));
  maximum := fun x y => (fst x || fst y, fun i => emax (snd x i) (snd y i));
  minimum := fun x y => (fst x || fst y, fun i => emin (snd x i) (snd y i));
  clip := fun x y z => ((fst x || fst y) || fst z, fun i => eclip (snd x i) (snd y i) (snd z i));
  fmod := fun x y => (fst x || fst y, fun i => efmod (snd x i) (snd y i));
  gt := fun x y => (fst x || fst y, fun i => egt (snd x i) (snd y i));
  where_ := fun x y z => ((fst x || fst y) || fst z, fun i => ewhere (snd x i) (snd y i) (snd z i));
  interp := fun x tbl => (fst x, fun i => einterp (snd x i) tbl);
  bpi := (false, fun _ => Fin PI)
|}.

Section Col.
Context (n : nat).
Definition rows (b : bool) : nat := if b then n else 1.

(** a column (or a number) with the given rows *)
Definition isc {A} (x : py (nd A)) (p : bool * (nat -> A)) : Prop :=
  exists a, x = inr a /\ nd_c a = 1 /\ nd_r a = rows (fst p) /\ (nd_dim a <= 2) /\ (nd_r a = 1 \/ nd_dim a = 2) /\
    forall i, i < n -> nd_get a i 0 = snd p i.

Lemma bc_rows : forall b1 b2, bc (rows b1) (rows b2) = Some (rows (b1 || b2)).
Proof.
  intros [] []; unfold bc, rows; cbn [orb]; rewrite ?Nat.eqb_refl; auto.
  - destruct (Nat.eqb_spec n 1); subst; auto.
  - destruct (Nat.eqb_spec 1 n) as [<-|]; auto.
Qed.
Lemma pick_rows : forall b1 b2 i, i < n -> pick (rows b1) (pick (rows (b1 || b2)) i) = pick (rows b1) i.
Proof.
  intros [] b2 i L; unfold pick, rows; cbn [orb].
  - destruct (Nat.eqb_spec n 1); auto.
  - reflexivity.
Qed.
Lemma pick_rows' : forall b1 b2 i, i < n -> pick (rows b2) (pick (rows (b1 || b2)) i) = pick (rows b2) i.
Proof. intros. rewrite orb_comm. apply pick_rows. assumption. Qed.
Lemma pick_idem : forall r i, pick r (pick r i) = pick r i.
Proof. intros. unfold pick. destruct (Nat.eqb r 1); auto. Qed.

Lemma isc_nd1 : forall A B (g : A -> B) x p, isc x p -> isc (nd1 g x) (fst p, fun i => g (snd p i)).
Proof.
  intros A B g x [b f] (a & -> & Hc & Hr & Hd & Hd' & Hv). cbn [fst snd] in *.
  exists (mkNd (nd_dim a) (nd_r a) (nd_c a) (fun i j => g (nd_at a i j))).
  repeat (split; [solve [auto]|]). intros i Hi. cbn [snd]. rewrite <- Hv by assumption. reflexivity.
Qed.
Lemma isc_nd2 : forall A B D (g : A -> B -> D) x y p q, isc x p -> isc y q ->
  isc (nd2 g x y) (fst p || fst q, fun i => g (snd p i) (snd q i)).
Proof.
  intros A B D g x y [b f] [b' f'] (a & -> & Hc & Hr & Hd & Hd' & Hv) (a' & -> & Kc & Kr & Kd & Kd' & Kv).
  cbn [fst snd] in *. unfold nd2. rewrite Hc, Kc, Hr, Kr, bc_rows. cbn [bc Nat.eqb].
  eexists. split; [reflexivity|]. cbn [nd_c nd_r nd_dim nd_at fst snd].
  split; [reflexivity|]. split; [reflexivity|]. split; [lia|]. split.
  - destruct (Nat.eq_dec (rows (b || b')) 1); [auto|]. right. rewrite Hr in Hd'. rewrite Kr in Kd'.
    destruct b, b'; cbn [orb rows] in *; lia.
  - intros i Hi. unfold nd_get at 1. cbn [nd_r nd_c nd_at]. change (pick 1 0) with 0.
    rewrite <- Hv, <- Kv by assumption. f_equal; unfold nd_get; rewrite ?Hc, ?Kc, ?Hr, ?Kr.
    + rewrite pick_rows by assumption. reflexivity.
    + rewrite pick_rows' by assumption. reflexivity.
Qed.
Lemma isc_nd3 : forall A B D E (g : A -> B -> D -> E) x y z p q r, isc x p -> isc y q -> isc z r ->
  isc (nd3 g x y z) ((fst p || fst q) || fst r, fun i => g (snd p i) (snd q i) (snd r i)).
Proof. intros. unfold nd3. apply (isc_nd2 _ _ _ (fun k u => k u) _ _ (fst p || fst q, fun i => g (snd p i) (snd q i))); auto. apply isc_nd2; auto. Qed.
Lemma isc_scalar : forall A (x : A), isc (inr (scalar x)) (false, fun _ => x).
Proof.
  intros. exists (scalar x). split; [reflexivity|]. split; [reflexivity|]. split; [reflexivity|]. split; [cbn; lia|]. split; [cbn; auto|]. reflexivity.
Qed.

Definition col_hom : hom AB FB.
Proof.
  refine (mkHom AB FB isc isc _ _ _ _ _ _ _ _ _ _ _ _ _ _ _ _ _ _ _ _ _ _ _ _ _);
  cbn [AB FB T C cst add sub mul div neg powi power bsqrt bexp blog bsin bcos btan barcsin barccos barctan btanh barctan2 babs maximum minimum clip fmod gt where_ interp bpi]; intros;
  first
  [ exact (isc_scalar _ _)
  | match goal with H : isc _ _ |- _ => exact (isc_nd1 _ _ _ _ _ H) end
  | match goal with H : isc _ _, H' : isc _ _ |- _ => exact (isc_nd2 _ _ _ _ _ _ _ _ H H') end
  | match goal with H : isc _ _, H' : isc _ _, H'' : isc _ _ |- _ => exact (isc_nd3 _ _ _ _ _ _ _ _ _ _ _ H H' H'') end
  | match goal with H : isc ?x _ |- isc (nd3 _ ?x _ _) _ => exact (isc_nd3 _ _ _ _ _ _ _ _ _ _ _ H (isc_scalar _ _) (isc_scalar _ _)) end ].
Defined.

(** a value whose elements, in row-major order, are given *)
Definition isf {A} (a : nd A) (p : bool * (nat -> A)) : Prop :=
  nd_size a = rows (fst p) /\ forall k, k < n -> flat a (pick (rows (fst p)) k) = snd p k.

Lemma isc_isf : forall A (a : nd A) p, isc (inr a) p -> isf a p.
Proof.
  intros A a [b f] (a' & E & Hc & Hr & _ & _ & Hv). injection E as <-. cbn [fst snd] in *.
  split; cbn [fst snd].
  - unfold nd_size. rewrite Hc, Hr. lia.
  - intros k Hk. rewrite <- Hv by assumption. unfold flat, nd_get. rewrite Hc, Hr, Nat.div_1_r, Nat.mod_1_r. reflexivity.
Qed.
Lemma isf_col : forall A (a : nd A) p, isf a p -> isc (col (inr a)) p.
Proof.
  intros A a [b f] (Hs & Hv). cbn [fst snd] in *. exists (column a). split; [reflexivity|].
  cbn [column nd_c nd_r nd_dim nd_at fst snd]. split; [reflexivity|]. split; [assumption|]. split; [lia|]. split; [auto|].
  intros i Hi. change (flat a (pick (nd_size a) i) = f i). rewrite Hs. apply Hv. assumption.
Qed.
Lemma isc_col : forall A (x : py (nd A)) p, isc x p -> isc (col x) p.
Proof. intros A x p H. pose proof H as (a & -> & _). apply isf_col. apply isc_isf. assumption. Qed.
Lemma isf_item : forall A (a a' : nd A) p, (1 <= n) -> isf a p -> item (inr a) = inr a' -> isf a' p.
Proof.
  intros A a a' [b f] Hn (Hs & Hv) E. unfold item in E. destruct (Nat.eqb_spec (nd_size a) 1) as [E1|]; injection E as <-; [|split; auto].
  cbn [fst snd] in *. rewrite E1 in Hs. split; [exact Hs|]. cbn [fst snd]. intros k Hk. rewrite <- Hv by assumption.
  rewrite <- Hs. unfold nd_size in E1. assert (nd_r a = 1 /\ nd_c a = 1) as [E2 E3] by (destruct (nd_r a) as [|[|]], (nd_c a) as [|[|]]; cbn in *; lia).
  unfold flat. rewrite E3. reflexivity.
Qed.
Lemma isc_item : forall A (x : py (nd A)) p, isc x p -> isc (item x) p.
Proof.
  intros A x [b f] (a & -> & Hc & Hr & Hd & Hd' & Hv). unfold item. cbn [fst snd] in *.
  destruct (Nat.eqb_spec (nd_size a) 1) as [E|E].
  - unfold nd_size in E. assert (E1 : nd_r a = 1) by lia. exists (scalar (nd_at a 0 0)). split; [reflexivity|].
    cbn [fst snd scalar nd_c nd_r nd_dim nd_at]. split; auto. split; [congruence|]. split; [lia|]. split; auto.
    intros i Hi. rewrite <- Hv by assumption. unfold nd_get. rewrite E1, Hc. reflexivity.
  - exists a. repeat (split; [solve [auto]|]). auto.
Qed.

(** ** Results *)
(** a column of [n] rows, or a number when [n] is one *)
Lemma isc_full : forall A (x : py (nd A)) f, (1 < n) -> isc (item x) (true, f) ->
  exists a, item x = inr a /\ nd_dim a = 2 /\ nd_r a = n /\ nd_c a = 1 /\ forall i, i < n -> nd_at a i 0 = f i.
Proof.
  intros A x f Hn (a & E & Hc & Hr & Hd & Hd' & Hv). cbn [fst snd rows] in *. exists a. split; auto. split; [lia|]. split; auto. split; auto.
  intros i Hi. rewrite <- Hv by assumption. unfold nd_get, pick. rewrite Hc, Hr. destruct (Nat.eqb_spec n 1); [lia|]. reflexivity.
Qed.
Lemma isc_one : forall A (x : py (nd A)) p, (1 <= n) -> rows (fst p) = 1 -> isc x p -> item x = inr (scalar (snd p 0)).
Proof.
  intros A x [b f] Hn H1 (a & -> & Hc & Hr & _ & _ & Hv). cbn [fst snd] in *. unfold item, nd_size. rewrite Hc, Hr, H1. cbn.
  rewrite <- (Hv 0) by lia. unfold nd_get. rewrite Hc, Hr, H1. reflexivity.
Qed.

(** ** Powers and sums *)
Definition poly (m : nat -> nat -> R) (r c : nat) (p q : nat -> ext) : ext :=
  nsum (map (fun i => nsum (map (fun j => emul (emul (Fin (m i j)) (p j)) (q i)) (seq 0 c))) (seq 0 r)).

Definition isp (N : nat) (a : nd ext) (b : bool) (F : nat -> nat -> ext) : Prop :=
  nd_c a = rows b /\ forall j k, k < n -> j < N -> nd_at a j (pick (rows b) k) = F k j.
Lemma isp_powers : forall N a p, isf a p -> isp N (powers N a) (fst p) (fun k j => epowi (snd p k) j).
Proof.
  intros N a [b f] (Hs & Hv). split; [exact Hs|]. intros j k Hk Hj. cbn [powers nd_at fst snd] in *. rewrite Hv by assumption. reflexivity.
Qed.
Lemma nsum_ext : forall (f g : nat -> ext) l, (forall i, In i l -> f i = g i) -> nsum (map f l) = nsum (map g l).
Proof. intros f g l H. induction l; cbn; auto. rewrite H by (left; auto). rewrite IHl; auto. intros; apply H; right; auto. Qed.
Lemma einsum_isf : forall m r c a b p q F G, (1 <= n) -> isp c a p F -> isp r b q G ->
  exists v, einsum m r c a b = inr v /\ nd_dim v = 1 /\ nd_r v = 1 /\ nd_c v = rows (p || q) /\
    isf v (p || q, fun k => poly m r c (F k) (G k)).
Proof.
  intros m r c a b p q F G Hn (Ha & Hva) (Hb & Hvb). unfold einsum. rewrite Ha, Hb, bc_rows.
  eexists. split; [reflexivity|]. cbn [nd_dim nd_r nd_c]. split; [reflexivity|]. split; [reflexivity|]. split; [reflexivity|].
  split; [unfold nd_size; cbn; lia|]. cbn [fst snd]. intros k Hk. unfold flat. cbn [nd_at nd_c].
  assert (Hp : pick (rows (p || q)) k < rows (p || q)).
  { unfold pick. destruct (Nat.eqb_spec (rows (p || q)) 1) as [->|N]; [lia|]. destruct p, q; cbn [orb rows] in *; lia. }
  rewrite Nat.mod_small by assumption. unfold poly. apply nsum_ext. intros i Hi. apply nsum_ext. intros j Hj.
  apply in_seq in Hi. apply in_seq in Hj.
  rewrite pick_rows, pick_rows' by assumption. rewrite Hva, Hvb by lia. reflexivity.
Qed.
End Col.
Arguments isc n {A} x p.
Arguments isf n {A} a p.
