(** * Property C98: aircraft data of the BADA3 add-on (openap/addon/bada3.py) *)
From Coq Require Import String List Bool ZArith Lia.
From Coq Require Import Reals Lra.
From Verif Require Import Num NumFacts Py Aero AeroFacts Bada3 P_Bada3.
Import ListNotations.
Open Scope list_scope.
Open Scope R_scope.

(** ** Specification *)
(** [holds d path x]: following the keys of [path] leads to [x]; a dictionary has at most one entry per key *)
Inductive holds : value -> list string -> value -> Prop :=
| H_here : forall v, holds v [] v
| H_in : forall l k v p x, In (k, v) l -> holds v p x -> holds (Dict l) (k :: p) x.
(** a value that Python can hold: no key twice *)
Inductive proper : value -> Prop :=
| P_leaf : forall x, proper (Leaf x)
| P_dict : forall l, NoDup (map fst l) -> (forall k v, In (k, v) l -> proper v) -> proper (Dict l).
(** the update says nothing about the path: neither a value there nor a plain value on the way *)
Definition silent (u : value) (path : list string) : Prop :=
  (forall x, ~ holds u path x) /\ (forall p q x, path = p ++ q -> ~ holds u p (Leaf x)).

(** ** Lemmas *)
Fixpoint vsize (v : value) : nat :=
  match v with Leaf _ => 1%nat | Dict l => S ((fix s (l : list (string * value)) := match l with [] => 0%nat | (_, w) :: t => (vsize w + s t)%nat end) l) end.
Lemma vsize_in : forall l k v, In (k, v) l -> (vsize v < vsize (Dict l))%nat.
Proof.
  intros l k v H. cbn. apply Nat.lt_succ_r. induction l as [|[k' w] t IH]; [destruct H|].
  destruct H as [H|H]; [injection H as -> ->; lia|]. specialize (IH H). lia.
Qed.
Fixpoint go (t u : list (string * value)) : list (string * value) :=
  match u with [] => t | (k, v) :: u' => go (vset t k (merge (vget t k) v)) u' end.
Lemma merge_dict : forall t u, merge (Some (Dict t)) (Dict u) = Dict (go t u).
Proof.
  intros t u. reflexivity.
Qed.
Lemma du_go : forall t u, deep_update t u = go t u.
Proof. intros. unfold deep_update. rewrite merge_dict. auto. Qed.
Lemma vget_in : forall l k v, NoDup (map fst l) -> (vget l k = Some v <-> In (k, v) l).
Proof.
  intros l k v. induction l as [|[k' w] t IH]; cbn; intros N; [split; [discriminate|tauto]|].
  inversion N as [|? ? N1 N2]; subst. destruct (String.eqb_spec k k') as [->|D].
  - split; [intros E; injection E as ->; auto|]. intros [E|E]; [injection E as ->; auto|]. exfalso. apply N1. apply (in_map fst) in E. auto.
  - rewrite IH by auto. split; auto. intros [E|E]; auto. injection E as -> ->. congruence.
Qed.
Lemma vget_none : forall l k, vget l k = None <-> ~ In k (map fst l).
Proof.
  intros l k. induction l as [|[k' w] t IH]; cbn; [tauto|]. destruct (String.eqb_spec k k') as [->|D].
  - split; [discriminate|tauto].
  - rewrite IH. split; [intros H [E|E]; auto|tauto].
Qed.
Lemma vget_vset : forall l k v k', vget (vset l k v) k' = if String.eqb k' k then Some v else vget l k'.
Proof.
  intros l k v k'. induction l as [|[j w] t IH]; cbn; auto.
  destruct (String.eqb_spec k j) as [->|D]; cbn.
  - destruct (String.eqb k' j); auto.
  - rewrite IH. destruct (String.eqb_spec k' j) as [->|D']; auto. destruct (String.eqb_spec j k); auto. congruence.
Qed.
Lemma vset_keys : forall l k v, NoDup (map fst l) -> NoDup (map fst (vset l k v)).
Proof.
  intros l k v. induction l as [|[j w] t IH]; cbn; intros N; [constructor; auto; constructor|].
  inversion N as [|? ? N1 N2]; subst. destruct (String.eqb_spec k j) as [->|D]; cbn; auto.
  constructor; auto. intros H. apply N1.
  assert (G : forall l, In j (map fst (vset l k v)) -> j = k \/ In j (map fst l)).
  { clear. induction l as [|[i w] t IH]; cbn; [intros [H|[]]; auto|]. destruct (String.eqb k i); cbn; intros [H|H]; auto.
    destruct (IH H); auto. }
  destruct (G t H); auto. congruence.
Qed.
Lemma go_keys : forall u t, NoDup (map fst t) -> NoDup (map fst (go t u)).
Proof. induction u as [|[k v] u IH]; cbn; intros t N; auto. apply IH, vset_keys, N. Qed.
Lemma go_get : forall u t k, NoDup (map fst u) ->
  vget (go t u) k = match vget u k with Some v => Some (merge (vget t k) v) | None => vget t k end.
Proof.
  induction u as [|[j v] u IH]; cbn; intros t k N; auto. inversion N as [|? ? N1 N2]; subst. rewrite IH by auto.
  destruct (String.eqb_spec k j) as [->|D].
  - apply vget_none in N1. rewrite N1, vget_vset, String.eqb_refl. auto.
  - rewrite vget_vset. apply String.eqb_neq in D. rewrite D. auto.
Qed.
Lemma holds_dict : forall l k p x, NoDup (map fst l) -> (holds (Dict l) (k :: p) x <-> exists v, vget l k = Some v /\ holds v p x).
Proof.
  intros l k p x N. split.
  - intros H. inversion H; subst. exists v. split; auto. apply vget_in; auto.
  - intros (v & G & H). apply (H_in _ _ v); auto. apply vget_in; auto.
Qed.
Lemma holds_leaf : forall x k p y, ~ holds (Leaf x) (k :: p) y.
Proof. intros x k p y H. inversion H. Qed.
Lemma holds_nil : forall v x, holds v [] x <-> v = x.
Proof. intros. split; [intros H; inversion H; auto|intros ->; constructor]. Qed.
Lemma proper_get : forall l k v, proper (Dict l) -> vget l k = Some v -> proper v.
Proof. intros l k v P G. inversion P as [|? N Q]; subst. apply (Q k). apply vget_in; auto. Qed.
Lemma proper_nd : forall l, proper (Dict l) -> NoDup (map fst l).
Proof. intros l P. inversion P; auto. Qed.
Lemma merge_none : forall u, merge None u = u.
Proof. destruct u; auto. Qed.
Lemma merge_leaf : forall x u, merge (Some (Leaf x)) u = u.
Proof. destruct u; auto. Qed.
Lemma merge_proper : forall n u old, (vsize u < n)%nat -> proper u -> (forall o, old = Some o -> proper o) -> proper (merge old u).
Proof.
  induction n as [|n IH]; intros u old L P Q; [lia|]. destruct u as [x|u]; [auto|]. destruct old as [[x|t]|]; auto. rewrite merge_dict.
  specialize (Q _ eq_refl). apply proper_nd in Q as Nt. apply proper_nd in P as Nu.
  constructor; [apply go_keys; auto|]. intros k v I. apply vget_in in I; [|apply go_keys; auto]. rewrite go_get in I by auto.
  destruct (vget u k) as [w|] eqn:G.
  - injection I as <-. apply IH.
    + apply vget_in in G; auto. apply vsize_in in G. lia.
    + apply (proper_get u k); auto.
    + intros o E. apply (proper_get t k); auto.
  - apply (proper_get t k); auto.
Qed.
Lemma merge_new : forall p u old x, proper u -> (forall o, old = Some o -> proper o) -> holds u p (Leaf x) -> holds (merge old u) p (Leaf x).
Proof.
  induction p as [|k p IH]; intros u old x P Q H.
  - apply holds_nil in H. subst u. constructor.
  - destruct u as [y|u]; [inversion H|]. destruct old as [[y|t]|]; auto. rewrite merge_dict.
    pose proof (proper_nd _ P) as Nu. pose proof (proper_nd _ (Q _ eq_refl)) as Nt.
    apply holds_dict; [apply go_keys; auto|]. apply holds_dict in H; auto. destruct H as (v & G & H).
    rewrite go_get, G by auto. eexists. split; eauto. apply IH; auto; [apply (proper_get u k); auto|].
    intros o E. apply (proper_get t k); auto.
Qed.
Lemma silent_in : forall l k v p, proper (Dict l) -> vget l k = Some v -> silent (Dict l) (k :: p) -> silent v p.
Proof.
  intros l k v p P G [A B]. pose proof (proper_nd _ P) as N. split.
  - intros x H. apply (A x). apply holds_dict; auto. eauto.
  - intros p1 q x E H. apply (B (k :: p1) q x); [cbn; f_equal; auto|]. apply holds_dict; auto. eauto.
Qed.
Lemma merge_old : forall p u o x, proper u -> proper o -> silent u p -> (holds (merge (Some o) u) p x <-> holds o p x).
Proof.
  induction p as [|k p IH]; intros u o x P Q S.
  - destruct S as [A _]. exfalso. apply (A u). constructor.
  - destruct u as [y|u]; [exfalso; destruct S as [_ B]; apply (B [] (k :: p) y); auto; constructor|].
    destruct o as [y|t].
    + rewrite merge_leaf. split; intros H; exfalso; [destruct S as [A _]; apply (A x H)|inversion H].
    + rewrite merge_dict. pose proof (proper_nd _ P) as Nu. pose proof (proper_nd _ Q) as Nt.
      rewrite !holds_dict by (auto; apply go_keys; auto). rewrite go_get by auto.
      destruct (vget u k) as [v|] eqn:G; [|reflexivity].
      pose proof (silent_in u k v p P G S) as S'. pose proof (proper_get u k v P G) as Pv.
      destruct (vget t k) as [o|] eqn:G'.
      * pose proof (proper_get t k o Q G') as Po. split; intros (w & E & H); injection E as <-; eexists; (split; [reflexivity|]); apply (IH v o x Pv Po S'); auto.
      * split; intros (w & E & H); [|discriminate E]. exfalso. injection E as <-. rewrite merge_none in H. destruct S' as [A _]. apply (A x H).
Qed.
Lemma vset_same : forall l k v, vget l k = Some v -> vset l k v = l.
Proof.
  induction l as [|[j w] t IH]; cbn; intros k v G; [discriminate|]. destruct (String.eqb_spec k j) as [->|D]; [injection G as ->; auto|].
  f_equal. auto.
Qed.
Lemma merge_idem : forall n u old, (vsize u < n)%nat -> proper u -> merge (Some (merge old u)) u = merge old u.
Proof.
  induction n as [|n IH]; intros u old L P; [lia|]. destruct u as [x|u]; [auto|]. pose proof (proper_nd _ P) as Nu.
  assert (K : forall T, (forall k v, In (k, v) u -> vget T k = Some (merge (vget T k) v)) -> go T u = T).
  { intros T. clear - T. induction u as [|[k v] u IHu]; cbn; intros A; auto. rewrite (vset_same T k); [apply IHu; intros; apply A; auto|].
    rewrite <- (A k v (or_introl eq_refl)). auto. }
  assert (M : forall t, go (go t u) u = go t u).
  { intros t. apply K. intros k v I. pose proof I as I'. apply vget_in in I'; auto. rewrite go_get, I' by auto. f_equal. symmetry. apply IH.
    - apply vsize_in in I. lia.
    - apply (proper_get u k); auto. }
  assert (U : merge (Some (Dict u)) (Dict u) = Dict u).
  { rewrite merge_dict. f_equal. apply K. intros k v I. pose proof I as I'. apply vget_in in I'; auto. rewrite I'. f_equal.
    assert (Z : merge (Some (merge None v)) v = merge None v).
    { apply IH; [apply vsize_in in I; lia|apply (proper_get u k); auto]. }
    rewrite merge_none in Z. auto. }
  destruct old as [[x|t]|]; [rewrite merge_leaf; auto| |auto]. rewrite merge_dict, merge_dict. f_equal. auto.
Qed.

(** ** C98 *)
(** Merging: every plain value of the update is in the result at its path; wherever the update is silent the
    result is what it was; the result has no key twice; merging again changes nothing. *)
Theorem C98_merge : forall t u, proper (Dict t) -> proper (Dict u) ->
  let r := deep_update t u in
  proper (Dict r) /\
  (forall p x, holds (Dict u) p (Leaf x) -> holds (Dict r) p (Leaf x)) /\
  (forall p x, silent (Dict u) p -> (holds (Dict r) p x <-> holds (Dict t) p x)) /\
  deep_update r u = r.
Proof.
  intros t u Pt Pu r. assert (E : Dict r = merge (Some (Dict t)) (Dict u)) by (unfold r; rewrite merge_dict, du_go; auto).
  rewrite E. split; [|split; [|split]].
  - apply (merge_proper (S (vsize (Dict u)))); auto. intros o Z. injection Z as <-. auto.
  - intros p x H. apply merge_new; auto. intros o Z. injection Z as <-. auto.
  - intros p x S. apply merge_old; auto.
  - unfold deep_update at 1. rewrite E. rewrite (merge_idem (S (vsize (Dict u)))) by auto. rewrite <- E. auto.
Qed.

Ltac keys := repeat constructor; cbn; intuition congruence.
Lemma proper_leaves : forall l, NoDup (map fst l) -> (forall k v, In (k, v) l -> exists x, v = Leaf x) -> proper (Dict l).
Proof. intros l N H. constructor; auto. intros k v I. destruct (H k v I) as [x ->]. constructor. Qed.
Lemma load_proper : forall ac mf md sy o, proper (Dict (b3_load ac mf md sy o)).
Proof.
  intros. unfold b3_load, opf_dict. destruct (found (o_mass o) _) as [[[? ?] ?] ?], (found (o_envelope o) _) as [[? ?] ?], (found (o_ground o) _) as [[[? ?] ?] ?],
    (found (o_ct o) _) as [[[[? ?] ?] ?] ?], (found (o_ctdes o) _) as [[[[? ?] ?] ?] ?], (found (o_cf o) _), (found (o_cfdes o) _).
  constructor.
  - cbn. repeat (constructor; [cbn; intuition discriminate|]). constructor.
  - cbn. intros k v H. repeat (destruct H as [H|H]; [injection H as <- <-; try constructor;
      try (cbn; repeat (constructor; [cbn; intuition discriminate|]); constructor);
      try (intros k' v' H'; cbn in H'; repeat (destruct H' as [H'|H']; [injection H' as <- <-; try destruct (o_number o); constructor|]); destruct H')|]).
    destruct H.
Qed.
Lemma limits_proper : forall f, proper (Dict f) -> (forall k v, In (k, v) f -> In k ["mtow"; "mlw"; "oew"; "mfc"; "vmo"; "mmo"; "ceiling"]%string -> exists x, v = Leaf x) -> proper (Dict (with_limits f)).
Proof.
  intros f P L. pose proof (proper_nd _ P) as N. constructor; [apply vset_keys; auto|]. intros k v I. apply vget_in in I; [|apply vset_keys; auto].
  unfold with_limits in I. rewrite vget_vset in I. destruct (String.eqb k "limits"); [|apply (proper_get f k); auto]. injection I as <-.
  apply proper_leaves; [cbn; repeat (constructor; [cbn; intuition discriminate|]); constructor|].
  intros k' v' H. assert (G : forall j, In j ["mtow"; "mlw"; "oew"; "mfc"; "vmo"; "mmo"; "ceiling"]%string -> exists x, get_none f j = Leaf x).
  { intros j J. unfold get_none. destruct (vget f j) as [w|] eqn:E; [|eauto]. apply (L j w); auto. apply vget_in; auto. }
  cbn in H. repeat (destruct H as [H|H]; [injection H as <- <-; apply G; cbn; tauto|]). destruct H.
Qed.
(** plain limits in an aircraft file *)
Definition plain_limits (f : list (string * value)) : Prop :=
  forall k v, In (k, v) f -> In k ["mtow"; "mlw"; "oew"; "mfc"; "vmo"; "mmo"; "ceiling"]%string -> exists x, v = Leaf x.
(** The combined aircraft: mass and speed limits at the top level are those of BADA; the dictionary [limits]
    keeps those of OpenAP; engine names and other entries unknown to BADA stay. *)
Theorem C98_combined : forall file ac mf md sy o mref mmin mmax mpl, proper (Dict file) -> plain_limits file ->
  o_mass o = Some (mref, mmin, mmax, mpl) ->
  let r := Dict (b3_aircraft file ac mf md sy o) in
  proper r /\
  holds r ["mtow"%string] (Leaf (LNum (mmax * 1000))) /\ holds r ["oew"%string] (Leaf (LNum (mmin * 1000))) /\
  holds r ["engine"; "type"]%string (Leaf (LStr (opf_engine o))) /\
  (forall x, holds (Dict file) ["mtow"%string] x -> holds r ["limits"; "MTOW"]%string x) /\
  (forall x, holds (Dict file) ["mlw"%string] x -> holds r ["mlw"%string] x) /\
  (forall k x, k <> "type"%string -> k <> "number"%string -> holds (Dict file) ["engine"%string; k] x -> holds r ["engine"%string; k] x) /\
  (forall k p x, k <> "limits"%string -> ~ In k (map fst (b3_load ac mf md sy o)) -> holds (Dict file) (k :: p) x -> holds r (k :: p) x).
Proof.
  intros file ac mf md sy o mref mmin mmax mpl P L M r. pose proof (load_proper ac mf md sy o) as PU.
  pose proof (limits_proper file P L) as PT. pose proof (proper_nd _ P) as NF. pose proof (proper_nd _ PT) as NT. pose proof (proper_nd _ PU) as NU.
  destruct (C98_merge (with_limits file) (b3_load ac mf md sy o) PT PU) as (R0 & R1 & R2 & _). cbv zeta in *.
  change (deep_update (with_limits file) (b3_load ac mf md sy o)) with (b3_aircraft file ac mf md sy o) in *. fold r in R0, R1, R2.
  assert (S : forall k p, ~ In k (map fst (b3_load ac mf md sy o)) -> silent (Dict (b3_load ac mf md sy o)) (k :: p)).
  { intros k p N. apply vget_none in N. split.
    - intros x H. apply holds_dict in H; auto. destruct H as (v & E & _). congruence.
    - intros p1 q x E H. destruct p1 as [|k1 p1]; [inversion H|]. injection E as <- E. apply holds_dict in H; auto. destruct H as (v & E' & _). congruence. }
  assert (F : forall k p x, k <> "limits"%string -> (holds (Dict (with_limits file)) (k :: p) x <-> holds (Dict file) (k :: p) x)).
  { intros k p x D. rewrite !holds_dict by auto. unfold with_limits. rewrite vget_vset. apply String.eqb_neq in D. rewrite D. reflexivity. }
  assert (GE : vget (b3_load ac mf md sy o) "engine"%string = Some (Dict [("type", Leaf (LStr (opf_engine o))); ("number", match o_number o with Some r => Leaf (LNum r) | None => Leaf LNone end)]%string)).
  { unfold b3_load, opf_dict. destruct (found (o_mass o) _) as [[[? ?] ?] ?], (found (o_envelope o) _) as [[? ?] ?], (found (o_ground o) _) as [[[? ?] ?] ?],
    (found (o_ct o) _) as [[[[? ?] ?] ?] ?], (found (o_ctdes o) _) as [[[[? ?] ?] ?] ?], (found (o_cf o) _), (found (o_cfdes o) _). reflexivity. }
  assert (KS : forall k, In k (map fst (b3_load ac mf md sy o)) -> k <> "limits"%string /\ k <> "mlw"%string).
  { unfold b3_load, opf_dict. destruct (found (o_mass o) _) as [[[? ?] ?] ?], (found (o_envelope o) _) as [[? ?] ?], (found (o_ground o) _) as [[[? ?] ?] ?],
    (found (o_ct o) _) as [[[[? ?] ?] ?] ?], (found (o_ctdes o) _) as [[[[? ?] ?] ?] ?], (found (o_cf o) _), (found (o_cfdes o) _).
    cbn. intros k H. repeat (destruct H as [<-|H]; [split; discriminate|]). destruct H. }
  split; auto. split; [|split; [|split; [|split; [|split; [|split]]]]].
  - apply R1. apply holds_dict; auto. eexists. split; [|constructor]. unfold b3_load, opf_dict. rewrite M. cbn [found].
    destruct (found (o_envelope o) _) as [[? ?] ?], (found (o_ground o) _) as [[[? ?] ?] ?],
    (found (o_ct o) _) as [[[[? ?] ?] ?] ?], (found (o_ctdes o) _) as [[[[? ?] ?] ?] ?], (found (o_cf o) _), (found (o_cfdes o) _). reflexivity.
  - apply R1. apply holds_dict; auto. eexists. split; [|constructor]. unfold b3_load, opf_dict. rewrite M. cbn [found].
    destruct (found (o_envelope o) _) as [[? ?] ?], (found (o_ground o) _) as [[[? ?] ?] ?],
    (found (o_ct o) _) as [[[[? ?] ?] ?] ?], (found (o_ctdes o) _) as [[[[? ?] ?] ?] ?], (found (o_cf o) _), (found (o_cfdes o) _). reflexivity.
  - apply R1. apply holds_dict; auto. eexists. split; [exact GE|]. apply (H_in _ _ (Leaf (LStr (opf_engine o)))); [left; auto|constructor].
  - intros x H. apply R2; [apply S; intros I; destruct (KS _ I); congruence|].
    apply holds_dict; auto. unfold with_limits at 1. rewrite vget_vset. cbn [String.eqb Ascii.eqb Bool.eqb]. eexists. split; [reflexivity|].
    apply holds_dict in H; auto. destruct H as (v & G & H). apply holds_nil in H. subst v.
    apply (H_in _ _ x); [|constructor]. left. f_equal. unfold get_none. rewrite G. auto.
  - intros x H. apply R2; [apply S; intros I; destruct (KS _ I); congruence|]. apply F; [discriminate|auto].
  - intros k x D1 D2 H. apply R2; [|apply F; [discriminate|auto]]. split.
    + intros y Z. apply holds_dict in Z; auto. destruct Z as (v & E & Z). rewrite GE in E. injection E as <-. inversion Z as [|l k' v p y' I Z']; subst.
      cbn in I. destruct I as [I|[I|[]]]; injection I as <- _; congruence.
    + intros p1 q y E Z. destruct p1 as [|k1 p1]; [inversion Z|]. injection E as <- E. apply holds_dict in Z; auto. destruct Z as (v & E' & Z). rewrite GE in E'. injection E' as <-.
      destruct p1 as [|k2 p2]; [apply holds_nil in Z; discriminate Z|]. injection E as <- E. inversion Z as [|l k' v p y' I Z']; subst.
      cbn in I. destruct I as [I|[I|[]]]; injection I as <- _; congruence.
  - intros k p x D N H. apply R2; [apply S; auto|]. apply F; auto.
Qed.
(** a value reached by a path is unique *)
Lemma holds_unique : forall p v x y, proper v -> holds v p x -> holds v p y -> x = y.
Proof.
  induction p as [|k p IH]; intros v x y P H1 H2.
  - apply holds_nil in H1, H2. congruence.
  - destruct v as [l|l]; [inversion H1|]. pose proof (proper_nd _ P) as N. apply holds_dict in H1, H2; auto.
    destruct H1 as (a & A & H1), H2 as (b & B & H2). rewrite A in B. injection B as <-. apply (IH a); auto. apply (proper_get l k); auto.
Qed.
(** In the dictionary of an aircraft file the two places agree. *)
Definition limit_names : list (string * string) :=
  [("mtow", "MTOW"); ("mlw", "MLW"); ("oew", "OEW"); ("mfc", "MFC"); ("vmo", "VMO"); ("mmo", "MMO"); ("ceiling", "ceiling")]%string.
Theorem C98_limits_file : forall file x k K, proper (Dict file) -> In (k, K) limit_names -> holds (Dict file) [k] x ->
  holds (Dict (with_limits file)) ["limits"%string; K] x /\ holds (Dict (with_limits file)) [k] x.
Proof.
  intros file x k K P I H. pose proof (proper_nd _ P) as N. assert (NT : NoDup (map fst (with_limits file))) by (apply vset_keys; auto).
  apply holds_dict in H; auto. destruct H as (v & G & H). apply holds_nil in H. subst v. split.
  - apply holds_dict; auto. unfold with_limits at 1. rewrite vget_vset. cbn [String.eqb Ascii.eqb Bool.eqb]. eexists. split; [reflexivity|].
    apply (H_in _ _ x); [|constructor]. replace x with (get_none file k) by (unfold get_none; rewrite G; auto).
    cbn in I. repeat (destruct I as [I|I]; [injection I as <- <-; cbn; tauto|]). destruct I.
  - apply holds_dict; auto. unfold with_limits at 1. rewrite vget_vset.
    replace (String.eqb k "limits") with false; [exists x; split; auto; constructor|].
    cbn in I. repeat (destruct I as [I|I]; [injection I as <- _; reflexivity|]). destruct I.
Qed.
(** the same in the combined aircraft, where the entry is that of the aircraft file *)
Theorem C98_limits_kept : forall file ac mf md sy o x k K, proper (Dict file) -> plain_limits file -> In (k, K) limit_names ->
  holds (Dict file) [k] x -> holds (Dict (b3_aircraft file ac mf md sy o)) ["limits"%string; K] x.
Proof.
  intros file ac mf md sy o x k K P L I H. pose proof (load_proper ac mf md sy o) as PU. pose proof (limits_proper file P L) as PT. pose proof (proper_nd _ PU) as NU.
  destruct (C98_merge (with_limits file) (b3_load ac mf md sy o) PT PU) as (_ & _ & R2 & _). cbv zeta in R2.
  apply R2; [|apply (C98_limits_file file x k K); auto].
  assert (G : vget (b3_load ac mf md sy o) "limits"%string = None).
  { unfold b3_load, opf_dict. destruct (found (o_mass o) _) as [[[? ?] ?] ?], (found (o_envelope o) _) as [[? ?] ?], (found (o_ground o) _) as [[[? ?] ?] ?],
    (found (o_ct o) _) as [[[[? ?] ?] ?] ?], (found (o_ctdes o) _) as [[[[? ?] ?] ?] ?], (found (o_cf o) _), (found (o_cfdes o) _). reflexivity. }
  split.
  - intros y Z. apply holds_dict in Z; auto. destruct Z as (v & E & _). congruence.
  - intros p1 q y E Z. destruct p1 as [|k1 p1]; [inversion Z|]. injection E as <- E. apply holds_dict in Z; auto. destruct Z as (v & E' & _). congruence.
Qed.
(** The numbers of the sections of an OPF file and the attributes of the classes. *)
Theorem C98_coefficients : forall o,
  (forall c1 c2 c3 c4 c5, o_ct o = Some (c1, c2, c3, c4, c5) ->
     b3_ct1 (opf_model o) = c1 /\ b3_ct2 (opf_model o) = c2 /\ b3_ct3 (opf_model o) = c3 /\ b3_ct4 (opf_model o) = c4 /\ b3_ct5 (opf_model o) = c5) /\
  (forall low high level app ld, o_ctdes o = Some (low, high, level, app, ld) ->
     b3_ctdeslow (opf_model o) = low /\ b3_ctdeshigh (opf_model o) = high /\ b3_ctdesapp (opf_model o) = app /\ b3_ctdesld (opf_model o) = ld) /\
  (forall c1 c2, o_cf o = Some (c1, c2) -> b3_cf1 (opf_model o) = c1 /\ b3_cf2 (opf_model o) = c2) /\
  (forall c1 c2, o_cfdes o = Some (c1, c2) -> b3_cf3 (opf_model o) = c1 /\ b3_cf4 (opf_model o) = c2) /\
  (forall c, o_cfcr o = Some c -> b3_cfcr (opf_model o) = c) /\
  (forall h, o_hpdes o = Some h -> b3_HpDes (opf_model o) = h) /\
  (forall s, o_area o = Some s -> b3_S (opf_model o) = s) /\
  (forall c, o_lgear o = Some c -> b3_cd0_lgear (opf_model o) = c) /\
  (forall c0 c2, o_cr o = Some (c0, c2) -> b3_cd0_cr (opf_model o) = c0 /\ b3_cd2_cr (opf_model o) = c2) /\
  (forall c0 c2, o_ap o = Some (c0, c2) -> b3_cd0_ap (opf_model o) = c0 /\ b3_cd2_ap (opf_model o) = c2) /\
  (forall c0 c2, o_ld o = Some (c0, c2) -> b3_cd0_ld (opf_model o) = c0 /\ b3_cd2_ld (opf_model o) = c2) /\
  (forall e, o_engine o = Some e -> b3_engine (opf_model o) = e).
Proof.
  intros o. unfold opf_model, opf_engine.
  repeat match goal with |- _ /\ _ => split end; intros; match goal with H : _ = Some _ |- _ => rewrite H end; cbn [found fst snd];
  destruct (found (o_ct o) _) as [[[[? ?] ?] ?] ?] || idtac; destruct (found (o_ctdes o) _) as [[[[? ?] ?] ?] ?] || idtac;
  destruct (found (o_cf o) _) as [? ?] || idtac; destruct (found (o_cfdes o) _) as [? ?] || idtac; cbn; auto.
Qed.
(** The dictionary of the combined aircraft holds the same numbers. *)
Theorem C98_dictionary : forall file ac mf md sy o, proper (Dict file) -> plain_limits file ->
  let r := Dict (b3_aircraft file ac mf md sy o) in let m := opf_model o in
  let has p x := holds r p (Leaf (LNum x)) in
  has ["wing"; "area"]%string (b3_S m) /\
  has ["CD0"; "CR"]%string (b3_cd0_cr m) /\ has ["CD2"; "CR"]%string (b3_cd2_cr m) /\
  has ["CD0"; "AP"]%string (b3_cd0_ap m) /\ has ["CD2"; "AP"]%string (b3_cd2_ap m) /\
  has ["CD0"; "LD"]%string (b3_cd0_ld m) /\ has ["CD2"; "LD"]%string (b3_cd2_ld m) /\
  has ["CD0_lgear"]%string (b3_cd0_lgear m) /\ holds r ["engine"; "type"]%string (Leaf (LStr (b3_engine m))) /\
  holds r ["Ct"]%string (Leaf (LList [b3_ct1 m; b3_ct2 m; b3_ct3 m; b3_ct4 m; b3_ct5 m])) /\
  has ["CTdeshigh"]%string (b3_ctdeshigh m) /\ has ["CTdeslow"]%string (b3_ctdeslow m) /\
  has ["CTdesapp"]%string (b3_ctdesapp m) /\ has ["CTdesld"]%string (b3_ctdesld m) /\
  has ["HpDes"]%string (b3_HpDes m) /\
  holds r ["Cf"]%string (Leaf (LList [b3_cf1 m; b3_cf2 m])) /\ holds r ["CfDes"]%string (Leaf (LList [b3_cf3 m; b3_cf4 m])) /\
  has ["CfCrz"]%string (b3_cfcr m) /\
  (forall vmo mmo feet, o_envelope o = Some (vmo, mmo, feet) ->
     has ["vmo"]%string vmo /\ has ["mmo"]%string mmo /\ has ["ceiling"]%string (feet * 0.3048)) /\
  (forall a b span len, o_ground o = Some (a, b, span, len) -> has ["wing"; "span"]%string span /\ has ["fuselage"; "length"]%string len) /\
  (forall mref mmin mmax mpl, o_mass o = Some (mref, mmin, mmax, mpl) -> has ["mref"]%string (mref * 1000) /\ has ["mpl"]%string (mpl * 1000)) /\
  (forall k, o_number o = Some k -> has ["engine"; "number"]%string k) /\
  (forall c0 c2, o_ic o = Some (c0, c2) -> has ["CD0"; "IC"]%string c0 /\ has ["CD2"; "IC"]%string c2) /\
  (forall c0 c2, o_to o = Some (c0, c2) -> has ["CD0"; "TO"]%string c0 /\ has ["CD2"; "TO"]%string c2) /\
  (forall mref mmin mmax mpl, o_mass o = Some (mref, mmin, mmax, mpl) -> has ["mtow"]%string (mmax * 1000) /\ has ["oew"]%string (mmin * 1000)) /\
  holds r ["aircraft"]%string (Leaf (LStr (mf ++ " " ++ md))) /\ holds r ["manufacturer"]%string (Leaf (LStr mf)) /\ holds r ["model"]%string (Leaf (LStr md)) /\
  holds r ["typecode"]%string (Leaf (LStr ac)) /\ holds r ["synonym"]%string (Leaf (LStr sy)).
Proof.
  intros file ac mf md sy o P L r m has. pose proof (load_proper ac mf md sy o) as PU. pose proof (limits_proper file P L) as PT. pose proof (proper_nd _ PU) as NU.
  destruct (C98_merge (with_limits file) (b3_load ac mf md sy o) PT PU) as (_ & R1 & _). cbv zeta in R1.
  change (deep_update (with_limits file) (b3_load ac mf md sy o)) with (b3_aircraft file ac mf md sy o) in R1. fold r in R1.
  unfold has. clearbody r. clear has P L PT PU NU. unfold m, opf_model. clear m. unfold b3_load, opf_dict in R1.
  destruct (found (o_ct o) _) as [[[[? ?] ?] ?] ?], (found (o_ctdes o) _) as [[[[? ?] ?] ?] ?], (found (o_cf o) _) as [? ?], (found (o_cfdes o) _) as [? ?].
  cbn [b3_S b3_cd0_cr b3_cd2_cr b3_cd0_ap b3_cd2_ap b3_cd0_ld b3_cd2_ld b3_cd0_lgear b3_engine b3_ct1 b3_ct2 b3_ct3 b3_ct4 b3_ct5 b3_ctdeshigh b3_ctdeslow b3_ctdesapp b3_ctdesld b3_HpDes b3_cf1 b3_cf2 b3_cf3 b3_cf4 b3_cfcr].
  repeat match goal with
  | |- _ /\ _ => split
  | |- forall _, _ => intro
  end;
  try match goal with H : _ = Some _ |- _ => rewrite H in R1 end; cbn [found] in R1;
  try destruct (found (o_mass o) _) as [[[? ?] ?] ?]; try destruct (found (o_envelope o) _) as [[? ?] ?]; try destruct (found (o_ground o) _) as [[[? ?] ?] ?];
  apply R1;
  repeat match goal with
  | |- holds (Leaf _) [] _ => constructor
  | |- holds (Dict _) (_ :: _) _ => eapply H_in; [cbn [In app]; repeat (first [left; reflexivity | right])|]
  end.
Qed.
(** an aircraft file and an OPF file *)
Definition file1 : list (string * value) :=
  [("mtow", Leaf (LNum 78000)); ("mlw", Leaf (LNum 66000)); ("oew", Leaf (LNum 42600));
   ("engine", Dict [("type", Leaf (LStr "turbofan")); ("number", Leaf (LNum 2)); ("default", Leaf (LStr "CFM56-5B4"))]);
   ("cruise", Dict [("mach", Leaf (LNum 0.78))])]%string.
Definition opf1 : opf :=
  mkOpf (Some "turbofan"%string) (Some 2) (Some (64, 39, 77, 21.5)) (Some (350, 0.82, 39000)) (Some 122.6) (Some (0.026, 0.036)) None None (Some (0.04, 0.035)) None None
    (Some (142000, 52000, 0, 10, 0.009)) None (Some (0.75, 1000)) (Some (10, 100000)) None None None.
Lemma file1_ok : proper (Dict file1) /\ plain_limits file1.
Proof.
  split.
  - constructor; [cbn; repeat (constructor; [cbn; intuition discriminate|]); constructor|]. intros k v H. cbn in H.
    repeat (destruct H as [H|H]; [injection H as <- <-; try constructor; try (cbn; repeat (constructor; [cbn; intuition discriminate|]); constructor);
      try (intros k' v' H'; cbn in H'; repeat (destruct H' as [H'|H']; [injection H' as <- <-; constructor|]); destruct H')|]). destruct H.
  - intros k v H K. cbn in H. repeat (destruct H as [H|H]; [injection H as <- <-; try (eexists; reflexivity); cbn in K; exfalso; intuition discriminate|]). destruct H.
Qed.
(** "The combined aircraft has one maximum take-off mass."  False: [limits] keeps the other one. *)
Theorem C98_limits_refuted : ~ (forall file ac mf md sy o x y, proper (Dict file) -> plain_limits file ->
  holds (Dict (b3_aircraft file ac mf md sy o)) ["mtow"%string] x -> holds (Dict (b3_aircraft file ac mf md sy o)) ["limits"; "MTOW"]%string y -> x = y).
Proof.
  intros H. destruct file1_ok as [P L]. destruct (C98_combined file1 "A320" "AIRBUS" "A320" "A320" opf1 64 39 77 21.5 P L eq_refl) as (_ & A & _ & _ & B & _).
  specialize (B (Leaf (LNum 78000))). specialize (H file1 _ _ _ _ opf1 _ _ P L A (B ltac:(apply (H_in _ _ (Leaf (LNum 78000))); [left; reflexivity|constructor]))).
  injection H as H. lra.
Qed.
(** A section that is not found in the OPF file is not an error; its numbers become zero.  Without a wing area
    there is no drag at any speed. *)
Theorem C98_missing_sections : forall o,
  (o_engine o = None -> jet (opf_model o)) /\
  (o_mass o = None -> vget (opf_dict o) "mtow"%string = Some (Leaf (LNum (0 * 1000)))) /\
  (o_hpdes o = None -> b3_HpDes (opf_model o) = 8000) /\ (o_cfcr o = None -> b3_cfcr (opf_model o) = 1) /\
  (o_ap o = None -> o_ld o = None -> o_lgear o = None -> no_flap_data (opf_model o)) /\
  (o_area o = None -> forall mass tas alt, b3_clean NP true (opf_model o) (Fin mass) (Fin tas) (Fin alt) = inr (Fin 0)).
Proof.
  intros o.
  assert (X : forall (P : bada3 -> Prop), (forall a b c d e f g h i j k l q, 
    P (mkBada3 (found (o_area o) 0)
    (fst (found (o_cr o) (0, 0))) (snd (found (o_cr o) (0, 0)))
    (fst (found (o_ap o) (0, 0))) (snd (found (o_ap o) (0, 0)))
    (fst (found (o_ld o) (0, 0))) (snd (found (o_ld o) (0, 0)))
    (found (o_lgear o) 0) (opf_engine o) a b c d e f g h i (found (o_hpdes o) 8000) j k l q (found (o_cfcr o) 1))) -> P (opf_model o)).
  { intros P H. unfold opf_model. destruct (found (o_ct o) _) as [[[[? ?] ?] ?] ?], (found (o_ctdes o) _) as [[[[? ?] ?] ?] ?], (found (o_cf o) _), (found (o_cfdes o) _). apply H. }
  split; [|split; [|split; [|split; [|split]]]].
  - intros E. apply (X jet). intros. unfold jet, opf_engine. rewrite E. reflexivity.
  - intros E. unfold opf_dict. rewrite E. cbn [found].
    destruct (found (o_envelope o) _) as [[? ?] ?], (found (o_ground o) _) as [[[? ?] ?] ?],
    (found (o_ct o) _) as [[[[? ?] ?] ?] ?], (found (o_ctdes o) _) as [[[[? ?] ?] ?] ?], (found (o_cf o) _), (found (o_cfdes o) _). reflexivity.
  - intros E. apply (X (fun m => b3_HpDes m = 8000)). intros. cbn. rewrite E. reflexivity.
  - intros E. apply (X (fun m => b3_cfcr m = 1)). intros. cbn. rewrite E. reflexivity.
  - intros E1 E2 E3. apply (X no_flap_data). intros. unfold no_flap_data. cbn. rewrite E1, E2, E3. cbn. auto.
  - intros E mass tas alt. destruct (C95_clean_drag (opf_model o) mass tas alt) as (rho & _ & _ & _ & H).
    assert (S : b3_S (opf_model o) = 0). { apply (X (fun m => b3_S m = 0)). intros. cbn. rewrite E. reflexivity. }
    assert (Q : press_area (opf_model o) rho tas = 0) by (unfold press_area; rewrite S; lra). rewrite H by lra. rewrite Q. do 2 f_equal. lra.
Qed.
(** "A file without the expected sections is refused, or at least gives an aircraft that cannot fly for free." *)
Theorem C98_missing_refuted : exists o, forall mass tas alt, b3_clean NP true (opf_model o) (Fin mass) (Fin tas) (Fin alt) = inr (Fin 0).
Proof.
  exists (mkOpf None None None None None None None None None None None None None None None None None None). apply C98_missing_sections. reflexivity.
Qed.
(** the combination of the two files above *)
Example C98_ex :
  let r := Dict (b3_aircraft file1 "A320" "AIRBUS" "A320" "A320" opf1) in
  holds r ["mtow"%string] (Leaf (LNum (77 * 1000))) /\ holds r ["limits"; "MTOW"]%string (Leaf (LNum 78000)) /\
  holds r ["engine"; "default"]%string (Leaf (LStr "CFM56-5B4")) /\ holds r ["cruise"; "mach"]%string (Leaf (LNum 0.78)).
Proof.
  destruct file1_ok as [P L]. destruct (C98_combined file1 "A320" "AIRBUS" "A320" "A320" opf1 64 39 77 21.5 P L eq_refl) as (_ & A & _ & _ & B & _ & C & D).
  cbv zeta. split; auto. split; [apply B; apply (H_in _ _ (Leaf (LNum 78000))); [left; reflexivity|constructor]|]. split.
  - apply C; try discriminate. eapply H_in; [do 3 right; left; reflexivity|]. eapply H_in; [do 2 right; left; reflexivity|constructor].
  - apply D; try discriminate.
    + vm_compute. intuition discriminate.
    + eapply H_in; [do 4 right; left; reflexivity|]. eapply H_in; [left; reflexivity|constructor].
Qed.
