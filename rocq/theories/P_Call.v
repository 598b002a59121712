(** * Property C128: the functions of openap.aero and openap.geo are the methods of a NumPy object *)
From Coq Require Import String List Bool Arith ZArith Lia Reals Permutation.
From Verif Require Import Py Num Aero Geo Call Import ImportSrc P_Import.
Import ListNotations.
Open Scope string_scope.
Open Scope nat_scope.

(** ** specification of the binding of arguments *)
Section Spec.
Variable A : Type.
Variable lit : Z -> A.
(** the arguments [pos] and [k] are understood by the parameters [s], which get the values [l] *)
Definition understood (s : params) (pos : list A) (k : kws A) (l : list A) : Prop :=
  NoDup (map fst k) /\ List.length pos <= List.length s /\ List.length l = List.length s /\
  (forall n v, In (n, v) k -> exists i d, nth_error s i = Some (n, d) /\ List.length pos <= i) /\
  (forall i n d, nth_error s i = Some (n, d) ->
     (i < List.length pos -> nth_error l i = nth_error pos i) /\
     (List.length pos <= i -> (forall v, In (n, v) k -> nth_error l i = Some v) /\ ((forall v, ~ In (n, v) k) -> exists z, d = Some z /\ nth_error l i = Some (lit z)))).
End Spec.

(** ** binding *)
Lemma has_in : forall n l, has n l = true <-> In n l.
Proof.
  intros n l. unfold has. split; [intros E; apply existsb_exists in E as [y [I E]]; apply String.eqb_eq in E; subst; auto|].
  intros I. apply existsb_exists. exists n. split; auto. apply String.eqb_refl.
Qed.
Lemma no_dup_iff : forall l, no_dup l = true <-> NoDup l.
Proof.
  induction l as [|x t IH]; cbn; [split; auto; constructor|]. rewrite andb_true_iff, negb_true_iff, IH, NoDup_cons_iff. 
  split; intros [H1 H2]; split; auto; [intros I; apply has_in in I; congruence|]. destruct (has x t) eqn:E; auto. apply has_in in E. contradiction.
Qed.
Section Bind.
Variable A : Type.
Variable lit : Z -> A.
Notation kw := (kw A).
Lemma kw_in : forall k n v, NoDup (map fst k) -> (kw n k = Some v <-> In (n, v) k).
Proof.
  induction k as [|[m w] k IH]; intros n v N; cbn; [split; [discriminate|intros []]|]. cbn in N. inversion N; subst. destruct (String.eqb_spec m n).
  - subst. split; [intros [= ->]; auto|]. intros [[= ->]|I]; auto. apply (in_map fst) in I. contradiction.
  - rewrite IH by auto. split; auto. intros [[= -> ->]|I]; [congruence|auto].
Qed.
Lemma kw_none : forall k n, kw n k = None <-> ~ In n (map fst k).
Proof.
  induction k as [|[m w] k IH]; intros n; cbn; [tauto|]. destruct (String.eqb_spec m n); [split; [discriminate|]; intros H; exfalso; auto|]. rewrite IH. tauto.
Qed.
Definition filled (k : kws A) (s : params) (r : list A) : Prop :=
  List.length r = List.length s /\ forall i n d, nth_error s i = Some (n, d) ->
    match kw n k with Some v => nth_error r i = Some v | None => exists z, d = Some z /\ nth_error r i = Some (lit z) end.
Lemma rest_iff : forall s k r, rest A lit s k = inr r <-> filled k s r.
Proof.
  induction s as [|[n d] s IH]; intros k r; cbn [rest].
  - split; [intros [= <-]; split; auto; intros [|i]; discriminate|]. intros [L _]. destruct r; [auto|discriminate].
  - split.
    + intros E. destruct (kw n k) as [v|] eqn:K.
      * destruct (rest A lit s k) as [e|r'] eqn:R; [discriminate|]. injection E as <-. apply IH in R as [L R]. split; [cbn; auto|]. intros [|i] n' d' H; cbn in *; [injection H as <- <-; rewrite K; auto|apply R; auto].
      * destruct d as [z|]; [|discriminate]. destruct (rest A lit s k) as [e|r'] eqn:R; [discriminate|]. injection E as <-. apply IH in R as [L R]. split; [cbn; auto|].
        intros [|i] n' d' H; cbn in *; [injection H as <- <-; rewrite K; eauto|apply R; auto].
    + intros [L H]. destruct r as [|v r]; [discriminate|]. cbn in L. assert (F : filled k s r) by (split; [lia|]; intros i n' d' H'; apply (H (S i) n' d' H')). apply IH in F. rewrite F.
      pose proof (H 0 n d eq_refl) as H0. cbn in H0. destruct (kw n k) as [w|]; [congruence|]. destruct H0 as [z [-> H0]]. congruence.
Qed.
Lemma rest_err : forall s k e, rest A lit s k = inl e -> e = TypeError.
Proof.
  induction s as [|[n d] s IH]; intros k e; cbn [rest]; [discriminate|]. destruct (kw n k); [destruct (rest A lit s k) eqn:R; [intros [= <-]; eauto|discriminate]|].
  destruct d; [destruct (rest A lit s k) eqn:R; [intros [= <-]; eauto|discriminate]|]. intros [= <-]; auto.
Qed.
Lemma bind_err : forall s pos k e, Call.bind A lit s pos k = inl e -> e = TypeError.
Proof.
  intros s pos k e. unfold Call.bind. repeat match goal with |- (if ?c then _ else _) = _ -> _ => destruct c; [intros [= <-]; auto|] end.
  destruct (rest _ _ _ _) eqn:R; [intros [= <-]; eapply rest_err; eauto|discriminate].
Qed.
Lemma nth_skipn : forall (B : Type) m (l : list B) i, nth_error (skipn m l) i = nth_error l (m + i).
Proof. induction m as [|m IH]; intros [|x l] i; cbn; auto. destruct i; auto. Qed.
Lemma in_firstn_nth : forall (B : Type) (x : B) m l, In x (firstn m l) <-> exists i, i < m /\ nth_error l i = Some x.
Proof.
  intros B x m. induction m as [|m IH]; intros [|y l]; cbn; split; try (intros []; fail).
  - intros [i [H _]]; lia.
  - intros [i [H _]]; lia.
  - intros [i [_ H]]; destruct i; discriminate.
  - intros [<-|I]; [exists 0; split; auto; lia|]. apply IH in I as [i [H1 H2]]. exists (S i). split; auto; lia.
  - intros [[|i] [H1 H2]]; cbn in H2; [left; congruence|]. right. apply IH. exists i. split; auto; lia.
Qed.
Lemma bind_iff : forall s pos k l, NoDup (map fst s) -> (Call.bind A lit s pos k = inr l <-> understood A lit s pos k l).
Proof.
  intros s pos k l N. unfold Call.bind.
  destruct (no_dup (map fst k)) eqn:D; cbn [negb].
  2:{ split; [discriminate|]. intros [H _]. apply no_dup_iff in H. congruence. }
  apply no_dup_iff in D. destruct (Nat.ltb_spec (List.length s) (List.length pos)).
  { split; [discriminate|]. intros [_ [L _]]. lia. }
  assert (NI : forall i j n d d', nth_error s i = Some (n, d) -> nth_error s j = Some (n, d') -> i = j).
  { intros i j n d d' Hi Hj. assert (Li : i < List.length (map fst s)) by (rewrite map_length; apply nth_error_Some; congruence).
    apply (proj1 (NoDup_nth_error (map fst s)) N i j Li). rewrite (map_nth_error fst i s Hi), (map_nth_error fst j s Hj). auto. }
  destruct (existsb (fun n => has n (map fst k)) (firstn (List.length pos) (map fst s))) eqn:X1.
  { split; [discriminate|]. intros [_ [_ [_ [K _]]]]. exfalso. apply existsb_exists in X1 as [n [I1 I2]]. apply has_in in I2. apply in_map_iff in I2 as [[n' v] [E I2]]. cbn in E. subst n'.
    destruct (K n v I2) as [i [d [H1 H2]]]. apply in_firstn_nth in I1 as [j [J1 J2]]. rewrite nth_error_map in J2. destruct (nth_error s j) as [[n2 d2]|] eqn:E; [|discriminate]. cbn in J2. injection J2 as ->.
    assert (i = j) by (eapply NI; eauto). lia. }
  destruct (existsb (fun n => negb (has n (map fst s))) (map fst k)) eqn:X2.
  { split; [discriminate|]. intros [_ [_ [_ [K _]]]]. exfalso. apply existsb_exists in X2 as [n [I1 I2]]. apply negb_true_iff in I2. apply in_map_iff in I1 as [[n' v] [E I1]]. cbn in E. subst n'.
    destruct (K n v I1) as [i [d [H1 H2]]]. assert (Y : has n (map fst s) = true) by (apply has_in; apply nth_error_In in H1; apply (in_map fst) in H1; auto). congruence. }
  assert (KK : forall n v, In (n, v) k -> exists i d, nth_error s i = Some (n, d) /\ List.length pos <= i).
  { intros n v I. assert (I' : In n (map fst k)) by (apply (in_map fst) in I; auto).
    assert (Y : In n (map fst s)). { destruct (has n (map fst s)) eqn:E; [apply has_in; auto|]. exfalso. assert (existsb (fun n => negb (has n (map fst s))) (map fst k) = true) by (apply existsb_exists; exists n; rewrite E; auto). congruence. }
    apply in_map_iff in Y as [[n' d] [E Y]]. cbn in E. subst n'. apply In_nth_error in Y as [i Y]. exists i, d. split; auto. destruct (le_lt_dec (List.length pos) i); auto. exfalso.
    assert (existsb (fun n => has n (map fst k)) (firstn (List.length pos) (map fst s)) = true).
    { apply existsb_exists. exists n. split; [|apply has_in; auto]. apply in_firstn_nth. exists i. split; auto. rewrite nth_error_map, Y. auto. }
    congruence. }
  destruct (rest A lit (skipn (List.length pos) s) k) as [e|r] eqn:R.
  - split; [discriminate|]. intros [_ [L1 [L2 [_ H1]]]]. exfalso. assert (F : rest A lit (skipn (List.length pos) s) k = inr (skipn (List.length pos) l)).
    { apply rest_iff. split; [rewrite !skipn_length; lia|]. intros i n d Hs. rewrite nth_skipn in Hs. rewrite nth_skipn. destruct (H1 _ _ _ Hs) as [_ H2]. destruct (H2 ltac:(lia)) as [H3 H4].
      destruct (kw n k) as [v|] eqn:E; [apply H3; apply (kw_in k n v D); auto|]. apply H4. intros v I. apply kw_none in E. apply (in_map fst) in I. auto. }
    congruence.
  - apply rest_iff in R as [L R]. rewrite skipn_length in L. split.
    + intros [= <-]. split; auto. split; auto. split; [rewrite app_length; lia|]. split; auto. intros i n d Hs. split; [intros Hi; apply nth_error_app1; auto|].
      intros Hi. assert (Hs' : nth_error (skipn (List.length pos) s) (i - List.length pos) = Some (n, d)) by (rewrite nth_skipn; replace (List.length pos + (i - List.length pos)) with i by lia; auto).
      specialize (R _ _ _ Hs'). rewrite nth_error_app2 by auto. split.
      * intros v I. apply (kw_in k n v D) in I. rewrite I in R. auto.
      * intros I. destruct (kw n k) as [v|] eqn:E; [exfalso; apply (I v); apply (kw_in k n v D); auto|]. auto.
    + intros [_ [L1 [L2 [_ H1]]]]. f_equal. assert (X : forall i, nth_error (pos ++ r)%list i = nth_error l i).
      { intros i. destruct (nth_error s i) as [[n d]|] eqn:E.
        - destruct (H1 _ _ _ E) as [H2 H3]. destruct (le_lt_dec (List.length pos) i) as [Hi|Hi].
          + rewrite nth_error_app2 by auto. destruct (H3 Hi) as [H4 H5].
            assert (Hs' : nth_error (skipn (List.length pos) s) (i - List.length pos) = Some (n, d)) by (rewrite nth_skipn; replace (List.length pos + (i - List.length pos)) with i by lia; auto).
            specialize (R _ _ _ Hs'). destruct (kw n k) as [v|] eqn:Ek; [rewrite R; symmetry; apply H4; apply (kw_in k n v D); auto|].
            destruct R as [z [-> R]]. destruct H5 as [z' [[= <-] H5]]; [|congruence]. intros v I. apply kw_none in Ek. apply (in_map fst) in I. auto.
          + rewrite nth_error_app1 by auto. symmetry. auto.
        - apply nth_error_None in E. rewrite (proj2 (nth_error_None _ _)) by (rewrite app_length; lia). symmetry. apply nth_error_None. lia. }
      clear - X. revert l X. generalize (pos ++ r)%list. induction l as [|x l IH]; intros [|y l'] X; auto; try (specialize (X 0); discriminate).
      f_equal; [specialize (X 0); cbn in X; congruence|]. apply IH. intros i. apply (X (S i)).
Qed.
(** all arguments by position *)
Lemma understood_all : forall s l, List.length l = List.length s -> understood A lit s l [] l.
Proof.
  intros s l L. split; [constructor|]. split; [lia|]. split; auto. split; [intros ? ? []|]. intros i n d H. split; auto. intros Hi. exfalso.
  assert (i < List.length s) by (apply nth_error_Some; congruence). lia.
Qed.
(** the object as first argument *)
Lemma understood_self : forall s pos k l v, ~ In "self" (map fst s) -> (understood A lit (("self", None) :: s) (v :: pos) k l <-> exists l', l = v :: l' /\ understood A lit s pos k l').
Proof.
  intros s pos k l v NS. split.
  - intros [D [L1 [L2 [K H]]]]. destruct l as [|w l]; [discriminate|]. pose proof (proj1 (H 0 "self" None eq_refl) ltac:(cbn; lia)) as E. cbn in E. injection E as ->. exists l. split; auto.
    cbn in L1, L2. split; auto. split; [lia|]. split; [lia|]. split.
    + intros n w I. destruct (K n w I) as [[|i] [d [H1 H2]]]; cbn in *; [lia|]. exists i, d. split; auto; lia.
    + intros i n d Hs. destruct (H (S i) n d Hs) as [H1 H2]. cbn in H1, H2. split; [intros Hi; apply H1; lia|intros Hi; apply H2; lia].
  - intros [l' [-> [D [L1 [L2 [K H]]]]]]. split; auto. split; [cbn; lia|]. split; [cbn; lia|]. split.
    + intros n w I. destruct (K n w I) as [i [d [H1 H2]]]. exists (S i), d. split; auto. cbn. lia.
    + intros [|i] n d Hs; cbn in Hs.
      * injection Hs as <- <-. split; auto. cbn. lia.
      * destruct (H i n d Hs) as [H1 H2]. cbn. split; [intros Hi; apply H1; lia|intros Hi; apply H2; lia].
Qed.
Lemma kw_locals : forall s l, NoDup (map fst s) -> List.length l = List.length s -> forall i n v, nth_error (map fst s) i = Some n -> nth_error l i = Some v -> kw n (locals A s l) = Some v.
Proof.
  unfold locals. induction s as [|[m d] s IH]; intros [|w l] N L i n v Hn Hv; try discriminate; [destruct i; discriminate|]. cbn in *. inversion N; subst. destruct i as [|i]; cbn in *.
  - injection Hn as ->. injection Hv as ->. rewrite String.eqb_refl. auto.
  - destruct (String.eqb_spec m n); [subst; exfalso; apply H1; apply nth_error_In in Hn; auto|]. apply (IH l H2 ltac:(lia) i); auto.
Qed.
Lemma hand_on_all : forall s l, NoDup (map fst s) -> List.length l = List.length s -> hand_on A (locals A s l) (map fst s) = inr l.
Proof.
  intros s l N L. assert (X : forall t a, List.length a = List.length t -> (forall i n v, nth_error t i = Some n -> nth_error a i = Some v -> kw n (locals A s l) = Some v) -> hand_on A (locals A s l) t = inr a).
  { induction t as [|n t IH]; intros [|v a] La H; try discriminate; auto. cbn [hand_on]. rewrite (H 0 n v eq_refl eq_refl). rewrite (IH a); auto. intros i m w H1 H2. apply (H (S i) m w); auto. }
  apply X; [rewrite map_length; auto|]. intros i n v. apply kw_locals; auto.
Qed.
End Bind.

(** ** the functions *)
Definition fits (f : func) : Prop :=
  find_function (f_module f) (f_name f) = Some f /\
  find_method (f_class f) (f_name f) = Some (mkM (f_class f) (f_name f) (f_params f)) /\
  f_method f = f_name f /\ f_args f = map fst (f_params f) /\ no_dup ("self" :: map fst (f_params f)) = true.
Lemma functions_fit : forall f, In f functions -> fits f.
Proof.
  intros f I. unfold functions in I. cbn [In] in I.
  repeat match type of I with _ \/ _ => destruct I as [<-|I] | False => destruct I end; unfold fits; (split; [reflexivity|]; split; [reflexivity|]; split; [reflexivity|]; split; reflexivity).
Qed.

(** the two calls have the same outcome, whatever the values are and whatever the method computes *)
Theorem C128_same : forall (A : Type) (lit : Z -> A) (self : A) (body : string -> string -> list A -> py (list A)) f pos k, In f functions ->
  call_function A lit self body (f_module f) (f_name f) pos k = call_method A lit self body (f_class f) (f_name f) pos k.
Proof.
  intros A lit self body f pos k I. destruct (functions_fit f I) as [F1 [F2 [F3 [F4 F5]]]]. unfold call_function. rewrite F1, F3, F4. unfold call_method. rewrite F2. cbn [m_params].
  apply no_dup_iff in F5. pose proof F5 as F6. apply NoDup_cons_iff in F6 as [NS N]. set (s := f_params f) in *.
  assert (NN : NoDup (map fst (("self", None) :: s))) by exact F5.
  destruct (Call.bind A lit s pos k) as [e|l] eqn:B.
  - pose proof (bind_err _ _ _ _ _ _ B) as ->. destruct (Call.bind A lit (("self", None) :: s) (self :: pos) k) as [e|l] eqn:B2; [rewrite (bind_err _ _ _ _ _ _ B2); auto|].
    exfalso. apply (bind_iff _ _ _ _ _ _ NN) in B2. apply understood_self in B2 as [l' [_ U]]; auto. apply (bind_iff _ _ _ _ _ _ N) in U. congruence.
  - apply (bind_iff _ _ _ _ _ _ N) in B. assert (L : List.length l = List.length s) by (destruct B as [_ [_ [L _]]]; auto). rewrite hand_on_all by auto.
    assert (B1 : Call.bind A lit (("self", None) :: s) (self :: l) [] = inr (self :: l)) by (apply bind_iff; auto; apply understood_self; auto; exists l; split; auto; apply understood_all; auto).
    assert (B2 : Call.bind A lit (("self", None) :: s) (self :: pos) k = inr (self :: l)) by (apply bind_iff; auto; apply understood_self; auto; exists l; split; auto).
    rewrite B1, B2. auto.
Qed.

(** arguments by position, by keyword, or left at their default; everything else is a TypeError *)
Theorem C128_arguments : forall (A : Type) (lit : Z -> A) (self : A) (body : string -> string -> list A -> py (list A)) f pos k, In f functions ->
  (forall l, understood A lit (f_params f) pos k l -> call_function A lit self body (f_module f) (f_name f) pos k = body (f_class f) (f_name f) l) /\
  ((forall l, ~ understood A lit (f_params f) pos k l) -> call_function A lit self body (f_module f) (f_name f) pos k = inl TypeError).
Proof.
  intros A lit self body f pos k I. rewrite C128_same by auto. destruct (functions_fit f I) as [F1 [F2 [F3 [F4 F5]]]]. unfold call_method. rewrite F2. cbn [m_params].
  apply no_dup_iff in F5. pose proof F5 as F6. apply NoDup_cons_iff in F6 as [NS N]. set (s := f_params f) in *.
  assert (NN : NoDup (map fst (("self", None) :: s))) by exact F5. split.
  - intros l U. assert (B2 : Call.bind A lit (("self", None) :: s) (self :: pos) k = inr (self :: l)) by (apply bind_iff; auto; apply understood_self; auto; exists l; split; auto). rewrite B2. auto.
  - intros U. destruct (Call.bind A lit (("self", None) :: s) (self :: pos) k) as [e|l] eqn:B2; [rewrite (bind_err _ _ _ _ _ _ B2); auto|].
    exfalso. apply (bind_iff _ _ _ _ _ _ NN) in B2. apply understood_self in B2 as [l' [_ U']]; auto. apply (U l'); auto.
Qed.
(** at most one list of values is understood *)
Theorem C128_unique : forall (A : Type) (lit : Z -> A) f pos k l l', In f functions -> understood A lit (f_params f) pos k l -> understood A lit (f_params f) pos k l' -> l = l'.
Proof.
  intros A lit f pos k l l' I U U'. destruct (functions_fit f I) as [_ [_ [_ [_ F5]]]]. apply no_dup_iff in F5. apply NoDup_cons_iff in F5 as [_ N].
  apply (bind_iff _ _ _ _ _ _ N) in U. apply (bind_iff _ _ _ _ _ _ N) in U'. congruence.
Qed.

(** every method has its function, in the module of its class, and the reverse *)
Definition module_of (c : string) : string := if String.eqb c "Aero" then "aero" else "geo".
Theorem C128_complete :
  (forall m, In m methods -> exists f, In f functions /\ f_module f = module_of (m_class m) /\ f_class f = m_class m /\ f_name f = m_name m /\ f_params f = m_params m) /\
  (forall f, In f functions -> exists m, In m methods /\ m_class m = f_class f /\ m_name m = f_name f /\ m_params m = f_params f).
Proof.
  split.
  - intros m I. unfold methods in I. cbn [In] in I.
    repeat match type of I with _ \/ _ => destruct I as [<-|I] | False => destruct I end; cbn [m_class m_name m_params];
    match goal with |- exists f, In f functions /\ _ = module_of ?c /\ _ /\ _ = ?n /\ _ =>
      let r := eval vm_compute in (find_function (module_of c) n) in match r with Some ?x => exists x; split; [vm_compute; tauto|split; [reflexivity|split; [reflexivity|split; reflexivity]]] end end.
  - intros f I. destruct (functions_fit f I) as [_ [F2 _]]. unfold find_method in F2. apply find_some in F2 as [F2 _]. eexists. split; [exact F2|]. split; [|split]; reflexivity.
Qed.

(** the functions are the ones the module gives under these names, in every session (C127) *)
Theorem C128_names : forall f, In f functions -> means (f_module f) (f_name f) (Obj (f_module f) (f_name f)).
Proof.
  intros f I. unfold functions in I. cbn [In] in I.
  repeat match type of I with _ \/ _ => destruct I as [<-|I] | False => destruct I end; apply (mean_sound 10); vm_compute; reflexivity.
Qed.

(** with the methods as modelled in Aero.v and Geo.v, for every backend: arguments by position, the temperature offset and the altitude of the sphere optional *)
Definition zero (b : backend) : T b := cst b 0%R.
Theorem C128_values : forall (b : backend) (self : T b), let call := fun mo f pos => call_function (T b) (fun z => cst b (IZR z)) self (numeric_body b) mo f pos [] in
  (forall h dT, call "aero" "atmos" [h] = (let '(p, rho, t) := atmos b h (zero b) in inr [p; rho; t]) /\ call "aero" "atmos" [h; dT] = (let '(p, rho, t) := atmos b h dT in inr [p; rho; t])) /\
  (forall h dT, call "aero" "temperature" [h] = inr [temperature b h (zero b)] /\ call "aero" "temperature" [h; dT] = inr [temperature b h dT]) /\
  (forall h dT, call "aero" "pressure" [h] = inr [pressure b h (zero b)] /\ call "aero" "pressure" [h; dT] = inr [pressure b h dT]) /\
  (forall h dT, call "aero" "density" [h] = inr [density b h (zero b)] /\ call "aero" "density" [h; dT] = inr [density b h dT]) /\
  (forall h dT, call "aero" "vsound" [h] = inr [vsound b h (zero b)] /\ call "aero" "vsound" [h; dT] = inr [vsound b h dT]) /\
  (forall p dT, call "aero" "h_isa" [p] = inr [h_isa b p (zero b)] /\ call "aero" "h_isa" [p; dT] = inr [h_isa b p dT]) /\
  (forall v h dT, call "aero" "tas2mach" [v; h] = inr [tas2mach b v h (zero b)] /\ call "aero" "tas2mach" [v; h; dT] = inr [tas2mach b v h dT]) /\
  (forall v h dT, call "aero" "mach2tas" [v; h] = inr [mach2tas b v h (zero b)] /\ call "aero" "mach2tas" [v; h; dT] = inr [mach2tas b v h dT]) /\
  (forall v h dT, call "aero" "eas2tas" [v; h] = inr [eas2tas b v h (zero b)] /\ call "aero" "eas2tas" [v; h; dT] = inr [eas2tas b v h dT]) /\
  (forall v h dT, call "aero" "tas2eas" [v; h] = inr [tas2eas b v h (zero b)] /\ call "aero" "tas2eas" [v; h; dT] = inr [tas2eas b v h dT]) /\
  (forall v h dT, call "aero" "cas2tas" [v; h] = inr [cas2tas b v h (zero b)] /\ call "aero" "cas2tas" [v; h; dT] = inr [cas2tas b v h dT]) /\
  (forall v h dT, call "aero" "tas2cas" [v; h] = inr [tas2cas b v h (zero b)] /\ call "aero" "tas2cas" [v; h; dT] = inr [tas2cas b v h dT]) /\
  (forall v h dT, call "aero" "mach2cas" [v; h] = inr [mach2cas b v h (zero b)] /\ call "aero" "mach2cas" [v; h; dT] = inr [mach2cas b v h dT]) /\
  (forall v h dT, call "aero" "cas2mach" [v; h] = inr [cas2mach b v h (zero b)] /\ call "aero" "cas2mach" [v; h; dT] = inr [cas2mach b v h dT]) /\
  (forall v m dT, call "aero" "crossover_alt" [v; m] = inr [crossover_alt b v m (zero b)] /\ call "aero" "crossover_alt" [v; m; dT] = inr [crossover_alt b v m dT]) /\
  (forall lat1 lon1 lat2 lon2 h, call "geo" "distance" [lat1; lon1; lat2; lon2] = inr [distance b lat1 lon1 lat2 lon2 (zero b)] /\ call "geo" "distance" [lat1; lon1; lat2; lon2; h] = inr [distance b lat1 lon1 lat2 lon2 h]) /\
  (forall lat1 lon1 lat2 lon2, call "geo" "bearing" [lat1; lon1; lat2; lon2] = inr [bearing b lat1 lon1 lat2 lon2]) /\
  (forall lat1 lon1 d brg h, call "geo" "latlon" [lat1; lon1; d; brg] = (let '(lat, lon) := latlon b lat1 lon1 d brg (zero b) in inr [lat; lon]) /\ call "geo" "latlon" [lat1; lon1; d; brg; h] = (let '(lat, lon) := latlon b lat1 lon1 d brg h in inr [lat; lon])).
Proof.
  intros b self call. repeat match goal with |- _ /\ _ => split end; intros; try split; reflexivity.
Qed.

(** the same with all arguments by keyword, in any order *)
Lemma by_keyword : forall (A : Type) (lit : Z -> A) (self : A) body f k l, In f functions -> List.length l = List.length (f_params f) -> Permutation k (combine (map fst (f_params f)) l) ->
  call_function A lit self body (f_module f) (f_name f) [] k = body (f_class f) (f_name f) l.
Proof.
  intros A lit self body f k l I L P. apply C128_arguments; auto. destruct (functions_fit f I) as [_ [_ [_ [_ F5]]]]. apply no_dup_iff in F5. apply NoDup_cons_iff in F5 as [_ N]. set (s := f_params f) in *.
  assert (Q : NoDup (map fst (combine (map fst s) l)) /\ (forall i n d, nth_error s i = Some (n, d) -> exists v, nth_error l i = Some v /\ In (n, v) (combine (map fst s) l)) /\
     (forall n v, In (n, v) (combine (map fst s) l) -> exists i d, nth_error s i = Some (n, d) /\ nth_error l i = Some v)).
  { clear -L N. revert l L. induction s as [|[n d] s IH]; intros [|v l] L; try discriminate; cbn.
    - split; [constructor|]. split; [intros [|i]; discriminate|intros ? ? []].
    - cbn in N. inversion N; subst. destruct (IH H2 l) as [I1 [I2 I3]]; [cbn in L; lia|]. split; [|split].
      + constructor; auto. intros X. apply H1. apply in_map_iff in X as [[n' v'] [E X]]. cbn in E. subst n'. apply in_combine_l in X. auto.
      + intros [|i] n' d' E; cbn in E; [injection E as <- <-; exists v; split; auto|]. destruct (I2 i n' d' E) as [w [W1 W2]]. exists w. auto.
      + intros n' v' [[= <- <-]|X]; [exists 0, d; auto|]. destruct (I3 n' v' X) as [i [d' [X1 X2]]]. exists (S i), d'. auto. }
  destruct Q as [Q1 [Q2 Q3]]. assert (D : NoDup (map fst k)) by (eapply Permutation_NoDup; [apply Permutation_sym, Permutation_map, P|auto]).
  split; auto. split; [cbn; lia|]. split; auto. split; [intros n v X; apply (Permutation_in _ P) in X; destruct (Q3 n v X) as [i [d [X1 _]]]; exists i, d; split; auto; cbn; lia|].
  intros i n d E. split; [cbn; lia|]. intros _. destruct (Q2 i n d E) as [v [V1 V2]]. apply (Permutation_in _ (Permutation_sym P)) in V2. split; [|intros X; exfalso; apply (X v); auto].
  intros w W. apply (kw_in A k n v D) in V2. apply (kw_in A k n w D) in W. congruence.
Qed.
Theorem C128_keywords : forall (b : backend) (self : T b), let call := fun mo f k => call_function (T b) (fun z => cst b (IZR z)) self (numeric_body b) mo f [] k in
  (forall h dT k, Permutation k [("h", h); ("dT", dT)] -> call "aero" "atmos" k = (let '(p, rho, t) := atmos b h dT in inr [p; rho; t])) /\
  (forall h dT k, Permutation k [("h", h); ("dT", dT)] -> call "aero" "temperature" k = inr [temperature b h dT]) /\
  (forall h dT k, Permutation k [("h", h); ("dT", dT)] -> call "aero" "pressure" k = inr [pressure b h dT]) /\
  (forall h dT k, Permutation k [("h", h); ("dT", dT)] -> call "aero" "density" k = inr [density b h dT]) /\
  (forall h dT k, Permutation k [("h", h); ("dT", dT)] -> call "aero" "vsound" k = inr [vsound b h dT]) /\
  (forall p dT k, Permutation k [("p", p); ("dT", dT)] -> call "aero" "h_isa" k = inr [h_isa b p dT]) /\
  (forall v_tas h dT k, Permutation k [("v_tas", v_tas); ("h", h); ("dT", dT)] -> call "aero" "tas2mach" k = inr [tas2mach b v_tas h dT]) /\
  (forall mach h dT k, Permutation k [("mach", mach); ("h", h); ("dT", dT)] -> call "aero" "mach2tas" k = inr [mach2tas b mach h dT]) /\
  (forall v_eas h dT k, Permutation k [("v_eas", v_eas); ("h", h); ("dT", dT)] -> call "aero" "eas2tas" k = inr [eas2tas b v_eas h dT]) /\
  (forall v_tas h dT k, Permutation k [("v_tas", v_tas); ("h", h); ("dT", dT)] -> call "aero" "tas2eas" k = inr [tas2eas b v_tas h dT]) /\
  (forall v_cas h dT k, Permutation k [("v_cas", v_cas); ("h", h); ("dT", dT)] -> call "aero" "cas2tas" k = inr [cas2tas b v_cas h dT]) /\
  (forall v_tas h dT k, Permutation k [("v_tas", v_tas); ("h", h); ("dT", dT)] -> call "aero" "tas2cas" k = inr [tas2cas b v_tas h dT]) /\
  (forall mach h dT k, Permutation k [("mach", mach); ("h", h); ("dT", dT)] -> call "aero" "mach2cas" k = inr [mach2cas b mach h dT]) /\
  (forall v_cas h dT k, Permutation k [("v_cas", v_cas); ("h", h); ("dT", dT)] -> call "aero" "cas2mach" k = inr [cas2mach b v_cas h dT]) /\
  (forall v_cas mach dT k, Permutation k [("v_cas", v_cas); ("mach", mach); ("dT", dT)] -> call "aero" "crossover_alt" k = inr [crossover_alt b v_cas mach dT]) /\
  (forall lat1 lon1 lat2 lon2 h k, Permutation k [("lat1", lat1); ("lon1", lon1); ("lat2", lat2); ("lon2", lon2); ("h", h)] -> call "geo" "distance" k = inr [distance b lat1 lon1 lat2 lon2 h]) /\
  (forall lat1 lon1 lat2 lon2 k, Permutation k [("lat1", lat1); ("lon1", lon1); ("lat2", lat2); ("lon2", lon2)] -> call "geo" "bearing" k = inr [bearing b lat1 lon1 lat2 lon2]) /\
  (forall lat1 lon1 d brg h k, Permutation k [("lat1", lat1); ("lon1", lon1); ("d", d); ("brg", brg); ("h", h)] -> call "geo" "latlon" k = (let '(lat, lon) := latlon b lat1 lon1 d brg h in inr [lat; lon])).
Proof.
  intros b self call. repeat match goal with |- _ /\ _ => split end; intros; unfold call;
  match goal with P : Permutation _ ?l |- call_function _ _ _ _ ?mo ?f _ _ = _ =>
    let r := eval vm_compute in (find_function mo f) in match r with Some ?x =>
      let h := fresh in assert (h : In x functions) by (vm_compute; tauto); exact (by_keyword _ _ self (numeric_body b) x _ (map snd l) h eq_refl P) end end.
Qed.

Example C128_ex : In (mkF "aero" "tas2mach" [("v_tas", None); ("h", None); ("dT", Some 0%Z)] "Aero" "tas2mach" ["v_tas"; "h"; "dT"]) functions /\
  understood nat Z.to_nat [("v_tas", None); ("h", None); ("dT", Some 0%Z)] [20] [("h", 90)] [20; 90; 0] /\
  call_function nat Z.to_nat 7 (fun _ _ l => inr l) "aero" "tas2mach" [20] [("h", 90)] = inr [20; 90; 0] /\
  call_function nat Z.to_nat 7 (fun _ _ l => inr l) "aero" "tas2mach" [] [("dT", 5); ("h", 90); ("v_tas", 20)] = inr [20; 90; 5] /\
  call_function nat Z.to_nat 7 (fun _ _ l => inr l) "aero" "tas2mach" [20] [("dT", 5)] = inl TypeError /\
  call_function nat Z.to_nat 7 (fun _ _ l => inr l) "aero" "tas2mach" [20; 90] [("v_tas", 5)] = inl TypeError /\
  call_function nat Z.to_nat 7 (fun _ _ l => inr l) "aero" "tas2mach" [20; 90] [("altitude", 5)] = inl TypeError.
Proof.
  split; [vm_compute; tauto|]. split; [|vm_compute; auto 10].
  apply bind_iff; [|vm_compute; reflexivity]. apply no_dup_iff. vm_compute. reflexivity.
Qed.
