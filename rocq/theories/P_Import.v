(** * Property C127: the modules of the package can be imported in any order, and names mean what the files say

    Python's import statement is modelled in Import.v, the top level of the files in ImportSrc.v. *)
From Coq Require Import String Ascii List Bool Arith Lia.
From Verif Require Import Import ImportSrc.
Import ListNotations.
Open Scope string_scope.

(** ** specification: what a name stands for, read off the files without executing anything *)
Inductive origin : Type := Defined | Library (l : option lib) | From (t k : string).
Definition gives (x : stmt) (n : string) (o : origin) : Prop :=
  match x with
  | SBind k _ => k = n /\ o = Defined
  | SLib l ks => In n ks /\ o = Library l
  | SFrom t ks => exists k, In (k, n) ks /\ o = From t k
  end.
(** the last statement of the file that binds the name *)
Definition last_binding (b : list stmt) (n : string) (o : origin) : Prop :=
  exists pre x post, b = (pre ++ x :: post)%list /\ gives x n o /\ forall y o', In y post -> ~ gives y n o'.
Definition is_module (m : string) : Prop := In m (map fst package).
Definition statements (m : string) (b : list stmt) : Prop := exists p, In (m, (p, b)) package.
(** a name of a module: what its last definition or import says, else the module of that name inside the package *)
Inductive means : string -> string -> obj -> Prop :=
| M_defined : forall m n b, statements m b -> last_binding b n Defined -> means m n (Obj m n)
| M_library : forall m n b l, statements m b -> last_binding b n (Library l) -> means m n (Ext l n)
| M_from : forall m n b t k o, statements m b -> last_binding b n (From t k) -> (t, k) <> (m, n) -> means t k o -> means m n o
| M_self : forall m n b, statements m b -> last_binding b n (From m n) -> is_module (sub m n) -> means m n (Mod (sub m n))
| M_module : forall m n b, statements m b -> (forall o, ~ last_binding b n o) -> is_module (sub m n) -> means m n (Mod (sub m n)).
(** the libraries in the list of dependencies (pyproject.toml:18-24) *)
Definition required : list lib := [Numpy; Scipy; Pandas; Yaml; Matplotlib].
(** a command about modules of the package *)
Definition about (c : command) : Prop := match c with CImport m | CImportAs m | CFrom m _ => is_module m end.
(** the result of a command after the commands [h]; 40 is more than the depth of the imports (never reached) *)
Definition result (avail : lib -> bool) (h : list command) (c : command) : err + obj := snd (do package avail 40 c (session package avail 40 h)).

(** ** only the required libraries are imported when the modules are executed *)
Definition lib_eqb (a b : lib) : bool :=
  match a, b with Numpy, Numpy | Scipy, Scipy | Pandas, Pandas | Yaml, Yaml | Matplotlib, Matplotlib | Casadi, Casadi | Jax, Jax | Xarray, Xarray => true | _, _ => false end.
Definition libs_ok (b : list stmt) : bool := forallb (fun x => match x with SLib (Some l) _ => existsb (lib_eqb l) required | _ => true end) b.
Lemma lib_in : forall l, existsb (lib_eqb l) required = true -> In l required.
Proof. intros []; cbn; intros; auto 10; discriminate. Qed.
Section Ext.
Variables a1 a2 : lib -> bool.
Hypothesis agree : forall l, In l required -> a1 l = a2 l.
Lemma submodules_ext : forall ld1 ld2, (forall m s, ld1 m s = ld2 m s) -> forall t ks s, submodules package ld1 t ks s = submodules package ld2 t ks s.
Proof.
  intros ld1 ld2 E t ks. induction ks as [|k r IH]; intros s; cbn [submodules]; auto. destruct (get s t); auto.
  destruct (get n k); auto. destruct (get package _); auto. rewrite E. destruct (ld2 _ s) as [s' [e|]]; auto. rewrite E. destruct (ld2 _ s') as [s'' [e|]]; auto.
Qed.
Lemma import_from_ext : forall ld1 ld2, (forall m s, ld1 m s = ld2 m s) -> forall t ks s, import_from package ld1 t ks s = import_from package ld2 t ks s.
Proof. intros ld1 ld2 E t ks s. unfold import_from. rewrite E. destruct (ld2 t s) as [s1 [e|]]; auto. destruct (get package t) as [[[] ?]|]; auto. apply submodules_ext. auto. Qed.
Lemma execute_ext : forall ld1 ld2, (forall m s, ld1 m s = ld2 m s) -> forall m b s, libs_ok b = true -> execute package a1 ld1 m b s = execute package a2 ld2 m b s.
Proof.
  intros ld1 ld2 E m b. induction b as [|x r IH]; intros s K; cbn [execute]; auto. cbn [libs_ok forallb] in K. apply andb_prop in K as [K1 K2].
  assert (X : match x with
        | SLib l l' => if match l with Some l0 => a1 l0 | None => true end then (fold_left (fun s n => bind s m n (Ext l n)) l' s, None) else (s, Some ModuleNotFoundError)
        | SFrom t ks => match import_from package ld1 t (map fst ks) s with (s1, Some e) => (s1, Some e) | (s1, None) => bind_names m t ks s1 end
        | SBind n uses => match look_all s m uses with Some e => (s, Some e) | None => (bind s m n (Obj m n), None) end end
      = match x with
        | SLib l l' => if match l with Some l0 => a2 l0 | None => true end then (fold_left (fun s n => bind s m n (Ext l n)) l' s, None) else (s, Some ModuleNotFoundError)
        | SFrom t ks => match import_from package ld2 t (map fst ks) s with (s1, Some e) => (s1, Some e) | (s1, None) => bind_names m t ks s1 end
        | SBind n uses => match look_all s m uses with Some e => (s, Some e) | None => (bind s m n (Obj m n), None) end end).
  { destruct x as [[l|] l'|t ks|n us]; auto.
    - rewrite (agree l) by (apply lib_in; auto). auto.
    - rewrite (import_from_ext ld1 ld2 E). auto. }
  match type of X with _ = ?z => rewrite X; destruct z as [s' [e|]] end; auto.
Qed.
Lemma package_libs : forall m p b, get package m = Some (p, b) -> libs_ok b = true.
Proof.
  intros m p b G. assert (A : forallb (fun x => libs_ok (snd (snd x))) package = true) by (vm_compute; reflexivity). revert G A. generalize package as l.
  induction l as [|[k [q c]] l IH]; cbn; [discriminate|]. intros G A. apply andb_prop in A as [A1 A2]. destruct (String.eqb k m); [injection G as _ ->; auto|auto].
Qed.
Lemma load_ext : forall f m s, load package a1 f m s = load package a2 f m s.
Proof.
  induction f as [|f IH]; intros m s; cbn [load]; auto. destruct (get s m); auto.
  assert (X : (match parent m with Some (p, _) => load package a1 f p s | None => (s, None) end) = (match parent m with Some (p, _) => load package a2 f p s | None => (s, None) end)) by (destruct (parent m) as [[p c]|]; auto).
  match type of X with _ = ?z => rewrite X; destruct z as [s1 [e|]] end; auto. destruct (get s1 m); auto. destruct (get package m) as [[p b]|] eqn:G; auto.
  rewrite (execute_ext (load package a1 f) (load package a2 f) IH m b _ (package_libs _ _ _ G)). auto.
Qed.
Lemma do_ext : forall f c s, do package a1 f c s = do package a2 f c s.
Proof.
  intros f c s. destruct c as [m|m|m n]; cbn [do].
  - rewrite load_ext. destruct (load package a2 f m s) as [s1 [e|]]; auto. rewrite load_ext. auto.
  - rewrite load_ext. destruct (load package a2 f m s) as [s1 [e|]]; auto. rewrite load_ext. auto.
  - rewrite (import_from_ext (load package a1 f) (load package a2 f)); auto. intros; apply load_ext.
Qed.
Lemma session_ext : forall f h, session package a1 f h = session package a2 f h.
Proof.
  intros f h. unfold session. generalize (@nil (string * ns)) as s. induction h as [|c h IH]; intros s; cbn [fold_left]; auto. rewrite do_ext. auto.
Qed.
Lemma result_ext : forall h c, result a1 h c = result a2 h c.
Proof. intros. unfold result. rewrite session_ext, do_ext. auto. Qed.
End Ext.

(** ** the states that sessions can reach *)
Definition all : lib -> bool := fun _ => true.
Definition ld (f : nat) : string -> state -> state * option err := load package all f.
Definition names : list string := map fst package.
(** the empty interpreter, the one after [import openap], and those with further modules *)
Definition further : list (list (list string)) :=
  [[["contrail"]]; [["mass"]]; [["casadi"]]; [["jax"]]; [["addon"]; ["addon.bada3"]; ["addon.bada4"]; ["addon.bada3"; "addon.bada4"]]].
Definition reach : list state :=
  [] :: fold_left (fun r ls => (r ++ flat_map (fun l => map (fun s => fold_left (fun s m => fst (ld 40 m s)) l s) r) ls)%list) further [fst (ld 40 "." [])].
Definition obj_eqb (a b : obj) : bool :=
  match a, b with
  | Mod m, Mod m' => String.eqb m m'
  | Obj m n, Obj m' n' => String.eqb m m' && String.eqb n n'
  | Ext (Some l) n, Ext (Some l') n' => lib_eqb l l' && String.eqb n n'
  | Ext None n, Ext None n' => String.eqb n n'
  | _, _ => false
  end.
Fixpoint map_eqb {A : Type} (e : A -> A -> bool) (a b : list (string * A)) : bool :=
  match a, b with
  | [], [] => true
  | (k, v) :: a', (k', v') :: b' => String.eqb k k' && e v v' && map_eqb e a' b'
  | _, _ => false
  end.
Definition state_eqb (a b : state) : bool :=
  if Nat.eqb (List.length a) (List.length b) then if map_eqb (fun _ _ => true) a b then map_eqb (map_eqb obj_eqb) a b else false else false.
Lemma obj_eqb_eq : forall a b, obj_eqb a b = true -> a = b.
Proof.
  intros [m|m n|[l|] n] [m'|m' n'|[l'|] n']; cbn; try discriminate; rewrite ?andb_true_iff, ?String.eqb_eq; intros; try (destruct H); subst; auto.
  destruct l, l'; try discriminate; auto.
Qed.
Lemma map_eqb_eq : forall A (e : A -> A -> bool), (forall a b, e a b = true -> a = b) -> forall a b, map_eqb e a b = true -> a = b.
Proof.
  intros A e H a. induction a as [|[k v] a IH]; intros [|[k' v'] b]; cbn; try discriminate; auto.
  rewrite !andb_true_iff, String.eqb_eq. intros [[-> E] M]. rewrite (H _ _ E), (IH _ M). auto.
Qed.
Lemma state_eqb_eq : forall a b, state_eqb a b = true -> a = b.
Proof. intros a b. unfold state_eqb. destruct (Nat.eqb _ _); [|discriminate]. destruct (map_eqb _ _ _); [|discriminate]. apply map_eqb_eq. apply map_eqb_eq. apply obj_eqb_eq. Qed.
(** modules stay *)
Definition grows (s s' : state) : bool := forallb (fun x => match get s' (fst x) with Some _ => true | None => false end) s.
Definition step_ok (r : list state) (m : string) (s : state) (x : state * option err) : bool :=
  match x with (s', None) => existsb (state_eqb s') r && match get s' m with Some _ => true | None => false end && grows s s' | _ => false end.
(** the same as [load] in the empty interpreter, with the import of the package done before *)
Definition shortcut (b1 b2 : state) (f : nat) (m : string) : state * option err :=
  match parent m with
  | None => load package all (S (S (S f))) m []
  | Some (p, _) => if String.eqb p "." then load package all (S (S (S f))) m b1 else load package all (S (S (S f))) m (fst (load package all (S (S f)) p b2))
  end.
Definition short_ok (b1 b2 : state) (f : nat) : bool :=
  match load package all (S (S f)) "." [], load package all (S f) "." [] with
  | (s1, None), (s2, None) => state_eqb s1 b1 && state_eqb s2 b2 && match get b1 ".", get b2 "." with Some _, Some _ => true | _, _ => false end
  | _, _ => false
  end
  && forallb (fun m => match parent m with Some (p, _) => if String.eqb p "." then true else
       match parent p, load package all (S (S f)) p b2 with Some (q, _), (b3, None) => String.eqb q "." && match get b3 p with Some _ => true | None => false end | _, _ => false end | None => true end) names.
Definition closed (f : nat) (b1 b2 : state) (r : list state) : bool :=
  short_ok b1 b2 f
  && forallb (fun s => match s with
       | [] => forallb (fun m => step_ok r m [] (shortcut b1 b2 f m)) names
       | _ => forallb (fun m => match get s m with Some _ => true | None => step_ok r m s (ld (S (S (S f))) m s) end) names
       end) r.
Lemma get_in : forall A (l : list (string * A)) n v, get l n = Some v -> In (n, v) l.
Proof. induction l as [|[k w] l IH]; cbn; [discriminate|]. intros n v. destruct (String.eqb_spec k n); [intros [= ->]; subst; auto|auto]. Qed.
Lemma get_none : forall A (l : list (string * A)) n, get l n = None -> ~ In n (map fst l).
Proof. induction l as [|[k w] l IH]; cbn; auto. intros n. destruct (String.eqb_spec k n); [discriminate|]. intros G [E|I]; [auto|eapply IH; eauto]. Qed.
Lemma load_loaded : forall src av f m s d, get s m = Some d -> load src av (S f) m s = (s, None).
Proof. intros src av f m s d G. cbn [load]. rewrite G. auto. Qed.
Lemma ld_loaded : forall f m s d, get s m = Some d -> ld (S f) m s = (s, None).
Proof. intros f m s d G. exact (load_loaded package all f m s d G). Qed.
Lemma exists_mod : forall x, existsb (String.eqb x) names = true <-> is_module x.
Proof.
  intros x. split; [intros E; apply existsb_exists in E as [y [I E]]; apply String.eqb_eq in E; subst; auto|].
  intros M. apply existsb_exists. exists x. split; auto. apply String.eqb_refl.
Qed.
Lemma via_parent : forall f m p c s b d, get s m = None -> parent m = Some (p, c) -> load package all (S f) p s = (b, None) -> get b p = Some d ->
  load package all (S (S f)) m s = load package all (S (S f)) m b.
Proof.
  intros f m p c s b d G P L D. remember (S f) as f1 eqn:F1. cbn [load]. rewrite G, P, L. destruct (get b m) eqn:B; auto.
  subst f1. rewrite (load_loaded package all f p b d D), B. auto.
Qed.
Lemma shortcut_ok : forall b1 b2 f m, short_ok b1 b2 f = true -> is_module m -> shortcut b1 b2 f m = load package all (S (S (S f))) m [].
Proof.
  intros b1 b2 f m S M. unfold short_ok in S. apply andb_prop in S as [S1 S2].
  destruct (load package all (Datatypes.S (Datatypes.S f)) "." []) as [s1 [e|]] eqn:L1; [discriminate|]. destruct (load package all (Datatypes.S f) "." []) as [s2 [e|]] eqn:L2; [discriminate|].
  apply andb_prop in S1 as [S1 S3]. apply andb_prop in S1 as [E1 E2]. apply state_eqb_eq in E1. apply state_eqb_eq in E2. subst b1 b2.
  destruct (get s1 ".") as [d1|] eqn:G1; [|discriminate]. destruct (get s2 ".") as [d2|] eqn:G2; [|discriminate].
  rewrite forallb_forall in S2. specialize (S2 m M). cbv beta in S2. unfold shortcut. destruct (parent m) as [[p c]|] eqn:P; auto.
  destruct (String.eqb_spec p ".").
  - subst p. symmetry. eapply via_parent; eauto.
  - destruct (parent p) as [[q c']|] eqn:P'; [|discriminate]. destruct (load package all (Datatypes.S (Datatypes.S f)) p s2) as [b3 [e|]] eqn:L3; [discriminate|].
    apply andb_prop in S2 as [Q D3]. apply String.eqb_eq in Q. subst q. destruct (get b3 p) as [d3|] eqn:G3; [|discriminate]. cbn [fst].
    symmetry. eapply via_parent; eauto. rewrite <- L3. eapply via_parent; eauto.
Qed.
Section Reach.
Variable f0 : nat.
Local Notation f := (S (S (S f0))).
Variables b1 b2 : state.
Variable r : list state.
Hypothesis C : closed f0 b1 b2 r = true.
Lemma reach_ld : forall s m, In s r -> is_module m ->
  exists s' d, ld f m s = (s', None) /\ In s' r /\ get s' m = Some d /\ forall k v, get s k = Some v -> exists v', get s' k = Some v'.
Proof.
  intros s m I M. destruct (get s m) as [d|] eqn:G. { exists s, d. rewrite (ld_loaded _ _ _ _ G). split; [|split; [|split]]; auto. intros k v H. eauto. }
  pose proof C as E. unfold closed in E. apply andb_prop in E as [E0 E]. rewrite forallb_forall in E. specialize (E s I).
  assert (X : step_ok r m s (ld f m s) = true).
  { destruct s as [|x s].
    - rewrite forallb_forall in E. specialize (E m M). cbv beta in E. rewrite (shortcut_ok _ _ _ _ E0 M) in E. exact E.
    - rewrite forallb_forall in E. specialize (E m M). cbv beta in E. rewrite G in E. exact E. }
  clear E E0. unfold step_ok in X. destruct (ld f m s) as [s' [e|]]; [discriminate|]. apply andb_prop in X as [E G1]. apply andb_prop in E as [C1 C2]. destruct (get s' m) as [d|] eqn:G'; [|discriminate].
  apply existsb_exists in C1 as [x [I' E]]. apply state_eqb_eq in E. subst x. exists s', d. split; [|split; [|split]]; auto.
  intros k v H. apply get_in in H. unfold grows in G1. rewrite forallb_forall in G1. specialize (G1 _ H). cbn [fst] in G1. destruct (get s' k); eauto. discriminate.
Qed.
Lemma root_module : is_module ".".
Proof. apply exists_mod. vm_compute. reflexivity. Qed.
Lemma get_module : forall m v, get package m = Some v -> is_module m.
Proof. intros m v G. apply get_in in G. apply (in_map fst) in G. auto. Qed.
(** [from m import n] in a reachable state: the state after it and what it finds there *)
Lemma do_from : forall s m n, In s r -> is_module m ->
  exists s' d, In s' r /\ get s' m = Some d /\ do package all f (CFrom m n) s = (s', import_name s' m n) /\ do package all f (CFrom m n) s' = (s', import_name s' m n).
Proof.
  intros s m n I M. destruct (reach_ld s m I M) as [s1 [d [L [I1 [G1 H1]]]]]. unfold do, import_from. change (load package all f) with (ld f). rewrite L.
  destruct (get package m) as [[[] b]|] eqn:G; try (exists s1, d; rewrite (ld_loaded _ _ _ _ G1); auto; fail).
  cbn [submodules]. rewrite G1. destruct (get d n) eqn:E; [exists s1, d; rewrite (ld_loaded _ _ _ _ G1), G1, E; auto|].
  destruct (get package (sub m n)) eqn:P; [|exists s1, d; rewrite (ld_loaded _ _ _ _ G1), G1, E; auto].
  destruct (reach_ld s1 _ I1 (get_module _ _ P)) as [s2 [d2 [L2 [I2 [G2 H2]]]]]. rewrite L2.
  destruct (reach_ld s2 "." I2 root_module) as [s3 [d3 [L3 [I3 [G3 H3]]]]]. rewrite L3. exists s3.
  destruct (H2 m d G1) as [d1 D1]. destruct (H3 m d1 D1) as [d' G']. destruct (H3 _ _ G2) as [d2' G2']. exists d'. rewrite (ld_loaded _ _ _ _ G'), G'. destruct (get d' n); auto.
  rewrite (ld_loaded _ _ _ _ G2'), (ld_loaded _ _ _ _ G3). auto.
Qed.
Lemma do_import : forall s m, In s r -> is_module m -> exists s' d, In s' r /\ do package all f (CImport m) s = (s', inr (Mod ".")) /\ get s' m = Some d.
Proof.
  intros s m I M. destruct (reach_ld s m I M) as [s1 [d [L [I1 [G1 H1]]]]]. unfold do. change (load package all f) with (ld f). rewrite L.
  destruct (reach_ld s1 "." I1 root_module) as [s2 [d2 [L2 [I2 [G2 H2]]]]]. rewrite L2. destruct (H2 m d G1) as [d' G']. exists s2, d'. auto.
Qed.
Lemma do_as : forall s m, In s r -> is_module m ->
  exists s' d, In s' r /\ get s' m = Some d /\ do package all f (CImportAs m) s = (s', chain s' (Mod ".") (path m)).
Proof.
  intros s m I M. destruct (reach_ld s m I M) as [s1 [d [L [I1 [G1 H1]]]]]. unfold do. change (load package all f) with (ld f). rewrite L.
  destruct (reach_ld s1 "." I1 root_module) as [s2 [d2 [L2 [I2 [G2 H2]]]]]. rewrite L2. destruct (H2 m d G1) as [d' G']. exists s2, d'. auto.
Qed.
Lemma reach_do : forall c s, In s r -> about c -> In (fst (do package all f c s)) r.
Proof.
  intros [m|m|m n] s I A; cbn [about] in A.
  - destruct (do_import s m I A) as [s' [d [I' [-> _]]]]. auto.
  - destruct (do_as s m I A) as [s' [d [I' [_ ->]]]]. auto.
  - destruct (do_from s m n I A) as [s' [d [I' [_ [-> _]]]]]. auto.
Qed.
Hypothesis N : In [] r.
Lemma reach_session : forall h, List.Forall about h -> In (session package all f h) r.
Proof.
  intros h. unfold session. generalize N. generalize (@nil (string * ns)) as s. induction h as [|c h IH]; intros s I F; cbn [fold_left]; auto.
  inversion F; subst. apply IH; auto. apply reach_do; auto.
Qed.
Lemma loaded_after : forall h m, List.Forall about h -> is_module m -> exists d, get (session package all f (h ++ [CImport m])%list) m = Some d.
Proof.
  intros h m F M. pose proof (reach_session h F) as I. unfold session in *. rewrite fold_left_app. cbn [fold_left].
  destruct (do_import _ m I M) as [s' [d [_ [E G]]]]. rewrite E. cbn [fst]. eauto.
Qed.
End Reach.

(** ** what a name means, computed *)
Fixpoint pick (ks : list (string * string)) (n : string) : option string := match ks with [] => None | (k, a) :: t => if String.eqb a n then Some k else pick t n end.
Definition gives_f (x : stmt) (n : string) : option origin :=
  match x with
  | SBind k _ => if String.eqb k n then Some Defined else None
  | SLib l ks => if existsb (String.eqb n) ks then Some (Library l) else None
  | SFrom t ks => match pick ks n with Some k => Some (From t k) | None => None end
  end.
Fixpoint last_f (b : list stmt) (n : string) : option origin :=
  match b with [] => None | x :: r => match last_f r n with Some o => Some o | None => gives_f x n end end.
Fixpoint mean (f : nat) (m n : string) : option obj :=
  match f with
  | 0 => None
  | S f' =>
      match get package m with
      | None => None
      | Some (_, b) =>
          match last_f b n with
          | Some Defined => Some (Obj m n)
          | Some (Library l) => Some (Ext l n)
          | Some (From t k) =>
              if String.eqb t m && String.eqb k n then (if existsb (String.eqb (sub m n)) names then Some (Mod (sub m n)) else None) else mean f' t k
          | None => if existsb (String.eqb (sub m n)) names then Some (Mod (sub m n)) else None
          end
      end
  end.
Lemma pick_in : forall ks n k, pick ks n = Some k -> In (k, n) ks.
Proof. induction ks as [|[k' a] t IH]; cbn; [discriminate|]. intros n k. destruct (String.eqb_spec a n); [intros [= ->]; subst; auto|auto]. Qed.
Lemma pick_none : forall ks n, pick ks n = None -> forall k, ~ In (k, n) ks.
Proof. induction ks as [|[k' a] t IH]; cbn; auto. intros n. destruct (String.eqb_spec a n); [discriminate|]. intros P k [[= -> ->]|I]; [auto|eapply IH; eauto]. Qed.
Lemma gives_sound : forall x n o, gives_f x n = Some o -> gives x n o.
Proof.
  intros [l ks|t ks|k us] n o; cbn.
  - destruct (existsb _ ks) eqn:E; [|discriminate]. intros [= <-]. apply existsb_exists in E as [y [I E]]. apply String.eqb_eq in E. subst. auto.
  - destruct (pick ks n) as [k|] eqn:E; [|discriminate]. intros [= <-]. exists k. split; auto. apply pick_in; auto.
  - destruct (String.eqb_spec k n); [|discriminate]. intros [= <-]. auto.
Qed.
Lemma gives_none : forall x n, gives_f x n = None -> forall o, ~ gives x n o.
Proof.
  intros [l ks|t ks|k us] n; cbn.
  - destruct (existsb _ ks) eqn:E; [discriminate|]. intros _ o [I _]. assert (X : existsb (String.eqb n) ks = true) by (apply existsb_exists; exists n; split; auto; apply String.eqb_refl). rewrite X in E. discriminate.
  - destruct (pick ks n) as [k|] eqn:E; [discriminate|]. intros _ o [k [I _]]. eapply pick_none; eauto.
  - destruct (String.eqb_spec k n); [discriminate|]. intros _ o [E _]. auto.
Qed.
Lemma last_sound : forall b n o, last_f b n = Some o -> last_binding b n o.
Proof.
  induction b as [|x r IH]; intros n o; cbn [last_f]; [discriminate|]. destruct (last_f r n) as [o'|] eqn:E.
  - intros [= <-]. destruct (IH n o' E) as [pre [y [post [-> H]]]]. exists (x :: pre), y, post. auto.
  - intros G. exists [], x, r. split; auto. split; [apply gives_sound; auto|]. clear - E. induction r as [|y r IH]; intros z o' []; subst; cbn [last_f] in E; destruct (last_f r n) eqn:E2; try discriminate.
    + apply gives_none; auto.
    + apply IH; auto.
Qed.
Lemma last_none : forall b n, last_f b n = None -> forall x o, In x b -> ~ gives x n o.
Proof.
  induction b as [|x r IH]; intros n; cbn [last_f]; [intros _ ? ? []|]. destruct (last_f r n) as [o'|] eqn:E; [discriminate|]. intros G y o [<-|I]; [apply gives_none; auto|apply IH; auto].
Qed.
(** within one [from] import no name is bound twice *)
Definition single (x : stmt) : Prop := match x with SFrom _ ks => NoDup (map snd ks) | _ => True end.
Lemma nodup_snd : forall (ks : list (string * string)) n k k', NoDup (map snd ks) -> In (k, n) ks -> In (k', n) ks -> k = k'.
Proof.
  induction ks as [|[a b] ks IH]; intros n k k' S I I'; [destruct I|]. cbn [map snd] in S. apply NoDup_cons_iff in S as [S1 S2].
  destruct I as [E|I], I' as [E'|I'].
  - congruence.
  - exfalso. apply S1. apply (in_map snd) in I'. cbn in I'. congruence.
  - exfalso. apply S1. apply (in_map snd) in I. cbn in I. congruence.
  - eapply IH; eauto.
Qed.
Lemma gives_fun : forall x n o o', single x -> gives x n o -> gives x n o' -> o = o'.
Proof.
  intros [l ks|t ks|k us] n o o' S; cbn.
  - intros [_ ->] [_ ->]; auto.
  - intros [k [I ->]] [k' [I' ->]]. f_equal. eapply nodup_snd; eauto.
  - intros [_ ->] [_ ->]; auto.
Qed.
Lemma last_fun : forall b n o o', List.Forall single b -> last_binding b n o -> last_binding b n o' -> o = o'.
Proof.
  intros b n o o' F [p [x [q [-> [G N]]]]] [p' [x' [q' [E [G' N']]]]].
  revert p' E. induction p as [|a p IH]; intros [|a' p'] E; cbn in E; injection E as <- E.
  - subst q'. apply (gives_fun x n); auto. inversion F; auto.
  - exfalso. apply (N x' o'); auto. rewrite E. apply in_or_app. right. left. auto.
  - exfalso. apply (N' x o); auto. rewrite <- E. apply in_or_app. right. left. auto.
  - apply (IH ltac:(inversion F; auto) p' E).
Qed.
Fixpoint nodupb (l : list string) : bool := match l with [] => true | x :: t => negb (existsb (String.eqb x) t) && nodupb t end.
Lemma nodupb_ok : forall l, nodupb l = true -> NoDup l.
Proof.
  induction l as [|x t IH]; cbn; [constructor|]. intros E. apply andb_prop in E as [E1 E2]. constructor; auto. intros I. apply negb_true_iff in E1.
  assert (X : existsb (String.eqb x) t = true) by (apply existsb_exists; exists x; split; auto; apply String.eqb_refl). rewrite X in E1. discriminate.
Qed.
Lemma statements_single : forall m b, statements m b -> List.Forall single b.
Proof.
  intros m b [p I]. assert (A : forallb (fun x => forallb (fun y => match y with SFrom _ ks => nodupb (map snd ks) | _ => true end) (snd (snd x))) package = true) by (vm_compute; reflexivity).
  rewrite forallb_forall in A. specialize (A _ I). cbn [snd] in A. apply List.Forall_forall. intros x X. rewrite forallb_forall in A. specialize (A x X).
  destruct x; cbn; auto. apply nodupb_ok. auto.
Qed.
Lemma get_unique : forall A (l : list (string * A)) n v, NoDup (map fst l) -> In (n, v) l -> get l n = Some v.
Proof.
  induction l as [|[k w] l IH]; cbn; [intros ? ? ? []|]. intros n v N I. inversion N; subst. destruct (String.eqb_spec k n).
  - destruct I as [[= -> ->]|I]; auto. subst. apply (in_map fst) in I. contradiction.
  - destruct I as [[= -> ->]|I]; [congruence|auto].
Qed.
Lemma statements_get : forall m b, statements m b -> exists p, get package m = Some (p, b).
Proof. intros m b [p I]. exists p. apply get_unique; auto. apply nodupb_ok. vm_compute. reflexivity. Qed.
Lemma mean_sound : forall f m n o, mean f m n = Some o -> means m n o.
Proof.
  induction f as [|f IH]; intros m n o; cbn [mean]; [discriminate|]. destruct (get package m) as [[p b]|] eqn:G; [|discriminate]. apply get_in in G.
  assert (S : statements m b) by (exists p; auto). destruct (last_f b n) as [[|l|t k]|] eqn:L.
  - intros [= <-]. apply (M_defined m n b S). apply last_sound. auto.
  - intros [= <-]. apply (M_library m n b l S). apply last_sound. auto.
  - destruct (String.eqb_spec t m), (String.eqb_spec k n); cbn [andb].
    + subst. destruct (existsb _ names) eqn:E; [|discriminate]. intros [= <-]. apply (M_self m n b S); [apply last_sound; auto|apply exists_mod; auto].
    + intros E. apply (M_from m n b t k o S); auto; [apply last_sound; auto|congruence].
    + intros E. apply (M_from m n b t k o S); auto; [apply last_sound; auto|congruence].
    + intros E. apply (M_from m n b t k o S); auto; [apply last_sound; auto|congruence].
  - destruct (existsb _ names) eqn:E; [|discriminate]. intros [= <-]. apply (M_module m n b S); [|apply exists_mod; auto].
    intros o [pre [x [post [-> [X _]]]]]. apply (last_none _ _ L x o); auto. apply in_or_app. right. left. auto.
Qed.
Lemma last_complete : forall m b n o, statements m b -> last_binding b n o -> last_f b n = Some o.
Proof.
  intros m b n o S L. destruct (last_f b n) as [o'|] eqn:E.
  - f_equal. apply (last_fun b n); auto; [apply (statements_single m); auto|apply last_sound; auto].
  - exfalso. destruct L as [pre [x [post [-> [G _]]]]]. apply (last_none _ _ E x o); auto. apply in_or_app. right. left. auto.
Qed.
Lemma mean_complete : forall m n o, means m n o -> exists f, mean f m n = Some o.
Proof.
  intros m n o M. induction M as [m n b S L|m n b l S L|m n b t k o S L N M [f IH]|m n b S L I|m n b S L I]; destruct (statements_get m b S) as [p G].
  - exists 1. cbn [mean]. rewrite G, (last_complete m b n _ S L). auto.
  - exists 1. cbn [mean]. rewrite G, (last_complete m b n _ S L). auto.
  - exists (1 + f). cbn [mean Nat.add]. rewrite G, (last_complete m b n _ S L). destruct (String.eqb_spec t m), (String.eqb_spec k n); cbn [andb]; auto. congruence.
  - exists 1. cbn [mean]. rewrite G, (last_complete m b n _ S L), !String.eqb_refl. cbn [andb]. apply exists_mod in I. rewrite I. auto.
  - exists 1. cbn [mean]. rewrite G. destruct (last_f b n) as [o|] eqn:E; [exfalso; apply (L o), last_sound; auto|]. apply exists_mod in I. rewrite I. auto.
Qed.
Lemma mean_mono : forall f f' m n o, mean f m n = Some o -> f <= f' -> mean f' m n = Some o.
Proof.
  induction f as [|f IH]; intros [|f'] m n o E L; cbn [mean] in *; try discriminate; try lia. destruct (get package m) as [[p b]|]; auto. destruct (last_f b n) as [[|l|t k]|]; auto.
  destruct (_ && _)%bool; auto. apply IH; auto. lia.
Qed.
Lemma means_fun : forall m n o o', means m n o -> means m n o' -> o = o'.
Proof.
  intros m n o o' M M'. destruct (mean_complete _ _ _ M) as [f E], (mean_complete _ _ _ M') as [f' E'].
  pose proof (mean_mono f (f + f') m n o E ltac:(lia)). pose proof (mean_mono f' (f + f') m n o' E' ltac:(lia)). congruence.
Qed.

(** ** the names of a module *)
Fixpoint after (p x : string) : option string :=
  match p, x with
  | "", _ => Some x
  | String a p', String b x' => if Ascii.eqb a b then after p' x' else None
  | _, _ => None
  end.
Lemma after_app : forall p x, after p (p ++ x) = Some x.
Proof. induction p as [|a p IH]; intros x; cbn; auto. rewrite Ascii.eqb_refl. auto. Qed.
Definition stmt_names (x : stmt) : list string := match x with SBind k _ => [k] | SLib _ ks => ks | SFrom _ ks => map snd ks end.
Definition inside (m x : string) : list string := if String.eqb m "." then [x] else match after m x with Some (String c k) => if Ascii.eqb c "." then [k] else [] | _ => [] end.
Definition known (m : string) : list string :=
  (match get package m with Some (_, b) => flat_map stmt_names b | None => [] end ++ flat_map (fun x => inside m x) names)%list.
Lemma known_module : forall m n, is_module (sub m n) -> In n (known m).
Proof.
  intros m n M. unfold known. apply in_or_app. right. apply in_flat_map. exists (sub m n). split; auto. unfold inside, sub. destruct (String.eqb m "."); [left; auto|].
  rewrite after_app. cbn. left. auto.
Qed.
Lemma known_bound : forall m b n o, statements m b -> last_binding b n o -> In n (known m).
Proof.
  intros m b n o S [pre [x [post [E [G _]]]]]. destruct (statements_get m b S) as [p P]. unfold known. rewrite P. apply in_or_app. left. apply in_flat_map. exists x.
  split; [rewrite E; apply in_or_app; right; left; auto|]. destruct x as [l ks|t ks|k us]; cbn in *.
  - apply G.
  - destruct G as [k [I _]]. apply (in_map snd) in I. auto.
  - left. apply G.
Qed.
Lemma known_means : forall m n o, means m n o -> In n (known m).
Proof. intros m n o M. inversion M; subst; try (eapply known_bound; eauto; fail); apply known_module; auto. Qed.
(** names that only appear once a module is imported that [import openap] does not import *)
Fixpoint dotted (n : string) : bool := match n with "" => false | String c t => Ascii.eqb c "." || dotted t end.
Definition appears_late (m n : string) : bool :=
  (String.eqb m "." && existsb (String.eqb n) ["contrail"; "mass"; "casadi"; "jax"; "addon"]) || (String.eqb m "addon" && existsb (String.eqb n) ["bada3"; "bada4"]).
Definition check (s : state) (m : string) (d : ns) (t : list (string * option obj)) : bool :=
  forallb (fun x => match get d (fst x), snd x with
      | Some o, Some o' => obj_eqb o o'
      | None, Some o => (dotted (fst x) || appears_late m (fst x)) && match snd (do package all 40 (CFrom m (fst x)) s) with inr o' => obj_eqb o o' | _ => false end
      | _, _ => false end) t
  && forallb (fun x => existsb (fun y => String.eqb (fst y) (fst x)) t) d
  && match chain s (Mod ".") (path m) with inr (Mod m') => String.eqb m' (if String.eqb m "aero" then "extra.aero" else m) | _ => false end.
Definition table : list (string * list (string * option obj)) := map (fun m => (m, map (fun n => (n, mean 10 m n)) (known m))) names.
Definition checks (tbl : list (string * list (string * option obj))) (r : list state) : bool :=
  forallb (fun s => forallb (fun x => existsb (String.eqb (fst x)) names) s && forallb (fun y => match get s (fst y) with Some d => check s (fst y) d (snd y) | None => true end) tbl) r.
Definition sound (b1 b2 : state) (r : list state) : bool := closed 37 b1 b2 r && checks table r.
Lemma reach_ok : sound (fst (load package all 39 "." [])) (fst (load package all 38 "." [])) reach = true.
Proof. vm_cast_no_check (eq_refl true). Qed.
(** ** results *)
Lemma sound_facts : forall b1 b2 r, sound b1 b2 r = true -> closed 37 b1 b2 r = true /\ checks table r = true.
Proof. intros b1 b2 r. unfold sound. generalize (closed 37 b1 b2 r), (checks table r). intros a b E. apply andb_prop. exact E. Qed.
Lemma nil_reach : In [] reach.
Proof. unfold reach. left. reflexivity. Qed.
Lemma facts : exists b1 b2 r, closed 37 b1 b2 r = true /\ checks table r = true /\ In [] r.
Proof.
  exists (fst (load package all 39 "." [])), (fst (load package all 38 "." [])), reach.
  exact (conj (proj1 (sound_facts _ _ _ reach_ok)) (conj (proj2 (sound_facts _ _ _ reach_ok)) nil_reach)).
Qed.
Section View.
Variable r : list state.
Hypothesis K : checks table r = true.
Lemma keys : forall s m d, In s r -> get s m = Some d -> is_module m.
Proof.
  intros s m d I G. pose proof K as E. unfold checks in E. rewrite forallb_forall in E. specialize (E s I). apply andb_prop in E as [E _]. apply get_in in G. rewrite forallb_forall in E. specialize (E _ G).
  cbn [fst] in E. apply exists_mod. auto.
Qed.
Lemma checked : forall s m d, In s r -> get s m = Some d -> check s m d (map (fun n => (n, mean 10 m n)) (known m)) = true.
Proof.
  intros s m d I G. pose proof (keys s m d I G) as M. pose proof K as E. unfold checks in E. rewrite forallb_forall in E. specialize (E s I). apply andb_prop in E as [_ E]. rewrite forallb_forall in E.
  assert (T : In (m, map (fun n => (n, mean 10 m n)) (known m)) table) by (unfold table; apply (in_map (fun m => (m, map (fun n => (n, mean 10 m n)) (known m)))); exact M).
  specialize (E _ T). cbn [fst snd] in E. rewrite G in E. exact E.
Qed.
Lemma view : forall s m d n, In s r -> get s m = Some d -> In n (known m) ->
  exists o, mean 10 m n = Some o /\ (get d n = Some o \/ get d n = None /\ (dotted n || appears_late m n)%bool = true /\ snd (do package all 40 (CFrom m n) s) = inr o).
Proof.
  intros s m d n I G N. pose proof (checked s m d I G) as E. unfold check in E. apply andb_prop in E as [E _]. apply andb_prop in E as [E _]. rewrite forallb_forall in E.
  specialize (E _ (in_map (fun n => (n, mean 10 m n)) _ _ N)). cbn [fst snd] in E. destruct (get d n) as [o|], (mean 10 m n) as [o'|]; try discriminate.
  - apply obj_eqb_eq in E. subst. eauto.
  - apply andb_prop in E as [E1 E2]. exists o'. split; auto. right. split; auto. split; auto. destruct (snd (do package all 40 (CFrom m n) s)) as [e|o]; [discriminate|]. apply obj_eqb_eq in E2. subst. auto.
Qed.
Lemma own : forall s m d n o, In s r -> get s m = Some d -> get d n = Some o -> In n (known m).
Proof.
  intros s m d n o I G N. pose proof (checked s m d I G) as E. unfold check in E. apply andb_prop in E as [E _]. apply andb_prop in E as [_ E]. rewrite forallb_forall in E. apply get_in in N.
  specialize (E _ N). cbn [fst] in E. apply existsb_exists in E as [y [Y E]]. apply String.eqb_eq in E. apply in_map_iff in Y as [z [<- Z]]. cbn [fst] in E. subst. auto.
Qed.
Lemma chained : forall s m d, In s r -> get s m = Some d -> chain s (Mod ".") (path m) = inr (Mod (if String.eqb m "aero" then "extra.aero" else m)).
Proof.
  intros s m d I G. pose proof (checked s m d I G) as E. unfold check in E. apply andb_prop in E as [_ E]. destruct (chain s (Mod ".") (path m)) as [e|[m'|? ?|? ?]]; try discriminate. apply String.eqb_eq in E. subst. auto.
Qed.
End View.
Definition installed (avail : lib -> bool) : Prop := forall l, In l required -> avail l = true.
Lemma installed_all : forall avail h c, installed avail -> result avail h c = result all h c.
Proof. intros avail h c A. apply result_ext. intros l L. rewrite (A l L). auto. Qed.

(** [from m import n] finds what the files say, or fails with ImportError if they do not say anything *)
Theorem C127_names : forall avail h m n, installed avail -> List.Forall about h -> is_module m ->
  (forall o, result avail h (CFrom m n) = inr o <-> means m n o) /\ ((forall o, ~ means m n o) -> result avail h (CFrom m n) = inl ImportError).
Proof.
  intros avail h m n A F M. rewrite (installed_all _ _ _ A). clear avail A. destruct facts as [b1 [b2 [r [C [K N]]]]]. unfold result.
  pose proof (reach_session 37 b1 b2 r C N h F) as I. generalize dependent (session package all 40 h). intros s I.
  destruct (do_from 37 b1 b2 r C s m n I M) as [s' [d [I' [G [-> E]]]]]. cbn [snd].
  assert (X : (exists o, import_name s' m n = inr o /\ means m n o) \/ ((forall o, ~ means m n o) /\ import_name s' m n = inl ImportError)).
  { destruct (in_dec string_dec n (known m)) as [Y|Y].
    - left. destruct (view r K s' m d n I' G Y) as [o [Mo H]]. exists o. split; [|apply (mean_sound 10); auto]. destruct H as [H|[_ [_ H]]].
      + unfold import_name. rewrite G, H. auto.
      + change 40 with (S (S (S 37))) in H. rewrite E in H. exact H.
    - right. split; [intros o H; apply Y, (known_means _ _ _ H)|]. unfold import_name. rewrite G. destruct (get d n) as [o|] eqn:D; [exfalso; apply Y, (own r K s' m d n o); auto|].
      destruct (get s' (sub m n)) as [v|] eqn:V; auto. exfalso. apply Y, known_module. apply (keys r K s' _ v); auto. }
  destruct X as [[o [E1 E2]]|[E1 E2]]; rewrite ?E1, ?E2; split.
  - intros o'. split; [intros [= <-]; auto|]. intros H. f_equal. apply (means_fun m n); auto.
  - intros H. exfalso. apply (H o E2).
  - intros o. split; [discriminate|]. intros H. exfalso. apply (E1 o H).
  - auto.
Qed.
(** every module can be imported, whatever was imported before; [import m] binds the package *)
Theorem C127_import : forall avail h m, installed avail -> List.Forall about h -> is_module m -> result avail h (CImport m) = inr (Mod ".").
Proof.
  intros avail h m A F M. rewrite (installed_all _ _ _ A). clear avail A. destruct facts as [b1 [b2 [r [C [K N]]]]]. unfold result.
  pose proof (reach_session 37 b1 b2 r C N h F) as I. destruct (do_import 37 b1 b2 r C _ m I M) as [s' [d [_ [E _]]]]. rewrite E. auto.
Qed.
(** [import m as x] binds the module, except for [openap.aero] *)
Theorem C127_import_as : forall avail h m, installed avail -> List.Forall about h -> is_module m -> m <> "aero" -> result avail h (CImportAs m) = inr (Mod m).
Proof.
  intros avail h m A F M X. rewrite (installed_all _ _ _ A). clear avail A. destruct facts as [b1 [b2 [r [C [K N]]]]]. unfold result.
  pose proof (reach_session 37 b1 b2 r C N h F) as I. destruct (do_as 37 b1 b2 r C _ m I M) as [s' [d [I' [G E]]]]. rewrite E. cbn [snd]. rewrite (chained r K s' m d I' G).
  destruct (String.eqb_spec m "aero"); [contradiction|]. auto.
Qed.
(** the result of a command does not depend on what was imported before, nor on libraries that are not required *)
Theorem C127_order : forall avail avail' h h' c, installed avail -> installed avail' -> List.Forall about h -> List.Forall about h' -> about c -> result avail h c = result avail' h' c.
Proof.
  intros avail avail' h h' c A A' F F' C. destruct c as [m|m|m n]; cbn [about] in C.
  - rewrite !C127_import; auto.
  - rewrite (installed_all _ _ _ A), (installed_all _ _ _ A'). clear avail A avail' A'. destruct facts as [b1 [b2 [r [K1 [K2 N]]]]]. unfold result.
    pose proof (reach_session 37 b1 b2 r K1 N h F) as I. destruct (do_as 37 b1 b2 r K1 _ m I C) as [s [d [I1 [G1 E]]]]. rewrite E.
    pose proof (reach_session 37 b1 b2 r K1 N h' F') as I'. destruct (do_as 37 b1 b2 r K1 _ m I' C) as [s' [d' [I1' [G1' E']]]]. rewrite E'. cbn [snd].
    rewrite (chained r K2 s m d I1 G1), (chained r K2 s' m d' I1' G1'). auto.
  - destruct (C127_names avail h m n A F C) as [H1 H2], (C127_names avail' h' m n A' F' C) as [H1' H2'].
    destruct (result avail h (CFrom m n)) as [e|o] eqn:E.
    + assert (X : forall o, ~ means m n o) by (intros o M; apply H1 in M; discriminate). rewrite (H2' X). apply (H2 X).
    + symmetry. apply H1', H1. auto.
Qed.
(** the names of a module that is imported are those of the files; only modules that [import openap] leaves out may be missing *)
Theorem C127_attributes : forall avail h m d n o, installed avail -> List.Forall about h -> get (session package avail 40 h) m = Some d ->
  dotted n = false -> appears_late m n = false -> (get d n = Some o <-> means m n o).
Proof.
  intros avail h m d n o A F G D L. rewrite (session_ext avail all) in G by (intros l H; rewrite (A l H); auto). destruct facts as [b1 [b2 [r [K1 [K2 N]]]]].
  pose proof (reach_session 37 b1 b2 r K1 N h F) as I. change (session package all 40 h) with (session package all (S (S (S 37))) h) in G. revert I G. generalize (session package all (S (S (S 37))) h). intros s I G.
  split; intros H.
  - pose proof (own r K2 s m d n o I G H) as Y. destruct (view r K2 s m d n I G Y) as [o' [M [E|[_ [E _]]]]].
    + rewrite E in H. injection H as <-. apply (mean_sound 10). auto.
    + rewrite D, L in E. discriminate.
  - pose proof (known_means m n o H) as Y. destruct (view r K2 s m d n I G Y) as [o' [M [E|[_ [E _]]]]].
    + apply mean_sound in M. rewrite (means_fun m n o o' H M). auto.
    + rewrite D, L in E. discriminate.
Qed.
(** a module is there after its import *)
Theorem C127_loaded : forall avail h m, installed avail -> List.Forall about h -> is_module m ->
  exists d, get (session package avail 40 (h ++ [CImport m])%list) m = Some d.
Proof.
  intros avail h m A F M. rewrite (session_ext avail all) by (intros l H; rewrite (A l H); auto). destruct facts as [b1 [b2 [r [K1 [K2 N]]]]].
  exact (loaded_after 37 b1 b2 r K1 N h m F M).
Qed.

(** ** the lists of exported names *)
Theorem C127_star : forall avail h m l n, installed avail -> List.Forall about h -> In (m, l) exported -> In n l -> exists o, result avail h (CFrom m n) = inr o.
Proof.
  intros avail h m l n A F E N.
  assert (X : forallb (fun x => existsb (String.eqb (fst x)) names && forallb (fun n => match mean 10 (fst x) n with Some _ => true | None => false end) (snd x)) exported = true) by (vm_compute; reflexivity).
  rewrite forallb_forall in X. specialize (X _ E). cbn [fst snd] in X. apply andb_prop in X as [X1 X2]. rewrite forallb_forall in X2. specialize (X2 _ N). cbv beta in X2.
  destruct (mean 10 m n) as [o|] eqn:O; [|discriminate]. exists o. apply (C127_names avail h m n A F); [apply exists_mod; auto|]. apply (mean_sound 10). auto.
Qed.
(** the constants and functions of [openap.extra.aero] are those of openap/aero.py and openap/geo.py *)
Theorem C127_reexport : forall l n, In ("extra.aero", l) exported -> In n l -> exists t, In t ["aero"; "geo"] /\ means "extra.aero" n (Obj t n) /\ means "aero" n (Obj t n).
Proof.
  intros l n E N.
  assert (X : forallb (fun x => if String.eqb (fst x) "extra.aero" then forallb (fun n => existsb (fun t => match mean 10 "extra.aero" n, mean 10 "aero" n with Some o, Some o' => obj_eqb o (Obj t n) && obj_eqb o' (Obj t n) | _, _ => false end) ["aero"; "geo"]) (snd x) else true) exported = true) by (vm_compute; reflexivity).
  rewrite forallb_forall in X. specialize (X _ E). cbn [fst snd] in X. rewrite String.eqb_refl in X. rewrite forallb_forall in X. specialize (X _ N). apply existsb_exists in X as [t [T X]].
  destruct (mean 10 "extra.aero" n) as [o|] eqn:O, (mean 10 "aero" n) as [o'|] eqn:O'; try discriminate. apply andb_prop in X as [X1 X2]. apply obj_eqb_eq in X1. apply obj_eqb_eq in X2. subst.
  exists t. split; auto. split; apply (mean_sound 10); auto.
Qed.
(** the classes of [openap.casadi] and [openap.jax] are classes of their own, not those of [openap] *)
Theorem C127_own_classes : forall b n, In b ["casadi"; "jax"] -> In n ["Drag"; "Thrust"; "FuelFlow"; "Emission"] -> means b n (Obj b n) /\ forall o, means "." n o -> o <> Obj b n.
Proof.
  intros b n B N. destruct B as [<-|[<-|[]]], N as [<-|[<-|[<-|[<-|[]]]]]; (split; [apply (mean_sound 10); vm_compute; reflexivity|]; intros o M;
    match type of M with means ?m ?k ?o => let v := eval vm_compute in (mean 10 m k) in match v with Some ?w => rewrite (means_fun m k o w M ltac:(apply (mean_sound 10); vm_compute; reflexivity)) end end; discriminate).
Qed.

(** ** libraries that are missing *)
Definition mk (a b c d e : bool) : lib -> bool := fun l => match l with Numpy => a | Scipy => b | Pandas => c | Yaml => d | Matplotlib => e | _ => true end.
Lemma parent_error : forall av f m p c s s' e, get s m = None -> parent m = Some (p, c) -> load package av (S f) p s = (s', Some e) -> load package av (S (S f)) m s = (s', Some e).
Proof. intros av f m p c s s' e G P L. remember (S f) as f1. cbn [load]. rewrite G, P, L. auto. Qed.
Definition fails (k : nat) (av : lib -> bool) : bool :=
  forallb (fun f => match load package av f "." [] with (_, Some ModuleNotFoundError) => true | _ => false end) [S (S (S k)); S (S k); S k].
Definition all_fail (k : nat) : bool :=
  forallb (fun x => forallb (fun y => forallb (fun z => forallb (fun u => forallb (fun v => (x && y && z && u && v) || fails k (mk x y z u v)) [true; false]) [true; false]) [true; false]) [true; false]) [true; false].
Lemma all_fail_ok : all_fail 37 = true.
Proof. vm_cast_no_check (eq_refl true). Qed.
Lemma fails_load : forall k av m, fails k av = true -> is_module m -> exists s, load package av (S (S (S k))) m [] = (s, Some ModuleNotFoundError).
Proof.
  intros k av m E M. unfold fails in E. rewrite forallb_forall in E.
  assert (R : forall f, In f [S (S (S k)); S (S k); S k] -> exists s, load package av f "." [] = (s, Some ModuleNotFoundError)).
  { intros f I. specialize (E f I). destruct (load package av f "." []) as [s [[]|]]; try discriminate. eauto. }
  assert (D : forallb (fun m => match parent m with None => String.eqb m "." | Some (p, _) => match parent p with None => String.eqb p "." | Some (q, _) => String.eqb q "." end end) names = true) by (vm_compute; reflexivity).
  rewrite forallb_forall in D. specialize (D m M). cbv beta in D. destruct (parent m) as [[p c]|] eqn:P.
  - destruct (parent p) as [[q c']|] eqn:P'.
    + apply String.eqb_eq in D. subst q. destruct (R (S k)) as [s L]; [right; right; left; auto|]. exists s. apply (parent_error av (S k) m p c); auto. apply (parent_error av k p "." c'); auto.
    + apply String.eqb_eq in D. subst p. destruct (R (S (S k))) as [s L]; [right; left; auto|]. exists s. apply (parent_error av (S k) m "." c); auto.
  - apply String.eqb_eq in D. subst m. apply R. left. auto.
Qed.
Lemma one_missing : forall k a b c d e, all_fail k = true -> (a && b && c && d && e)%bool = false -> fails k (mk a b c d e) = true.
Proof.
  intros k a b c d e F X. assert (B : forall b : bool, In b [true; false]) by (intros []; cbn; auto). unfold all_fail in F.
  rewrite forallb_forall in F. specialize (F a (B _)). rewrite forallb_forall in F. specialize (F b (B _)). rewrite forallb_forall in F. specialize (F c (B _)). rewrite forallb_forall in F.
  specialize (F d (B _)). rewrite forallb_forall in F. specialize (F e (B _)). rewrite X in F. exact F.
Qed.
Lemma fails_do : forall k av c, fails k av = true -> about c -> snd (do package av (S (S (S k))) c []) = inl ModuleNotFoundError.
Proof. intros k av c X C. destruct c as [m|m|m n]; cbn [about] in C; destruct (fails_load k av m X C) as [s L]; unfold do, import_from; rewrite L; reflexivity. Qed.
(** without one of the required libraries the first import fails, with the error that says so *)
Theorem C127_missing : forall avail l c, In l required -> avail l = false -> about c -> result avail [] c = inl ModuleNotFoundError.
Proof.
  intros avail l c I A C. set (av := mk (avail Numpy) (avail Scipy) (avail Pandas) (avail Yaml) (avail Matplotlib)).
  rewrite (result_ext avail av) by (intros k K; destruct K as [<-|[<-|[<-|[<-|[<-|[]]]]]]; reflexivity).
  apply (fails_do 37 av c); auto. apply one_missing; [exact all_fail_ok|]. destruct I as [<-|[<-|[<-|[<-|[<-|[]]]]]]; rewrite A, ?andb_false_r; reflexivity.
Qed.

(** ... and [import openap] fails again and again: what a failed import leaves behind does not make it succeed *)
Definition again (k : nat) (av : lib -> bool) : bool :=
  match load package av k "." [] with
  | (s1, Some ModuleNotFoundError) =>
      match load package av k "." s1 with
      | (s2, Some ModuleNotFoundError) => match load package av k "." s2 with (s3, Some ModuleNotFoundError) => state_eqb s2 s3 | _ => false end
      | _ => false
      end
  | _ => false
  end.
Definition all_again (k : nat) : bool :=
  forallb (fun x => forallb (fun y => forallb (fun z => forallb (fun u => forallb (fun v => (x && y && z && u && v) || again k (mk x y z u v)) [true; false]) [true; false]) [true; false]) [true; false]) [true; false].
Lemma all_again_ok : all_again 40 = true.
Proof. vm_cast_no_check (eq_refl true). Qed.
Lemma again_missing : forall k a b c d e, all_again k = true -> (a && b && c && d && e)%bool = false -> again k (mk a b c d e) = true.
Proof.
  intros k a b c d e F X. assert (B : forall b : bool, In b [true; false]) by (intros []; cbn; auto). unfold all_again in F.
  rewrite forallb_forall in F. specialize (F a (B _)). rewrite forallb_forall in F. specialize (F b (B _)). rewrite forallb_forall in F. specialize (F c (B _)). rewrite forallb_forall in F.
  specialize (F d (B _)). rewrite forallb_forall in F. specialize (F e (B _)). rewrite X in F. exact F.
Qed.
Lemma again_do : forall k av n, again k av = true -> snd (do package av k (CImport ".") (session package av k (repeat (CImport ".") n))) = inl ModuleNotFoundError.
Proof.
  intros k av n A. unfold again in A.
  destruct (load package av k "." []) as [s1 [[]|]] eqn:E1; try discriminate. destruct (load package av k "." s1) as [s2 [[]|]] eqn:E2; try discriminate. destruct (load package av k "." s2) as [s3 [[]|]] eqn:E3; try discriminate.
  apply state_eqb_eq in A. subst s3.
  assert (D : forall s s', load package av k "." s = (s', Some ModuleNotFoundError) -> do package av k (CImport ".") s = (s', inl ModuleNotFoundError)) by (intros s s' L; unfold do; rewrite L; reflexivity).
  apply D in E1. apply D in E2. apply D in E3. clear D.
  assert (X : forall n s, s = [] \/ s = s1 \/ s = s2 -> let t := fold_left (fun s c => fst (do package av k c s)) (repeat (CImport ".") n) s in t = [] \/ t = s1 \/ t = s2).
  { clear n. induction n as [|n IH]; intros s S; cbn [repeat fold_left]; auto. apply IH. destruct S as [->|[->| ->]]; [rewrite E1|rewrite E2|rewrite E3]; cbn [fst]; auto. }
  specialize (X n [] (or_introl eq_refl)). cbv zeta in X. unfold session. destruct X as [->|[->| ->]]; [rewrite E1|rewrite E2|rewrite E3]; reflexivity.
Qed.
Theorem C127_missing_again : forall avail l n, In l required -> avail l = false -> result avail (repeat (CImport ".") n) (CImport ".") = inl ModuleNotFoundError.
Proof.
  intros avail l n I A. set (av := mk (avail Numpy) (avail Scipy) (avail Pandas) (avail Yaml) (avail Matplotlib)).
  rewrite (result_ext avail av) by (intros k K; destruct K as [<-|[<-|[<-|[<-|[<-|[]]]]]]; reflexivity).
  apply (again_do 40 av n). apply again_missing; [exact all_again_ok|]. destruct I as [<-|[<-|[<-|[<-|[<-|[]]]]]]; rewrite A, ?andb_false_r; reflexivity.
Qed.

(** ** what a user might expect and does not get *)
(** [openap.aero] is not openap/aero.py: the attribute, [from openap import aero] and [import openap.aero as x] give openap/extra/aero.py, which has no [Aero] *)
Theorem C127_aero_refuted : is_module "aero" /\ result all [] (CImportAs "aero") = inr (Mod "extra.aero") /\ result all [] (CFrom "." "aero") = inr (Mod "extra.aero") /\
  result all [] (CFrom "aero" "Aero") = inr (Obj "aero" "Aero") /\ result all [] (CFrom "extra.aero" "Aero") = inl ImportError.
Proof. split; [apply exists_mod; vm_compute; reflexivity|]. vm_compute. auto. Qed.
(** [import openap] alone gives none of [openap.contrail], [openap.mass], [openap.casadi], [openap.jax], [openap.addon], and [import openap.addon] neither of its modules; each appears once something imports it *)
Definition late : list (string * string) := [(".", "contrail"); (".", "mass"); (".", "casadi"); (".", "jax"); (".", "addon"); ("addon", "bada3"); ("addon", "bada4")].
Theorem C127_late_refuted : forall m n, In (m, n) late -> exists d d', get (session package all 40 [CImport m]) m = Some d /\ get (session package all 40 [CImport m; CImport (sub m n)]) m = Some d' /\
  get d n = None /\ get d' n = Some (Mod (sub m n)) /\ means m n (Mod (sub m n)).
Proof.
  assert (X : forallb (fun x => let '(m, n) := x in match get (session package all 40 [CImport m]) m, get (session package all 40 [CImport m; CImport (sub m n)]) m with
    Some d, Some d' => match get d n, get d' n, mean 10 m n with None, Some o, Some o' => obj_eqb o (Mod (sub m n)) && obj_eqb o' (Mod (sub m n)) | _, _, _ => false end | _, _ => false end) late = true) by (vm_cast_no_check (eq_refl true)).
  intros m n I. rewrite forallb_forall in X. specialize (X (m, n) I). cbv beta iota in X. generalize 40 X. clear X. intros k X. revert X.
  destruct (get (session package all k [CImport m]) m) as [d|]; [|discriminate]. destruct (get (session package all k [CImport m; CImport (sub m n)]) m) as [d'|]; [|discriminate].
  destruct (get d n) as [o|] eqn:E; [discriminate|]. destruct (get d' n) as [o|] eqn:E'; [|discriminate]. destruct (mean 10 m n) as [o'|] eqn:M; [|discriminate]. intros X.
  apply andb_prop in X as [X1 X2]. apply obj_eqb_eq in X1. apply obj_eqb_eq in X2. subst o o'.
  exists d, d'. split; auto. split; auto. split; auto. split; auto. apply (mean_sound 10). exact M.
Qed.
(** without matplotlib the same statement fails at first and succeeds when it is tried again *)
Definition no_plots : lib -> bool := mk true true true true false.
Theorem C127_retry_refuted : result no_plots [] (CFrom "aero" "Aero") = inl ModuleNotFoundError /\ result no_plots [CFrom "aero" "Aero"] (CFrom "aero" "Aero") = inr (Obj "aero" "Aero").
Proof. vm_compute. auto. Qed.

Example C127_ex : installed (fun l => match l with Casadi | Jax | Xarray => false | _ => true end) /\ about (CFrom "drag" "Drag") /\ List.Forall about [CImport "geo"; CFrom "casadi" "Drag"; CImportAs "mass"] /\
  means "drag" "Drag" (Obj "drag" "Drag") /\ means "." "Drag" (Obj "drag" "Drag") /\ means "extra.aero" "distance" (Obj "geo" "distance") /\ means "." "nav" (Mod "extra.nav") /\ means "drag" "yaml" (Ext (Some Yaml) "yaml") /\
  (forall o, ~ means "drag" "Thrust" o) /\ In ("jax", ["Drag"; "Emission"; "FuelFlow"; "Thrust"; "aero"]) exported.
Proof.
  assert (Q : forall m, existsb (String.eqb m) names = true -> is_module m) by (intros; apply exists_mod; auto).
  split. { intros l H. repeat (destruct H as [<-|H]; [reflexivity|]). destruct H. }
  split; [apply Q; vm_compute; reflexivity|]. split; [do 3 (apply List.Forall_cons; [apply Q; vm_compute; reflexivity|]); apply List.Forall_nil|].
  do 5 (split; [apply (mean_sound 10); vm_compute; reflexivity|]).
  split; [|vm_compute; auto 10]. intros o M. apply known_means in M. assert (X : existsb (String.eqb "Thrust") (known "drag") = true) by (apply existsb_exists; exists "Thrust"; split; auto). vm_compute in X. discriminate.
Qed.
