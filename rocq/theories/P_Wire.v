(** * Property C124: how the constructors of the three packages receive their arguments *)
From Coq Require Import String List Bool Arith ZArith Lia Permutation QArith.
From Verif Require Import Py Str PropPy DataAc DataPolar DataWrap DataEng Build PropFacts Wire P_Prop.
Import ListNotations.
Local Open Scope nat_scope.
Open Scope string_scope.

(** ** Specification *)
(** positional order of the documented parameters *)
Definition order (p : pkg) (c : cls) : list string :=
  match p, c with
  | Openap, CDrag => ["ac"; "wave_drag"; "backend"]
  | Openap, _ => ["ac"; "eng"; "backend"]
  | _, CDrag => ["ac"]
  | _, _ => ["ac"; "eng"]
  end.
(** the caller gave the value [v] for [n], by position or by keyword *)
Definition supplied (o : list string) (pos : list pyval) (k : kwd) (n : string) (v : pyval) : Prop :=
  (exists i, nth_error o i = Some n /\ nth_error pos i = Some v) \/ In (n, v) k.
(** values that count as false in Python *)
Definition falsy (v : pyval) : Prop :=
  v = VNone \/ v = VBool false \/ v = VInt 0 \/ v = VStr "" \/ exists n, v = VBk (BUser n false).
(** every place in an object that holds a backend *)
Definition drag_backends (o : wdrag) : list pyval := [wd_backend o; wd_aero o].
Definition thrust_backends (o : wthrust) : list pyval := [wt_backend o; wt_aero o].
Definition backends (o : obj) : list pyval :=
  match o with
  | ODrag o => drag_backends o
  | OThrust o => thrust_backends o
  | OEmission o => [we_backend o; we_aero o]
  | OFuelFlow o => ([wf_backend o; wf_aero o] ++ thrust_backends (wf_thrust o) ++ drag_backends (wf_drag o))%list
  end.
(** the keywords that a class knows *)
Definition known (c : cls) : list string :=
  match c with
  | CDrag => ["self"; "ac"; "wave_drag"; "backend"; "use_synonym"]
  | CThrust => ["self"; "ac"; "eng"; "backend"; "use_synonym"; "force_engine"]
  | CEmission => ["self"; "ac"; "eng"; "backend"; "use_synonym"]
  | CFuelFlow => ["self"; "ac"; "eng"; "backend"; "use_synonym"; "force_engine"; "wave_drag"]
  end.
(** two keyword dictionaries that agree on some names *)
Definition agree (N : list string) (k k' : kwd) : Prop :=
  NoDup (map fst k) /\ NoDup (map fst k') /\ forall n v, In n N -> (In (n, v) k <-> In (n, v) k').

(** ** Lemmas *)
Lemma truthy_falsy : forall v, truthy v = false <-> falsy v.
Proof.
  intros [|b|z|s|[| | |n t]]; unfold falsy; cbn; split; intros H; auto; try discriminate;
    try (repeat (destruct H as [H|H]; try discriminate H); destruct H as [m H]; discriminate H).
  - right. left. now subst.
  - repeat (destruct H as [H|H]; try discriminate H); [now inversion H|destruct H as [? H]; discriminate H].
  - right. right. left. apply negb_false_iff, Z.eqb_eq in H. now subst.
  - repeat (destruct H as [H|H]; try discriminate H); [now inversion H|destruct H as [? H]; discriminate H].
  - right. right. right. left. apply negb_false_iff, String.eqb_eq in H. now subst.
  - repeat (destruct H as [H|H]; try discriminate H); [now inversion H|destruct H as [? H]; discriminate H].
  - right. right. right. right. exists n. now subst.
  - repeat (destruct H as [H|H]; try discriminate H). destruct H as [? H]. now inversion H.
Qed.
Lemma mem_in : forall x l, mem x l = true <-> In x l.
Proof.
  intros x l. unfold mem. rewrite existsb_exists. split.
  - intros (y & H & E). apply String.eqb_eq in E. now subst.
  - intros H. exists x. split; auto. apply String.eqb_refl.
Qed.
Lemma mem_nin : forall x l, mem x l = false <-> ~ In x l.
Proof. intros x l. rewrite <- mem_in. destruct (mem x l); split; intros; try congruence; auto. Qed.
Lemma distinct_nodup : forall l, distinct l = true <-> NoDup l.
Proof.
  induction l as [|x l IH]; cbn; split; intros H; auto; try constructor.
  - apply andb_prop in H. destruct H as [H1 H2]. apply negb_true_iff, mem_nin in H1. auto.
  - apply andb_prop in H. destruct H as [H1 H2]. now apply IH.
  - inversion H; subst. apply andb_true_intro. split; [apply negb_true_iff, mem_nin; auto|now apply IH].
Qed.
Lemma kwget_in : forall n k v, kwget n k = Some v -> In (n, v) k.
Proof.
  induction k as [|[m w] k IH]; cbn; intros v H; [discriminate|]. destruct (String.eqb_spec m n).
  - left. congruence.
  - auto.
Qed.
Lemma kwget_none : forall n k, kwget n k = None <-> ~ In n (map fst k).
Proof.
  induction k as [|[m w] k IH]; cbn; split; intros H; auto.
  - destruct (String.eqb_spec m n); [discriminate|]. intros [E|E]; auto. now apply IH in E.
  - destruct (String.eqb_spec m n); [exfalso; auto|]. apply IH. auto.
Qed.
Lemma in_kwget : forall n k v, NoDup (map fst k) -> In (n, v) k -> kwget n k = Some v.
Proof.
  induction k as [|[m w] k IH]; cbn; intros v D H; [contradiction|]. inversion D; subst. destruct H as [H|H].
  - inversion H; subst. now rewrite String.eqb_refl.
  - destruct (String.eqb_spec m n); [|now apply IH]. subst. exfalso. apply H2. apply in_map_iff. now exists (n, v).
Qed.
Lemma kwget_filter : forall n f k, kwget n (filter (fun p : string * pyval => f (fst p)) k) = if f n then kwget n k else None.
Proof.
  intros n f. induction k as [|[m w] k IH]; [now destruct (f n)|]. cbn [filter fst].
  destruct (f m) eqn:E; cbn [kwget]; destruct (String.eqb_spec m n); subst; try rewrite E; auto.
  rewrite IH, E. reflexivity.
Qed.
Lemma nodup_filter_keys : forall f (k : kwd), NoDup (map fst k) -> NoDup (map fst (filter f k)).
Proof.
  intros f. induction k as [|p k IH]; cbn; auto. intros D. inversion D; subst. destruct (f p); cbn; auto. constructor; auto.
  intros H. apply H1. apply in_map_iff in H. destruct H as (q & E & H). apply filter_In in H. apply in_map_iff. exists q. tauto.
Qed.

(** agreement of lookups *)
Definition eqv (N : list string) (k k' : kwd) : Prop :=
  distinct (map fst k) = distinct (map fst k') /\ (distinct (map fst k) = true -> forall n, In n N -> kwget n k = kwget n k').
Lemma agree_eqv : forall N k k', agree N k k' -> eqv N k k'.
Proof.
  intros N k k' (D & D' & H). assert (E := D). assert (E' := D'). apply distinct_nodup in E, E'. split; [congruence|]. intros _ n Hn.
  destruct (kwget n k) as [v|] eqn:G.
  - apply kwget_in, (H n v Hn) in G. symmetry. now apply in_kwget.
  - destruct (kwget n k') as [v|] eqn:G'; auto. apply kwget_in, (H n v Hn) in G'. rewrite (in_kwget _ _ _ D G') in G. discriminate.
Qed.
Lemma mem_kwget : forall n k, mem n (map fst k) = match kwget n k with Some _ => true | None => false end.
Proof.
  intros n k. destruct (kwget n k) eqn:E.
  - apply mem_in, in_map_iff. exists (n, p). split; auto. now apply kwget_in.
  - apply mem_nin. now apply kwget_none.
Qed.
Lemma eqv_cons : forall N k k' n v, In n N -> eqv N k k' -> eqv N ((n, v) :: k) ((n, v) :: k').
Proof.
  intros N k k' n v Hn (D & H). unfold eqv. cbn [map fst distinct]. rewrite !mem_kwget, <- D.
  destruct (distinct (map fst k)) eqn:E.
  - rewrite (H eq_refl n Hn). split; auto. intros _ m Hm. cbn [kwget]. destruct (String.eqb n m); auto.
  - rewrite !andb_false_r. split; auto. discriminate.
Qed.
Lemma fill_eqv : forall N k k' s, eqv N k k' -> distinct (map fst k) = true -> (forall n, In n (map fst s) -> In n N) -> fill s k = fill s k'.
Proof.
  intros N k k' s (D & H) E. induction s as [|[n df] s IH]; intros I; auto. cbn [fill]. rewrite (H E n) by (apply I; now left).
  rewrite IH; auto. intros m Hm. apply I. now right.
Qed.
(** two calls with agreeing keywords bind the same values and leave agreeing keywords *)
Definition same_bind (N : list string) (x y : py (list pyval * kwd)) : Prop :=
  match x, y with
  | inl e, inl e' => e = e'
  | inr (l, k), inr (l', k') => l = l' /\ eqv N k k' /\ distinct (map fst k) = true
  | _, _ => False
  end.
Lemma existsb_ext' : forall {A} (f g : A -> bool) l, (forall x, In x l -> f x = g x) -> existsb f l = existsb g l.
Proof. intros A f g. induction l as [|x l IH]; intros H; auto. cbn. rewrite (H x) by now left. rewrite IH; auto. intros y Hy. apply H. now right. Qed.
Lemma firstn_in : forall {A} n (l : list A) x, In x (firstn n l) -> In x l.
Proof. intros A. induction n as [|n IH]; intros [|y l] x H; cbn in *; try contradiction. destruct H; auto. Qed.
Lemma skipn_in : forall {A} n (l : list A) x, In x (skipn n l) -> In x l.
Proof. intros A. induction n as [|n IH]; intros [|y l] x H; cbn in *; auto. Qed.
Lemma bind_eqv : forall N s pos k k', eqv N k k' -> (forall n, In n (map fst s) -> In n N) ->
  same_bind N (bind_args s true pos k) (bind_args s true pos k').
Proof.
  intros N s pos k k' E I. pose proof E as (D & H). unfold bind_args. rewrite <- D. cbn [negb andb].
  destruct (distinct (map fst k)) eqn:DK; cbn [negb]; [|reflexivity].
  destruct (Nat.ltb (length s) (length pos)); [reflexivity|].
  rewrite (existsb_ext' (fun n => mem n (map fst k)) (fun n => mem n (map fst k'))).
  2:{ intros n Hn. rewrite !mem_kwget. rewrite (H eq_refl n); auto. apply I. now apply firstn_in in Hn. }
  destruct (existsb _ _); [reflexivity|].
  rewrite (fill_eqv N k k' (skipn (length pos) s) E DK).
  2:{ intros n Hn. apply I. rewrite in_map_iff in *. destruct Hn as (q & Hq & Hn). exists q. split; auto. now apply skipn_in in Hn. }
  unfold bind. destruct (fill _ k'); cbn; [reflexivity|]. split; [reflexivity|].
  assert (DK' : distinct (map fst k') = true) by congruence.
  pose proof (proj1 (distinct_nodup _) DK) as F. pose proof (proj1 (distinct_nodup _) DK') as F'.
  split; [|apply distinct_nodup; now apply nodup_filter_keys]. split.
  - transitivity true; [|symmetry]; apply distinct_nodup; now apply nodup_filter_keys.
  - intros _ n Hn. rewrite !(kwget_filter n (fun m => negb (mem m (map fst s)))). destruct (negb _); auto.
Qed.
Lemma use_bind : forall {A} N (x y : py (list pyval * kwd)) (f g : list pyval * kwd -> py A), same_bind N x y ->
  (forall l k k', eqv N k k' -> distinct (map fst k) = true -> f (l, k) = g (l, k')) -> bind x f = bind y g.
Proof.
  intros A N [e|[l k]] [e'|[l' k']] f g H HF; cbn in *; try contradiction; [now subst|]. destruct H as (-> & H1 & H2). auto.
Qed.
Ltac bind2 N := apply (use_bind N); [apply bind_eqv; [assumption|]|].

Section Eqv.
Variable N : list string.
Hypothesis Nself : In "self" N. Hypothesis Nac : In "ac" N. Hypothesis Nbk : In "backend" N. Hypothesis Nsyn : In "use_synonym" N.
Ltac names := cbn [map fst]; let n := fresh in let Hn := fresh in intros n Hn; repeat (destruct Hn as [<-|Hn]; [assumption|]); contradiction.
Lemma drag_base_eqv : forall pos k k', eqv N k k' -> drag_base pos k = drag_base pos k'.
Proof. intros pos k k' H. unfold drag_base. bind2 N; [names|]. intros l x y _ _. reflexivity. Qed.
Lemma eng_base_eqv : forall pos k k', In "eng" N -> eqv N k k' -> eng_base pos k = eng_base pos k'.
Proof. intros pos k k' He H. unfold eng_base. bind2 N; [names|]. intros l x y _ _. reflexivity. Qed.
Lemma prop_aircraft_eqv : forall d pos k k', eqv N k k' -> prop_aircraft d pos k = prop_aircraft d pos k'.
Proof. intros d pos k k' H. unfold prop_aircraft. bind2 N; [names|]. intros l x y _ _. reflexivity. Qed.
Lemma drag_init_eqv : forall d pos k k', In "wave_drag" N -> eqv N k k' -> drag_init d pos k = drag_init d pos k'.
Proof.
  intros d pos k k' Hw H. unfold drag_init. bind2 N; [names|]. intros l x y E DX. cbn [fst snd].
  rewrite (drag_base_eqv [parg l 1] (("backend", parg l 3) :: x) (("backend", parg l 3) :: y)) by now apply eqv_cons.
  rewrite (proj2 E DX "use_synonym" Nsyn).
  destruct (drag_base _ _) as [e|[[b a] lac]] eqn:B; cbn [bind]; auto.
  now rewrite (prop_aircraft_eqv d [VStr lac] x y).
Qed.
Lemma thrust_init_eqv : forall d pos k k', In "eng" N -> In "force_engine" N -> eqv N k k' -> thrust_init d pos k = thrust_init d pos k'.
Proof.
  intros d pos k k' He Hf H. unfold thrust_init. bind2 N; [names|]. intros l x y E DX. cbn [fst snd].
  rewrite (eng_base_eqv [parg l 1; parg l 2] (("backend", parg l 3) :: x) (("backend", parg l 3) :: y)) by (auto; now apply eqv_cons).
  rewrite (proj2 E DX "force_engine" Hf).
  destruct (eng_base _ _) as [e|[[b a] lac]] eqn:B; cbn [bind]; auto.
  now rewrite (prop_aircraft_eqv d [parg l 1] x y).
Qed.
Lemma emission_init_eqv : forall d pos k k', In "eng" N -> eqv N k k' -> emission_init d pos k = emission_init d pos k'.
Proof.
  intros d pos k k' He H. unfold emission_init. bind2 N; [names|]. intros l x y E DX. cbn [fst snd].
  rewrite (eng_base_eqv [parg l 1; parg l 2] (("backend", parg l 3) :: x) (("backend", parg l 3) :: y)) by (auto; now apply eqv_cons).
  destruct (eng_base _ _) as [e|[[b a] lac]] eqn:B; cbn [bind]; auto.
  now rewrite (prop_aircraft_eqv d [parg l 1] x y).
Qed.
Lemma wrap_init_eqv : forall d pos k k', eqv N k k' -> wrap_init d pos k = wrap_init d pos k'.
Proof.
  intros d pos k k' H. unfold wrap_init. bind2 N; [names|]. intros l x y E DX. cbn [fst snd].
  now rewrite (proj2 E DX "use_synonym" Nsyn).
Qed.
Lemma fuel_init_eqv : forall d pos k k', In "eng" N -> In "force_engine" N -> In "wave_drag" N -> eqv N k k' -> fuel_init d pos k = fuel_init d pos k'.
Proof.
  intros d pos k k' He Hf Hw H. unfold fuel_init. bind2 N; [names|]. intros l x y E DX. cbn [fst snd].
  rewrite (eng_base_eqv [parg l 1; parg l 2] (("backend", parg l 3) :: x) (("backend", parg l 3) :: y)) by (auto; now apply eqv_cons).
  destruct (eng_base _ _) as [e|[[b a] lac]] eqn:B; cbn [bind]; auto.
  rewrite (prop_aircraft_eqv d [VStr lac] x y) by auto. destruct (prop_aircraft d _ y); cbn [bind]; auto.
  destruct (eng_arg _); cbn [bind]; auto. destruct (engine d _); cbn [bind]; auto.
  rewrite (thrust_init_eqv d _ (("backend", b) :: x) (("backend", b) :: y)) by (auto; now apply eqv_cons).
  rewrite (drag_init_eqv d _ (("backend", b) :: x) (("backend", b) :: y)) by (auto; now apply eqv_cons).
  rewrite (wrap_init_eqv d _ x y) by auto. reflexivity.
Qed.
Lemma drag_pkg_eqv : forall p d pos k k', In "wave_drag" N -> eqv N k k' -> drag_pkg p d pos k = drag_pkg p d pos k'.
Proof.
  intros p d pos k k' Hw H. assert (G : forall b, bind (bind_args [("self", None); ("ac", None)] true (self :: pos) k) (fun r =>
      drag_init d [parg (fst r) 1] (("backend", VBk b) :: snd r)) = bind (bind_args [("self", None); ("ac", None)] true (self :: pos) k') (fun r =>
      drag_init d [parg (fst r) 1] (("backend", VBk b) :: snd r))).
  { intros b. bind2 N; [names|]. intros l x y E _. cbn [fst snd]. apply drag_init_eqv; auto. now apply eqv_cons. }
  destruct p; [now apply drag_init_eqv|apply G|apply G].
Qed.
Lemma eng_pkg_eqv : forall A (init : db -> list pyval -> kwd -> py A) p d pos k k', In "eng" N ->
  (forall pos k k', eqv N k k' -> init d pos k = init d pos k') -> eqv N k k' -> eng_pkg init p d pos k = eng_pkg init p d pos k'.
Proof.
  intros A init p d pos k k' He HI H.
  assert (G : forall b, bind (bind_args [("self", None); ("ac", None); ("eng", Some VNone)] true (self :: pos) k) (fun r =>
      init d [parg (fst r) 1; parg (fst r) 2] (("backend", VBk b) :: snd r)) = bind (bind_args [("self", None); ("ac", None); ("eng", Some VNone)] true (self :: pos) k') (fun r =>
      init d [parg (fst r) 1; parg (fst r) 2] (("backend", VBk b) :: snd r))).
  { intros b. bind2 N; [names|]. intros l x y E _. cbn [fst snd]. apply HI. now apply eqv_cons. }
  destruct p; [now apply HI|apply G|apply G].
Qed.
End Eqv.

(** ** Only the documented keywords matter *)
Theorem C124_only_known_keywords : forall p c d pos k k', agree (known c) k k' -> new p c d pos k = new p c d pos k'.
Proof.
  intros p c d pos k k' H. apply agree_eqv in H.
  assert (I : forall n, In n ["self"; "ac"; "backend"; "use_synonym"] -> In n (known c)) by (intros n Hn; destruct c; cbn in *; tauto).
  pose proof (I "self" ltac:(cbn; tauto)) as I1. pose proof (I "ac" ltac:(cbn; tauto)) as I2.
  pose proof (I "backend" ltac:(cbn; tauto)) as I3. pose proof (I "use_synonym" ltac:(cbn; tauto)) as I4. clear I.
  destruct c; unfold new.
  - rewrite (drag_pkg_eqv _ I1 I2 I3 I4 p d pos k k'); auto. cbn; tauto.
  - rewrite (eng_pkg_eqv _ I1 I2 I3 _ thrust_init p d pos k k'); auto; [cbn; tauto|].
    intros. apply (thrust_init_eqv _ I1 I2 I3 I4); auto; cbn; tauto.
  - rewrite (eng_pkg_eqv _ I1 I2 I3 _ fuel_init p d pos k k'); auto; [cbn; tauto|].
    intros. apply (fuel_init_eqv _ I1 I2 I3 I4); auto; cbn; tauto.
  - rewrite (eng_pkg_eqv _ I1 I2 I3 _ emission_init p d pos k k'); auto; [cbn; tauto|].
    intros. apply (emission_init_eqv _ I1 I2 I3 I4); auto; cbn; tauto.
Qed.

(** ** What a call with keyword arguments builds *)
Definition cl (S : list string) (k : kwd) : Prop := distinct (map fst k) = true /\ forall n, In n S -> kwget n k = None.
Definition synf (k : kwd) : bool := match kwget "use_synonym" k with Some v => truthy v | None => false end.
Definition ck (k : kwd) : ckw := mkKwc (option_map truthy (kwget "use_synonym" k)) (option_map truthy (kwget "force_engine" k)).
Lemma synf_ck : forall k, get (kw_syn (ck k)) false = synf k.
Proof. intros k. unfold synf, ck. cbn. now destruct (kwget _ k). Qed.
Lemma force_ck : forall k, get (kw_force (ck k)) false = match kwget "force_engine" k with Some v => truthy v | None => false end.
Proof. intros k. unfold ck. cbn. now destruct (kwget _ k). Qed.
Lemma filter_cl : forall (names : list string) (k : kwd), (forall n, In n names -> kwget n k = None) ->
  filter (fun p => negb (mem (fst p) names)) k = k.
Proof.
  intros names k H. assert (G : forall n v, In (n, v) k -> ~ In n names).
  { intros n v Hn Hi. apply H in Hi. apply kwget_none in Hi. apply Hi. apply in_map_iff. now exists (n, v). }
  clear H. induction k as [|[n v] k IH]; auto. cbn [filter fst]. rewrite (proj2 (mem_nin n names)) by (apply (G n v); now left).
  cbn [negb]. f_equal. apply IH. intros m w Hm. apply (G m w). now right.
Qed.
Lemma filter_keys_cl : forall (names : list string) (k : kwd), distinct (map fst k) = true -> cl names (filter (fun p => negb (mem (fst p) names)) k).
Proof.
  intros names k D. split.
  - apply distinct_nodup, nodup_filter_keys. now apply distinct_nodup.
  - intros n Hn. rewrite (kwget_filter n (fun m => negb (mem m names))). rewrite (proj2 (mem_in n names) Hn). reflexivity.
Qed.
Lemma or_idem : forall v, or_default (or_default v) = or_default v.
Proof. intros v. unfold or_default. destruct (truthy v) eqn:E; [now rewrite E|reflexivity]. Qed.
Ltac clr H := rewrite ?(proj2 H) by (cbn; tauto).
Lemma bind_ok : forall s pos k, distinct (map fst k) = true -> length pos <= length s ->
  (forall n, In n (firstn (length pos) (map fst s)) -> kwget n k = None) ->
  bind_args s true pos k = bind (fill (skipn (length pos) s) k) (fun r =>
    inr ((pos ++ r)%list, filter (fun p => negb (mem (fst p) (map fst s))) k)).
Proof.
  intros s pos k D L H. unfold bind_args. rewrite D. cbn [negb andb].
  destruct (Nat.ltb_spec (length s) (length pos)); [lia|].
  replace (existsb _ _) with false; [reflexivity|]. symmetry. destruct (existsb _ _) eqn:E; auto.
  apply existsb_exists in E. destruct E as (n & Hn & E). rewrite mem_kwget, (H n Hn) in E. discriminate E.
Qed.
Lemma distinct_cons : forall n (v : pyval) k, distinct (map fst k) = true -> kwget n k = None -> distinct (map fst ((n, v) :: k)) = true.
Proof. intros n v k D H. cbn [map fst distinct]. rewrite mem_kwget, H, D. reflexivity. Qed.
Ltac str_eval := repeat match goal with
  | |- context [String.eqb ?a ?b] => let t := eval vm_compute in (String.eqb a b) in change (String.eqb a b) with t
  | |- context [mem (String ?a ?b) ?l] => let t := eval vm_compute in (mem (String a b) l) in change (mem (String a b) l) with t
  end; cbv iota.
Ltac bind_go H := rewrite bind_ok; [cbn [map fst length skipn fill app kwget filter]; str_eval; clr H; cbn [bind app negb]; rewrite filter_cl by (intros ? ?; apply (proj2 H); assumption); reflexivity
  | first [apply distinct_cons; [apply (proj1 H)|apply (proj2 H); cbn; tauto]|apply (proj1 H)] | cbn [length]; lia
  | cbn [map fst length firstn]; let n := fresh in let Hn := fresh in intros n Hn; repeat (destruct Hn as [<-|Hn]; [cbn [kwget]; str_eval; apply (proj2 H); cbn; tauto|]); contradiction].
Lemma aero_eq : forall v, aero_new [] [("backend", v)] = inr (or_default v).
Proof. reflexivity. Qed.
Lemma drag_base_eq : forall x v k, cl ["self"; "ac"; "backend"] k ->
  drag_base [x] (("backend", v) :: k) = bind (as_str x) (fun ac => inr (or_default v, or_default v, lower ac)).
Proof.
  intros x v k H. unfold drag_base.
  assert (E : bind_args [("self", None); ("ac", None); ("backend", Some VNone)] true [self; x] (("backend", v) :: k) = inr ([self; x; v], k)).
  { bind_go H. }
  rewrite E. cbn [bind fst parg nth]. rewrite aero_eq. cbn [bind]. now rewrite or_idem.
Qed.
Lemma eng_base_eq : forall x e v k, cl ["self"; "ac"; "eng"; "backend"] k ->
  eng_base [x; e] (("backend", v) :: k) = bind (as_str x) (fun ac => inr (or_default v, or_default v, lower ac)).
Proof.
  intros x e v k H. unfold eng_base.
  assert (E : bind_args [("self", None); ("ac", None); ("eng", Some VNone); ("backend", Some VNone)] true [self; x; e] (("backend", v) :: k) = inr ([self; x; e; v], k)).
  { bind_go H. }
  rewrite E. cbn [bind fst parg nth]. rewrite aero_eq. cbn [bind]. now rewrite or_idem.
Qed.
Lemma prop_aircraft_eq : forall d x k, cl ["ac"] k -> prop_aircraft d [x] k = bind (as_str x) (fun ac => aircraft d ac (synf k)).
Proof.
  intros d x k H. unfold prop_aircraft, synf. unfold bind_args. cbn [map fst distinct length firstn skipn existsb fill app]. rewrite mem_kwget.
  clr H. rewrite (proj1 H). cbn [negb andb orb Nat.ltb Nat.leb bind]. destruct (kwget "use_synonym" k); reflexivity.
Qed.
Lemma wrap_init_eq : forall d x k, cl ["self"; "ac"] k -> wrap_init d [x] k = bind (as_str x) (fun ac => wrap_new d ac (kw_syn (ck k))).
Proof.
  intros d x k H. unfold wrap_init.
  assert (E : bind_args [("self", None); ("ac", None)] true [self; x] k = inr ([self; x], k)).
  { bind_go H. }
  rewrite E. reflexivity.
Qed.
Lemma cl_sub : forall S S' k, cl S k -> (forall n, In n S' -> In n S) -> cl S' k.
Proof. intros S S' k [D H] I. split; auto. Qed.
(** the body of [Drag.__init__] after binding *)
Definition dbody (d : db) (x w v : pyval) (k : kwd) : py wdrag :=
  bind (as_str x) (fun ac => bind (drag_new d ac (ck k)) (fun o => inr (mkWd (or_default v) (or_default v) w o))).
Definition tbody (d : db) (x e v : pyval) (k : kwd) : py wthrust :=
  bind (as_str x) (fun ac => match e with
    | VNone => bind (thrust_new d ac None (ck k)) (fun o => inr (mkWt (or_default v) (or_default v) o))
    | VStr s => bind (thrust_new d ac (Some s) (ck k)) (fun o => inr (mkWt (or_default v) (or_default v) o))
    | _ => bind (aircraft d ac (synf k)) (fun _ => inl AttributeError) end).
Definition ebody (d : db) (x e v : pyval) (k : kwd) : py wemission :=
  bind (as_str x) (fun ac => match e with
    | VNone => bind (emission_new d ac None (ck k)) (fun o => inr (mkWe (or_default v) (or_default v) o))
    | VStr s => bind (emission_new d ac (Some s) (ck k)) (fun o => inr (mkWe (or_default v) (or_default v) o))
    | _ => bind (aircraft d ac (synf k)) (fun _ => inl AttributeError) end).
Definition wired (B W : pyval) (o : fuel_obj) : wfuel :=
  mkWf B B (fo_ac o) (fo_eng o) (mkWt B B (fo_thrust o)) (mkWd B B W (fo_drag o)) (fo_wrap o) (fo_model o).
Definition fbody (d : db) (x e v w : pyval) (k : kwd) : py wfuel :=
  bind (as_str x) (fun ac => match e with
    | VNone => bind (fuel_new d ac None (ck k)) (fun o => inr (wired (or_default v) w o))
    | VStr s => bind (fuel_new d ac (Some s) (ck k)) (fun o => inr (wired (or_default v) w o))
    | _ => bind (aircraft d (lower ac) (synf k)) (fun _ => inl AttributeError) end).
Lemma drag_init_body : forall d pos k, drag_init d pos k =
  bind (bind_args [("self", None); ("ac", None); ("wave_drag", Some (VBool false)); ("backend", Some VNone)] true (self :: pos) k) (fun r =>
    dbody d (parg (fst r) 1) (parg (fst r) 2) (parg (fst r) 3) (snd r)).
Proof.
  intros d pos k. unfold drag_init. destruct (bind_args _ _ _ _) as [e|[l ex]] eqn:E; cbn [bind fst snd]; auto.
  assert (C : cl ["self"; "ac"; "wave_drag"; "backend"] ex).
  { unfold bind_args in E. destruct (distinct (map fst k)) eqn:D; [|discriminate E]. cbn [negb] in E.
    destruct (Nat.ltb _ _); [discriminate E|]. destruct (existsb _ _); [discriminate E|]. cbn [negb andb] in E.
    unfold bind in E. destruct (fill _ _); [discriminate E|]. injection E as _ <-. now apply filter_keys_cl. }
  rewrite drag_base_eq by (apply (cl_sub _ _ _ C); cbn; tauto). unfold dbody, drag_new. rewrite synf_ck.
  destruct (parg l 1) as [| | |ac|]; cbn [as_str bind]; auto.
  rewrite prop_aircraft_eq by (apply (cl_sub _ _ _ C); cbn; tauto). cbn [as_str bind]. fold (synf ex).
  destruct (aircraft _ _ _); cbn [bind]; auto. destruct (load_drag_model _ _ _); reflexivity.
Qed.
Lemma extras_cl : forall s pos k l ex, bind_args s true pos k = inr (l, ex) -> cl (map fst s) ex.
Proof.
  intros s pos k l ex E. unfold bind_args in E. destruct (distinct (map fst k)) eqn:D; [|discriminate E]. cbn [negb] in E.
  destruct (Nat.ltb _ _); [discriminate E|]. destruct (existsb _ _); [discriminate E|]. cbn [negb andb] in E.
  unfold bind in E. destruct (fill _ _); [discriminate E|]. injection E as _ <-. now apply filter_keys_cl.
Qed.
Definition esig : sig := [("self", None); ("ac", None); ("eng", Some VNone); ("backend", Some VNone)].
Lemma thrust_init_body : forall d pos k, thrust_init d pos k =
  bind (bind_args esig true (self :: pos) k) (fun r => tbody d (parg (fst r) 1) (parg (fst r) 2) (parg (fst r) 3) (snd r)).
Proof.
  intros d pos k. unfold thrust_init. fold esig. destruct (bind_args _ _ _ _) as [e|[l ex]] eqn:E; cbn [bind fst snd]; auto.
  apply extras_cl in E. cbn in E. rewrite eng_base_eq by assumption. unfold tbody, thrust_new. rewrite synf_ck, force_ck.
  destruct (parg l 1) as [| | |ac|]; cbn [as_str bind]; auto.
  rewrite prop_aircraft_eq by (apply (cl_sub _ _ _ E); cbn; tauto). cbn [as_str bind].
  destruct (aircraft _ _ _) as [|a]; cbn [bind]; [now destruct (parg l 2)|].
  destruct (parg l 2) as [| | |s|]; cbn [eng_arg bind get]; auto;
    destruct (engine d _); cbn [bind]; auto; destruct (negb _ && negb _); reflexivity.
Qed.
Lemma emission_init_body : forall d pos k, emission_init d pos k =
  bind (bind_args esig true (self :: pos) k) (fun r => ebody d (parg (fst r) 1) (parg (fst r) 2) (parg (fst r) 3) (snd r)).
Proof.
  intros d pos k. unfold emission_init. fold esig. destruct (bind_args _ _ _ _) as [e|[l ex]] eqn:E; cbn [bind fst snd]; auto.
  apply extras_cl in E. cbn in E. rewrite eng_base_eq by assumption. unfold ebody, emission_new. rewrite synf_ck.
  destruct (parg l 1) as [| | |ac|]; cbn [as_str bind]; auto.
  rewrite prop_aircraft_eq by (apply (cl_sub _ _ _ E); cbn; tauto). cbn [as_str bind].
  destruct (aircraft _ _ _) as [|a]; cbn [bind]; [now destruct (parg l 2)|].
  destruct (parg l 2) as [| | |s|]; cbn [eng_arg bind get]; auto; destruct (engine d _); reflexivity.
Qed.
Definition wavev (k : kwd) : pyval := match kwget "wave_drag" k with Some v => v | None => VBool false end.
Lemma thrust_inner : forall d x e v k, cl ["self"; "ac"; "eng"; "backend"] k -> thrust_init d [x; e] (("backend", v) :: k) = tbody d x e v k.
Proof.
  intros d x e v k H. rewrite thrust_init_body.
  assert (E : bind_args esig true [self; x; e] (("backend", v) :: k) = inr ([self; x; e; v], k)).
  { unfold esig. bind_go H. }
  rewrite E. reflexivity.
Qed.
Lemma drag_inner : forall d x v k, cl ["self"; "ac"; "backend"] k ->
  drag_init d [x] (("backend", v) :: k) = dbody d x (wavev k) v (filter (fun p => negb (mem (fst p) ["self"; "ac"; "wave_drag"; "backend"])) k).
Proof.
  intros d x v k H. rewrite drag_init_body.
  assert (E : bind_args [("self", None); ("ac", None); ("wave_drag", Some (VBool false)); ("backend", Some VNone)] true [self; x] (("backend", v) :: k)
    = inr ([self; x; wavev k; v], filter (fun p => negb (mem (fst p) ["self"; "ac"; "wave_drag"; "backend"])) k)).
  { rewrite bind_ok; [|apply distinct_cons; [apply (proj1 H)|apply (proj2 H); cbn; tauto]|cbn [length]; lia|].
    - cbn [map fst length skipn fill app kwget filter]. str_eval. unfold wavev. destruct (kwget "wave_drag" k); reflexivity.
    - cbn [map fst length firstn]. intros n Hn. repeat (destruct Hn as [<-|Hn]; [cbn [kwget]; str_eval; apply (proj2 H); cbn; tauto|]). contradiction. }
  rewrite E. reflexivity.
Qed.
Lemma ck_filter : forall names k, ~ In "use_synonym" names -> ~ In "force_engine" names ->
  ck (filter (fun p => negb (mem (fst p) names)) k) = ck k.
Proof.
  intros names k H1 H2. unfold ck. rewrite !(kwget_filter _ (fun m => negb (mem m names))).
  rewrite (proj2 (mem_nin _ _) H1), (proj2 (mem_nin _ _) H2). reflexivity.
Qed.
Lemma bind_bind : forall {A B C} (x : py A) (f : A -> py B) (g : B -> py C), bind (bind x f) g = bind x (fun a => bind (f a) g).
Proof. intros A B C [e|a] f g; reflexivity. Qed.
Lemma fuel_init_body : forall d pos k, fuel_init d pos k =
  bind (bind_args esig true (self :: pos) k) (fun r => fbody d (parg (fst r) 1) (parg (fst r) 2) (parg (fst r) 3) (wavev (snd r)) (snd r)).
Proof.
  intros d pos k. unfold fuel_init. fold esig. destruct (bind_args _ _ _ _) as [e|[l ex]] eqn:E; cbn [bind fst snd]; auto.
  apply extras_cl in E. cbn in E. rewrite eng_base_eq by assumption. unfold fbody, fuel_new. rewrite synf_ck.
  destruct (parg l 1) as [| | |ac|]; cbn [as_str bind]; auto.
  rewrite prop_aircraft_eq by (apply (cl_sub _ _ _ E); cbn; tauto). cbn [as_str bind].
  assert (G : forall (a : acrec) (eng : string),
    bind (engine d eng) (fun e => bind (thrust_init d [VStr ac; VStr eng] (("backend", or_default (parg l 3)) :: ex)) (fun t =>
      bind (drag_init d [VStr ac] (("backend", or_default (parg l 3)) :: ex)) (fun dr => bind (wrap_init d [VStr ac] ex) (fun w =>
      bind (load_fuel_model d (lower ac) (upper eng) (er_row e)) (fun m => inr (mkWf (or_default (parg l 3)) (or_default (parg l 3)) a e t dr w m)))))) =
    bind (bind (engine d eng) (fun e => bind (thrust_new d ac (Some eng) (ck ex)) (fun t => bind (drag_new d ac (ck ex)) (fun dr =>
      bind (wrap_new d ac (kw_syn (ck ex))) (fun w => bind (load_fuel_model d (lower ac) (upper eng) (er_row e)) (fun m =>
      inr (mkFo a e t dr w m))))))) (fun o => inr (wired (or_default (parg l 3)) (wavev ex) o))).
  { intros a eng. rewrite thrust_inner, drag_inner, wrap_init_eq by (apply (cl_sub _ _ _ E); cbn; tauto).
    unfold tbody, dbody. cbn [as_str bind]. rewrite ck_filter by (cbn; intros H; repeat destruct H as [H|H]; try discriminate H; contradiction).
    destruct (engine d eng); cbn [bind]; auto. destruct (thrust_new _ _ _ _); cbn [bind]; auto. destruct (drag_new _ _ _); cbn [bind]; auto.
    destruct (wrap_new _ _ _); cbn [bind]; auto. destruct (load_fuel_model _ _ _ _); cbn [bind]; auto. unfold wired. cbn. rewrite or_idem. reflexivity. }
  destruct (aircraft _ _ _) as [|a]; cbn [bind]; [now destruct (parg l 2)|].
  destruct (parg l 2) as [| | |s|]; cbn [eng_arg bind get]; auto; apply G.
Qed.

(** ** Position or name *)
Local Open Scope list_scope.
Lemma distinct_app : forall a b, distinct (a ++ b) = distinct a && distinct b && negb (existsb (fun n => mem n b) a).
Proof.
  induction a as [|x a IH]; intros b; cbn; [now rewrite andb_true_r|].
  rewrite IH. unfold mem at 1. rewrite existsb_app. fold (mem x a) (mem x b).
  destruct (mem x a), (mem x b), (distinct a), (distinct b), (existsb _ _); reflexivity.
Qed.
Lemma keys_combine : forall (names : list string) (pos : list pyval), length pos <= length names ->
  map fst (combine names pos) = firstn (length pos) names.
Proof. induction names as [|n names IH]; intros [|x pos] H; cbn in *; auto; try lia. rewrite IH by lia. reflexivity. Qed.
Lemma kwget_app : forall n a b, kwget n (a ++ b) = match kwget n a with Some v => Some v | None => kwget n b end.
Proof. induction a as [|[m v] a IH]; intros b; cbn; auto. destruct (String.eqb m n); auto. Qed.
Lemma fill_type : forall s k e, fill s k = inl e -> e = TypeError.
Proof.
  induction s as [|[n df] s IH]; intros k e H; cbn in H; [discriminate|].
  destruct (kwget n k), df; cbn in H; try (injection H as <-; reflexivity); destruct (fill s k) eqn:E; cbn in H; try discriminate H;
    injection H as <-; now apply IH in E.
Qed.
Lemma fill_ext : forall s k k', (forall n, In n (map fst s) -> kwget n k = kwget n k') -> fill s k = fill s k'.
Proof. induction s as [|[n df] s IH]; intros k k' H; auto. cbn. rewrite (H n) by now left. rewrite (IH k k'); auto. intros m Hm. apply H. now right. Qed.
Lemma fill_pos : forall s pos k, NoDup (map fst s) -> length pos <= length s ->
  fill s (combine (map fst s) pos ++ k) = bind (fill (skipn (length pos) s) k) (fun r => inr (pos ++ r)%list).
Proof.
  induction s as [|[n df] s IH]; intros [|x pos] k D L; cbn [length] in L; try lia.
  - reflexivity.
  - cbn [length skipn combine map app]. unfold bind. destruct (fill _ k); reflexivity.
  - cbn [length skipn combine map app fst]. inversion D; subst. cbn [fill kwget]. rewrite String.eqb_refl. cbn [bind].
    rewrite (fill_ext s _ (combine (map fst s) pos ++ k)).
    + rewrite IH by (auto; lia). unfold bind. destruct (fill (skipn _ _) k); reflexivity.
    + intros m Hm. cbn [kwget]. destruct (String.eqb_spec n m); auto. subst. contradiction.
Qed.
Lemma filter_in_names : forall (names : list string) (q : kwd), (forall n, In n (map fst q) -> In n names) ->
  filter (fun p => negb (mem (fst p) names)) q = [].
Proof.
  intros names. induction q as [|[n v] q IH]; intros H; auto. cbn [filter fst]. rewrite (proj2 (mem_in n names)) by (apply H; now left).
  cbn [negb]. apply IH. intros m Hm. apply H. now right.
Qed.
Lemma filter_app' : forall {A} f (a b : list A), filter f (a ++ b) = (filter f a ++ filter f b)%list.
Proof. intros A f. induction a as [|x a IH]; intros b; auto. cbn. rewrite IH. destruct (f x); reflexivity. Qed.
Lemma firstn_nodup : forall {A} n (l : list A), NoDup l -> NoDup (firstn n l).
Proof.
  intros A. induction n as [|n IH]; intros [|x l] D; cbn; try constructor; inversion D; subst; auto.
  intros H. apply firstn_in in H. contradiction.
Qed.
Lemma bind_type : forall s pos k e, bind_args s true pos k = inl e -> e = TypeError.
Proof.
  intros s pos k e H. unfold bind_args in H. destruct (negb (distinct _)); [now injection H|]. destruct (Nat.ltb _ _); [now injection H|].
  destruct (existsb _ _); [now injection H|]. cbn [negb andb] in H. destruct (fill _ _) eqn:F; cbn in H; [|discriminate H].
  injection H as <-. now apply fill_type in F.
Qed.
Lemma bind_by_name : forall n0 df0 s x0 pos k, NoDup (map fst ((n0, df0) :: s)) -> length pos <= length s ->
  bind_args ((n0, df0) :: s) true (x0 :: pos) k = bind_args ((n0, df0) :: s) true [x0] (combine (map fst s) pos ++ k).
Proof.
  intros n0 df0 s x0 pos k D L. inversion D as [|? ? D0 D1]; subst.
  assert (LN : length pos <= length (map fst s)) by (rewrite map_length; lia).
  unfold bind_args. rewrite map_app, keys_combine by auto. rewrite distinct_app.
  rewrite (proj2 (distinct_nodup (firstn (length pos) (map fst s)))) by now apply firstn_nodup. cbn [negb andb].
  destruct (distinct (map fst k)) eqn:DK; cbn [negb andb]; [|reflexivity].
  cbn [length map fst firstn]. change (Nat.ltb (S (length s)) 1) with false.
  replace (Nat.ltb (S (length s)) (S (length pos))) with false by (symmetry; apply Nat.ltb_ge; lia). cbn [existsb orb].
  rewrite orb_false_r. rewrite (mem_kwget n0 k).
  assert (M : mem n0 (firstn (length pos) (map fst s) ++ map fst k) = mem n0 (map fst k)).
  { unfold mem at 1. rewrite existsb_app. fold (mem n0 (firstn (length pos) (map fst s))) (mem n0 (map fst k)).
    rewrite (proj2 (mem_nin n0 (firstn _ _))); auto. intros H. apply firstn_in in H. contradiction. }
  rewrite M, mem_kwget. destruct (existsb _ _) eqn:E.
  { rewrite orb_true_r. cbn [negb]. reflexivity. }
  rewrite orb_false_r. cbn [negb]. destruct (kwget n0 k); [reflexivity|]. cbn [skipn].
  rewrite fill_pos by auto. rewrite bind_bind. rewrite filter_app'.
  rewrite (filter_in_names (n0 :: map fst s) (combine (map fst s) pos)).
  2:{ intros n Hn. rewrite keys_combine in Hn by auto. right. now apply firstn_in in Hn. }
  cbn [app]. unfold bind. destruct (fill _ k); reflexivity.
Qed.
Lemma bind_too_many : forall s pos k, length s < length pos -> bind_args s true pos k = inl TypeError.
Proof.
  intros s pos k L. unfold bind_args. destruct (negb (distinct _)); auto. rewrite (proj2 (Nat.ltb_lt _ _)) by auto. reflexivity.
Qed.
Lemma nodup_dec_true : forall l, distinct l = true -> NoDup l.
Proof. intros l. apply distinct_nodup. Qed.

(** a value may be given by position or by name, in every package and class; further values raise *)
Theorem C124_by_name : forall p c d pos k,
  new p c d pos k = if Nat.leb (length pos) (length (order p c)) then new p c d [] (combine (order p c) pos ++ k) else inl TypeError.
Proof.
  intros p c d pos k. destruct (Nat.leb_spec (length pos) (length (order p c))) as [L|L].
  - assert (P : forall s, map fst s = order p c -> NoDup (map fst (("self", None) :: s)) -> bind_args (("self", None) :: s) true (self :: pos) k =
      bind_args (("self", None) :: s) true [self] (combine (order p c) pos ++ k)).
    { intros s E D. rewrite <- E. apply bind_by_name; [exact D|]. rewrite <- E, map_length in L. exact L. }
    destruct c, p; unfold new, drag_pkg, eng_pkg; rewrite ?drag_init_body, ?thrust_init_body, ?emission_init_body, ?fuel_init_body; unfold esig;
      rewrite P; try reflexivity; apply nodup_dec_true; reflexivity.
  - assert (P : forall s, map fst s = order p c -> bind_args (("self", None) :: s) true (self :: pos) k = inl TypeError).
    { intros s E. apply bind_too_many. rewrite <- E, map_length in L. cbn [length]. lia. }
    destruct c, p; unfold new, drag_pkg, eng_pkg; rewrite ?drag_init_body, ?thrust_init_body, ?emission_init_body, ?fuel_init_body; unfold esig;
      rewrite P; reflexivity.
Qed.
(** ** Packages *)
Lemma bind_self_err : forall s x pos k v, kwget "self" k = Some v -> bind_args (("self", None) :: s) true (x :: pos) k = inl TypeError.
Proof.
  intros s x pos k v H. unfold bind_args. destruct (negb (distinct _)); auto. destruct (Nat.ltb _ _); auto.
  cbn [map fst length firstn existsb]. rewrite mem_kwget, H. reflexivity.
Qed.
Lemma bind_dup_err : forall s pos k, distinct (map fst k) = false -> bind_args s true pos k = inl TypeError.
Proof. intros s pos k H. unfold bind_args. rewrite H. reflexivity. Qed.
Lemma distinct_cons_false : forall n (v w : pyval) k, kwget n k = Some w -> distinct (map fst ((n, v) :: k)) = false.
Proof. intros n v w k H. cbn [map fst distinct]. rewrite mem_kwget, H. reflexivity. Qed.
Lemma distinct_cons_false' : forall n (v : pyval) k, distinct (map fst k) = false -> distinct (map fst ((n, v) :: k)) = false.
Proof. intros n v k H. cbn [map fst distinct]. rewrite H. apply andb_false_r. Qed.
Lemma filter_filter_none : forall (a b : list string) (k : kwd), (forall n, In n b -> In n a \/ kwget n k = None) -> (forall n, In n a -> In n b) ->
  filter (fun p => negb (mem (fst p) b)) k = filter (fun p => negb (mem (fst p) a)) k.
Proof.
  intros a b k H I. assert (G : forall n v, In (n, v) k -> mem n b = mem n a).
  { intros n v Hn. destruct (mem n a) eqn:A.
    - apply mem_in. apply I. now apply mem_in.
    - apply mem_nin. intros B. destruct (H n B) as [X|X]; [apply mem_nin in A; contradiction|]. apply kwget_none in X. apply X.
      apply in_map_iff. now exists (n, v). }
  clear H I. induction k as [|[n v] k IH]; auto. cbn [filter fst]. rewrite (G n v) by now left. rewrite IH; auto. intros m w Hm. apply (G m w). now right.
Qed.
Lemma named_ok : forall s k, distinct (map fst k) = true -> kwget "self" k = None ->
  bind_args (("self", None) :: s) true [self] k = bind (fill s k) (fun r => inr (self :: r, filter (fun p => negb (mem (fst p) ("self" :: map fst s))) k)).
Proof.
  intros s k D H. rewrite bind_ok; auto; [cbn [length]; lia|]. cbn [length map fst firstn]. intros n [<-|[]]. exact H.
Qed.
Lemma eng_pkg_named : forall A (init : db -> list pyval -> kwd -> py A) (body : db -> pyval -> pyval -> pyval -> kwd -> py A) p d k,
  (forall d pos k, init d pos k = bind (bind_args esig true (self :: pos) k) (fun r => body d (parg (fst r) 1) (parg (fst r) 2) (parg (fst r) 3) (snd r))) ->
  p <> Openap -> eng_pkg init p d [] k = init d [] (("backend", VBk (pkg_backend p)) :: k).
Proof.
  intros A init body p d k HI Hp. set (b := VBk (pkg_backend p)).
  transitivity (bind (bind_args [("self", None); ("ac", None); ("eng", Some VNone)] true [self] k) (fun r => init d [parg (fst r) 1; parg (fst r) 2] (("backend", b) :: snd r)));
    [now destruct p|]. clearbody b.
  destruct (distinct (map fst k)) eqn:D.
  2:{ rewrite HI, !bind_dup_err by (auto; now apply distinct_cons_false'). reflexivity. }
  destruct (kwget "self" k) eqn:SF.
  { rewrite (bind_self_err _ _ _ _ _ SF). rewrite HI. unfold esig. rewrite (bind_self_err _ _ _ _ p0); [reflexivity|]. exact SF. }
  rewrite named_ok by auto.
  destruct (kwget "backend" k) eqn:BK.
  - rewrite HI, (bind_dup_err esig) by (eapply distinct_cons_false; eassumption). rewrite bind_bind. unfold bind at 1.
    destruct (fill _ k) eqn:F; [apply fill_type in F; now subst|]. cbn [fst snd]. unfold bind at 1. rewrite HI, bind_dup_err; [reflexivity|].
    apply (distinct_cons_false _ _ p0).
    cbn [map fst snd]. rewrite (kwget_filter "backend" (fun m => negb (mem m ["self"; "ac"; "eng"]))). str_eval. exact BK.
  - rewrite HI. unfold esig. rewrite named_ok by (first [now apply distinct_cons | exact SF]).
    cbn [fill kwget map fst filter]. str_eval. destruct (kwget "ac" k) as [x|] eqn:AC; [|reflexivity]. cbn [bind negb].
    assert (EX : cl ["self"; "ac"; "eng"; "backend"] (filter (fun p => negb (mem (fst p) ["self"; "ac"; "eng"])) k)).
    { split; [apply distinct_nodup, nodup_filter_keys; now apply distinct_nodup|]. intros n Hn.
      rewrite (kwget_filter n (fun m => negb (mem m ["self"; "ac"; "eng"]))). cbn in Hn.
      repeat (destruct Hn as [<-|Hn]; [str_eval; cbn [negb]; auto|]). contradiction. }
    assert (G : forall e, init d [x; e] (("backend", b) :: filter (fun p => negb (mem (fst p) ["self"; "ac"; "eng"])) k) =
      body d x e b (filter (fun p => negb (mem (fst p) ["self"; "ac"; "eng"; "backend"])) k)).
    { intros e. rewrite HI.
      assert (E : bind_args esig true [self; x; e] (("backend", b) :: filter (fun p => negb (mem (fst p) ["self"; "ac"; "eng"])) k) =
        inr ([self; x; e; b], filter (fun p => negb (mem (fst p) ["self"; "ac"; "eng"])) k)).
      { unfold esig. bind_go EX. }
      rewrite E. cbn [bind fst snd parg nth]. f_equal. symmetry. apply filter_filter_none; [|cbn; tauto].
      intros n Hn. cbn in Hn. repeat (destruct Hn as [<-|Hn]; [auto; left; cbn; tauto|]). contradiction. }
    destruct (kwget "eng" k); cbn [bind fst snd parg nth]; rewrite G; reflexivity.
Qed.
Lemma drag_pkg_named : forall p d k, p <> Openap -> drag_pkg p d [] k = drag_init d [] (("backend", VBk (pkg_backend p)) :: k).
Proof.
  intros p d k Hp. set (b := VBk (pkg_backend p)).
  transitivity (bind (bind_args [("self", None); ("ac", None)] true [self] k) (fun r => drag_init d [parg (fst r) 1] (("backend", b) :: snd r)));
    [now destruct p|]. clearbody b.
  destruct (distinct (map fst k)) eqn:D.
  2:{ rewrite drag_init_body, !bind_dup_err by (auto; now apply distinct_cons_false'). reflexivity. }
  destruct (kwget "self" k) eqn:SF.
  { rewrite (bind_self_err _ _ _ _ _ SF). rewrite drag_init_body. rewrite (bind_self_err _ _ _ _ p0); [reflexivity|]. exact SF. }
  rewrite named_ok by auto.
  destruct (kwget "backend" k) eqn:BK.
  - rewrite drag_init_body, (bind_dup_err _ _ (_ :: k)) by (eapply distinct_cons_false; eassumption). rewrite bind_bind. unfold bind at 1.
    destruct (fill _ k) eqn:F; [apply fill_type in F; now subst|]. cbn [fst snd]. unfold bind at 1. rewrite drag_init_body, bind_dup_err; [reflexivity|].
    apply (distinct_cons_false _ _ p0).
    cbn [map fst snd]. rewrite (kwget_filter "backend" (fun m => negb (mem m ["self"; "ac"]))). str_eval. exact BK.
  - rewrite (drag_init_body d []). rewrite named_ok by (first [now apply distinct_cons | exact SF]).
    cbn [fill kwget map fst filter]. str_eval. destruct (kwget "ac" k) as [x|] eqn:AC; [|reflexivity]. cbn [bind negb fst snd parg nth].
    assert (EX : cl ["self"; "ac"; "backend"] (filter (fun p => negb (mem (fst p) ["self"; "ac"])) k)).
    { split; [apply distinct_nodup, nodup_filter_keys; now apply distinct_nodup|]. intros n Hn.
      rewrite (kwget_filter n (fun m => negb (mem m ["self"; "ac"]))). cbn in Hn.
      repeat (destruct Hn as [<-|Hn]; [str_eval; cbn [negb]; auto|]). contradiction. }
    rewrite drag_inner by exact EX.
    assert (F : filter (fun p => negb (mem (fst p) ["self"; "ac"; "wave_drag"; "backend"])) (filter (fun p => negb (mem (fst p) ["self"; "ac"])) k) =
      filter (fun p => negb (mem (fst p) ["self"; "ac"; "wave_drag"; "backend"])) k).
    { clear. induction k as [|[n v] k IH]; auto. cbn [filter fst]. destruct (mem n ["self"; "ac"]) eqn:M; cbn [negb filter fst].
      - assert (M' : mem n ["self"; "ac"; "wave_drag"; "backend"] = true).
        { apply mem_in in M. apply mem_in. cbn in *. tauto. }
        rewrite M'. exact IH.
      - now rewrite IH. }
    rewrite F. unfold wavev. rewrite (kwget_filter "wave_drag" (fun m => negb (mem m ["self"; "ac"]))). str_eval. cbn [negb].
    destruct (kwget "wave_drag" k); reflexivity.
Qed.
(** the classes of [openap.casadi] and [openap.jax] are those of [openap] with the keyword [backend] added *)
Theorem C124_packages : forall p c d k, p <> Openap ->
  new p c d [] k = new Openap c d [] (("backend", VBk (pkg_backend p)) :: k).
Proof.
  intros p c d k Hp. destruct c; unfold new.
  - now rewrite drag_pkg_named.
  - now rewrite (eng_pkg_named _ thrust_init tbody) by (auto using thrust_init_body).
  - now rewrite (eng_pkg_named _ fuel_init (fun d x e v k => fbody d x e v (wavev k) k)) by (auto using fuel_init_body).
  - now rewrite (eng_pkg_named _ emission_init ebody) by (auto using emission_init_body).
Qed.

(** ** What is built *)
(** the value of a parameter: the one given, else the default *)
Definition chosen (k : kwd) (n : string) (dflt v : pyval) : Prop := In (n, v) k \/ (~ In n (map fst k) /\ v = dflt).
(** the backend used for a value of the parameter [backend] *)
Definition effective (v B : pyval) : Prop := (falsy v /\ B = VBk BNumpy) \/ (~ falsy v /\ B = v).
(** a switch: not given, or given with a truth value *)
Definition switch (k : kwd) (n : string) (o : option bool) : Prop :=
  match o with
  | None => ~ In n (map fst k)
  | Some b => exists v, In (n, v) k /\ (b = false <-> falsy v)
  end.
Definition engine_given (v : pyval) (o : option string) : Prop :=
  match o with None => v = VNone | Some s => v = VStr s end.
Lemma chosen_get : forall k n dflt v, NoDup (map fst k) -> chosen k n dflt v -> match kwget n k with Some w => w | None => dflt end = v.
Proof.
  intros k n dflt v D [H|[H ->]].
  - now rewrite (in_kwget _ _ _ D H).
  - now rewrite (proj2 (kwget_none n k) H).
Qed.
Lemma get_chosen : forall k n dflt, chosen k n dflt (match kwget n k with Some w => w | None => dflt end).
Proof.
  intros k n dflt. destruct (kwget n k) eqn:E.
  - left. now apply kwget_in.
  - right. split; auto. now apply kwget_none.
Qed.
Lemma effective_or : forall v B, effective v B -> or_default v = B.
Proof.
  intros v B [[H ->]|[H ->]]; unfold or_default.
  - apply truthy_falsy in H. now rewrite H.
  - destruct (truthy v) eqn:E; auto. exfalso. apply H. now apply truthy_falsy.
Qed.
Lemma or_effective : forall v, effective v (or_default v).
Proof.
  intros v. unfold effective, or_default. destruct (truthy v) eqn:E.
  - right. split; auto. intros F. apply truthy_falsy in F. congruence.
  - left. split; auto. now apply truthy_falsy.
Qed.
Lemma switch_get : forall k n o, NoDup (map fst k) -> switch k n o -> option_map truthy (kwget n k) = o.
Proof.
  intros k n [b|] D H; cbn in H.
  - destruct H as (v & H & F). rewrite (in_kwget _ _ _ D H). cbn. f_equal. destruct b.
    + destruct (truthy v) eqn:E; auto. apply truthy_falsy, F in E. discriminate E.
    + apply truthy_falsy. now apply F.
  - now rewrite (proj2 (kwget_none n k) H).
Qed.
Lemma esig_named : forall k ac, NoDup (map fst k) -> ~ In "self" (map fst k) -> In ("ac", ac) k ->
  bind_args esig true [self] k = inr ([self; ac; match kwget "eng" k with Some v => v | None => VNone end; match kwget "backend" k with Some v => v | None => VNone end],
    filter (fun p => negb (mem (fst p) ["self"; "ac"; "eng"; "backend"])) k).
Proof.
  intros k ac D S A. unfold esig. rewrite named_ok; [|now apply distinct_nodup|now apply kwget_none]. cbn [fill map fst].
  rewrite (in_kwget _ _ _ D A). cbn [bind]. destruct (kwget "eng" k), (kwget "backend" k); reflexivity.
Qed.
Lemma ck_switch : forall k kw, NoDup (map fst k) -> switch k "use_synonym" (kw_syn kw) -> switch k "force_engine" (kw_force kw) -> ck k = kw.
Proof.
  intros k [s f] D H1 H2. unfold ck. cbn in H1, H2. rewrite (switch_get _ _ _ D H1), (switch_get _ _ _ D H2). reflexivity.
Qed.
Lemma ck_switch1 : forall k kw, NoDup (map fst k) -> switch k "use_synonym" (kw_syn kw) -> kw_syn (ck k) = kw_syn kw.
Proof. intros k [s f] D H1. unfold ck. cbn in *. now rewrite (switch_get _ _ _ D H1). Qed.
Section Built.
Variables (d : db) (k : kwd) (ac : string) (vb B : pyval) (kw : ckw).
Hypothesis D : NoDup (map fst k). Hypothesis NS : ~ In "self" (map fst k). Hypothesis AC : In ("ac", VStr ac) k.
Hypothesis HB : chosen k "backend" VNone vb. Hypothesis HE : effective vb B. Hypothesis HS : switch k "use_synonym" (kw_syn kw).
Theorem C124_drag : forall W, chosen k "wave_drag" (VBool false) W ->
  new Openap CDrag d [] k = bind (drag_new d ac kw) (fun o => inr (ODrag (mkWd B B W o))).
Proof.
  intros W HW. unfold new, drag_pkg. rewrite drag_init_body, named_ok; [|now apply distinct_nodup|now apply kwget_none]. cbn [fill map fst].
  rewrite (in_kwget _ _ _ D AC).
  pose proof (chosen_get _ _ _ _ D HW) as GW. pose proof (chosen_get _ _ _ _ D HB) as GB. apply effective_or in HE.
  assert (E : drag_new d ac (ck (filter (fun p => negb (mem (fst p) ["self"; "ac"; "wave_drag"; "backend"])) k)) = drag_new d ac kw).
  { rewrite ck_filter by (cbn; intros H; repeat destruct H as [H|H]; try discriminate H; contradiction).
    unfold drag_new. now rewrite (ck_switch1 _ _ D HS). }
  destruct (kwget "wave_drag" k), (kwget "backend" k); cbn [bind fst snd parg nth]; subst; unfold dbody; cbn [as_str bind];
    rewrite E; destruct (drag_new d ac kw); reflexivity.
Qed.
Theorem C124_emission : forall e oeng, chosen k "eng" VNone e -> engine_given e oeng ->
  new Openap CEmission d [] k = bind (emission_new d ac oeng kw) (fun o => inr (OEmission (mkWe B B o))).
Proof.
  intros e oeng Ce HG. unfold new, eng_pkg. rewrite emission_init_body, (esig_named k (VStr ac)) by auto. cbn [bind fst snd parg nth].
  rewrite (chosen_get _ _ _ _ D Ce), (chosen_get _ _ _ _ D HB). unfold ebody. rewrite (effective_or _ _ HE). cbn [as_str bind].
  assert (E : forall o, emission_new d ac o (ck (filter (fun p => negb (mem (fst p) ["self"; "ac"; "eng"; "backend"])) k)) = emission_new d ac o kw).
  { intros o. rewrite ck_filter by (cbn; intros H; repeat destruct H as [H|H]; try discriminate H; contradiction).
    unfold emission_new. now rewrite (ck_switch1 _ _ D HS). }
  destruct oeng as [s|]; cbn in HG; subst; rewrite E; destruct (emission_new _ _ _ _); reflexivity.
Qed.
Hypothesis HF : switch k "force_engine" (kw_force kw).
Theorem C124_thrust : forall e oeng, chosen k "eng" VNone e -> engine_given e oeng ->
  new Openap CThrust d [] k = bind (thrust_new d ac oeng kw) (fun o => inr (OThrust (mkWt B B o))).
Proof.
  intros e oeng Ce HG. unfold new, eng_pkg. rewrite thrust_init_body, (esig_named k (VStr ac)) by auto. cbn [bind fst snd parg nth].
  rewrite (chosen_get _ _ _ _ D Ce), (chosen_get _ _ _ _ D HB). unfold tbody. rewrite (effective_or _ _ HE). cbn [as_str bind].
  rewrite ck_filter by (cbn; intros H; repeat destruct H as [H|H]; try discriminate H; contradiction). rewrite (ck_switch _ _ D HS HF).
  destruct oeng as [s|]; cbn in HG; subst; destruct (thrust_new _ _ _ _); reflexivity.
Qed.
(** the thrust and the drag inside a fuel flow object are those that [Thrust] and [Drag] build from the same arguments *)
Theorem C124_fuelflow : forall e oeng W, chosen k "eng" VNone e -> engine_given e oeng -> chosen k "wave_drag" (VBool false) W ->
  new Openap CFuelFlow d [] k = bind (fuel_new d ac oeng kw) (fun o =>
    inr (OFuelFlow (mkWf B B (fo_ac o) (fo_eng o) (mkWt B B (fo_thrust o)) (mkWd B B W (fo_drag o)) (fo_wrap o) (fo_model o)))).
Proof.
  intros e oeng W Ce HG HW. unfold new, eng_pkg. rewrite fuel_init_body, (esig_named k (VStr ac)) by auto. cbn [bind fst snd parg nth].
  rewrite (chosen_get _ _ _ _ D Ce), (chosen_get _ _ _ _ D HB). unfold fbody. rewrite (effective_or _ _ HE). cbn [as_str bind].
  rewrite ck_filter by (cbn; intros H; repeat destruct H as [H|H]; try discriminate H; contradiction). rewrite (ck_switch _ _ D HS HF).
  unfold wavev. rewrite (kwget_filter "wave_drag" (fun m => negb (mem m ["self"; "ac"; "eng"; "backend"]))). str_eval. cbn [negb].
  rewrite (chosen_get _ _ _ _ D HW).
  destruct oeng as [s|]; cbn in HG; subst; destruct (fuel_new _ _ _ _); reflexivity.
Qed.
End Built.

(** ** Which calls raise TypeError *)
(** all arguments by name *)
Definition by_name (p : pkg) (c : cls) (pos : list pyval) (k : kwd) : kwd := combine (order p c) pos ++ k.
(** the call is understood: not too many values, no name twice, an aircraft, no [self], and no [backend] where the package fixes it *)
Definition understood (p : pkg) (c : cls) (pos : list pyval) (k : kwd) : Prop :=
  length pos <= length (order p c) /\ NoDup (map fst (by_name p c pos k)) /\ In "ac" (map fst (by_name p c pos k)) /\
  ~ In "self" (map fst k) /\ (p <> Openap -> ~ In "backend" (map fst k)).
Ltac nte H := repeat (match type of H with
  | context [match ?x with _ => _ end] => destruct x eqn:?; try discriminate H
  | context [if ?x then _ else _] => destruct x eqn:?; try discriminate H end).
Lemma aircraft_nte : forall d a s, aircraft d a s <> inl TypeError.
Proof. intros d a s H. unfold aircraft in H. nte H. Qed.
Lemma engine_nte : forall d e, engine d e <> inl TypeError.
Proof. intros d e H. unfold engine in H. nte H. Qed.
Lemma bind_nte : forall {A B} (x : py A) (f : A -> py B), x <> inl TypeError -> (forall a, f a <> inl TypeError) -> bind x f <> inl TypeError.
Proof. intros A B [e|a] f H1 H2 H; cbn in H; [apply H1; congruence|now apply H2 in H]. Qed.
Lemma drag_nte : forall d a k, drag_new d a k <> inl TypeError.
Proof.
  intros d a k. unfold drag_new. apply bind_nte; [apply aircraft_nte|]. intros x. apply bind_nte; [|discriminate].
  unfold load_drag_model. apply bind_nte.
  - destruct (mem _ _); [discriminate|]. destruct (synonym _ _); [destruct (get _ _)|]; discriminate.
  - intros c. destruct (find _ _); discriminate.
Qed.
Lemma thrust_nte : forall d a e k, thrust_new d a e k <> inl TypeError.
Proof.
  intros d a e k. unfold thrust_new. apply bind_nte; [apply aircraft_nte|]. intros x. apply bind_nte; [apply engine_nte|].
  intros y. destruct (_ && _); discriminate.
Qed.
Lemma emission_nte : forall d a e k, emission_new d a e k <> inl TypeError.
Proof. intros d a e k. unfold emission_new. apply bind_nte; [apply aircraft_nte|]. intros x. apply bind_nte; [apply engine_nte|discriminate]. Qed.
Lemma wrap_nte : forall d a s, wrap_new d a s <> inl TypeError.
Proof.
  intros d a s. unfold wrap_new. apply bind_nte.
  - destruct (mem _ _); [discriminate|]. destruct (negb _); [discriminate|]. destruct (synonym _ _); discriminate.
  - intros c. destruct (find _ _); discriminate.
Qed.
Lemma fuel_nte : forall d a e k, fuel_new d a e k <> inl TypeError.
Proof.
  intros d a e k. unfold fuel_new. apply bind_nte; [apply aircraft_nte|]. intros x. apply bind_nte; [apply engine_nte|]. intros y.
  apply bind_nte; [apply thrust_nte|]. intros t. apply bind_nte; [apply drag_nte|]. intros dr. apply bind_nte; [apply wrap_nte|]. intros w.
  apply bind_nte; [|discriminate]. unfold load_fuel_model. destruct (find _ _); [|discriminate]. destruct (String.eqb _ _); [discriminate|].
  destruct (negb _); [|discriminate]. apply bind_nte; [apply engine_nte|discriminate].
Qed.
Lemma body_nte : forall A B (x : pyval) (o : A -> B) (f : string -> option string -> py A) (g : string -> py acrec) (e : pyval),
  (forall s t, f s t <> inl TypeError) -> (forall s, g s <> inl TypeError) ->
  bind (as_str x) (fun ac => match e with
    | VNone => bind (f ac None) (fun y => inr (o y)) | VStr s => bind (f ac (Some s)) (fun y => inr (o y))
    | _ => bind (g ac) (fun _ => inl AttributeError) end) <> inl TypeError.
Proof.
  intros A B x o f g e F G. apply bind_nte; [destruct x; discriminate|]. intros s.
  destruct e; (apply bind_nte; [first [apply F|apply G]|discriminate]).
Qed.
(** with keywords only, for [openap] *)
Lemma named_type_error : forall c d k, new Openap c d [] k = inl TypeError <-> ~ (NoDup (map fst k) /\ In "ac" (map fst k) /\ ~ In "self" (map fst k)).
Proof.
  intros c d k. split.
  - intros H (D & A & S). apply in_map_iff in A. destruct A as ([n x] & E & A). cbn in E. subst.
    unfold new, drag_pkg, eng_pkg in H. destruct c.
    + rewrite drag_init_body, named_ok in H; [|now apply distinct_nodup|now apply kwget_none]. cbn [fill map fst] in H.
      rewrite (in_kwget _ _ _ D A) in H. revert H. repeat apply bind_nte; try (destruct (kwget "wave_drag" k), (kwget "backend" k)); cbn; try discriminate.
      all: try (intros; discriminate). all: intros r; unfold dbody; apply bind_nte; [destruct (parg _ _); discriminate|]; intros s; apply bind_nte; [apply drag_nte|discriminate].
    + rewrite thrust_init_body, (esig_named k x) in H by auto. revert H. apply bind_nte; [|discriminate]. cbn [bind fst snd parg nth]. unfold tbody.
      refine (body_nte _ _ x _ (fun s t => thrust_new d s t _) (fun s => aircraft d s _) _ _ _); intros; [apply thrust_nte|apply aircraft_nte].
    + rewrite fuel_init_body, (esig_named k x) in H by auto. revert H. apply bind_nte; [|discriminate]. cbn [bind fst snd parg nth]. unfold fbody.
      refine (body_nte _ _ x _ (fun s t => fuel_new d s t _) (fun s => aircraft d (lower s) _) _ _ _); intros; [apply fuel_nte|apply aircraft_nte].
    + rewrite emission_init_body, (esig_named k x) in H by auto. revert H. apply bind_nte; [|discriminate]. cbn [bind fst snd parg nth]. unfold ebody.
      refine (body_nte _ _ x _ (fun s t => emission_new d s t _) (fun s => aircraft d s _) _ _ _); intros; [apply emission_nte|apply aircraft_nte].
  - intros H. assert (E : forall s, bind_args (("self", None) :: ("ac", None) :: s) true [self] k = inl TypeError).
    { intros s. destruct (distinct (map fst k)) eqn:D; [|now apply bind_dup_err]. destruct (kwget "self" k) eqn:S; [now apply (bind_self_err _ _ _ _ _ S)|].
      rewrite named_ok by auto. cbn [fill]. destruct (kwget "ac" k) eqn:A; [|reflexivity]. exfalso. apply H.
      split; [now apply distinct_nodup|]. split; [|now apply kwget_none]. apply in_map_iff. eexists. split; [|apply (kwget_in _ _ _ A)]. reflexivity. }
    unfold new, drag_pkg, eng_pkg. destruct c; rewrite ?drag_init_body, ?thrust_init_body, ?fuel_init_body, ?emission_init_body; unfold esig; rewrite E; reflexivity.
Qed.
Theorem C124_type_error : forall p c d pos k, new p c d pos k = inl TypeError <-> ~ understood p c pos k.
Proof.
  intros p c d pos k. rewrite C124_by_name. unfold understood. fold (by_name p c pos k).
  destruct (Nat.leb_spec (length pos) (length (order p c))) as [L|L]; [|split; auto; intros _ [H _]; lia].
  assert (SELF : In "self" (map fst (by_name p c pos k)) <-> In "self" (map fst k)).
  { unfold by_name. rewrite map_app, keys_combine, in_app_iff by auto. split; [|tauto]. intros [H|H]; auto. apply firstn_in in H.
    destruct p, c; cbn in H; repeat destruct H as [H|H]; try discriminate H; contradiction. }
  assert (BACK : p <> Openap -> (In "backend" (map fst (by_name p c pos k)) <-> In "backend" (map fst k))).
  { intros Hp. unfold by_name. rewrite map_app, keys_combine, in_app_iff by auto. split; [|tauto]. intros [H|H]; auto. apply firstn_in in H.
    destruct p, c; cbn in H; repeat destruct H as [H|H]; try discriminate H; try contradiction; now contradiction Hp. }
  destruct p.
  - rewrite named_type_error, SELF. split; intros H H'; apply H; [tauto|]. destruct H' as (A & A' & A''). repeat split; auto; try tauto.
  - rewrite C124_packages, named_type_error by discriminate. cbn [map fst]. specialize (BACK ltac:(discriminate)).
    split; intros H H'; apply H.
    + destruct H' as (_ & A & A' & A'' & A3). specialize (A3 ltac:(discriminate)). repeat split.
      * constructor; auto. now rewrite BACK.
      * now right.
      * intros [X|X]; [discriminate X|]. now apply SELF in X.
    + destruct H' as (A & A' & A''). inversion A; subst. repeat split; auto.
      * destruct A' as [A'|A']; [discriminate A'|auto].
      * intros X. apply A''. right. now apply SELF.
      * intros _ X. apply H2. now apply BACK.
  - rewrite C124_packages, named_type_error by discriminate. cbn [map fst]. specialize (BACK ltac:(discriminate)).
    split; intros H H'; apply H.
    + destruct H' as (_ & A & A' & A'' & A3). specialize (A3 ltac:(discriminate)). repeat split.
      * constructor; auto. now rewrite BACK.
      * now right.
      * intros [X|X]; [discriminate X|]. now apply SELF in X.
    + destruct H' as (A & A' & A''). inversion A; subst. repeat split; auto.
      * destruct A' as [A'|A']; [discriminate A'|auto].
      * intros X. apply A''. right. now apply SELF.
      * intros _ X. apply H2. now apply BACK.
Qed.

(** ** One backend throughout an object *)
Lemma get_switch : forall k n, switch k n (option_map truthy (kwget n k)).
Proof.
  intros k n. destruct (kwget n k) eqn:E; cbn.
  - exists p. split; [now apply kwget_in|]. apply truthy_falsy.
  - now apply kwget_none.
Qed.
Lemma named_backend : forall c d k o, new Openap c d [] k = inr o ->
  NoDup (map fst k) /\ exists v B, chosen k "backend" VNone v /\ effective v B /\ List.Forall (eq B) (backends o).
Proof.
  intros c d k o H.
  assert (U : NoDup (map fst k) /\ In "ac" (map fst k) /\ ~ In "self" (map fst k)).
  { destruct (distinct (map fst k)) eqn:D; [destruct (kwget "ac" k) eqn:A; [destruct (kwget "self" k) eqn:S|]|].
    1,3,4: exfalso; assert (X : new Openap c d [] k = inl TypeError); [apply named_type_error; intros (X1 & X2 & X3)|congruence].
    - apply X3. apply kwget_in in S. apply in_map_iff. now exists ("self", p0).
    - apply kwget_none in A. contradiction.
    - apply distinct_nodup in X1. congruence.
    - split; [now apply distinct_nodup|]. split; [|now apply kwget_none]. apply in_map_iff. exists ("ac", p). split; auto. now apply kwget_in. }
  destruct U as (D & A & S). split; auto. apply in_map_iff in A. destruct A as ([n x] & E & A). cbn in E. subst.
  pose proof (get_chosen k "backend" VNone) as HB. set (vb := match kwget "backend" k with Some w => w | None => VNone end) in HB.
  exists vb, (or_default vb). split; auto. pose proof (or_effective vb) as HE. split; auto.
  pose proof (get_switch k "use_synonym") as HS. pose proof (get_switch k "force_engine") as HF.
  pose proof (get_chosen k "wave_drag" (VBool false)) as HW. pose proof (get_chosen k "eng" VNone) as HG.
  set (w := match kwget "wave_drag" k with Some w => w | None => VBool false end) in HW. set (e := match kwget "eng" k with Some w => w | None => VNone end) in HG.
  assert (X : exists ac, x = VStr ac).
  { destruct x as [| | |ac|]; eauto; exfalso; unfold new, drag_pkg, eng_pkg in H; destruct c;
      rewrite ?thrust_init_body, ?fuel_init_body, ?emission_init_body in H; try (rewrite (esig_named k _ D S A) in H; cbn in H; discriminate H);
      rewrite drag_init_body, named_ok in H; try (now apply distinct_nodup); try (now apply kwget_none); cbn [fill map fst] in H;
      rewrite (in_kwget _ _ _ D A) in H; destruct (kwget "wave_drag" k), (kwget "backend" k); cbn in H; discriminate H. }
  destruct X as [ac ->]. set (kw := mkKwc (option_map truthy (kwget "use_synonym" k)) (option_map truthy (kwget "force_engine" k))).
  assert (OE : c <> CDrag -> exists oeng, engine_given e oeng).
  { intros C. destruct e as [| | |s|] eqn:EE; [exists None; reflexivity| | |exists (Some s); reflexivity|]; exfalso; unfold new, drag_pkg, eng_pkg in H; destruct c;
      try (now contradiction C); rewrite ?thrust_init_body, ?fuel_init_body, ?emission_init_body in H; rewrite (esig_named k _ D S A) in H; fold e in H; rewrite EE in H; cbn [bind fst snd parg nth] in H;
      unfold tbody, fbody, ebody in H; cbn [as_str bind] in H; destruct (aircraft _ _ _); discriminate H. }
  destruct c.
  - rewrite (C124_drag d k ac vb _ kw D S A HB HE HS w HW) in H. destruct (drag_new _ _ _); [discriminate H|]. injection H as <-. unfold backends, drag_backends, thrust_backends. cbn. repeat constructor.
  - destruct OE as [oeng OE]; [discriminate|]. rewrite (C124_thrust d k ac vb _ kw D S A HB HE HS HF e oeng HG OE) in H.
    destruct (thrust_new _ _ _ _); [discriminate H|]. injection H as <-. unfold backends, drag_backends, thrust_backends. cbn. repeat constructor.
  - destruct OE as [oeng OE]; [discriminate|]. rewrite (C124_fuelflow d k ac vb _ kw D S A HB HE HS HF e oeng w HG OE HW) in H.
    destruct (fuel_new _ _ _ _); [discriminate H|]. injection H as <-. unfold backends, drag_backends, thrust_backends. cbn. repeat constructor.
  - destruct OE as [oeng OE]; [discriminate|]. rewrite (C124_emission d k ac vb _ kw D S A HB HE HS e oeng HG OE) in H.
    destruct (emission_new _ _ _ _); [discriminate H|]. injection H as <-. unfold backends, drag_backends, thrust_backends. cbn. repeat constructor.
Qed.
Theorem C124_one_backend : forall p c d pos k o, new p c d pos k = inr o -> exists B, List.Forall (eq B) (backends o) /\
  (p = Openap -> exists v, chosen (by_name p c pos k) "backend" VNone v /\ effective v B) /\
  (p = OpenapCasadi -> B = VBk BCasadi) /\ (p = OpenapJax -> B = VBk BJax).
Proof.
  intros p c d pos k o H. rewrite C124_by_name in H. destruct (Nat.leb _ _); [|discriminate H]. fold (by_name p c pos k) in H.
  assert (G : forall b n k', ~ falsy (VBk b) -> NoDup (map fst ((n, VBk b) :: k')) -> forall v B, chosen ((n, VBk b) :: k') n VNone v -> effective v B -> B = VBk b).
  { intros b n k' F D v B C E. apply (chosen_get _ _ _ _ D) in C. cbn [kwget] in C. rewrite String.eqb_refl in C. subst v. destruct E as [[E _]|[_ E]]; [contradiction|auto]. }
  assert (NF : forall b, b = BCasadi \/ b = BJax -> ~ falsy (VBk b)).
  { intros b Hb F. apply truthy_falsy in F. destruct Hb; subst; discriminate F. }
  destruct p.
  - apply named_backend in H. destruct H as (_ & v & B & C & E & F). exists B. split; auto. split; [|split; discriminate]. intros _. now exists v.
  - rewrite C124_packages in H by discriminate. apply named_backend in H. destruct H as (D & v & B & C & E & F). exists B. split; auto.
    split; [discriminate|]. split; [|discriminate]. intros _. apply (G BCasadi "backend" _ (NF BCasadi (or_introl eq_refl)) D v B C E).
  - rewrite C124_packages in H by discriminate. apply named_backend in H. destruct H as (D & v & B & C & E & F). exists B. split; auto.
    split; [discriminate|]. split; [discriminate|]. intros _. apply (G BJax "backend" _ (NF BJax (or_intror eq_refl)) D v B C E).
Qed.
(** the order of keywords does not matter *)
Theorem C124_keyword_order : forall p c d pos k k', NoDup (map fst k) -> Permutation k k' -> new p c d pos k = new p c d pos k'.
Proof.
  intros p c d pos k k' D P. apply C124_only_known_keywords. split; auto. split.
  - apply (Permutation_NoDup (l := map fst k)); auto. now apply Permutation_map.
  - intros n v _. split; apply Permutation_in; auto. now symmetry.
Qed.
(** the exported [aero] of each package, [Aero] and [Geo] *)
Theorem C124_aero : (forall p, aero_pkg p = inr (VBk (pkg_backend p))) /\
  (forall v, exists B, effective v B /\ aero_new [v] [] = inr B /\ aero_new [] [("backend", v)] = inr B /\ geo_new [v] [] = inr B /\ geo_new [] [("backend", v)] = inr B) /\
  aero_new [] [] = inr (VBk BNumpy) /\ geo_new [] [] = inr (VBk BNumpy).
Proof.
  split; [now intros []|]. split; [|split; reflexivity]. intros v. exists (or_default v). split; [apply or_effective|]. repeat split.
Qed.
Theorem C124_get_backend : forall name b, get_backend name = inr b <->
  (name = VStr "numpy" /\ b = BNumpy) \/ (name = VStr "casadi" /\ b = BCasadi) \/ (name = VStr "jax" /\ b = BJax).
Proof.
  intros name b. split.
  - destruct name as [| | |s|]; cbn; try discriminate. destruct (String.eqb_spec s "numpy"); [|destruct (String.eqb_spec s "casadi"); [|destruct (String.eqb_spec s "jax")]];
      intros H; try discriminate H; injection H as <-; subst; auto.
  - intros [[-> ->]|[[-> ->]|[-> ->]]]; reflexivity.
Qed.
Theorem C124_get_backend_error : forall name e, get_backend name = inl e -> e = ValueError.
Proof.
  intros [| | |s|] e H; cbn in H; try (injection H as <-; reflexivity).
  repeat (destruct (String.eqb _ _); [discriminate H|]). now injection H as <-.
Qed.

(** ** What goes unnoticed *)
(** a misspelt keyword is not reported: it is as if it was not there *)
Theorem C124_misspelt_refuted : (forall p c d pos k n v, ~ In n (known c) -> NoDup (map fst ((n, v) :: k)) ->
    new p c d pos ((n, v) :: k) = new p c d pos k) /\
  (exists o, new Openap CDrag shipped0 [VStr "A318"] [("use_synonym", VBool true)] = inr o) /\
  new Openap CDrag shipped0 [VStr "A318"] [("use_synonyms", VBool true)] = inl ValueError.
Proof.
  split; [|split; [eexists; vm_compute; reflexivity|vm_compute; reflexivity]].
  intros p c d pos k n v Hn D. apply C124_only_known_keywords. inversion D; subst. split; auto. split; auto.
  intros m w Hm. cbn. split; [|auto]. intros [E|E]; auto. injection E as <- <-. contradiction.
Qed.
(** the second positional argument of [Drag] is not the engine, and not the backend: whatever it is, it switches wave drag *)
Theorem C124_positional_refuted : forall d ac v, new Openap CDrag d [VStr ac; v] [] =
  bind (drag_new d ac (mkKwc None None)) (fun o => inr (ODrag (mkWd (VBk BNumpy) (VBk BNumpy) v o))).
Proof.
  intros d ac v. rewrite C124_by_name. cbn [length order Nat.leb combine app].
  apply (C124_drag d [("ac", VStr ac); ("wave_drag", v)] ac VNone (VBk BNumpy) (mkKwc None None)).
  - apply nodup_dec_true. reflexivity.
  - cbn. intros [H|[H|[]]]; discriminate H.
  - now left.
  - right. split; auto. cbn. intros [H|[H|[]]]; discriminate H.
  - left. split; auto. now left.
  - cbn. intros [H|[H|[]]]; discriminate H.
  - left. right. now left.
Qed.
(** a backend given by its name is neither looked up nor rejected: the object holds the text in place of a backend *)
Theorem C124_backend_by_name_refuted : forall c d pos k o s, s <> "" -> new Openap c d pos (("backend", VStr s) :: k) = inr o ->
  List.Forall (eq (VStr s)) (backends o).
Proof.
  intros c d pos k o s Hs H. rewrite C124_by_name in H. destruct (Nat.leb _ _); [|discriminate H].
  apply named_backend in H. destruct H as (D & v & B & C & E & F).
  assert (V : v = VStr s).
  { apply (chosen_get _ _ _ _ D) in C. rewrite (in_kwget "backend" _ (VStr s) D) in C; [congruence|]. apply in_app_iff. right. now left. }
  subst v. destruct E as [[E _]|[_ ->]]; auto. exfalso. apply truthy_falsy in E. cbn in E. apply negb_false_iff, String.eqb_eq in E. contradiction.
Qed.
(** instances with the shipped data *)
Example C124_ex : (exists o, new OpenapCasadi CFuelFlow shipped0 [VStr "A320"; VStr "CFM56-5B4"] [("wave_drag", VBool true)] = inr (OFuelFlow o) /\
    wf_backend o = VBk BCasadi /\ wt_aero (wf_thrust o) = VBk BCasadi /\ wd_wave (wf_drag o) = VBool true) /\
  new OpenapJax CThrust shipped0 [VStr "A320"] [("backend", VBk BJax)] = inl TypeError /\
  new OpenapCasadi CDrag shipped0 [VStr "A320"; VBool true] [] = inl TypeError /\
  (exists o, new Openap CEmission shipped0 [] [("eng", VNone); ("ac", VStr "b738"); ("backend", VInt 0)] = inr (OEmission o) /\ we_backend o = VBk BNumpy) /\
  (exists o, new Openap CDrag shipped0 [VStr "A320"; VStr "CFM56-5B4"] [] = inr (ODrag o) /\ wd_wave o = VStr "CFM56-5B4") /\
  (exists o, new Openap CDrag shipped0 [VStr "A320"] [("backend", VStr "jax")] = inr (ODrag o) /\ wd_backend o = VStr "jax") /\
  agree (known CThrust) [("force_engine", VBool true); ("wave_drag", VBool true)] [("force_engine", VBool true)] /\
  understood OpenapCasadi CFuelFlow [VStr "A320"] [("use_synonym", VBool true)].
Proof.
  split. { eexists. split; [vm_compute; reflexivity|]. vm_compute. auto. }
  split. { vm_compute; reflexivity. }
  split. { vm_compute; reflexivity. }
  split. { eexists. split; vm_compute; reflexivity. }
  split. { eexists. split; vm_compute; reflexivity. }
  split. { eexists. split; vm_compute; reflexivity. }
  split.
  - split; [apply nodup_dec_true; reflexivity|]. split; [apply nodup_dec_true; reflexivity|]. intros n v Hn. cbn. split; [|tauto].
    intros [H|[H|[]]]; auto. injection H as <- <-. cbn in Hn. repeat destruct Hn as [Hn|Hn]; try discriminate Hn; contradiction.
  - split; [cbn; lia|]. split; [apply nodup_dec_true; reflexivity|]. split; [now left|]. split; [|intros _]; cbn; intros [H|[]]; discriminate H.
Qed.
