(** * Properties C99 and C104: the BADA4 add-on (openap/addon/bada4.py), constructors and files *)
From Coq Require Import String Ascii List Bool Arith Lia Permutation.
From Coq Require Import Reals Lra.
From Verif Require Import Num NumFacts Py Str StrFacts Aero Nd NdFacts Bada4 Bada4Facts.
Import ListNotations.
Open Scope list_scope.
Open Scope R_scope.

(** ** Specification *)
(** a call that raises *)
Definition raises {A} (x : py A) : Prop := exists e, x = inl e.
(** a Python number as argument *)
Definition num_arg (x : ext) : T AB := inr (scalar x).
(** an argument that is a number or a list or array of [n] numbers, and its numbers *)
Definition argument (n : nat) (x : T AB) (f : nat -> ext) : Prop :=
  (exists e, x = num_arg e /\ forall i, f i = e) \/ (exists d l, x = inr (vector d l) /\ length l = n /\ forall i, (i < n)%nat -> f i = nth i l d).

Lemma item_idem : forall A (x : py (nd A)), item (item x) = item x.
Proof.
  intros A [e|a]; auto. unfold item. destruct (Nat.eqb (nd_size a) 1) eqn:E; [reflexivity|]. rewrite E. reflexivity.
Qed.
Lemma arg_isc : forall n x f, (1 <= n)%nat -> argument n x f -> exists b, isc n (col x) (b, f) /\ (b = false -> exists e, x = num_arg e /\ forall i, f i = e).
Proof.
  intros n x f Hn [(e & -> & Hf)|(d & l & -> & L & Hf)].
  - exists false. split; [|eauto]. apply isc_col. eapply isc_eq; [apply isc_scalar|reflexivity|auto].
  - exists true. split; [|discriminate]. apply isf_col. split; cbn [fst snd rows].
    + unfold nd_size, vector. cbn. lia.
    + intros k Hk. unfold flat, vector. cbn [nd_c nd_at]. rewrite L, Hf by assumption.
      assert (P : (pick n k < n)%nat) by (unfold pick; destruct (Nat.eqb_spec n 1); lia).
      rewrite Nat.mod_small by assumption. unfold pick. destruct (Nat.eqb_spec n 1); [|reflexivity]. replace k with 0%nat by lia. reflexivity.
Qed.
Lemma num_isc : forall n e, isc n (num_arg e) (false, fun _ => e).
Proof. intros. apply isc_scalar. Qed.

(** ** C99: as shipped, nothing works *)
(** Without the attribute [sci] no Drag and no FuelFlow object can be made, whatever the files hold. *)
Theorem C99_constructors : forall num dir ac,
  raises (b4_drag_new num false dir ac) /\ raises (b4_fuel_new num false dir ac).
Proof.
  intros num dir ac. assert (D : raises (b4_drag_new num false dir ac)).
  { unfold b4_drag_new, raises. destruct (load_bada4 dir ac) as [e|x]; [eauto|]. destruct (get_number num _) as [e|s]; [eauto|]. cbn. eauto. }
  split; auto. unfold b4_fuel_new. destruct (b4_thrust_new num dir ac) as [e|t]; [exists e; auto|]. destruct D as (e & ->). exists e. auto.
Qed.
(** With a complete XML file the error is the missing attribute. *)
Theorem C99_drag_error : forall num dir ac d, b4_drag_new num true dir ac = inr d -> b4_drag_new num false dir ac = inl AttributeError.
Proof.
  intros num dir ac d E. unfold b4_drag_new in *. destruct (load_bada4 dir ac) as [e|x]; [discriminate|]. destruct (get_number num _) as [e|s]; [discriminate|]. reflexivity.
Qed.
Theorem C99_fuel_error : forall num dir ac f, b4_fuel_new num true dir ac = inr f -> b4_fuel_new num false dir ac = inl AttributeError.
Proof.
  intros num dir ac f E. unfold b4_fuel_new in *. destruct (b4_thrust_new num dir ac) as [e|t]; [discriminate|].
  destruct (b4_drag_new num true dir ac) as [e|d] eqn:D; [discriminate|]. apply C99_drag_error in D. rewrite D. reflexivity.
Qed.
(** A Thrust object can be made; its methods raise on all arguments ... *)
Theorem C99_thrust_methods : forall m tas alt dT,
  raises (b4_climb false m tas alt dT) /\ raises (b4_cruise false m tas alt dT) /\
  raises (b4_takeoff false m tas alt dT) /\ raises (b4_idle false m tas alt dT).
Proof.
  assert (CT : forall m mach h rating dT, raises (b4_cT false m mach h rating dT)).
  { intros. unfold b4_cT, raises. destruct (col mach) as [e|am]; [eauto|]. destruct (col h) as [e|ah]; [eauto|]. destruct (col dT) as [e|ad]; [eauto|].
    cbv zeta. destruct (if String.eqb (upper rating) "MCRZ" then _ else _) as [e|rt]; [cbn; eauto|].
    destruct (div AB (pressure AB (inr ah) _) _) as [e|de]; [cbn; eauto|]. destruct (div AB (temperature AB (inr ah) _) _) as [e|th]; [cbn; eauto|].
    destruct rt as [r|]; [|cbn; eauto]. destruct (le_kink ad (r_kink r)) as [e|fr]; cbn; eauto. }
  assert (RT : forall m rating tas alt dT, raises (b4_rated false m rating tas alt dT)).
  { intros. unfold b4_rated, raises. cbv zeta. destruct (tas2mach AB _ _ _) as [e|am]; [cbn; eauto|]. destruct (div AB _ _) as [e|ad]; [cbn; eauto|].
    destruct (CT m (inr am) (mul AB (col alt) (cst AB ft)) rating (col dT)) as (e & ->). cbn; eauto. }
  intros. split; [apply RT|]. split; [apply RT|]. split; [|apply RT].
  unfold b4_takeoff. destruct (RT m "MCMB"%string (col tas) (col alt) (col dT)) as (e & E). unfold b4_climb. rewrite E. exists e. reflexivity.
Qed.
(** ... with numbers, because of the missing attribute. *)
Theorem C99_thrust_error : forall m tas alt dT,
  b4_climb false m (num_arg tas) (num_arg alt) (num_arg dT) = inl AttributeError /\
  b4_cruise false m (num_arg tas) (num_arg alt) (num_arg dT) = inl AttributeError /\
  b4_takeoff false m (num_arg tas) (num_arg alt) (num_arg dT) = inl AttributeError /\
  b4_idle false m (num_arg tas) (num_arg alt) (num_arg dT) = inl AttributeError.
Proof.
  intros. assert (E : forall rating x y dT, isc 1 x (false, fun _ => tas) -> isc 1 y (false, fun _ => alt) -> nd_size dT = 1%nat ->
    (upper rating = "MCRZ" \/ upper rating = "MCMB" \/ upper rating = "LIDL")%string -> b4_rated false m rating x y (inr dT) = inl AttributeError).
  { intros rating x y d K K' Hs Hu. destruct (rated_errors 1 (le_n 1) false m x y _ _ rating d K K') as (_ & E1 & E2). destruct Hu as [Hu|[Hu|Hu]]; auto. }
  split; [|split; [|split]].
  - apply E; try apply num_isc; auto.
  - apply E; try apply num_isc; auto.
  - unfold b4_takeoff, b4_climb. change (col (num_arg dT)) with (@inr pyerr (nd ext) (column (scalar dT))). rewrite E; auto; apply isc_col, num_isc.
  - apply E; try apply num_isc; auto.
Qed.
(** An unknown rating fails an assertion, with and without [sci]. *)
Theorem C99_rating : forall sci m mach h rating dT,
  ~ In (upper rating) ["MCRZ"; "MCMB"; "LIDL"]%string -> b4_cT sci m (num_arg mach) (num_arg h) rating (num_arg dT) = inl AssertionError.
Proof.
  intros sci m mach h rating dT N. destruct (cT_errors 1 (le_n 1) sci m _ _ _ _ rating (scalar dT) (num_isc 1 mach) (num_isc 1 h)) as (E & _).
  apply E; intros Q; apply N; rewrite Q; cbn; auto.
Qed.

(** ** C104: which file is read *)
(** [name] starts with [s] *)
Definition starts (s name : string) : Prop := exists t, name = (s ++ t)%string.
(** no character with a meaning for [glob] *)
Definition plain_code (ac : string) : Prop := forall a c b, ac = (a ++ String c b)%string -> ~ In c ["*"; "?"; "["; "/"]%char.
(** the names a code stands for: those starting with the upper-case code; hidden names only when the code asks *)
Definition asked (ac name : string) : Prop := starts (upper ac) name /\ (starts "." name -> starts "." (upper ac)).

Lemma prefix_starts : forall s n, prefix s n = true <-> starts s n.
Proof. intros s n. apply prefix_iff. Qed.
Lemma plain_code_plain : forall ac, plain_code ac <-> plain ac = true.
Proof.
  induction ac as [|c s IH].
  - split; [reflexivity|]. intros _ a c b E. destruct a; discriminate E.
  - cbn [plain]. rewrite !andb_true_iff, !negb_true_iff, <- IH. split.
    + intros P. pose proof (P "" c s eq_refl)%string as N. cbn in N. split; [|intros a d b ->; apply (P (String c a) d b); reflexivity].
      repeat split; apply Ascii.eqb_neq; intros ->; tauto.
    + intros [N P] a d b E. destruct a as [|x a]; injection E as <- E; [|apply (P a d b E)].
      destruct N as [[[N1 N2] N3] N4]. apply Ascii.eqb_neq in N1, N2, N3, N4. cbn. intuition congruence.
Qed.
Lemma up1_meta : forall c m, In m ["*"; "?"; "["; "/"]%char -> Ascii.eqb (up1 c) m = Ascii.eqb c m.
Proof.
  intros c m Hm. apply eqb_prop. revert c. cbn in Hm.
  destruct Hm as [<-|[<-|[<-|[<-|[]]]]]; apply (all_ascii (fun c => Bool.eqb (Ascii.eqb (up1 c) _) (Ascii.eqb c _))); vm_compute; reflexivity.
Qed.
Lemma plain_upper : forall s, plain (upper s) = plain s.
Proof. induction s as [|c s IH]; cbn; auto. rewrite !up1_meta by (cbn; tauto). rewrite IH. auto. Qed.
Lemma glob_prefix : forall p s, plain p = true -> glob_match (p ++ "*") s = prefix p s.
Proof.
  induction p as [|c p IH]; intros s H.
  - cbn. induction s as [|d s IHs]; [reflexivity|]. cbn in *. rewrite IHs. destruct s; reflexivity.
  - cbn [plain] in H. rewrite !andb_true_iff in H. destruct H as ((((H1 & H2) & H3) & H4) & H5).
    apply negb_true_iff in H1, H2. cbn [append glob_match]. rewrite H1, H2. destruct s as [|d s]; auto. cbn [orb]. rewrite IH by assumption.
    cbn [prefix]. destruct (Ascii.ascii_dec c d) as [->|N]; [rewrite Ascii.eqb_refl; reflexivity|]. apply Ascii.eqb_neq in N. rewrite N. reflexivity.
Qed.
Lemma asked_bool : forall ac (f : folder), plain_code ac ->
  ((glob_match (upper ac ++ "*") (fst f) && negb (prefix "." (fst f) && negb (prefix "." (upper ac))))%string = true <-> asked ac (fst f)).
Proof.
  intros ac [n l] P. apply plain_code_plain in P. rewrite <- plain_upper in P. rewrite glob_prefix by assumption.
  cbn [fst]. unfold asked. rewrite <- !prefix_starts. destruct (prefix (upper ac) n), (prefix "." n), (prefix "." (upper ac)); cbn; intuition discriminate.
Qed.
Lemma first_match : forall (p : folder -> bool) l, match filter p l with
  | [] => forall f, In f l -> p f = false
  | f :: _ => exists l1 l2, l = l1 ++ f :: l2 /\ p f = true /\ forall g, In g l1 -> p g = false end.
Proof.
  intros p l. induction l as [|a l IH]; cbn; [intros f []|]. destruct (p a) eqn:E.
  - exists [], l. split; [reflexivity|]. split; auto. intros g [].
  - destruct (filter p l) as [|f t].
    + intros f [<-|I]; auto.
    + destruct IH as (l1 & l2 & -> & E1 & E2). exists (a :: l1), l2. split; auto. split; auto. intros g [<-|I]; auto.
Qed.
(** the first folder, in the order of the listing, that the code stands for *)
Definition first_asked (dir : list folder) (ac : string) (f : folder) : Prop :=
  exists l1 l2, dir = l1 ++ f :: l2 /\ asked ac (fst f) /\ forall g, In g l1 -> ~ asked ac (fst g).
Lemma options_first : forall dir ac, plain_code ac -> match options dir ac with
  | [] => forall f, In f dir -> ~ asked ac (fst f)
  | f :: _ => first_asked dir ac f end.
Proof.
  intros dir ac PC. pose proof (first_match (fun f => (glob_match (upper ac ++ "*") (fst f) && negb (prefix "." (fst f) && negb (prefix "." (upper ac))))%string) dir) as M.
  change (filter (fun f : folder => (glob_match (upper ac ++ "*") (fst f) && negb (prefix "." (fst f) && negb (prefix "." (upper ac))))%string) dir) with (options dir ac) in M.
  destruct (options dir ac) as [|f l].
  - intros f I A. apply asked_bool in A; auto. specialize (M f I). cbn beta in M. congruence.
  - destruct M as (l1 & l2 & E & P & Q). exists l1, l2. split; auto. split; [apply asked_bool; auto|]. intros g I A. apply asked_bool in A; auto. specialize (Q g I). cbn beta in Q. congruence.
Qed.
Lemma first_asked_unique : forall dir ac f g, first_asked dir ac f -> first_asked dir ac g -> f = g.
Proof.
  intros dir ac f g (l1 & l2 & E & A & N) (k1 & k2 & E' & A' & N'). subst dir. revert k1 E' N'. induction l1 as [|a l1 IH]; intros k1 E' N'.
  - destruct k1 as [|c k1]; injection E' as -> E'; auto. destruct (N' c (or_introl eq_refl)); auto.
  - destruct k1 as [|c k1]; injection E' as <- E'.
    + destruct (N a (or_introl eq_refl)); auto.
    + apply (IH (fun g I => N g (or_intror I)) k1 E' (fun g I => N' g (or_intror I))).
Qed.
(** Outcome of loading: the first XML file of the first folder whose name starts with the code in upper case. *)
Theorem C104_load : forall dir ac, plain_code ac ->
  (forall x, load_bada4 dir ac = inr x <-> exists name files, first_asked dir ac (name, Some x :: files)) /\
  (load_bada4 dir ac = inl ValueError <-> forall f, In f dir -> ~ asked ac (fst f)) /\
  (load_bada4 dir ac = inl IndexError <-> exists name, first_asked dir ac (name, [])) /\
  (load_bada4 dir ac = inl ParseError <-> exists name files, first_asked dir ac (name, None :: files)).
Proof.
  intros dir ac PC. pose proof (options_first dir ac PC) as O. unfold load_bada4. destruct (options dir ac) as [|[nm fs] t].
  - assert (NF : forall f, ~ first_asked dir ac f) by (intros f (l1 & l2 & -> & A & _); apply (O f); auto; apply in_or_app; cbn; auto).
    repeat split; try discriminate; auto; try (intros (a & c & F); destruct (NF _ F)); try (intros (a & F); destruct (NF _ F)).
  - assert (NV : ~ forall f, In f dir -> ~ asked ac (fst f)) by (intros N; destruct O as (l1 & l2 & -> & A & _); apply (N (nm, fs)); auto; apply in_or_app; cbn; auto).
    assert (U : forall f, first_asked dir ac f -> f = (nm, fs)) by (intros f F; apply (first_asked_unique dir ac); auto).
    destruct fs as [|[x|] fs]; repeat split; try discriminate; try (intros; contradiction); eauto;
    try (intros (a & c & F); apply U in F; discriminate F); try (intros (a & F); apply U in F; discriminate F).
    + intros E. injection E as <-. eauto.
    + intros (a & c & F). apply U in F. injection F as _ <- _. auto.
Qed.
(** The case of the code does not matter. *)
Theorem C104_case : forall dir ac ac', upper ac = upper ac' -> load_bada4 dir ac = load_bada4 dir ac'.
Proof. intros dir ac ac' E. unfold load_bada4, options. rewrite E. reflexivity. Qed.
(** When one folder only is meant, the order of the listing does not matter. *)
Theorem C104_unique : forall dir dir' ac f, plain_code ac -> Permutation dir dir' -> In f dir -> asked ac (fst f) ->
  (forall g, In g dir -> asked ac (fst g) -> g = f) -> load_bada4 dir ac = load_bada4 dir' ac.
Proof.
  intros dir dir' ac f PC P I A U.
  assert (K : forall d, Permutation dir d -> exists t, options d ac = f :: t).
  { intros d Pd. pose proof (options_first d ac PC) as O. destruct (options d ac) as [|g t].
    - exfalso. apply (O f); auto. apply (Permutation_in _ Pd); auto.
    - destruct O as (l1 & l2 & E & Ag & _). exists t. f_equal. apply U; auto. apply (Permutation_in _ (Permutation_sym Pd)). rewrite E. apply in_or_app; cbn; auto. }
  destruct (K dir (Permutation_refl _)) as (t & E). destruct (K dir' P) as (t' & E'). unfold load_bada4. rewrite E, E'. reflexivity.
Qed.
(** "A folder with exactly the name asked for is the one read", "the order of the listing does not matter",
    "an unknown code is rejected": all false. *)
Definition xa : xml := Elem "bada40_model" (Some "variant") [].
Definition xb : xml := Elem "bada40_model" (Some "plain") [].
Theorem C104_exact_refuted :
  ~ (forall dir ac x files, In (upper ac, Some x :: files) dir -> load_bada4 dir ac = inr x) /\
  ~ (forall dir dir' ac, Permutation dir dir' -> load_bada4 dir ac = load_bada4 dir' ac) /\
  (forall name x files dir, ~ starts "." name -> load_bada4 ((name, Some x :: files) :: dir) "" = inr x).
Proof.
  assert (E : load_bada4 [("A320-231", [Some xa]); ("A320", [Some xb])]%string "A320" = inr xa) by reflexivity.
  split; [|split].
  - intros H. specialize (H [("A320-231", [Some xa]); ("A320", [Some xb])]%string "A320"%string xb [] ltac:(right; left; reflexivity)). rewrite E in H. discriminate H.
  - intros H. specialize (H _ [("A320", [Some xb]); ("A320-231", [Some xa])]%string "A320"%string (perm_swap _ _ [])). discriminate H.
  - intros name x files dir N. apply C104_load; [intros a c b E'; destruct a; discriminate E'|]. exists name, files. exists [], dir. split; [reflexivity|]. split; [|intros g []].
    split; [exists name; auto|]. intros S. contradiction.
Qed.
Example C104_ex : load_bada4 [("B738", [Some xa]); ("A320", [Some xb])]%string "a320" = inr xb /\
  load_bada4 [("B738", [Some xa])]%string "A320" = inl ValueError /\ load_bada4 [("A320", [])]%string "A320" = inl IndexError.
Proof. repeat split. Qed.

(** A complete XML file. *)
Definition leaf (tag text : string) : xml := Elem tag (Some text) [].
Definition node (tag : string) (l : list xml) : xml := Elem tag None l.
Definition num1 (s : string) : option R :=
  if String.eqb s "0" then Some 0 else if String.eqb s "1" then Some 1 else if String.eqb s "0.8" then Some 0.8 else
  if String.eqb s "122.6" then Some 122.6 else if String.eqb s "64000" then Some 64000 else if String.eqb s "43000000" then Some 43000000 else None.
Definition rating1 : list xml :=
  [leaf "kink" "0"; node "flat_rating" (repeat (leaf "b" "1") 36); node "temp_rating" (repeat (leaf "c" "1") 45)]%string.
Definition x1 : xml :=
  (node "bada40_model"
    [node "AFCM" [leaf "S" "122.6"; node "Configuration" [node "LGUP" [node "DPM_clean" [leaf "scalar" "1"; leaf "M_max" "0.8";
       node "CD_clean" (repeat (leaf "d" "1") 15)]]]];
     node "PFM" [leaf "MREF" "64000"; leaf "LHV" "43000000";
       node "TFM" [node "CT" (repeat (leaf "a" "1") 36); node "CF" (repeat (leaf "f" "1") 25);
         node "LIDL" [node "CT" (repeat (leaf "ti" "1") 12); node "CF" (repeat (leaf "fi" "1") 9)];
         node "MCRZ" rating1; node "MCMB" rating1]]])%string.
Example C99_ex :
  let dir := [("A320", [Some x1])]%string in
  let d := mkB4d 1 (repeat 1 15) 0.8 122.6 in
  let r := mkB4r 0 (repeat 1 36) (repeat 1 45) in
  let t := mkB4t 64000 (repeat 1 36) (repeat 1 12) r r in
  b4_drag_new num1 true dir "a320" = inr d /\ b4_thrust_new num1 dir "a320" = inr t /\
  b4_fuel_new num1 true dir "a320" = inr (mkB4f t d 64000 (repeat 1 25) (repeat 1 9) 43000000) /\
  b4_drag_new num1 false dir "a320" = inl AttributeError /\ b4_fuel_new num1 false dir "a320" = inl AttributeError /\
  b4_climb false t (num_arg (Fin 250)) (num_arg (Fin 10000)) (num_arg (Fin 0)) = inl AttributeError.
Proof.
  cbv zeta. repeat split; try reflexivity.
Qed.
