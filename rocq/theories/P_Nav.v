(** * Properties C89, C90: airports and fixes (openap/extra/nav.py) *)
From Coq Require Import String Ascii List Bool ZArith Lia.
From Coq Require Import FMapPositive MSetPositive.
From Coq Require Import Reals Lra Psatz.
From Interval Require Import Tactic.
From Verif Require Import Num NumFacts SpecNum Str StrFacts Py Geo GeoFacts P_Geo P_Prop3 DataNav Nav.
Import ListNotations.
Open Scope list_scope.
Open Scope R_scope.

(** ** Specification *)
(** a code or name in the file that a caller can ask for: it has no small letter and is not one of the texts
    that mean "missing" *)
Definition small_letter (c : ascii) : Prop := exists n, String.get n smalls = Some c.
Fixpoint no_small (s : string) : Prop :=
  match s with EmptyString => True | String c t => ~ small_letter c /\ no_small t end.
Definition missing_texts : list string :=
  ["NA"; "N/A"; "n/a"; "NaN"; "nan"; "-NaN"; "-nan"; "NULL"; "null"; "None"; "<NA>"; "#N/A"; "#NA"; "#N/A N/A";
   "1.#IND"; "-1.#IND"; "1.#QNAN"; "-1.#QNAN"; ""]%string.
Definition readable (s : string) : Prop := ~ In s missing_texts.
(** what a cell of the file holds once read *)
Definition reads_as (text : string) (v : option string) : Prop :=
  (readable text /\ v = Some text) \/ (~ readable text /\ v = None).
(** the file's code [code] is meant by the caller's [name] *)
Definition asks_for (name code : string) : Prop := same_text code name /\ no_small code /\ readable code.
(** [r] is the first row of [t] with property [P] *)
Definition first_with {A : Type} (P : A -> Prop) (t : list A) (r : A) : Prop :=
  exists l1 l2, t = l1 ++ r :: l2 /\ P r /\ (forall x, In x l1 -> ~ P x).
(** distance in the latitude-longitude plane, in degrees *)
Definition degrees_apart (lat lon lat' lon' : R) : R := sqrt ((lat' - lat) ^ 2 + (lon' - lon) ^ 2).
Definition in_square (h lat lon lat' lon' : R) : Prop := Rabs (lat' - lat) <= h /\ Rabs (lon' - lon) <= h.
(** distance along the sphere in metres *)
Definition along_sphere (lat lon lat' lon' : R) : R := central_angle lat lon lat' lon' * 6371000.
(** [r] has the smallest [f] among the rows of [t] with [P], and is the first such row *)
Definition first_smallest {A : Type} (P : A -> Prop) (f : A -> R) (t : list A) (r : A) : Prop :=
  exists l1 l2, t = l1 ++ r :: l2 /\ P r /\
    (forall x, In x l1 -> P x -> f r < f x) /\ (forall x, In x l2 -> P x -> f r <= f x).

(** ** Lemmas *)
Lemma mem_texts : forall s, existsb (String.eqb s) pandas_na = true <-> In s missing_texts.
Proof.
  intros s. rewrite existsb_exists. split.
  - intros (x & Hx & E). apply String.eqb_eq in E. subst x. cbn in Hx |- *. tauto.
  - intros H. exists s. split; [|apply String.eqb_refl]. cbn in H |- *. tauto.
Qed.
Lemma readable_dec : forall s, readable s \/ ~ readable s.
Proof.
  intros s. unfold readable. rewrite <- mem_texts. destruct (existsb (String.eqb s) pandas_na); [right|left]; auto; discriminate.
Qed.
Lemma cell_reads : forall s, reads_as s (cell s).
Proof.
  intros s. unfold reads_as, readable, cell. rewrite <- mem_texts.
  destruct (existsb (String.eqb s) pandas_na); [right|left]; split; auto; discriminate.
Qed.
Lemma cell_readable : forall s, readable s -> cell s = Some s.
Proof. intros s H. destruct (cell_reads s) as [[_ E]|[N _]]; [auto|contradiction]. Qed.

Definition small_b (c : ascii) : bool := existsb (fun n => match String.get n smalls with Some x => Ascii.eqb x c | None => false end) (seq 0 26).
Lemma small_b_iff : forall c, small_b c = true <-> small_letter c.
Proof.
  intros c. unfold small_b, small_letter. rewrite existsb_exists. split.
  - intros (n & _ & H). exists n. destruct (String.get n smalls); [|discriminate]. apply Ascii.eqb_eq in H. congruence.
  - intros (n & H). exists n. split; [apply in_seq; apply get_lt in H; cbn in H; lia|]. rewrite H. apply Ascii.eqb_refl.
Qed.
Lemma up1_small : forall c, (~ small_letter c) <-> up1 c = c.
Proof.
  intros c. rewrite <- small_b_iff. 
  assert (H : Bool.eqb (small_b c) (negb (Ascii.eqb (up1 c) c)) = true) by (revert c; apply all_ascii; vm_compute; reflexivity).
  apply Bool.eqb_prop in H. rewrite H. destruct (Ascii.eqb_spec (up1 c) c) as [E|E]; cbn; split; intros; auto; try discriminate; try contradiction.
Qed.
Lemma no_small_upper : forall s, no_small s <-> upper s = s.
Proof.
  induction s as [|c s IH]; cbn; [tauto|]. rewrite up1_small, IH. split.
  - intros [-> ->]; auto.
  - intros H; injection H; auto.
Qed.
Lemma cell_is_asks : forall code name, cell_is code (upper name) = true <-> asks_for name code.
Proof.
  intros code name. unfold asks_for. rewrite text_upper, no_small_upper. unfold cell_is.
  destruct (cell_reads code) as [[R E]|[N E]]; rewrite E.
  - rewrite String.eqb_eq. split; [|intuition congruence]. intros ->. rewrite upper_idem in *. auto.
  - split; [discriminate|]. intros (_ & _ & R). contradiction.
Qed.

Lemma filter_first : forall {A} (p : A -> bool) t r l, filter p t = r :: l ->
  exists l1 l2, t = l1 ++ r :: l2 /\ p r = true /\ (forall x, In x l1 -> p x = false) /\ l = filter p l2.
Proof.
  intros A p. induction t as [|x t IH]; cbn; intros r l H; [discriminate|]. destruct (p x) eqn:E.
  - injection H as <- <-. exists [], t. cbn. intuition.
  - destruct (IH _ _ H) as (l1 & l2 & -> & Hp & H1 & H2). exists (x :: l1), l2. cbn. intuition. subst; auto.
Qed.
Lemma filter_none : forall {A} (p : A -> bool) t, filter p t = [] <-> forall x, In x t -> p x = false.
Proof.
  intros A p. induction t as [|x t IH]; cbn; [intuition|]. destruct (p x) eqn:E; split; intros H; try discriminate.
  - specialize (H x (or_introl eq_refl)). congruence.
  - intros y [<-|Hy]; auto. apply IH; auto.
  - apply IH; auto.
Qed.
Lemma filter_split_first : forall {A} (p : A -> bool) l1 r l2, (forall x, In x l1 -> p x = false) -> p r = true ->
  filter p (l1 ++ r :: l2) = r :: filter p l2.
Proof.
  intros A p l1 r l2 H Hr. rewrite filter_app. cbn. rewrite Hr.
  destruct (filter_none p l1) as [_ ->]; auto.
Qed.
Lemma first_unique : forall {A} (P : A -> Prop) t r r', first_with P t r -> first_with P t r' -> r = r'.
Proof.
  intros A P t r r' (l1 & l2 & E & H & N) (m1 & m2 & E' & H' & N'). subst t. revert m1 E' N'. 
  induction l1 as [|x l1 IH]; intros [|y m1] E' N'; cbn in E'.
  - injection E'; auto.
  - injection E' as -> _. exfalso. apply (N' y); cbn; auto.
  - injection E' as -> _. exfalso. apply (N r'); cbn; auto.
  - injection E' as -> E'. apply IH with m1; auto. + intros z Hz. apply N. cbn; auto. + intros z Hz. apply N'. cbn; auto.
Qed.

(** [argmin_from] returns the first smallest *)
Lemma argmin_ok : forall {A} (lt : A -> A -> bool) (f : A -> R) l,
  forall best, (forall a b, In a (best :: l) -> In b (best :: l) -> lt a b = Rltb (f a) (f b)) ->
  exists l1 l2, best :: l = l1 ++ argmin_from lt best l :: l2 /\
    (forall x, In x l1 -> f (argmin_from lt best l) < f x) /\ (forall x, In x l2 -> f (argmin_from lt best l) <= f x).
Proof.
  intros A lt f. induction l as [|x l IH]; intros best H.
  - exists [], []. cbn. intuition.
  - cbn [argmin_from]. rewrite H by (cbn; auto). destruct (Rltb_spec (f x) (f best)) as [L|L].
    + destruct (IH x) as (l1 & l2 & E & H1 & H2). { intros; apply H; cbn in *; tauto. }
      exists (best :: l1), l2. split; [|split; auto].
      * cbn. f_equal. exact E.
      * intros y [<-|Hy]; auto. apply Rle_lt_trans with (f x); auto.
        assert (In x (l1 ++ argmin_from lt x l :: l2)) as I by (rewrite <- E; cbn; auto).
        apply in_app_or in I. destruct I as [I|[I|I]]; [left; auto|rewrite I; lra|auto].
    + destruct (IH best) as (l1 & l2 & E & H1 & H2). { intros; apply H; cbn in *; tauto. }
      apply Rnot_lt_le in L. destruct l1 as [|b l1]; cbn in E; injection E as E0 E.
      * exists [], (x :: l). rewrite <- E0. cbn. split; [auto|split; [tauto|]]. intros y [<-|Hy]; auto.
        rewrite E0. apply H2. rewrite <- E. auto.
      * subst b. exists (best :: x :: l1), l2. split; [cbn; rewrite <- E; auto|split; auto].
        intros y [<-|[<-|Hy]]; [apply H1; cbn; auto| |apply H1; cbn; auto].
        apply Rlt_le_trans with (f best); auto. apply H1; cbn; auto.
Qed.
Lemma filter_cut : forall {A} (p : A -> bool) t l1 r l2, filter p t = l1 ++ r :: l2 ->
  exists m1 m2, t = m1 ++ r :: m2 /\ filter p m1 = l1 /\ filter p m2 = l2 /\ p r = true.
Proof.
  intros A p. induction t as [|x t IH]; cbn; intros l1 r l2 H; [destruct l1; discriminate|].
  destruct (p x) eqn:E.
  - destruct l1 as [|y l1]; cbn in H; injection H as -> H.
    + exists [], t. cbn. auto.
    + destruct (IH _ _ _ H) as (m1 & m2 & -> & H1 & H2 & H3). exists (y :: m1), m2. cbn. rewrite E, H1. auto.
  - destruct (IH _ _ _ H) as (m1 & m2 & -> & H1 & H2 & H3). exists (x :: m1), m2. cbn. rewrite E. auto.
Qed.
Lemma argmin_filter : forall {A} (p : A -> bool) (lt : A -> A -> bool) (f : A -> R) t r l,
  filter p t = r :: l -> (forall a b, lt a b = Rltb (f a) (f b)) ->
  first_smallest (fun x => p x = true) f t (argmin_from lt r l).
Proof.
  intros A p lt f t r l E H. destruct (argmin_ok lt f l r) as (l1 & l2 & E' & H1 & H2); [intros; apply H|].
  rewrite E' in E. destruct (filter_cut _ _ _ _ _ E) as (m1 & m2 & -> & F1 & F2 & F3). exists m1, m2.
  split; [auto|split; [auto|split]].
  - intros x Hx Px. apply H1. rewrite <- F1. apply filter_In; auto.
  - intros x Hx Px. apply H2. rewrite <- F2. apply filter_In; auto.
Qed.
Lemma smallest_unique : forall {A} (P : A -> Prop) f (t : list A) r r', first_smallest P f t r -> first_smallest P f t r' -> r = r'.
Proof.
  intros A P f t r r' (l1 & l2 & E & H & L & G) (m1 & m2 & E' & H' & L' & G'). subst t. 
  assert (T : (exists u, m1 = l1 ++ r :: u) \/ (l1 = m1 /\ r = r') \/ (exists u, l1 = m1 ++ r' :: u)).
  { clear - E'. revert m1 E'. induction l1 as [|x l1 IH]; intros [|y m1] E'; cbn in E'.
    - injection E'; auto. 
    - injection E' as -> E'. left. exists m1. auto.
    - injection E' as -> E'. right; right. exists l1. auto.
    - injection E' as -> E'. destruct (IH _ E') as [[u ->]|[[-> ->]|[u ->]]]; [left; exists u; auto|right; left; auto|right; right; exists u; auto]. }
  destruct T as [[u ->]|[[_ ->]|[u ->]]]; auto; exfalso.
  - specialize (L' r). rewrite in_app_iff in L'. cbn in L'. specialize (L' (or_intror (or_introl eq_refl)) H).
    assert (I : In r' l2). { rewrite <- app_assoc in E'. apply app_inv_head in E'. cbn in E'. injection E' as ->. apply in_or_app; cbn; auto. }
    specialize (G _ I H'). lra.
  - specialize (L r'). rewrite in_app_iff in L. cbn in L. specialize (L (or_intror (or_introl eq_refl)) H').
    assert (I : In r m2). { rewrite <- app_assoc in E'. apply app_inv_head in E'. cbn in E'. injection E' as <-. apply in_or_app; cbn; auto. }
    specialize (G' _ I H). lra.
Qed.

Lemma between_iff : forall x c h, between x (c - h) (c + h) = true <-> Rabs (x - c) <= h.
Proof.
  intros x c h. unfold between. destruct (Rleb_spec (c - h) x), (Rleb_spec x (c + h)); cbn; split; intros H; try discriminate; auto.
  - apply Rabs_le. lra.
  - exfalso. apply n. pose proof (Rle_abs (x - c)). lra.
  - exfalso. apply n. pose proof (Rle_abs (- (x - c))). rewrite Rabs_Ropp in H0. lra.
  - exfalso. apply n0. pose proof (Rle_abs (x - c)). lra.
Qed.
Lemma apt_box_iff : forall lat lon r, apt_box lat lon r = true <-> in_square 2 lat lon (a_lat r) (a_lon r).
Proof. intros. unfold apt_box, in_square. rewrite andb_true_iff, !between_iff. tauto. Qed.
Lemma fix_box_iff : forall lat lon r, fix_box lat lon r = true <-> in_square 1 lat lon (f_lat r) (f_lon r).
Proof. intros. unfold fix_box, in_square. rewrite andb_true_iff, !between_iff. tauto. Qed.

Lemma smallest_ext : forall {A} (P Q : A -> Prop) f g t r, (forall x, P x <-> Q x) ->
  (forall x y, f x < f y <-> g x < g y) -> first_smallest P f t r -> first_smallest Q g t r.
Proof.
  intros A P Q f g t r HP HF (l1 & l2 & E & H & L & G). exists l1, l2. split; [auto|split; [apply HP, H|split]].
  - intros x I Qx. apply HF, L; auto. apply HP; auto.
  - intros x I Qx. apply Rnot_lt_le. intros N. apply HF in N. apply HP in Qx. specialize (G _ I Qx). lra.
Qed.
Lemma sqrt_lt_iff : forall x y, 0 <= x -> 0 <= y -> (x < y <-> sqrt x < sqrt y).
Proof.
  intros x y Hx Hy. split; intros H. - apply sqrt_lt_1; auto. - apply sqrt_lt_0; auto.
Qed.

(** ** C89: airports *)
(** [i] describes row [r] *)
Definition describes (i : apt_info) (r : apt_row) : Prop :=
  reads_as (a_icao r) (i_icao i) /\ i_lat i = a_lat r /\ i_lon i = a_lon r /\ i_alt i = a_alt r /\
  reads_as (a_country r) (i_country i).
Lemma dict_describes : forall r, describes (apt_dict r) r.
Proof. intros r. unfold describes. cbn. pose proof (cell_reads (a_icao r)). pose proof (cell_reads (a_country r)). tauto. Qed.
Lemma reads_fun : forall s a b, reads_as s a -> reads_as s b -> a = b.
Proof. intros s a b [[? ?]|[? ?]] [[? ?]|[? ?]]; try contradiction; congruence. Qed.
Lemma describes_fun : forall i j r, describes i r -> describes j r -> i = j.
Proof.
  intros [] [] r (A & B & C & D & E) (A' & B' & C' & D' & E'). cbn in *. f_equal; try congruence; eapply reads_fun; eauto.
Qed.

Theorem C89_airport_lookup : forall t name i,
  airport t name = Some i <-> exists r, first_with (fun r => asks_for name (a_icao r)) t r /\ describes i r.
Proof.
  intros t name i. unfold airport. cbv zeta.
  destruct (filter (fun r => cell_is (a_icao r) (upper name)) t) as [|r l] eqn:E.
  - split; [discriminate|]. intros (r & (l1 & l2 & -> & H & _) & _). exfalso.
    destruct (filter_none (fun r => cell_is (a_icao r) (upper name)) (l1 ++ r :: l2)) as [Q _].
    specialize (Q E r). apply cell_is_asks in H. rewrite H in Q. assert (true = false) by (apply Q, in_or_app; cbn; auto). discriminate.
  - destruct (filter_first _ _ _ _ E) as (l1 & l2 & -> & Hp & H1 & _).
    assert (F : first_with (fun r => asks_for name (a_icao r)) (l1 ++ r :: l2) r).
    { exists l1, l2. split; [auto|split; [apply cell_is_asks, Hp|]]. intros x I Q. apply cell_is_asks in Q. rewrite H1 in Q by auto. discriminate. }
    split.
    + intros H. injection H as <-. exists r. split; auto. apply dict_describes.
    + intros (r' & F' & D). pose proof (first_unique _ _ _ _ F F'). subst r'. f_equal. eapply describes_fun; eauto. apply dict_describes.
Qed.

Theorem C89_airport_unknown : forall t name,
  airport t name = None <-> forall r, In r t -> ~ asks_for name (a_icao r).
Proof.
  intros t name. unfold airport. cbv zeta.
  pose proof (filter_none (fun r => cell_is (a_icao r) (upper name)) t) as Q.
  destruct (filter (fun r => cell_is (a_icao r) (upper name)) t) as [|r l].
  - split; auto. intros _ r I A. apply cell_is_asks in A. destruct Q as [Q _]. specialize (Q eq_refl r I). cbn beta in Q. rewrite A in Q. discriminate Q.
  - split; [discriminate|]. intros H. destruct Q as [_ Q]. assert (Z : r :: l = []); [apply Q|discriminate Z].
    intros x I. destruct (cell_is (a_icao x) (upper name)) eqn:E; auto. apply cell_is_asks in E. destruct (H x I E).
Qed.

Theorem C89_airport_any_case : forall t name name', same_text name name' -> airport t name = airport t name'.
Proof. intros t name name' H. apply text_upper in H. unfold airport. rewrite H. auto. Qed.

(** the shipped table: the codes are four capital letters or digits, in strictly increasing order *)
Definition code_z (s : string) : Z := fold_left (fun z c => z * 256 + Z.of_nat (nat_of_ascii c))%Z (list_ascii_of_string s) 0%Z.
Fixpoint increasing (z : Z) (l : list apt) : bool :=
  match l with [] => true | (i, _, _, _, _) :: t => (z <? code_z i)%Z && increasing (code_z i) t end.
Definition icao_of (x : apt) : string := let '(i, _, _, _, _) := x in i.
Lemma increasing_ok : forall l z, increasing z l = true -> forall x, In x l -> (z < code_z (icao_of x))%Z.
Proof.
  induction l as [|[[[[i la] lo] al] c] l IH]; cbn; intros z H x I; [destruct I|].
  apply andb_prop in H. destruct H as [H1 H2]. apply Z.ltb_lt in H1. destruct I as [<-|I]; auto.
  specialize (IH _ H2 _ I). lia.
Qed.
Lemma increasing_split : forall l1 x l2 z, increasing z (l1 ++ x :: l2) = true -> forall y, In y l1 -> icao_of y <> icao_of x.
Proof.
  induction l1 as [|[[[[i la] lo] al] c] l1 IH]; cbn -[icao_of]; intros x l2 z H y I; [destruct I|].
  apply andb_prop in H. destruct H as [H1 H2]. destruct I as [<-|I]; [|eapply IH; eauto].
  assert (J : In x (l1 ++ x :: l2)) by (apply in_or_app; cbn; auto).
  pose proof (increasing_ok _ _ H2 _ J). cbn. intros E. rewrite E in H at 1. lia.
Qed.
Definition ok_codes : bool := forallb (fun x => String.eqb (upper (icao_of x)) (icao_of x) && match cell (icao_of x) with Some _ => true | None => false end) apts.
Lemma shipped_increasing : increasing 0 apts = true. Proof. vm_compute. reflexivity. Qed.
Lemma shipped_codes : ok_codes = true. Proof. vm_compute. reflexivity. Qed.
Definition country_of (x : apt) : string := let '(_, _, _, _, c) := x in c.
Definition ok_countries : bool := forallb (fun x => String.eqb (country_of x) "NA" || match cell (country_of x) with Some _ => true | None => false end) apts.
Lemma shipped_countries : ok_countries = true. Proof. vm_compute. reflexivity. Qed.

Opaque apts.

Theorem C89_shipped_airports_are_found : forall r name, In r shipped_airports -> same_text name (a_icao r) ->
  exists i, airport shipped_airports name = Some i /\
    i_icao i = Some (a_icao r) /\ i_lat i = a_lat r /\ i_lon i = a_lon r /\ i_alt i = a_alt r /\
    (a_country r <> "NA"%string -> i_country i = Some (a_country r)) /\
    (a_country r = "NA"%string -> i_country i = None).
Proof.
  intros r name I S. unfold shipped_airports in *. apply in_map_iff in I. destruct I as (x & <- & I).
  assert (A : asks_for name (icao_of x)).
  { pose proof shipped_codes as C. unfold ok_codes in C. rewrite forallb_forall in C. specialize (C x I).
    apply andb_prop in C. destruct C as [C1 C2]. apply String.eqb_eq in C1. split; [|split].
    - apply text_upper. apply text_upper in S. rewrite S. destruct x as [[[[? ?] ?] ?] ?]. auto.
    - apply no_small_upper, C1.
    - destruct (cell_reads (icao_of x)) as [[R _]|[_ E]]; auto. rewrite E in C2. discriminate. }
  assert (F : first_with (fun r => asks_for name (a_icao r)) (map apt_of apts) (apt_of x)).
  { destruct (in_split _ _ I) as (l1 & l2 & E). exists (map apt_of l1), (map apt_of l2). split; [|split].
    - rewrite E, map_app. auto.
    - destruct x as [[[[? ?] ?] ?] ?]. exact A.
    - intros y Iy Ay. apply in_map_iff in Iy. destruct Iy as (y' & <- & Iy).
      pose proof shipped_increasing as Q. rewrite E in Q. apply (increasing_split _ _ _ _ Q _ Iy).
      assert (T : upper (icao_of y') = icao_of y' /\ upper (icao_of x) = icao_of x /\ upper (icao_of y') = upper (icao_of x)); [|destruct T as (T1 & T2 & T3); congruence].
      clear E Q S I. destruct y' as [[[[? ?] ?] ?] ?], x as [[[[? ?] ?] ?] ?]. cbn in A, Ay |- *. destruct A as (A1 & A2 & _), Ay as (B1 & B2 & _).
      apply text_upper in A1, B1. apply no_small_upper in A2, B2. split; [|split]; auto. congruence. }
  exists (apt_dict (apt_of x)). split; [apply C89_airport_lookup; exists (apt_of x); split; [exact F|apply dict_describes]|].
  pose proof shipped_countries as C. unfold ok_countries in C. rewrite forallb_forall in C. specialize (C x I).
  destruct A as (_ & _ & R). clear F S. destruct x as [[[[i la] lo] al] c]. cbn in R, C |- *. rewrite (cell_readable i) by auto.
  split; [auto|split; [auto|split; [auto|split; [auto|split]]]].
  - intros N. destruct (String.eqb_spec c "NA"); [contradiction|]. cbn in C.
    destruct (cell_reads c) as [[_ E]|[_ E]]; rewrite E in *; [auto|discriminate].
  - intros ->. reflexivity.
Qed.

(** the documentation promises country information; Namibia's code is "NA" *)
Theorem C89_country_refuted :
  ~ (forall r, In r shipped_airports -> exists i, airport shipped_airports (a_icao r) = Some i /\ i_country i = Some (a_country r)).
Proof.
  intros H. pose (w := ("FYWH"%string,(-2248976)%Z,(1744954)%Z,(5640)%Z,"NA"%string) : apt).
  assert (I : In (apt_of w) shipped_airports).
  { unfold shipped_airports. apply in_map. apply nth_error_In with 2154%nat. vm_compute. reflexivity. }
  destruct (H _ I) as (i & E & C).
  destruct (C89_shipped_airports_are_found _ (a_icao (apt_of w)) I) as (j & E' & _ & _ & _ & _ & _ & N).
  - apply text_upper; auto.
  - rewrite E in E'. injection E' as <-. rewrite N in C by reflexivity. discriminate.
Qed.

Lemma closest_airport_cases : forall t lat lon,
  (closest_airport t lat lon = None /\ forall r, In r t -> ~ in_square 2 lat lon (a_lat r) (a_lon r)) \/
  (exists r, first_smallest (fun r => in_square 2 lat lon (a_lat r) (a_lon r)) (fun r => degrees_apart lat lon (a_lat r) (a_lon r)) t r /\
     closest_airport t lat lon = Some (cell (a_icao r))).
Proof.
  intros t lat lon. unfold closest_airport. destruct (filter (apt_box lat lon) t) as [|r l] eqn:E.
  - left. split; auto. intros r I N. apply apt_box_iff in N. destruct (filter_none (apt_box lat lon) t) as [Q _]. rewrite (Q E) in N by auto. discriminate.
  - right. eexists. split; [|reflexivity].
    apply (smallest_ext (fun r => apt_box lat lon r = true) _ (dist2 lat lon));
      [intros x; apply apt_box_iff| |apply argmin_filter; [exact E|intros; reflexivity]].
    intros x y. unfold degrees_apart, dist2. apply sqrt_lt_iff; apply Rplus_le_le_0_compat; apply pow2_ge_0.
Qed.

Theorem C89_closest_airport_none : forall t lat lon,
  closest_airport t lat lon = None <-> forall r, In r t -> ~ in_square 2 lat lon (a_lat r) (a_lon r).
Proof.
  intros t lat lon. destruct (closest_airport_cases t lat lon) as [[E N]|(r & (l1 & l2 & Et & P & _) & E)]; rewrite E.
  - split; auto.
  - split; [discriminate|]. intros N. exfalso. apply (N r); auto. subst t. apply in_or_app; cbn; auto.
Qed.

Theorem C89_closest_airport : forall t lat lon c,
  closest_airport t lat lon = Some c <->
  exists r, reads_as (a_icao r) c /\
    first_smallest (fun r => in_square 2 lat lon (a_lat r) (a_lon r)) (fun r => degrees_apart lat lon (a_lat r) (a_lon r)) t r.
Proof.
  intros t lat lon c. destruct (closest_airport_cases t lat lon) as [[E N]|(r & F & E)]; rewrite E.
  - split; [discriminate|]. intros (r & _ & (l1 & l2 & -> & P & _)). exfalso. apply (N r); auto. apply in_or_app; cbn; auto.
  - split.
    + intros H. injection H as <-. exists r. split; [apply cell_reads|exact F].
    + intros (r' & C & F'). pose proof (smallest_unique _ _ _ _ _ F F'). subst r'. f_equal. eapply reads_fun; eauto. apply cell_reads.
Qed.

Lemma degrees_lat : forall lat lon a b, Rabs (a - lat) <= degrees_apart lat lon a b.
Proof.
  intros. unfold degrees_apart. rewrite <- sqrt_Rsqr_abs. apply sqrt_le_1_alt. rewrite !Rsqr_pow2. pose proof (pow2_ge_0 (a - lat)); pose proof (pow2_ge_0 (b - lon)); lra.
Qed.
Lemma degrees_lon : forall lat lon a b, Rabs (b - lon) <= degrees_apart lat lon a b.
Proof.
  intros. unfold degrees_apart. rewrite <- sqrt_Rsqr_abs. apply sqrt_le_1_alt. rewrite !Rsqr_pow2. pose proof (pow2_ge_0 (a - lat)); pose proof (pow2_ge_0 (b - lon)); lra.
Qed.

(** an answer at most two degrees away is the nearest of the whole table in the latitude-longitude plane *)
Theorem C89_closest_of_the_whole_table : forall t lat lon r,
  first_smallest (fun _ => True) (fun r => degrees_apart lat lon (a_lat r) (a_lon r)) t r ->
  degrees_apart lat lon (a_lat r) (a_lon r) <= 2 -> readable (a_icao r) ->
  closest_airport t lat lon = Some (Some (a_icao r)).
Proof.
  intros t lat lon r (l1 & l2 & E & _ & L & G) D R. apply C89_closest_airport. exists r. split; [left; auto|].
  exists l1, l2. split; [auto|split; [|split]].
  - split; eapply Rle_trans; try exact D. + apply degrees_lat. + apply degrees_lon.
  - intros x I _. apply L; auto.
  - intros x I _. apply G; auto.
Qed.

(** asked at an airport, the answer is that airport *)
Lemma apart_self : forall a b, degrees_apart a b a b = 0.
Proof. intros. unfold degrees_apart. rewrite !Rminus_diag_eq, !pow_i, Rplus_0_l by (auto; lia). apply sqrt_0. Qed.
Lemma apart_pos : forall a b c d, a <> c \/ b <> d -> 0 < degrees_apart a b c d.
Proof.
  intros a b c d H. unfold degrees_apart. apply sqrt_lt_R0.
  pose proof (pow2_ge_0 (c - a)). pose proof (pow2_ge_0 (d - b)).
  destruct H as [H|H]; [assert (0 < (c - a) ^ 2)|assert (0 < (d - b) ^ 2)]; try lra;
  rewrite <- Rsqr_pow2; apply Rsqr_pos_lt; lra.
Qed.
Lemma closest_at : forall t l1 r l2, t = l1 ++ r :: l2 -> readable (a_icao r) ->
  (forall x, In x l1 -> a_lat x <> a_lat r \/ a_lon x <> a_lon r) ->
  closest_airport t (a_lat r) (a_lon r) = Some (Some (a_icao r)).
Proof.
  intros t l1 r l2 E R N. apply C89_closest_of_the_whole_table; auto.
  - exists l1, l2. split; [auto|split; [auto|split]]; intros x I _; rewrite apart_self.
    + apply apart_pos. destruct (N x I); [left|right]; auto.
    + apply sqrt_pos.
  - rewrite apart_self. lra.
Qed.

Definition pos_key (x : apt) : positive := let '(_, la, lo, _, _) := x in Z.to_pos ((la + 9000000) * 100000000 + (lo + 18000000) + 1).
Definition key_ok (x : apt) : bool :=
  let '(_, la, lo, _, _) := x in (Z.abs la <=? 9000000)%Z && (Z.abs lo <=? 18000000)%Z.
Fixpoint new_keys (ex : list string) (s : PositiveSet.t) (l : list apt) : bool :=
  match l with
  | [] => true
  | x :: t => (existsb (String.eqb (icao_of x)) ex || negb (PositiveSet.mem (pos_key x) s)) && key_ok x && new_keys ex (PositiveSet.add (pos_key x) s) t
  end.
Lemma new_keys_ok : forall ex l s, new_keys ex s l = true ->
  (forall x, In x l -> key_ok x = true) /\
  (forall l1 x l2, l = l1 ++ x :: l2 -> existsb (String.eqb (icao_of x)) ex = false ->
     PositiveSet.mem (pos_key x) s = false /\ forall y, In y l1 -> pos_key y <> pos_key x).
Proof.
  induction l as [|a l IH]; cbn; intros s H.
  - split; [tauto|]. intros [|? ?] x l2 E; discriminate.
  - apply andb_prop in H. destruct H as [H H3]. apply andb_prop in H. destruct H as [H1 H2].
    destruct (IH _ H3) as [K1 K2]. split; [intros x [<-|I]; auto|].
    intros [|b l1] x l2 E X; cbn in E; injection E as -> E.
    + rewrite X in H1. cbn in H1. apply negb_true_iff in H1. split; [auto|cbn; tauto].
    + destruct (K2 _ _ _ E X) as [M D]. 
      assert (NE : pos_key b <> pos_key x).
      { intros Q. rewrite Q in M. assert (PositiveSet.mem (pos_key x) (PositiveSet.add (pos_key x) s) = true) by (apply PositiveSet.mem_spec, PositiveSet.add_spec; auto). congruence. }
      split; [|intros y [<-|I]; auto].
      destruct (PositiveSet.mem (pos_key x) s) eqn:M'; auto. apply PositiveSet.mem_spec in M'.
      assert (PositiveSet.mem (pos_key x) (PositiveSet.add (pos_key b) s) = true) by (apply PositiveSet.mem_spec, PositiveSet.add_spec; auto). congruence.
Qed.
Lemma key_inj : forall x y, key_ok x = true -> key_ok y = true -> pos_key x <> pos_key y ->
  a_lat (apt_of x) <> a_lat (apt_of y) \/ a_lon (apt_of x) <> a_lon (apt_of y).
Proof.
  intros [[[[? la] lo] ?] ?] [[[[? la'] lo'] ?] ?] _ _ N. cbn in *.
  destruct (Z.eq_dec la la') as [->|E].
  - right. intros Q. apply N. assert (IZR lo = IZR lo') by lra. apply eq_IZR in H. subst. auto.
  - left. intros Q. assert (IZR la = IZR la') by lra. apply eq_IZR in H. auto.
Qed.
Lemma shipped_places : new_keys ["SJJX"; "SNNF"]%string PositiveSet.empty apts = true. Proof. vm_compute. reflexivity. Qed.

(** the two exceptions share their position with another airport, which comes first *)
Theorem C89_closest_at_every_airport : forall r, In r shipped_airports ->
  a_icao r <> "SJJX"%string -> a_icao r <> "SNNF"%string ->
  closest_airport shipped_airports (a_lat r) (a_lon r) = Some (Some (a_icao r)).
Proof.
  intros r I N1 N2. unfold shipped_airports in *. apply in_map_iff in I. destruct I as (x & <- & I).
  destruct (in_split _ _ I) as (l1 & l2 & E).
  destruct (new_keys_ok _ _ _ shipped_places) as [K1 K2].
  assert (X : existsb (String.eqb (icao_of x)) ["SJJX"; "SNNF"]%string = false).
  { destruct x as [[[[i ?] ?] ?] ?]. cbn in N1, N2 |- *. apply String.eqb_neq in N1, N2. rewrite N1, N2. auto. }
  destruct (K2 _ _ _ E X) as [_ D].
  apply closest_at with (map apt_of l1) (map apt_of l2).
  - rewrite E, map_app. auto.
  - pose proof shipped_codes as C. unfold ok_codes in C. rewrite forallb_forall in C. specialize (C x I).
    apply andb_prop in C. destruct C as [_ C]. destruct x as [[[[i ?] ?] ?] ?]. cbn in *.
    destruct (cell_reads i) as [[R _]|[_ Q]]; auto. rewrite Q in C. discriminate.
  - intros y Iy. apply in_map_iff in Iy. destruct Iy as (y' & <- & Iy). apply key_inj; auto.
    apply K1. rewrite E. apply in_or_app; auto.
Qed.

(** the same computation on the integers of the file, for places given in units of 1e-5 degree *)
Definition boxZ (a b : Z) (x : apt) : bool :=
  let '(_, la, lo, _, _) := x in (Z.abs (la - a) <=? 200000)%Z && (Z.abs (lo - b) <=? 200000)%Z.
Definition d2Z (a b : Z) (x : apt) : Z := let '(_, la, lo, _, _) := x in ((la - a) ^ 2 + (lo - b) ^ 2)%Z.
Definition closestZ (a b : Z) : option string :=
  match filter (boxZ a b) apts with
  | [] => None
  | r :: l => Some (icao_of (argmin_from (fun x y => (d2Z a b x <? d2Z a b y)%Z) r l))
  end.
Lemma filter_map_comm : forall {A B} (f : A -> B) (p : B -> bool) (q : A -> bool) l, (forall x, p (f x) = q x) ->
  filter p (map f l) = map f (filter q l).
Proof. intros A B f p q l H. induction l as [|x l IH]; cbn; auto. rewrite H, IH. destruct (q x); auto. Qed.
Lemma argmin_map : forall {A B} (f : A -> B) lt lt', (forall x y, lt (f x) (f y) = lt' x y) ->
  forall l r, argmin_from lt (f r) (map f l) = f (argmin_from lt' r l).
Proof.
  intros A B f lt lt' H. induction l as [|x l IH]; cbn; intros r; auto. rewrite H.
  destruct (lt' x r); auto.
Qed.
Lemma abs_units : forall a b k : Z, Rabs (IZR a / 100000 - IZR b / 100000) <= IZR k / 100000 <-> (Z.abs (a - b) <= k)%Z.
Proof.
  intros a b k. replace (IZR a / 100000 - IZR b / 100000) with (IZR (a - b) * / 100000) by (rewrite minus_IZR; field).
  rewrite Rabs_mult, (Rabs_pos_eq (/ 100000)) by lra. rewrite <- abs_IZR. split; intros H.
  - apply le_IZR. apply Rmult_le_reg_r with (/ 100000); [lra|exact H].
  - apply IZR_le in H. unfold Rdiv. apply Rmult_le_compat_r; lra.
Qed.
Lemma closestZ_ok : forall a b,
  closest_airport shipped_airports (IZR a / 100000) (IZR b / 100000) =
  match closestZ a b with Some s => Some (cell s) | None => None end.
Proof.
  intros a b. unfold closest_airport, closestZ, shipped_airports.
  rewrite (filter_map_comm apt_of _ (boxZ a b)).
  - destruct (filter (boxZ a b) apts) as [|r l]; cbn [map]; auto.
    rewrite (argmin_map apt_of _ (fun x y => (d2Z a b x <? d2Z a b y)%Z)).
    + generalize (argmin_from (fun x y => (d2Z a b x <? d2Z a b y)%Z) r l). intros [[[[? ?] ?] ?] ?]. auto.
    + intros [[[[? la] lo] ?] ?] [[[[? la'] lo'] ?] ?]. unfold dist2, d2Z. cbn [apt_of a_lat a_lon].
      assert (E : forall u v, (IZR u / 100000 - IZR a / 100000) ^ 2 + (IZR v / 100000 - IZR b / 100000) ^ 2
        = IZR ((u - a) ^ 2 + (v - b) ^ 2) * / 10000000000).
      { intros. rewrite plus_IZR, !Z.pow_2_r, !mult_IZR, !minus_IZR. field. }
      rewrite !E. generalize ((la - a) ^ 2 + (lo - b) ^ 2)%Z, ((la' - a) ^ 2 + (lo' - b) ^ 2)%Z. intros u v.
      destruct (Z.ltb_spec u v) as [H|H]; [apply Rltb_true; apply IZR_lt in H|apply Rltb_false; apply IZR_le in H]; lra.
  - intros [[[[i la] lo] al] c]. unfold boxZ. apply Bool.eq_iff_eq_true. rewrite apt_box_iff. unfold in_square. cbn [apt_of a_lat a_lon].
    rewrite andb_true_iff, !Z.leb_le, <- !abs_units. replace (IZR 200000 / 100000) with 2 by lra. tauto.
Qed.

(** the answer is not always the nearest airport on the sphere *)
Lemma acos_lt : forall x y, -1 <= x -> y <= 1 -> x < y -> acos y < acos x.
Proof.
  intros x y Hx Hy H. destruct (Rlt_dec (acos y) (acos x)) as [|N]; auto. exfalso.
  pose proof (acos_range x). pose proof (acos_range y).
  assert (cos (acos y) <= cos (acos x)) by (apply cos_decr_1; lra). rewrite !cos_acos in H2 by lra. lra.
Qed.
Lemma sphere_lt : forall lat lon a b c d,
  dotp (rad lat) (rad lon) (rad c) (rad d) < dotp (rad lat) (rad lon) (rad a) (rad b) ->
  along_sphere lat lon a b < along_sphere lat lon c d.
Proof.
  intros. unfold along_sphere. rewrite !central_ang. unfold ang.
  apply Rmult_lt_compat_r; [lra|]. apply acos_lt; auto; apply dotp_range.
Qed.
Theorem C89_nearest_on_the_sphere_refuted :
  ~ (forall lat lon r r', In r shipped_airports -> In r' shipped_airports ->
       closest_airport shipped_airports lat lon = Some (Some (a_icao r)) ->
       along_sphere lat lon (a_lat r) (a_lon r) <= along_sphere lat lon (a_lat r') (a_lon r')).
Proof.
  intros H. pose (w := ("BIMK"%string, 6371436%Z, (-1988933)%Z, 0%Z, ""%string) : apt).
  assert (I : exists x, In x apts /\ icao_of x = "BIMK"%string /\ a_lat (apt_of x) = IZR 6371436 / 100000 /\ a_lon (apt_of x) = IZR (-1988933) / 100000).
  { destruct (nth_error apts 109) as [x|] eqn:E; [|exfalso; revert E; vm_compute; discriminate].
    exists x. split; [eapply nth_error_In; exact E|]. revert E. vm_compute (nth_error apts 109). intros E. injection E as <-. cbn. auto. }
  assert (J : exists x, In x apts /\ a_lat (apt_of x) = IZR 6384910 / 100000 /\ a_lon (apt_of x) = IZR (-2027861) / 100000).
  { destruct (nth_error apts 83) as [x|] eqn:E; [|exfalso; revert E; vm_compute; discriminate].
    exists x. split; [eapply nth_error_In; exact E|]. revert E. vm_compute (nth_error apts 83). intros E. injection E as <-. cbn. auto. }
  destruct I as (x & Ix & Nx & Lx & Mx). destruct J as (y & Iy & Ly & My).
  specialize (H (IZR 6400000 / 100000) (IZR (-2000000) / 100000) (apt_of x) (apt_of y)).
  apply Rle_not_lt in H.
  - apply H. apply sphere_lt. rewrite Lx, Mx, Ly, My. unfold dotp, rad. interval.
  - apply in_map; auto.
  - apply in_map; auto.
  - rewrite closestZ_ok. assert (E : closestZ 6400000 (-2000000) = Some "BIMK"%string) by (vm_compute; reflexivity). rewrite E.
    destruct x as [[[[i ?] ?] ?] ?]. cbn in *. subst i. reflexivity.
Qed.

(** longitudes 180 and -180 are the same meridian; the answers differ *)
Theorem C89_longitude_wrap_refuted :
  ~ (forall lat lon, closest_airport shipped_airports lat (lon + 360) = closest_airport shipped_airports lat lon).
Proof.
  intros H. specialize (H (IZR (-852909) / 100000) (IZR (-18000000) / 100000)).
  replace (IZR (-18000000) / 100000 + 360) with (IZR 18000000 / 100000) in H by lra. rewrite !closestZ_ok in H.
  assert (E : closestZ (-852909) 18000000 = Some "NGFU"%string) by (vm_compute; reflexivity).
  assert (E' : closestZ (-852909) (-18000000) = None) by (vm_compute; reflexivity).
  rewrite E, E' in H. discriminate H.
Qed.

Example C89_ex :
  (exists i, airport shipped_airports "eham" = Some i /\ i_icao i = Some "EHAM"%string) /\
  closest_airport shipped_airports 52 4.5 = Some (Some "EHRD"%string).
Proof.
  split.
  - assert (I : exists x, In x apts /\ icao_of x = "EHAM"%string).
    { assert (F : existsb (fun x => String.eqb (icao_of x) "EHAM") apts = true) by (vm_compute; reflexivity).
      apply existsb_exists in F. destruct F as (x & I & E). apply String.eqb_eq in E. eauto. }
    destruct I as (x & I & E). destruct (C89_shipped_airports_are_found (apt_of x) "eham") as (i & A & B & _).
    + apply in_map; auto.
    + apply text_upper. destruct x as [[[[j ?] ?] ?] ?]. cbn in *. subst. auto.
    + exists i. split; auto. rewrite B. destruct x as [[[[j ?] ?] ?] ?]. cbn in *. congruence.
  - replace 52 with (IZR 5200000 / 100000) by lra. replace 4.5 with (IZR 450000 / 100000) by lra. rewrite closestZ_ok.
    assert (E : closestZ 5200000 450000 = Some "EHRD"%string) by (vm_compute; reflexivity). rewrite E. reflexivity.
Qed.

(** ** C90: fixes *)
Theorem C90_fix_lookup : forall t name v,
  fix_named t name = inr v <->
  exists r, first_with (fun r => asks_for name (f_name r)) t r /\ v = (f_lat r, f_lon r, Some (f_name r)).
Proof.
  intros t name v. unfold fix_named. cbv zeta.
  destruct (filter (fun r => cell_is (f_name r) (upper name)) t) as [|r l] eqn:E.
  - split; [discriminate|]. intros (r & (l1 & l2 & -> & H & _) & _). exfalso.
    destruct (filter_none (fun r => cell_is (f_name r) (upper name)) (l1 ++ r :: l2)) as [Q _].
    specialize (Q E r). apply cell_is_asks in H. rewrite H in Q. assert (true = false) by (apply Q, in_or_app; cbn; auto). discriminate.
  - destruct (filter_first _ _ _ _ E) as (l1 & l2 & -> & Hp & H1 & _). apply cell_is_asks in Hp.
    assert (F : first_with (fun r => asks_for name (f_name r)) (l1 ++ r :: l2) r).
    { exists l1, l2. split; [auto|split; [auto|]]. intros x I Q. apply cell_is_asks in Q. rewrite H1 in Q by auto. discriminate. }
    unfold fix_list. destruct Hp as (_ & _ & R). rewrite (cell_readable _ R). split.
    + intros H. injection H as <-. eauto.
    + intros (r' & F' & ->). pose proof (first_unique _ _ _ _ F F'). subst r'. auto.
Qed.

Theorem C90_fix_unknown : forall t name,
  (forall r, In r t -> ~ asks_for name (f_name r)) <-> fix_named t name = inl IndexError.
Proof.
  intros t name. unfold fix_named. cbv zeta.
  pose proof (filter_none (fun r => cell_is (f_name r) (upper name)) t) as Q.
  destruct (filter (fun r => cell_is (f_name r) (upper name)) t) as [|r l].
  - split; auto. intros _ r I A. apply cell_is_asks in A. destruct Q as [Q _]. specialize (Q eq_refl r I). cbn beta in Q. rewrite A in Q. discriminate Q.
  - split; [|discriminate]. intros H. destruct Q as [_ Q]. assert (Z : r :: l = []); [apply Q|discriminate Z].
    intros x I. destruct (cell_is (f_name x) (upper name)) eqn:E; auto. apply cell_is_asks in E. destruct (H x I E).
Qed.

(** two names in the shipped file have small letters and six are "NA" (openap/data/nav/fix.dat): no name finds them *)
Theorem C90_own_name_refuted :
  ~ (forall t r, In r t -> exists v, fix_named t (f_name r) = inr v) /\
  (forall t name v, fix_named t name = inr v ->
     snd v <> Some "gagmo"%string /\ snd v <> Some "ViTEM"%string /\ snd v <> Some "NA"%string).
Proof.
  split.
  - intros H. destruct (H [mkFix 48.331749 (-72.666664) "gagmo"] _ (or_introl eq_refl)) as (v & E). discriminate E.
  - intros t name v E. apply C90_fix_lookup in E. destruct E as (r & (l1 & l2 & _ & (_ & N & R) & _) & ->). cbn [snd].
    apply no_small_upper in N. split; [|split]; intros Q; injection Q as Q; rewrite Q in *; try discriminate N.
    apply R. cbn. auto.
Qed.

Lemma fix_dist_eq : forall lat lon r, fix_dist lat lon r = Fin (along_sphere lat lon (f_lat r) (f_lon r)).
Proof.
  intros. unfold fix_dist, along_sphere. rewrite C12_distance_is_great_circle. f_equal. f_equal. lra.
Qed.
Lemma along_nonneg : forall a b c d, 0 <= along_sphere a b c d.
Proof.
  intros. unfold along_sphere. rewrite central_ang. unfold ang. pose proof (acos_range (dotp (rad a) (rad b) (rad c) (rad d))). lra.
Qed.
(** [n] is [x] rounded down *)
Definition rounded_down (x : R) (n : Z) : Prop := IZR n <= x < IZR n + 1.
Lemma trunc_down : forall x, 0 <= x -> rounded_down x (Rtrunc x).
Proof. intros x H. unfold Rtrunc. destruct (Rle_dec 0 x); [|contradiction]. apply Int_part_range. Qed.

Lemma closest_fix_cases : forall t lat lon,
  (closest_fix t lat lon = inl ValueError /\ forall r, In r t -> ~ in_square 1 lat lon (f_lat r) (f_lon r)) \/
  (exists r d v, first_smallest (fun r => in_square 1 lat lon (f_lat r) (f_lon r)) (fun r => along_sphere lat lon (f_lat r) (f_lon r)) t r /\
     rounded_down (along_sphere lat lon (f_lat r) (f_lon r)) d /\ reads_as (f_name r) v /\
     closest_fix t lat lon = inr ((f_lat r, f_lon r, v), d)).
Proof.
  intros t lat lon. unfold closest_fix. destruct (filter (fix_box lat lon) t) as [|r l] eqn:E.
  - left. split; auto. intros r I N. apply fix_box_iff in N. destruct (filter_none (fix_box lat lon) t) as [Q _]. rewrite (Q E) in N by auto. discriminate.
  - right. cbv zeta. set (b := argmin_from _ r l).
    exists b, (Rtrunc (along_sphere lat lon (f_lat b) (f_lon b))), (cell (f_name b)). split; [|split; [|split]].
    + apply (smallest_ext (fun r => fix_box lat lon r = true) _ (fun r => along_sphere lat lon (f_lat r) (f_lon r)));
        [intros x; apply fix_box_iff|tauto|]. apply argmin_filter; [exact E|].
      intros x y. rewrite !fix_dist_eq. reflexivity.
    + apply trunc_down, along_nonneg.
    + apply cell_reads.
    + rewrite fix_dist_eq. reflexivity.
Qed.

Theorem C90_closest_fix_none : forall t lat lon,
  (forall r, In r t -> ~ in_square 1 lat lon (f_lat r) (f_lon r)) <-> closest_fix t lat lon = inl ValueError.
Proof.
  intros t lat lon. destruct (closest_fix_cases t lat lon) as [[E N]|(r & d & v & (l1 & l2 & Et & P & _) & _ & _ & E)]; rewrite E.
  - split; auto.
  - split; [|discriminate]. intros N. exfalso. apply (N r); auto. subst t. apply in_or_app; cbn; auto.
Qed.

Theorem C90_closest_fix : forall t lat lon fx d,
  closest_fix t lat lon = inr (fx, d) <->
  exists r v, fx = (f_lat r, f_lon r, v) /\ reads_as (f_name r) v /\
    rounded_down (along_sphere lat lon (f_lat r) (f_lon r)) d /\
    first_smallest (fun r => in_square 1 lat lon (f_lat r) (f_lon r)) (fun r => along_sphere lat lon (f_lat r) (f_lon r)) t r.
Proof.
  intros t lat lon fx d. destruct (closest_fix_cases t lat lon) as [[E N]|(r & d' & v & F & D & V & E)]; rewrite E.
  - split; [discriminate|]. intros (r & v & _ & _ & _ & (l1 & l2 & -> & P & _)). exfalso. apply (N r); auto. apply in_or_app; cbn; auto.
  - split.
    + intros H. injection H as <- <-. exists r, v. auto.
    + intros (r' & v' & -> & V' & D' & F'). pose proof (smallest_unique _ _ _ _ _ F F'). subst r'.
      rewrite (reads_fun _ _ _ V V'). f_equal. f_equal.
      unfold rounded_down in *. assert (d' < d + 1 /\ d < d' + 1)%Z; [|lia]. split; apply lt_IZR; rewrite plus_IZR; lra.
Qed.

(** a point outside the one-degree square is at least 2 sin(0.5 deg) cos(|lat| + 1 deg) Earth radii away *)
Lemma sin2_mono : forall a x, 0 <= a <= PI / 2 -> a <= Rabs x <= PI - a -> sin a ^ 2 <= sin x ^ 2.
Proof.
  intros a x Ha Hx.
  assert (E : sin x ^ 2 = sin (Rabs x) ^ 2).
  { unfold Rabs. destruct (Rcase_abs x); auto. rewrite sin_neg. ring. }
  rewrite E. set (y := Rabs x) in *. pose proof PI_RGT_0.
  assert (0 <= sin a) by (apply sin_ge_0; lra).
  assert (sin a <= sin y).
  { destruct (Rle_dec y (PI / 2)).
    - apply sin_incr_1; lra.
    - rewrite <- (sin_PI_x y). apply sin_incr_1; lra. }
  nra.
Qed.
Lemma sin_le_x : forall x, 0 <= x -> sin x <= x.
Proof. intros x [H|<-]; [left; apply sin_lt_x; auto|rewrite sin_0; lra]. Qed.
Lemma rad_abs : forall x, Rabs (rad x) = rad (Rabs x).
Proof. intros. unfold rad. rewrite Rabs_mult, (Rabs_pos_eq (PI / 180.0)); auto. pose proof PI_RGT_0. qr. lra. Qed.
Lemma cos_abs : forall x, cos x = cos (Rabs x).
Proof. intros x. unfold Rabs. destruct (Rcase_abs x); auto. rewrite cos_neg. auto. Qed.
Lemma cos_rad_decr : forall x y, 0 <= x -> x <= y -> y <= 180 -> cos (rad y) <= cos (rad x).
Proof.
  intros x y H0 H1 H2. pose proof PI_RGT_0. assert (E : rad 180 = PI) by (unfold rad; qr; lra). assert (E0 : rad 0 = 0) by (unfold rad; ring).
  apply cos_decr_1; try (rewrite <- E; apply rad_le; lra); try (rewrite <- E0; apply rad_le; lra). apply rad_le; auto.
Qed.
Lemma outside_far : forall lat lon a b, Rabs lat <= 89 -> Rabs a <= 90 -> Rabs (b - lon) <= 359 ->
  ~ in_square 1 lat lon a b -> 111190 * cos (rad (Rabs lat + 1)) <= along_sphere lat lon a b.
Proof.
  intros lat lon a b Hl Ha Hb N. pose proof PI_RGT_0 as HPI.
  pose proof (Rabs_pos lat) as Pl.
  assert (Hc : 0 <= cos (rad (Rabs lat + 1)) <= 1).
  { split; [|apply COS_bound]. apply cos_ge_0.
    - assert (0 <= rad (Rabs lat + 1)); [|lra]. unfold rad. apply Rmult_le_pos; qr; lra.
    - replace (PI / 2) with (rad 90) by (unfold rad; qr; lra). apply rad_le. lra. }
  set (K := cos (rad (Rabs lat + 1))) in *.
  set (c := dotp (rad lat) (rad lon) (rad a) (rad b)).
  assert (Cl : K <= cos (rad lat)).
  { unfold K. rewrite (cos_abs (rad lat)), rad_abs. apply cos_rad_decr; lra. }
  assert (Ca0 : 0 <= cos (rad a)).
  { rewrite cos_abs, rad_abs. apply cos_ge_0.
    - assert (0 <= rad (Rabs a)); [|lra]. unfold rad. apply Rmult_le_pos; [apply Rabs_pos|]. qr. lra.
    - replace (PI / 2) with (rad 90) by (unfold rad; qr; lra). apply rad_le. lra. }
  set (s := sin (rad 0.5)).
  assert (Hs : 0 <= s).
  { unfold s. apply sin_ge_0; [unfold rad; apply Rmult_le_pos; qr; lra|]. replace PI with (rad 180) by (unfold rad; qr; lra). apply rad_le. qr. lra. }
  assert (Hhalf : forall x y, (rad x - rad y) / 2 = rad ((x - y) / 2)) by (intros; unfold rad; qr; field).
  assert (Hr05 : 0 <= rad 0.5 <= PI / 2) by (unfold rad; qr; lra).
  (* the haversine is at least (K s)^2 *)
  assert (HA : (K * s) ^ 2 <= (1 - c) / 2).
  { unfold c. rewrite <- hav, !Hhalf.
    assert (Sl : 0 <= sin (rad ((a - lat) / 2)) ^ 2) by apply pow2_ge_0.
    assert (So : 0 <= sin (rad ((b - lon) / 2)) ^ 2) by apply pow2_ge_0.
    destruct (Rle_dec (Rabs (a - lat)) 1) as [L|L].
    - assert (Lo : 1 < Rabs (b - lon)). { apply Rnot_le_lt. intros Q. apply N. split; auto. }
      assert (S : s ^ 2 <= sin (rad ((b - lon) / 2)) ^ 2).
      { apply sin2_mono; auto. rewrite rad_abs. unfold Rdiv. rewrite Rabs_mult, (Rabs_pos_eq (/ 2)) by lra. split.
        - apply rad_le. qr. lra.
        - replace PI with (rad 180) by (unfold rad; qr; lra). replace (rad 180 - rad 0.5) with (rad 179.5) by (unfold rad; qr; lra).
          apply rad_le. qr. lra. }
      assert (Ca : K <= cos (rad a)).
      { unfold K. rewrite (cos_abs (rad a)), rad_abs. 
        assert (Rabs a <= Rabs lat + 1). { replace a with (lat + (a - lat)) by ring. eapply Rle_trans; [apply Rabs_triang|]. lra. }
        apply cos_rad_decr; auto; [apply Rabs_pos|lra]. }
      assert (K * K <= cos (rad lat) * cos (rad a)) by (apply Rmult_le_compat; lra).
      assert (0 <= s ^ 2) by apply pow2_ge_0.
      assert (0 <= K * K) by nra.
      assert ((K * K) * s ^ 2 <= (cos (rad lat) * cos (rad a)) * sin (rad ((b - lon) / 2)) ^ 2) by (apply Rmult_le_compat; auto).
      replace ((K * s) ^ 2) with ((K * K) * s ^ 2) by ring. lra.
    - assert (S : s ^ 2 <= sin (rad ((a - lat) / 2)) ^ 2).
      { apply sin2_mono; auto. rewrite rad_abs. unfold Rdiv. rewrite Rabs_mult, (Rabs_pos_eq (/ 2)) by lra. split.
        - apply rad_le. qr. lra.
        - replace PI with (rad 180) by (unfold rad; qr; lra). replace (rad 180 - rad 0.5) with (rad 179.5) by (unfold rad; qr; lra).
          apply rad_le. assert (Rabs (a - lat) <= Rabs a + Rabs lat). { unfold Rminus. eapply Rle_trans; [apply Rabs_triang|]. rewrite Rabs_Ropp. lra. }
          qr. lra. }
      assert (0 <= cos (rad lat) * cos (rad a) * sin (rad ((b - lon) / 2)) ^ 2). { apply Rmult_le_pos; auto. apply Rmult_le_pos; lra. }
      assert ((K * s) ^ 2 <= s ^ 2). { assert (0 <= K * s <= s) by nra. nra. }
      lra. }
  (* the angle is at least twice the root of the haversine *)
  pose proof (dotp_range (rad lat) (rad lon) (rad a) (rad b)) as Rc. fold c in Rc.
  assert (HB : 2 * (K * s) <= acos c).
  { rewrite <- two_asin by auto. 
    assert (R1 : K * s <= sqrt ((1 - c) / 2)).
    { rewrite <- (sqrt_pow2 (K * s)) by nra. apply sqrt_le_1_alt. exact HA. }
    set (q := sqrt ((1 - c) / 2)) in *.
    assert (0 <= q <= 1). { split; [apply sqrt_pos|]. rewrite <- sqrt_1. apply sqrt_le_1_alt. lra. }
    assert (Aq : 0 <= asin q).
    { pose proof (asin_bound q). destruct (Rle_dec 0 (asin q)); auto. exfalso.
      assert (sin (asin q) < 0) by (apply sin_lt_0_var; lra). rewrite sin_asin in H1 by lra. lra. }
    pose proof (sin_le_x _ Aq) as Q. rewrite sin_asin in Q by lra. lra. }
  unfold along_sphere. rewrite central_ang. unfold ang. fold c.
  assert (HS : 111190 <= 2 * s * 6371000). { unfold s, rad. interval. }
  nra.
Qed.

(** an answer within 111.19 km times cos(|latitude| + 1 degree) is the nearest fix of the whole table *)
Theorem C90_nearest_of_the_whole_table : forall t lat lon fx d,
  Rabs lat <= 89 -> (forall r, In r t -> Rabs (f_lat r) <= 90 /\ Rabs (f_lon r - lon) <= 359) ->
  closest_fix t lat lon = inr (fx, d) -> IZR d + 1 <= 111190 * cos (radians (Rabs lat + 1)) ->
  exists r v, In r t /\ fx = (f_lat r, f_lon r, v) /\ reads_as (f_name r) v /\
    forall r', In r' t -> along_sphere lat lon (f_lat r) (f_lon r) <= along_sphere lat lon (f_lat r') (f_lon r').
Proof.
  intros t lat lon fx d Hl Ht E Hd. apply C90_closest_fix in E. destruct E as (r & v & -> & V & D & (l1 & l2 & Et & P & L & G)).
  exists r, v. split; [subst t; apply in_or_app; cbn; auto|split; [auto|split; [auto|]]].
  intros r' I. rewrite radians_rad in Hd. unfold rounded_down in D.
  assert (S : in_square 1 lat lon (f_lat r') (f_lon r') \/ ~ in_square 1 lat lon (f_lat r') (f_lon r')).
  { unfold in_square. destruct (Rle_dec (Rabs (f_lat r' - lat)) 1), (Rle_dec (Rabs (f_lon r' - lon)) 1); tauto. }
  destruct S as [S|S].
  - rewrite Et in I. apply in_app_or in I. destruct I as [I|[<-|I]]; [left; auto|lra|auto].
  - destruct (Ht r' I) as [H1 H2]. pose proof (outside_far lat lon (f_lat r') (f_lon r') Hl H1 H2 S). lra.
Qed.

(** at a fix the answer is a fix at distance 0 *)
Theorem C90_at_a_fix : forall t r, In r t -> exists fx, closest_fix t (f_lat r) (f_lon r) = inr (fx, 0%Z).
Proof.
  intros t r I. assert (Z0 : along_sphere (f_lat r) (f_lon r) (f_lat r) (f_lon r) = 0).
  { unfold along_sphere. rewrite central_ang. unfold ang. rewrite dotp_xyz, unit_xyz, acos_1. ring. }
  assert (S : in_square 1 (f_lat r) (f_lon r) (f_lat r) (f_lon r)).
  { unfold in_square. rewrite !Rminus_diag_eq, Rabs_R0 by auto. lra. }
  destruct (closest_fix_cases t (f_lat r) (f_lon r)) as [[_ N]|(q & d & v & (l1 & l2 & Et & P & L & G) & D & V & E)].
  - destruct (N r I S).
  - exists (f_lat q, f_lon q, v). rewrite E. f_equal. f_equal. unfold rounded_down in D.
    assert (A : along_sphere (f_lat r) (f_lon r) (f_lat q) (f_lon q) <= 0).
    { rewrite <- Z0. rewrite Et in I. apply in_app_or in I. destruct I as [I|[<-|I]]; [left; auto|lra|auto]. }
    pose proof (along_nonneg (f_lat r) (f_lon r) (f_lat q) (f_lon q)).
    assert (d < 1 /\ -1 < d)%Z; [|lia]. split; apply lt_IZR; lra.
Qed.

(** on the other side of the antimeridian a fix two kilometres away is not seen *)
Theorem C90_longitude_wrap_refuted :
  ~ (forall t lat lon, closest_fix t lat (lon + 360) = closest_fix t lat lon) /\
  exists t r lat lon, In r t /\ along_sphere lat lon (f_lat r) (f_lon r) < 2500 /\ closest_fix t lat lon = inl ValueError.
Proof.
  assert (E : closest_fix [mkFix 0 179.99 "AAAAA"] 0 (-179.99) = inl ValueError).
  { apply C90_closest_fix_none. intros r [<-|[]] [_ H]. cbn in H. rewrite Rabs_pos_eq in H; qr; lra. }
  split.
  - intros H. specialize (H [mkFix 0 179.99 "AAAAA"] 0 (-179.99)). rewrite E in H.
    pose proof (proj2 (C90_closest_fix_none _ _ _) H) as Q. apply (Q _ (or_introl eq_refl)). split; cbn; apply Rabs_le; qr; lra.
  - exists [mkFix 0 179.99 "AAAAA"], (mkFix 0 179.99 "AAAAA"), 0, (-179.99). split; [cbn; auto|split; [|exact E]]. cbn [f_lat f_lon].
    unfold along_sphere. rewrite central_ang. unfold ang, dotp.
    replace (rad 0) with 0 by (unfold rad; ring). rewrite cos_0, sin_0, !Rmult_1_l, Rmult_0_l, Rplus_0_r.
    replace (rad 179.99 - rad (-179.99)) with (2 * PI - rad 0.02) by (unfold rad; qr; field).
    rewrite cos_minus, cos_2PI, sin_2PI, Rmult_1_l, Rmult_0_l, Rplus_0_r.
    rewrite acos_cos; unfold rad; [interval|]. split; interval.
Qed.

Example C90_ex :
  closest_fix [mkFix 52 4 "ABCDE"; mkFix 52.1 4.2 "FGHIJ"] 52 4 = inr ((52, 4, Some "ABCDE"%string), 0%Z) /\
  fix_named [mkFix 52 4 "ABCDE"; mkFix 52.1 4.2 "FGHIJ"] "fghij" = inr (52.1, 4.2, Some "FGHIJ"%string).
Proof.
  split; [|reflexivity]. apply C90_closest_fix. exists (mkFix 52 4 "ABCDE"), (Some "ABCDE"%string). cbn [f_lat f_lon f_name].
  assert (Z0 : along_sphere 52 4 52 4 = 0).
  { unfold along_sphere. rewrite central_ang. unfold ang. rewrite dotp_xyz, unit_xyz, acos_1. ring. }
  split; [auto|split; [left; split; auto; intros H; cbn in H; intuition discriminate|split; [unfold rounded_down; lra|]]].
  exists [], [mkFix 52.1 4.2 "FGHIJ"]. split; [auto|split; [|split]].
  - split; cbn; rewrite Rminus_diag_eq, Rabs_R0; auto; lra.
  - intros x [].
  - intros x _ _. cbn [f_lat f_lon]. rewrite Z0. apply along_nonneg.
Qed.
