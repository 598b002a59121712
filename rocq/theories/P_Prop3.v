(** * Property C85: letter case, white space and the types each constructor accepts *)
From Coq Require Import String Ascii List Bool Arith Lia Permutation QArith.
From Verif Require Import Str StrFacts Py PropPy DataAc DataPolar DataWrap DataEng Build PropFacts P_Prop P_Prop2.
Import ListNotations.
Open Scope string_scope.

(** ** Specification: equality of texts up to letter case *)
(** the 26 pairs, written out *)
Definition capitals : string := "ABCDEFGHIJKLMNOPQRSTUVWXYZ".
Definition smalls : string := "abcdefghijklmnopqrstuvwxyz".
Definition pair_of (c c' : ascii) : Prop := exists n, String.get n capitals = Some c /\ String.get n smalls = Some c'.
Definition same_letter (c c' : ascii) : Prop := c = c' \/ pair_of c c' \/ pair_of c' c.
Inductive same_text : string -> string -> Prop :=
| st_nil : same_text "" ""
| st_cons : forall c c' s s', same_letter c c' -> same_text s s' -> same_text (String c s) (String c' s').
Definition same_opt (a b : option string) : Prop :=
  match a, b with None, None => True | Some x, Some y => same_text x y | _, _ => False end.
(** white space as documented for Python's [str.strip] on ASCII text *)
Definition blank_char (c : ascii) : Prop := In (nat_of_ascii c) [9; 10; 11; 12; 13; 28; 29; 30; 31; 32]%nat.
Inductive blank : string -> Prop :=
| bl_nil : blank ""
| bl_cons : forall c s, blank_char c -> blank s -> blank (String c s).
(** two constructor outcomes that agree except for the text of the engine name *)
Definition same_row (a b : engres) : Prop := er_row a = er_row b /\ er_fuel_ch a = er_fuel_ch b /\ same_text (er_name a) (er_name b).
Definition same_py {A} (R : A -> A -> Prop) (x y : py A) : Prop :=
  match x, y with inl e, inl e' => e = e' | inr a, inr b => R a b | _, _ => False end.
Definition same_fuel (a b : fuel_obj) : Prop :=
  fo_ac a = fo_ac b /\ same_row (fo_eng a) (fo_eng b) /\ fo_thrust a = fo_thrust b /\ fo_drag a = fo_drag b /\
  fo_wrap a = fo_wrap b /\ fo_model a = fo_model b.
Definition same_emission (a b : emission_obj) : Prop := eo_ac a = eo_ac b /\ same_row (eo_eng a) (eo_eng b).

(** ** Lemmas *)
Lemma get_lt : forall s n c, String.get n s = Some c -> (n < String.length s)%nat.
Proof. induction s as [|x s IH]; intros [|n] c H; cbn in *; try discriminate; try lia. apply IH in H. lia. Qed.
Definition pairs_ok : bool :=
  forallb (fun n => match String.get n capitals, String.get n smalls with
                    | Some c, Some c' => Ascii.eqb (up1 c) c && Ascii.eqb (up1 c') c && Ascii.eqb (low1 c) c' && Ascii.eqb (low1 c') c'
                    | _, _ => false end) (seq 0 26).
Lemma pair_case : forall c c', pair_of c c' -> up1 c = c /\ up1 c' = c /\ low1 c = c' /\ low1 c' = c'.
Proof.
  intros c c' (n & H1 & H2). assert (F : pairs_ok = true) by (vm_compute; reflexivity).
  unfold pairs_ok in F. rewrite forallb_forall in F. pose proof (get_lt _ _ _ H1) as L.
  specialize (F n). rewrite H1, H2 in F. lapply F; [|apply in_seq; cbn in *; lia]. clear F. intros F.
  apply andb_prop in F. destruct F as [F F4]. apply andb_prop in F. destruct F as [F F3]. apply andb_prop in F. destruct F as [F1 F2].
  apply Ascii.eqb_eq in F1, F2, F3, F4. auto.
Qed.
(** [up1] and [low1] identify exactly the letters of a pair *)
Definition find_pair (c c' : ascii) : bool :=
  existsb (fun n => match String.get n capitals, String.get n smalls with Some x, Some y => Ascii.eqb x c && Ascii.eqb y c' | _, _ => false end) (seq 0 26).
Lemma find_pair_ok : forall c c', find_pair c c' = true -> pair_of c c'.
Proof.
  intros c c' H. unfold find_pair in H. apply existsb_exists in H. destruct H as (n & _ & H). exists n.
  destruct (String.get n capitals), (String.get n smalls); try discriminate. apply andb_prop in H. destruct H as [H1 H2].
  apply Ascii.eqb_eq in H1, H2. subst. auto.
Qed.
Definition up_spec (c : ascii) : bool := Ascii.eqb (up1 c) c || find_pair (up1 c) c.
Definition low_spec (c : ascii) : bool := Ascii.eqb (low1 c) c || find_pair c (low1 c).
Lemma up_same : forall c, same_letter (up1 c) c.
Proof.
  intros c. assert (H : up_spec c = true) by (revert c; apply all_ascii; vm_compute; reflexivity).
  unfold up_spec in H. apply orb_prop in H. destruct H as [H|H]; [left; apply Ascii.eqb_eq, H|right; left; apply find_pair_ok, H].
Qed.
Lemma low_same : forall c, same_letter (low1 c) c.
Proof.
  intros c. assert (H : low_spec c = true) by (revert c; apply all_ascii; vm_compute; reflexivity).
  unfold low_spec in H. apply orb_prop in H. destruct H as [H|H]; [left; apply Ascii.eqb_eq, H|right; right; apply find_pair_ok, H].
Qed.
Lemma same_up : forall c c', same_letter c c' -> up1 c = up1 c'.
Proof.
  intros c c' [->|[H|H]]; auto; apply pair_case in H; destruct H as (H1 & H2 & _); congruence.
Qed.
Lemma same_low : forall c c', same_letter c c' -> low1 c = low1 c'.
Proof.
  intros c c' [->|[H|H]]; auto; apply pair_case in H; destruct H as (_ & _ & H1 & H2); congruence.
Qed.
Lemma letter_sym : forall c c', same_letter c c' -> same_letter c' c.
Proof. intros c c' [->|[H|H]]; unfold same_letter; auto. Qed.
Definition low_up : bool := forallb (fun n => let c := ascii_of_nat n in Ascii.eqb (up1 (low1 c)) (up1 c) && Ascii.eqb (low1 (up1 c)) (low1 c)) (seq 0 256).
Lemma up_low : forall c, up1 (low1 c) = up1 c.
Proof. intros c. apply same_up, low_same. Qed.
(** the relation is the kernel of [up1] *)
Lemma up_kernel : forall c c', up1 c = up1 c' -> same_letter c c'.
Proof.
  intros c c' H. destruct (up_same c) as [E|[E|E]]; destruct (up_same c') as [E'|[E'|E']].
  - left. congruence.
  - right; left. congruence.
  - apply pair_case in E'. destruct E' as (_ & Q & _). left. rewrite up1_idem in Q. congruence.
  - right; right. rewrite <- E', <- H. exact E.
  - left. rewrite H in E. apply pair_case in E. apply pair_case in E'. destruct E as (_ & _ & Q & _), E' as (_ & _ & Q' & _). congruence.
  - apply pair_case in E'. destruct E' as (_ & Q & _). rewrite up1_idem in Q. right; right. rewrite <- Q, <- H. exact E.
  - apply pair_case in E. destruct E as (_ & Q & _). rewrite up1_idem in Q. left. congruence.
  - apply pair_case in E. destruct E as (_ & Q & _). rewrite up1_idem in Q. right; left. rewrite <- Q, H. exact E'.
  - apply pair_case in E. destruct E as (_ & Q & _). apply pair_case in E'. destruct E' as (_ & Q' & _).
    rewrite up1_idem in Q, Q'. left. congruence.
Qed.
Lemma text_upper : forall a b, same_text a b <-> upper a = upper b.
Proof.
  split.
  - induction 1; cbn; auto. rewrite (same_up c c'), IHsame_text; auto.
  - revert b. induction a as [|c a IH]; intros [|c' b] H; cbn in H; try discriminate; constructor.
    + injection H as H _. apply up_kernel, H.
    + injection H as _ H. auto.
Qed.
Lemma text_lower : forall a b, same_text a b -> lower a = lower b.
Proof. induction 1; cbn; auto. rewrite (same_low c c'), IHsame_text; auto. Qed.
Lemma blank_space : forall c, blank_char c <-> is_space c = true.
Proof.
  intros c. unfold blank_char, is_space. cbv zeta. generalize (nat_of_ascii c) as n. intros n. rewrite orb_true_iff, !andb_true_iff, !Nat.leb_le.
  cbn [In]. lia.
Qed.
Lemma lstrip_blank : forall a t, blank a -> lstrip (a ++ t) = lstrip t.
Proof. induction 1 as [|c s B _ IH]; cbn; auto. apply blank_space in B. rewrite B. auto. Qed.
Lemma lstrip_app : forall s t, lstrip s <> "" -> lstrip (s ++ t) = lstrip s ++ t.
Proof. induction s as [|c s IH]; cbn; intros t N; [congruence|]. destruct (is_space c) eqn:E; auto. Qed.
Lemma lstrip_nil : forall s, lstrip s = "" -> blank s.
Proof.
  induction s as [|c s IH]; cbn; intros H; [constructor|]. destruct (is_space c) eqn:E; [|discriminate].
  constructor; [apply blank_space, E|auto].
Qed.
Lemma rstrip_blank : forall b, blank b -> rstrip b = "".
Proof. induction 1 as [|c s B _ IH]; cbn; auto. rewrite IH. apply blank_space in B. rewrite B. auto. Qed.
Lemma rstrip_app : forall s b, blank b -> rstrip (s ++ b) = rstrip s.
Proof. induction s as [|c s IH]; intros b B; cbn; [apply rstrip_blank, B|]. rewrite IH by auto. auto. Qed.
Lemma append_nil_r : forall s : string, s ++ "" = s.
Proof. induction s as [|c s IH]; cbn; congruence. Qed.
Lemma strip_blanks : forall a s b, blank a -> blank b -> strip (a ++ s ++ b) = strip s.
Proof.
  intros a s b A B. unfold strip. rewrite lstrip_blank by auto. destruct (string_dec (lstrip s) "") as [E|N].
  - rewrite lstrip_blank by (apply lstrip_nil, E). rewrite E. cbn.
    rewrite <- (append_nil_r b), lstrip_blank by auto. auto.
  - rewrite lstrip_app by auto. apply rstrip_app, B.
Qed.
Lemma lstrip_split : forall s, exists a, blank a /\ s = a ++ lstrip s.
Proof.
  induction s as [|c s (a & B & E)]; cbn.
  - exists "". split; [constructor|auto].
  - destruct (is_space c) eqn:Sp.
    + exists (String c a). split; [constructor; [apply blank_space, Sp|auto]|]. cbn. congruence.
    + exists "". split; [constructor|auto].
Qed.
Lemma rstrip_split : forall s, exists b, blank b /\ s = rstrip s ++ b.
Proof.
  induction s as [|c s (b & B & E)]; cbn.
  - exists "". split; [constructor|auto].
  - destruct (rstrip s) as [|c' r] eqn:R.
    + cbn in E. subst b. destruct (is_space c) eqn:Sp.
      * exists (String c s). split; [constructor; [apply blank_space, Sp|auto]|auto].
      * exists s. auto.
    + exists b. split; auto. cbn. cbn in E. congruence.
Qed.
Fixpoint last_char (s : string) : option ascii :=
  match s with "" => None | String c "" => Some c | String _ t => last_char t end.
Lemma rstrip_last : forall s c, last_char (rstrip s) = Some c -> ~ blank_char c.
Proof.
  induction s as [|x s IH]; cbn [rstrip last_char]; intros c H; [discriminate|]. destruct (rstrip s) as [|c' r] eqn:R.
  - destruct (is_space x) eqn:E; [discriminate|]. cbn in H. injection H as <-. rewrite blank_space. congruence.
  - apply IH. exact H.
Qed.
Lemma lstrip_first : forall s c t, lstrip s = String c t -> ~ blank_char c.
Proof.
  induction s as [|x s IH]; cbn [lstrip]; intros c t H; [discriminate|]. destruct (is_space x) eqn:E; [eauto|].
  injection H as <- _. rewrite blank_space. congruence.
Qed.
Lemma rstrip_first : forall s c t, rstrip s = String c t -> exists u, s = String c u.
Proof.
  intros [|x s] c t H; cbn in H; [discriminate|]. destruct (rstrip s); [destruct (is_space x); [discriminate|]|];
  injection H as <- _; eauto.
Qed.

(** ** C85: the string methods *)
(** [upper] and [lower] change letters only, and give the same result exactly for texts equal up to letter case *)
Theorem C85_letter_case : forall a b,
  same_text (upper a) a /\ same_text (lower a) a /\
  (same_text a b <-> upper a = upper b) /\ (same_text a b <-> lower a = lower b) /\
  (forall n c, String.get n (upper a) = Some c -> forall m, String.get m smalls <> Some c) /\
  (forall n c, String.get n (lower a) = Some c -> forall m, String.get m capitals <> Some c).
Proof.
  intros a b. split; [apply text_upper, upper_idem|].
  assert (L : forall x, same_text (lower x) x) by (induction x; cbn; constructor; auto using low_same).
  split; [auto|]. split; [apply text_upper|]. split.
  { split; [apply text_lower|]. intros E. apply text_upper. rewrite <- (proj1 (text_upper _ _) (L a)), <- (proj1 (text_upper _ _) (L b)). congruence. }
  assert (G : forall m c, String.get m smalls = Some c -> up1 c <> c).
  { intros m c H. pose proof (get_lt _ _ _ H) as Lm.
    assert (F : forallb (fun m => match String.get m smalls with Some c => negb (Ascii.eqb (up1 c) c) | None => false end) (seq 0 26) = true) by (vm_compute; reflexivity).
    rewrite forallb_forall in F. specialize (F m). rewrite H in F. lapply F; [|apply in_seq; cbn in *; lia]. clear F. intros F Q.
    apply Ascii.eqb_eq in Q. rewrite Q in F. discriminate. }
  assert (G' : forall m c, String.get m capitals = Some c -> low1 c <> c).
  { intros m c H. pose proof (get_lt _ _ _ H) as Lm.
    assert (F : forallb (fun m => match String.get m capitals with Some c => negb (Ascii.eqb (low1 c) c) | None => false end) (seq 0 26) = true) by (vm_compute; reflexivity).
    rewrite forallb_forall in F. specialize (F m). rewrite H in F. lapply F; [|apply in_seq; cbn in *; lia]. clear F. intros F Q.
    apply Ascii.eqb_eq in Q. rewrite Q in F. discriminate. }
  split.
  - clear - G. induction a as [|x a IH]; intros [|n] c H m Hm; cbn in H; try discriminate.
    + injection H as <-. apply G in Hm. apply Hm, up1_idem.
    + eapply IH; eauto.
  - clear - G'. induction a as [|x a IH]; intros [|n] c H m Hm; cbn in H; try discriminate.
    + injection H as <-. apply G' in Hm. apply Hm, low1_idem.
    + eapply IH; eauto.
Qed.
(** [strip] removes white space at both ends, nothing else, and leaves none there *)
Theorem C85_strip : forall s,
  (exists a b, blank a /\ blank b /\ s = a ++ strip s ++ b) /\
  (forall c t, strip s = String c t -> ~ blank_char c) /\ (forall c, last_char (strip s) = Some c -> ~ blank_char c) /\
  (forall a b, blank a -> blank b -> strip (a ++ s ++ b) = strip s).
Proof.
  intros s. split; [|split; [|split]].
  - destruct (lstrip_split s) as (a & A & Ea). destruct (rstrip_split (lstrip s)) as (b & B & Eb).
    exists a, b. split; auto. split; auto. unfold strip. rewrite <- Eb. auto.
  - intros c t H. unfold strip in H. apply rstrip_first in H. destruct H as (u & H). eapply lstrip_first; eauto.
  - intros c. apply rstrip_last.
  - intros a b. apply strip_blanks.
Qed.
Theorem C85_prefix_and_substring : forall a b,
  (startswith a b = true <-> exists t, a = b ++ t) /\ (contains b a = true <-> exists t u, a = t ++ b ++ u).
Proof. intros a b. split; [apply prefix_iff|apply contains_iff]. Qed.
Example C85_ex : same_text "LEAP-1a26" "leap-1A26" /\ strip "  V2500-A1 " = "V2500-A1" /\ blank "  ".
Proof. split; [apply text_upper; reflexivity|]. split; [reflexivity|]. constructor; [apply blank_space; reflexivity|]. constructor; [apply blank_space; reflexivity|]. constructor. Qed.

(** ** C85: lookups ignore letter case, and white space around an engine name *)
Lemma engine_text : forall d e f, upper (strip e) = upper (strip f) ->
  match engine d e, engine d f with
  | inl x, inl y => x = y | inr a, inr b => er_row a = er_row b /\ er_fuel_ch a = er_fuel_ch b /\ er_name a = e /\ er_name b = f | _, _ => False end.
Proof. intros d e f E. unfold engine. cbv zeta. rewrite E. destruct (filter _ (d_engines d)); auto. Qed.
Lemma engine_case : forall d e f, same_text e f -> same_py same_row (engine d e) (engine d f).
Proof.
  intros d e f S. pose proof (engine_text d e f) as H. rewrite <- !strip_upper, (proj1 (text_upper _ _) S) in H. specialize (H eq_refl).
  unfold same_py, same_row. destruct (engine d e), (engine d f); auto. destruct H as (H1 & H2 & -> & ->). auto.
Qed.
Theorem C85_case_insensitive : forall d ac ac' eng eng' k s, same_text ac ac' -> same_opt eng eng' ->
  aircraft d ac s = aircraft d ac' s /\
  aircraft_engine_options d ac = aircraft_engine_options d ac' /\
  same_py same_row (engine d ac) (engine d ac') /\
  search_engine d ac = search_engine d ac' /\
  thrust_new d ac eng k = thrust_new d ac' eng' k /\
  drag_new d ac k = drag_new d ac' k /\
  wrap_new d ac (kw_syn k) = wrap_new d ac' (kw_syn k) /\
  gen_new d ac s = gen_new d ac' s /\
  same_py same_emission (emission_new d ac eng k) (emission_new d ac' eng' k) /\
  same_py same_fuel (fuel_new d ac eng k) (fuel_new d ac' eng' k).
Proof.
  intros d ac ac' eng eng' k s A E. pose proof (text_lower _ _ A) as L.
  assert (A1 : forall s, aircraft d ac s = aircraft d ac' s) by (intros; rewrite <- (aircraft_lower d ac), <- (aircraft_lower d ac'), L; auto).
  assert (W1 : forall u, wrap_new d ac u = wrap_new d ac' u) by (intros; unfold wrap_new; rewrite L; auto).
  assert (T1 : forall k e e', upper e = upper e' -> thrust_new d ac (Some e) k = thrust_new d ac' (Some e') k).
  { intros k0 e e' U. unfold thrust_new. rewrite A1. destruct (aircraft d ac' _); cbn [bind Build.get]; auto. rewrite U. auto. }
  assert (D1 : forall k, drag_new d ac k = drag_new d ac' k) by (intros; unfold drag_new; rewrite L; auto).
  assert (U : forall x, upper (Build.get eng x) = upper (Build.get eng' x)).
  { intros x. destruct eng, eng'; cbn in *; try contradiction; auto. apply text_upper, E. }
  assert (U' : forall x, same_text (Build.get eng x) (Build.get eng' x)) by (intros x; apply text_upper, U).
  split; [auto|]. split; [unfold aircraft_engine_options; rewrite A1; auto|]. split; [apply engine_case, A|].
  split; [unfold search_engine; rewrite <- !strip_upper, (proj1 (text_upper _ _) A); auto|].
  split.
  { unfold thrust_new. rewrite A1. destruct (aircraft d ac' _) as [|a]; cbn [bind]; auto. cbv zeta. rewrite U. auto. }
  split; [auto|]. split; [auto|]. split; [unfold gen_new; rewrite A1, W1; auto|]. split.
  { unfold emission_new. rewrite A1. destruct (aircraft d ac' _) as [|a]; cbn [bind]; [reflexivity|].
    pose proof (engine_case d _ _ (U' (ac_default a))) as H. destruct (engine d (Build.get eng _)), (engine d (Build.get eng' _)); try contradiction; cbn in *; auto.
    split; auto. }
  unfold fuel_new. cbv zeta. rewrite L. destruct (aircraft d (lower ac') _) as [|a]; cbn [bind]; [reflexivity|].
  pose proof (engine_case d _ _ (U' (ac_default a))) as H.
  destruct (engine d (Build.get eng _)) as [|r], (engine d (Build.get eng' _)) as [|r']; try contradiction; cbn [bind]; [exact H|].
  rewrite (T1 k _ _ (U (ac_default a))). destruct (thrust_new d ac' _ k); cbn [bind]; [reflexivity|].
  rewrite D1. destruct (drag_new d ac' k); cbn [bind]; [reflexivity|]. rewrite W1. destruct (wrap_new d ac' _); cbn [bind]; [reflexivity|].
  rewrite U. destruct H as (H1 & H2 & H3). rewrite H1. destruct (load_fuel_model d _ _ _); cbn [bind]; [reflexivity|].
  repeat (split; [reflexivity || (split; [|split]; assumption)|]). reflexivity.
Qed.
(** white space around an engine name is ignored by the engine lookup, by [Emission], and by [Thrust] unless
    it would hide that the engine is an option of the aircraft *)
Theorem C85_blanks_around_engine : forall d a e b, blank a -> blank b ->
  match engine d (a ++ e ++ b), engine d e with
  | inl x, inl y => x = y
  | inr r, inr r' => er_row r = er_row r' /\ er_fuel_ch r = er_fuel_ch r'
  | _, _ => False
  end /\ search_engine d (a ++ e ++ b) = search_engine d e /\
  (forall ac k t, thrust_new d ac (Some e) k = inr t ->
    exists t', thrust_new d ac (Some (a ++ e ++ b)) k = inr t' /\ to_ac t' = to_ac t /\ er_row (to_eng t') = er_row (to_eng t)).
Proof.
  intros d a e b A B. pose proof (strip_blanks a e b A B) as S. split; [|split].
  - pose proof (engine_text d (a ++ e ++ b) e) as H. rewrite S in H. specialize (H eq_refl).
    destruct (engine d (a ++ e ++ b)), (engine d e); auto. tauto.
  - unfold search_engine. rewrite S. auto.
  - intros ac k t H. unfold thrust_new in *. destruct (aircraft d ac _) as [|x]; [discriminate|]. cbn [bind Build.get] in *.
    pose proof (engine_text d (upper (a ++ e ++ b)) (upper e)) as Q. rewrite !strip_upper, S in Q. specialize (Q eq_refl).
    destruct (engine d (upper (a ++ e ++ b))) as [|r], (engine d (upper e)) as [|r']; try contradiction; try discriminate.
    cbn [bind] in *. destruct Q as (Q1 & Q2 & Q3 & Q4). rewrite Q4 in H. rewrite Q3.
    assert (M : engine_matches (ac_options x) (upper e) = true -> engine_matches (ac_options x) (upper (a ++ e ++ b)) = true).
    { unfold engine_matches. rewrite !existsb_exists. intros (o & I & C). exists o. split; auto. rewrite upper_idem in *.
      apply contains_iff in C. destruct C as (u & v & C). rewrite !upper_app, C. apply contains_iff.
      exists (upper a ++ u), (v ++ upper b). rewrite !app_assoc_s. auto. }
    destruct (Build.get (kw_force k) false); cbn [negb andb] in *.
    + injection H as <-. eexists; split; [reflexivity|]. cbn. auto.
    + destruct (engine_matches (ac_options x) (upper e)); cbn in H; [|discriminate]. rewrite M by auto. cbn.
      injection H as <-. eexists; split; [reflexivity|]. cbn. auto.
Qed.
Example C85_ex2 : (exists t, thrust_new shipped0 "A320" (Some "cfm56-5B4") (mkKwc None None) = inr t) /\
  exists f, fuel_new shipped0 "a320" (Some " CFM56-5b4") (mkKwc None None) = inr f.
Proof. split; vm_compute; eexists; reflexivity. Qed.

(** ** C85: the types each constructor accepts *)
Definition drag_plain : list string := map po_code shipped_polar.
Definition wrap_plain : list string := map wr_code shipped_wrap.
(** types a constructor accepts when the aircraft file and the further file must both be found *)
Definition types_accepted (s : bool) : list string := if s then all_types else map ac_code shipped_aircraft.
Definition drag_accepted (s : bool) : list string :=
  filter (fun c => mem c (types_accepted s)) (if s then drag_plain ++ map fst shipped_polsyn else drag_plain)%list.
Definition wrap_accepted (s : bool) : list string := (if s then wrap_plain ++ map fst shipped_wrapsyn else wrap_plain)%list.
Definition gen_accepted (s : bool) : list string := filter (fun c => mem c (types_accepted s)) (wrap_accepted s).
(** accepted with a result, or refused with ValueError *)
Definition decides {A} (x : py A) (ok : Prop) : Prop := (ok -> exists o, x = inr o) /\ (~ ok -> x = inl ValueError).
Definition ok_or {A} (x : py A) (b : bool) : bool :=
  match x with inr _ => b | inl ValueError => negb b | inl _ => false end.
Lemma ok_or_decides : forall {A} (x : py A) c l, ok_or x (mem c l) = true -> decides x (In c l).
Proof.
  intros A x c l H. unfold ok_or, decides in *. destruct x as [[]|o]; try discriminate; split; intros I; eauto.
  - apply mem_in in I. rewrite I in H. discriminate.
  - exfalso. apply I, mem_in, H.
Qed.
Lemma aircraft_accept : forall d, ships d -> forall ac s, plain ac = true -> decides (aircraft d ac s) (In (lower ac) (types_accepted s)).
Proof.
  intros d S ac s P. rewrite ship_aircraft by auto.
  assert (F : forallb (fun c => ok_or (aircraft shipped0 c s) (mem c (types_accepted s))) all_types = true) by (destruct s; vm_compute; reflexivity).
  rewrite forallb_forall in F. destruct (in_dec string_dec (lower ac) all_types) as [I|N].
  - rewrite <- aircraft_lower. apply ok_or_decides, F, I.
  - split; intros H; [|apply unknown_fails; auto]. exfalso. apply N. destruct s; auto. unfold all_types. apply in_or_app. auto.
Qed.
Definition every_type : list string := (all_types ++ drag_plain ++ map fst shipped_polsyn ++ wrap_plain ++ map fst shipped_wrapsyn)%list.
Lemma wrap_accept : forall d, ships d -> forall ac u, decides (wrap_new d ac u) (In (lower ac) (wrap_accepted (Build.get u true))).
Proof.
  intros d S ac u. rewrite ship_wrapnew by auto.
  assert (F : forallb (fun c => ok_or (wrap_new shipped0 c u) (mem c (wrap_accepted (Build.get u true)))) (wrap_accepted true) = true)
    by (destruct u as [[|]|]; vm_compute; reflexivity).
  rewrite forallb_forall in F.
  assert (X : wrap_new shipped0 (lower ac) u = wrap_new shipped0 ac u) by (unfold wrap_new; rewrite lower_idem; auto).
  destruct (in_dec string_dec (lower ac) (wrap_accepted true)) as [I|N].
  - rewrite <- X. apply ok_or_decides, F, I.
  - split; intros H.
    + exfalso. apply N. destruct u as [[|]|]; cbn [Build.get] in H; auto. unfold wrap_accepted. apply in_or_app. auto.
    + unfold wrap_new. cbv zeta.
      replace (mem (lower ac) (wrap_available shipped0)) with false.
      2:{ symmetry. apply not_true_is_false. intros M. apply mem_in in M. apply N. unfold wrap_accepted. apply in_or_app. left.
          assert (Q : wrap_available shipped0 = wrap_plain) by (vm_compute; reflexivity). rewrite <- Q. exact M. }
      destruct (synonym (d_wrapsyn shipped0) (lower ac)) as [n|] eqn:Sy.
      * exfalso. apply N. apply synonym_in in Sy. unfold wrap_accepted. apply in_or_app. right. apply (in_map fst) in Sy. exact Sy.
      * destruct (negb (Build.get u true)); reflexivity.
Qed.
Lemma polar_accept : forall d, ships d -> forall ac s, lower ac = ac ->
  decides (load_drag_model d ac s) (In ac (if s then drag_plain ++ map fst shipped_polsyn else drag_plain)%list).
Proof.
  intros d S ac s Lo. rewrite ship_polar by auto.
  assert (F : forallb (fun c => ok_or (load_drag_model shipped0 c s) (mem c (if s then drag_plain ++ map fst shipped_polsyn else drag_plain)%list))
    (drag_plain ++ map fst shipped_polsyn)%list = true) by (destruct s; vm_compute; reflexivity).
  rewrite forallb_forall in F.
  destruct (in_dec string_dec ac (drag_plain ++ map fst shipped_polsyn)%list) as [I|N].
  - apply ok_or_decides, F, I.
  - split; intros H.
    + exfalso. apply N. destruct s; auto. apply in_or_app. auto.
    + unfold load_drag_model.
      replace (mem ac (polar_available shipped0)) with false.
      2:{ symmetry. apply not_true_is_false. intros M. apply mem_in in M. apply N. apply in_or_app. left.
          assert (Q : polar_available shipped0 = drag_plain) by (vm_compute; reflexivity). rewrite <- Q. exact M. }
      destruct (synonym (d_polsyn shipped0) ac) as [n|] eqn:Sy; [|reflexivity].
      exfalso. apply N. apply synonym_in in Sy. apply in_or_app. right. apply (in_map fst) in Sy. exact Sy.
Qed.
Opaque types_accepted wrap_accepted drag_plain shipped_polsyn shipped_aircraft mem find engine aircraft load_drag_model wrap_new.
Lemma decides_no : forall {A} (x : py A) (c : string) l, decides x (In c l) -> forall e, x = inl e -> e = ValueError /\ ~ In c l.
Proof.
  intros A x c l [H1 H2] e ->. destruct (in_dec string_dec c l) as [I|N]; [destruct (H1 I); discriminate|].
  specialize (H2 N). injection H2 as <-. auto.
Qed.
Lemma decides_yes : forall {A} (x : py A) (c : string) l, decides x (In c l) -> forall o, x = inr o -> In c l.
Proof.
  intros A x c l [H1 H2] o ->. destruct (in_dec string_dec c l) as [I|N]; auto. specialize (H2 N). discriminate.
Qed.
Transparent aircraft.
Lemma aircraft_in : forall d ac s a, aircraft d ac s = inr a -> In a (d_aircraft d).
Proof.
  intros d ac s a H. unfold aircraft in H. cbv zeta in H.
  assert (G : forall n x t, glob_aircraft d n = x :: t -> In x (d_aircraft d)).
  { intros n x t E. unfold glob_aircraft in E. assert (J : In x (filter (fun r => glob_match (n ++ ".yml") (ac_code r ++ ".yml")) (d_aircraft d))) by (rewrite E; left; auto).
    apply filter_In in J. apply J. }
  destruct (glob_aircraft d (lower ac)) eqn:E.
  - destruct (synonym _ _); [|discriminate]. destruct s; [|discriminate]. destruct (glob_aircraft d s0) eqn:E'; [discriminate|].
    injection H as <-. eapply G; eauto.
  - injection H as <-. eapply G; eauto.
Qed.
Opaque aircraft.
Definition default_ok (d : db) (a : acrec) : bool :=
  match engine d (ac_default a), engine d (upper (ac_default a)) with
  | inr _, inr e => engine_matches (ac_options a) (er_name e) | _, _ => false end.
Lemma default_checked : forallb (default_ok shipped0) shipped_aircraft = true.
Proof. vm_compute. reflexivity. Qed.
Lemma default_engine_ok : forall d, ships d -> forall ac s a, aircraft d ac s = inr a ->
  exists e, engine d (ac_default a) = inr e /\ exists e', engine d (upper (ac_default a)) = inr e' /\
  engine_matches (ac_options a) (er_name e') = true.
Proof.
  intros d S ac s a H. pose proof (aircraft_in d ac s a H) as I. apply (Permutation_in _ (Permutation_sym (sh_ac d S))) in I.
  pose proof default_checked as F. rewrite forallb_forall in F. specialize (F a I). clear I. unfold default_ok in F.
  rewrite (ship_engine d) by auto. rewrite (ship_engine d (upper _)) by auto. revert F.
  generalize (engine shipped0 (ac_default a)) (engine shipped0 (upper (ac_default a))). intros [|e] [|e'] F; try discriminate.
  exists e. split; auto. exists e'. auto.
Qed.
Theorem C85_accepted_types : forall d, ships d -> forall ac k, plain ac = true ->
  let s := match kw_syn k with Some b => b | None => false end in
  decides (thrust_new d ac None k) (In (lower ac) (types_accepted s)) /\
  decides (emission_new d ac None k) (In (lower ac) (types_accepted s)) /\
  decides (drag_new d ac k) (In (lower ac) (drag_accepted s)) /\
  decides (wrap_new d ac (kw_syn k)) (In (lower ac) (wrap_accepted (match kw_syn k with Some b => b | None => true end))) /\
  decides (gen_new d ac s) (In (lower ac) (gen_accepted s)).
Proof.
  intros d S ac k P s. change (match kw_syn k with Some b => b | None => false end) with (Build.get (kw_syn k) false) in s.
  change (match kw_syn k with Some b => b | None => true end) with (Build.get (kw_syn k) true).
  assert (P' : plain (lower ac) = true) by (rewrite plain_lower; auto).
  pose proof (aircraft_accept d S ac s P) as A.
  assert (Fin : forall l, In (lower ac) (filter (fun c => mem c (types_accepted s)) l) <-> In (lower ac) l /\ In (lower ac) (types_accepted s)).
  { intros l. rewrite filter_In, mem_in. tauto. }
  split; [|split; [|split; [|split]]].
  - unfold thrust_new. fold s. destruct (aircraft d ac s) as [e|a] eqn:E; cbn [bind Build.get].
    + destruct (decides_no _ _ _ A e eq_refl) as [-> N]. split; [contradiction|auto].
    + pose proof (decides_yes _ _ _ A a eq_refl) as I. destruct (default_engine_ok d S ac s a E) as (e & E1 & e' & E2 & M).
      rewrite E2. cbn [bind]. rewrite M, andb_false_r. split; [eauto|contradiction].
  - unfold emission_new. fold s. destruct (aircraft d ac s) as [e|a] eqn:E; cbn [bind Build.get].
    + destruct (decides_no _ _ _ A e eq_refl) as [-> N]. split; [contradiction|auto].
    + pose proof (decides_yes _ _ _ A a eq_refl) as I. destruct (default_engine_ok d S ac s a E) as (e & E1 & e' & E2 & M).
      rewrite E1. cbn [bind]. split; [eauto|contradiction].
  - unfold drag_new. fold s. cbv zeta. rewrite aircraft_lower. unfold drag_accepted.
    pose proof (polar_accept d S (lower ac) s (lower_idem ac)) as Q.
    destruct (aircraft d ac s) as [e|a] eqn:E; cbn [bind].
    + destruct (decides_no _ _ _ A e eq_refl) as [-> N]. split; auto. rewrite Fin. tauto.
    + pose proof (decides_yes _ _ _ A a eq_refl) as I. destruct (load_drag_model d (lower ac) s) as [e|p] eqn:E2; cbn [bind].
      * destruct (decides_no _ _ _ Q e eq_refl) as [-> N]. split; auto. rewrite Fin. tauto.
      * pose proof (decides_yes _ _ _ Q p eq_refl) as J. split; [eauto|]. rewrite Fin. tauto.
  - apply wrap_accept, S.
  - unfold gen_new. unfold gen_accepted. pose proof (wrap_accept d S ac (Some s)) as Q. cbn [Build.get] in Q.
    destruct (aircraft d ac s) as [e|a] eqn:E; cbn [bind].
    + destruct (decides_no _ _ _ A e eq_refl) as [-> N]. split; auto. rewrite Fin. tauto.
    + pose proof (decides_yes _ _ _ A a eq_refl) as I. destruct (wrap_new d ac (Some s)) as [e|p] eqn:E2; cbn [bind].
      * destruct (decides_no _ _ _ Q e eq_refl) as [-> N]. split; auto. rewrite Fin. tauto.
      * pose proof (decides_yes _ _ _ Q p eq_refl) as J. split; [eauto|]. rewrite Fin. tauto.
Qed.
Transparent types_accepted wrap_accepted drag_plain shipped_polsyn shipped_aircraft mem find engine aircraft load_drag_model wrap_new.
(** each constructor has its own domain: with no keyword the trajectory model accepts a type (a306) that the thrust model refuses,
    and the thrust model accepts one (a318) that the drag model refuses *)
Theorem C85_one_domain_refuted :
  ~ (forall d, ships d -> forall ac, (exists o, wrap_new d ac None = inr o) -> exists o, thrust_new d ac None (mkKwc None None) = inr o) /\
  ~ (forall d, ships d -> forall ac, (exists o, thrust_new d ac None (mkKwc None None) = inr o) -> exists o, drag_new d ac (mkKwc None None) = inr o).
Proof.
  split; intros H.
  - destruct (H shipped0 shipped0_ships "a306") as (o & E); [vm_compute; eexists; reflexivity|vm_compute in E; discriminate].
  - destruct (H shipped0 shipped0_ships "a318") as (o & E); [vm_compute; eexists; reflexivity|vm_compute in E; discriminate].
Qed.
Example C85_ex3 : decides (drag_new shipped0 "A318" (mkKwc None None)) False /\ decides (drag_new shipped0 "A318" (mkKwc (Some true) None)) True /\
  decides (emission_new shipped0 "A318" None (mkKwc None None)) True /\ decides (gen_new shipped0 "A318" false) False.
Proof. split; [|split; [|split]]; split; intros H; try contradiction; vm_compute; eauto; exfalso; auto. Qed.
