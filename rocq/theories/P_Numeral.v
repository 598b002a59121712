(** * C129, C130: exactly which texts are numbers *)
From Coq Require Import String Ascii List Bool Arith ZArith QArith Lia.
From Verif Require Import Regex Bada3Text FileText SpecFile FileFacts YamlFacts P_Yaml P_Csv.
Import ListNotations.
Open Scope char_scope.
Open Scope nat_scope.
Open Scope list_scope.

(** ** Numbers of tables *)
Inductive sign_is : text -> bool -> Prop := si_none : sign_is [] false | si_plus : sign_is ["+"] false | si_minus : sign_is ["-"] true.
Inductive fraction : text -> list nat -> Prop :=
| fr_none : fraction [] []
| fr_point fs : digits fs -> fraction ("." :: map dig fs) fs.
Inductive exponent : text -> Q -> Prop :=
| ex_none : exponent [] 1
| ex_some c s neg es : c = "e" \/ c = "E" -> sign_is s neg -> es <> [] -> digits es -> exponent (c :: s ++ map dig es) (tens neg es).
(** blanks, a sign, digits, a point and digits, an exponent with its own sign, blanks; one digit at least before the
    exponent and, if there is an exponent, one in it *)
Inductive float_text : text -> Q -> Prop :=
| float_text_is a b s neg ds p fs x t : sign_is s neg -> digits ds -> fraction p fs -> ds ++ fs <> [] -> exponent x t ->
    float_text (blanks a ++ (s ++ map dig ds ++ p ++ x) ++ blanks b) (Qmake (sgn neg (horner (ds ++ fs))) (Pos.of_nat (10 ^ length fs)) * t).

Lemma digit_inv c : digit c = true -> exists d, d < 10 /\ c = dig d.
Proof.
  intros H. assert (R : nat_of_ascii c = 48 + (nat_of_ascii c - 48) /\ nat_of_ascii c - 48 < 10).
  { revert H. destruct c as [[] [] [] [] [] [] [] []]; vm_compute; intros H; try discriminate H; split; try reflexivity; lia. }
  exists (nat_of_ascii c - 48). split; [tauto |]. unfold dig. rewrite <- (proj1 R). symmetry. apply ascii_nat_embedding.
Qed.
Lemma span_inv l : exists ds r, span digit l = (map dig ds, r) /\ digits ds /\ l = map dig ds ++ r.
Proof.
  induction l as [| c l IH].
  - exists [], []. split; [reflexivity |]. split; [constructor | reflexivity].
  - cbn [span]. destruct (digit c) eqn:E.
    + destruct IH as (ds & r & E1 & H & E2). destruct (digit_inv c E) as (d & L & ->). exists (d :: ds), r. rewrite E1.
      split; [reflexivity |]. split; [constructor; auto |]. cbn [map app]. now rewrite <- E2.
    + exists [], (c :: l). split; [reflexivity |]. split; [constructor | reflexivity].
Qed.
Lemma sign_inv l neg r : take_sign l = (neg, r) -> exists s, sign_is s neg /\ l = s ++ r.
Proof.
  unfold take_sign. destruct l as [| c t].
  - intros E. injection E as <- <-. exists []. split; [constructor | reflexivity].
  - destruct (Ascii.eqb_spec c "-") as [-> | _]; [| destruct (Ascii.eqb_spec c "+") as [-> | _]]; intros E; injection E as <- <-.
    + exists ["-"]. split; [constructor | reflexivity].
    + exists ["+"]. split; [constructor | reflexivity].
    + exists []. split; [constructor | reflexivity].
Qed.
Lemma ltrim_inv l : exists a, l = blanks a ++ ltrim l.
Proof.
  induction l as [| c l IH]; [now exists 0 |]. cbn [ltrim]. destruct (blank c) eqn:B; [| now exists 0].
  destruct IH as [a E]. exists (S a). unfold blank in B. apply Ascii.eqb_eq in B. subst c. cbn [blanks repeat app]. f_equal. exact E.
Qed.
Lemma rtrim_inv l : exists b, l = rtrim l ++ blanks b.
Proof.
  induction l as [| c l IH]; [now exists 0 |]. destruct IH as [b E]. cbn [rtrim]. destruct (rtrim l) as [| d r] eqn:R.
  - destruct (blank c) eqn:B.
    + exists (S b). unfold blank in B. apply Ascii.eqb_eq in B. subst c. cbn [blanks repeat app]. f_equal. exact E.
    + exists b. cbn [app]. f_equal. exact E.
  - exists b. cbn [app] in *. f_equal. exact E.
Qed.
Lemma scale_tens q neg es : es <> [] -> digits es -> scale10 q (signed neg (digits_val (map dig es))) = (q * tens neg es)%Q.
Proof.
  intros NE H. pose proof (yaml_exponent_tens false neg es q NE H) as T.
  assert (Y : yaml_exponent ("e" :: (if neg then "-" else "+")%char :: map dig es) = Some (signed neg (digits_val (map dig es)))).
  { unfold yaml_exponent. pose proof (span_digits es [] H I) as SP. rewrite app_nil_r in SP. rewrite SP.
    destruct es as [| e es]; [easy |]. destruct neg; reflexivity. }
  cbv iota in T. rewrite Y in T. apply (f_equal (fun o => match o with Some x => x | None => 0%Q end)) in T. exact T.
Qed.
Lemma decimal_value neg ds fs : digits ds -> digits fs ->
  decimal neg (map dig ds) (map dig fs) = Qmake (sgn neg (horner (ds ++ fs))) (Pos.of_nat (10 ^ length fs)).
Proof. intros H Hf. unfold decimal. rewrite <- map_app, digits_horner by (apply List.Forall_app; auto). now rewrite map_length, p10_pow. Qed.
Definition solid_char (c : ascii) : Prop := blank c = false.
Lemma digits_solid_chars ds : digits ds -> List.Forall solid_char (map dig ds).
Proof. induction 1 as [| d r L H IH]; constructor; [now destruct (digit_char d L) | exact IH]. Qed.
Lemma sign_solid s neg : sign_is s neg -> List.Forall solid_char s.
Proof. intros []; repeat (constructor; try reflexivity). Qed.
Lemma fraction_solid p fs : fraction p fs -> List.Forall solid_char p /\ digits fs.
Proof. intros [| gs H]; split; [constructor | constructor | constructor; [reflexivity | now apply digits_solid_chars] | exact H]. Qed.
Lemma exponent_solid x t : exponent x t -> List.Forall solid_char x.
Proof.
  intros [| c s neg es C S NE H]; [constructor |]. constructor; [destruct C as [-> | ->]; reflexivity |].
  apply List.Forall_app. split; [eapply sign_solid; exact S | now apply digits_solid_chars].
Qed.
Lemma trim_core a b l : List.Forall solid_char l -> l <> [] -> ltrim (rtrim (blanks a ++ l ++ blanks b)) = l.
Proof.
  intros H NE. rewrite app_assoc, rtrim_blanks. rewrite rtrim_solid.
  - rewrite ltrim_blanks. destruct l as [| c r]; [easy |]. inversion H; subst. now apply ltrim_id.
  - apply solid_app. destruct (exists_last NE) as (i & c & ->). exists i, c. split; [reflexivity |].
    apply List.Forall_app in H. destruct H as [_ H]. now inversion H.
Qed.
Lemma take_sign_at s neg r : sign_is s neg -> match r with c :: _ => Ascii.eqb c "-" = false /\ Ascii.eqb c "+" = false | [] => True end ->
  take_sign (s ++ r) = (neg, r).
Proof.
  intros [] H; [| reflexivity | reflexivity]. cbn [app]. destruct r as [| c r]; [reflexivity |]. destruct H as [H1 H2]. unfold take_sign. now rewrite H1, H2.
Qed.
Lemma head_of ds p fs x : digits ds -> fraction p fs -> ds ++ fs <> [] ->
  match map dig ds ++ p ++ x with c :: _ => Ascii.eqb c "-" = false /\ Ascii.eqb c "+" = false | [] => True end.
Proof.
  intros H F NE. destruct ds as [| d r].
  - destruct F as [| fs Hf]; [easy |]. now split.
  - inversion H as [| ? ? L _]; subst. cbn [map app]. destruct (digit_char d L) as (_ & _ & _ & _ & _ & _ & _ & _ & _ & _ & _ & A & B & _). now split.
Qed.
Lemma float_text_numeral l v : float_text l v -> exists q, numeral l = Some q /\ (q == v)%Q.
Proof.
  intros [a b s neg ds p fs x t S H F NE X].
  destruct (fraction_solid p fs F) as [Fp Hf].
  assert (CN : s ++ map dig ds ++ p ++ x <> []).
  { intros E. apply app_eq_nil in E. destruct E as [_ E]. apply app_eq_nil in E. destruct E as [E1 E]. apply app_eq_nil in E. destruct E as [E2 _].
    destruct ds; [| discriminate]. destruct F; [now apply NE | discriminate]. }
  unfold numeral. rewrite trim_core; [| | exact CN].
  2: { apply List.Forall_app. split; [eapply sign_solid; exact S |]. apply List.Forall_app. split; [now apply digits_solid_chars |].
       apply List.Forall_app. split; [exact Fp | eapply exponent_solid; exact X]. }
  rewrite (take_sign_at s neg _ S (head_of ds p fs x H F NE)).
  assert (XH : match x with c :: _ => digit c = false /\ Ascii.eqb c "." = false | [] => True end).
  { destruct X as [| c s' n es [-> | ->] _ _ _]; [exact I | split; reflexivity ..]. }
  rewrite span_digits; [| exact H |].
  2: { destruct F as [| fs Hfs]; [cbn [app]; destruct x; tauto | reflexivity]. }
  match goal with |- exists q, (let (_, _) := ?m in _) = _ /\ _ => assert (E : m = (map dig fs, x)) end.
  { destruct F as [| fs Hfs].
    - cbn [app map]. destruct x as [| c x]; [reflexivity |]. destruct XH as [_ ->]. reflexivity.
    - cbn [app]. change (Ascii.eqb "." ".") with true. cbv iota. apply span_digits; [exact Hfs |]. destruct x; tauto. }
  rewrite E. clear E. rewrite <- map_app. destruct (ds ++ fs) as [| d0 r0] eqn:DF; [easy |]. cbn [map]. rewrite <- DF.
  destruct X as [| c s' n es C S' NEe He].
  - eexists. split; [reflexivity |]. rewrite decimal_value by auto. now rewrite Qmult_1_r.
  - assert (B : Ascii.eqb c "e" || Ascii.eqb c "E" = true) by (destruct C as [-> | ->]; reflexivity). rewrite B.
    rewrite (take_sign_at s' n (map dig es) S').
    2: { destruct es as [| e es]; [easy |]. inversion He as [| ? ? L _]; subst. cbn [map].
         destruct (digit_char e L) as (_ & _ & _ & _ & _ & _ & _ & _ & _ & _ & _ & A1 & B1 & _). now split. }
    pose proof (span_digits es [] He I) as SP. rewrite app_nil_r in SP. rewrite SP. destruct es as [| e es]; [easy |]. cbn [map].
    eexists. split; [reflexivity |]. change (dig e :: map dig es) with (map dig (e :: es)). rewrite scale_tens by auto. now rewrite decimal_value.
Qed.
Lemma numeral_float_text l q : numeral l = Some q -> exists v, float_text l v /\ (v == q)%Q.
Proof.
  intros N. destruct (rtrim_inv l) as [b E1]. destruct (ltrim_inv (rtrim l)) as [a E2]. unfold numeral in N.
  set (core := ltrim (rtrim l)) in *. clearbody core. rewrite E2 in E1. clear E2. rewrite <- app_assoc in E1. subst l.
  destruct (take_sign core) as [neg l1] eqn:T. destruct (sign_inv _ _ _ T) as (s & S & ->). clear T.
  destruct (span_inv l1) as (ds & l2 & Sp & H & ->). rewrite Sp in N. clear Sp.
  match type of N with (let (_, _) := ?m in _) = _ => assert (F : exists p fs l3, fraction p fs /\ l2 = p ++ l3 /\ m = (map dig fs, l3)) end.
  { destruct l2 as [| c t]; [exists [], [], []; repeat split; constructor |]. destruct (Ascii.eqb_spec c ".") as [-> | D].
    - destruct (span_inv t) as (fs & l3 & Sp & Hf & ->). exists ("." :: map dig fs), fs, l3. rewrite Sp. repeat split. now constructor.
    - exists [], [], (c :: t). repeat split; constructor. }
  destruct F as (p & fs & l3 & F & -> & E). rewrite E in N. clear E. destruct (fraction_solid p fs F) as [_ Hf].
  rewrite <- map_app in N. destruct (ds ++ fs) as [| d0 r0] eqn:DF; [discriminate |]. cbn [map] in N.
  assert (NE : ds ++ fs <> []) by (rewrite DF; discriminate).
  destruct l3 as [| c t].
  - injection N as <-. exists (Qmake (sgn neg (horner (ds ++ fs))) (Pos.of_nat (10 ^ length fs)) * 1)%Q. split.
    + apply (float_text_is a b s neg ds p fs [] 1%Q S H F NE ex_none).
    + rewrite decimal_value by auto. apply Qmult_1_r.
  - destruct (Ascii.eqb c "e" || Ascii.eqb c "E") eqn:B; [| discriminate].
    destruct (take_sign t) as [en t1] eqn:T. destruct (sign_inv _ _ _ T) as (s' & S' & ->). clear T.
    destruct (span_inv t1) as (es & t2 & Sp & He & ->). rewrite Sp in N. destruct es as [| e es]; [discriminate |]. cbn [map] in N.
    destruct t2; [| discriminate]. injection N as <-. rewrite app_nil_r in *.
    exists (Qmake (sgn neg (horner (ds ++ fs))) (Pos.of_nat (10 ^ length fs)) * tens en (e :: es))%Q. split.
    + apply (float_text_is a b s neg ds p fs _ _ S H F NE). constructor; auto; [| discriminate].
      apply orb_true_iff in B. destruct B as [B | B]; apply Ascii.eqb_eq in B; auto.
    + change (dig e :: map dig es) with (map dig (e :: es)). rewrite scale_tens by (auto; discriminate). now rewrite decimal_value.
Qed.
(** C130.  A cell that is not missing is a number exactly if it is written like this, and then it is that number. *)
Theorem C130_numeral l q : (exists p, numeral l = Some p /\ (p == q)%Q) <-> (exists v, float_text l v /\ (v == q)%Q).
Proof.
  split.
  - intros (p & N & E). destruct (numeral_float_text l p N) as (v & F & E2). exists v. split; [exact F |]. now rewrite E2.
  - intros (v & F & E). destruct (float_text_numeral l v F) as (p & N & E2). exists p. split; [exact N |]. now rewrite E2.
Qed.
(** C130.  A column is one of numbers exactly if every cell is missing or written like this. *)
Theorem C130_number_column t name cs : column t name = Some cs ->
  ((exists xs, num_col t name = Some xs) <-> List.Forall (fun c => In (st_ c) na_words \/ exists v, float_text c v) cs).
Proof.
  intros C. unfold num_col. rewrite C. split.
  - intros [xs E]. apply all_some_iff in E. clear C. revert xs E. induction cs as [| c cs IH]; intros xs E; [constructor |].
    destruct xs as [| x xs]; [discriminate |]. cbn [map] in E. injection E as E1 E2. constructor; [| exact (IH xs E2)].
    unfold num_cell in E1. destruct (missing c) eqn:M; [left; now apply missing_iff |]. right.
      destruct (numeral c) as [q |] eqn:N; [| discriminate]. destruct (numeral_float_text c q N) as (v & F & _). now exists v.
  - intros F. clear C. induction F as [| c cs H F IH].
    + exists []. reflexivity.
    + destruct IH as [xs E]. apply all_some_iff in E.
      assert (X : exists x, num_cell c = Some x).
      { unfold num_cell. destruct (missing c) eqn:M; [now eexists |]. destruct H as [H | [v H]]; [apply missing_iff in H; congruence |].
        destruct (float_text_numeral c v H) as (q & -> & _). now eexists. }
      destruct X as [x E1]. exists (x :: xs). apply all_some_iff. cbn [map]. now rewrite E1, E.
Qed.
Example C130_ex3 : numeral (tx " -1.5E+3 ") = Some ((-15 # 10) * (1000 # 1))%Q /\ numeral (tx "5.") <> None /\ numeral (tx ".5") <> None /\
  numeral (tx "1.5e") = None /\ numeral (tx "1.5e+") = None /\ numeral (tx ".") = None /\ numeral (tx "- 1") = None.
Proof. vm_compute. repeat split; discriminate. Qed.

(** ** Leading zeros in YAML *)
(** the number written by digits in base eight *)
Definition horner8 (ds : list nat) : Z := fold_left (fun v d => 8 * v + Z.of_nat d)%Z ds 0%Z.
Lemma octal_dig d : d < 10 -> octal (dig d) = (d <? 8).
Proof. intros L. do 10 (destruct d as [| d]; [reflexivity |]). lia. Qed.
Lemma octal_horner ds : digits ds -> octal_val (map dig ds) = horner8 ds.
Proof.
  intros H. unfold octal_val, horner8. generalize 0%Z as v. induction H as [| d r L H IH]; intros v; [reflexivity |]. cbn [map fold_left].
  rewrite IH. rewrite dig_code by exact L. f_equal. lia.
Qed.
(** C129.  Digits after a zero are read in base eight; if one of them is 8 or 9, the whole is a string. *)
Theorem C129_leading_zero neg ds : ds <> [] -> digits ds -> let l := minus neg ++ map dig (0 :: ds) in
  resolve l = Some (if forallb (fun d => d <? 8) ds then SInt (sgn neg (horner8 ds)) else SStr (st_ l)).
Proof.
  intros NE H l. assert (H0 : digits (0 :: ds)) by (constructor; [lia | exact H]).
  destruct (num_head neg 0 (map dig ds) ltac:(lia)) as (c & t & Ec & Cn). destruct (words_num c t Cn) as (W1 & W2 & W3).
  assert (El : l = c :: t) by exact Ec.
  rewrite <- El in W1, W2, W3. unfold resolve. rewrite W1, W2, W3.
  assert (Sp : special l = false) by (unfold l; cbn [map]; apply special_num; [lia | now apply dd_digits]).
  rewrite Sp. pose proof (sign_digits neg 0 (map dig ds) [] ltac:(lia)) as TS. rewrite !app_nil_r in TS.
  assert (TS' : take_sign l = (neg, dig 0 :: map dig ds)) by exact TS.
  assert (YI : yaml_int l = if forallb octal (map dig ds) then Some (signed neg (octal_val (map dig ds))) else None).
  { unfold yaml_int. rewrite TS'. change (Ascii.eqb (dig 0) "0") with true. cbv iota. destruct ds; [easy |]. reflexivity. }
  assert (FO : forallb octal (map dig ds) = forallb (fun d => d <? 8) ds).
  { clear - H. induction H as [| d r L H IH]; [reflexivity |]. cbn [map forallb]. now rewrite octal_dig, IH. }
  rewrite YI, FO. destruct (forallb (fun d => d <? 8) ds); [now rewrite octal_horner |].
  assert (YF : yaml_float l = None).
  { unfold yaml_float. rewrite TS'. pose proof (span_digits (0 :: ds) [] H0 I) as SP. rewrite app_nil_r in SP. cbn [map] in SP. now rewrite SP. }
  now rewrite YF.
Qed.
Example C129_ex3 : resolve (tx "-017") = Some (SInt (-15)) /\ resolve (tx "08") = Some (SStr "08") /\ resolve (tx "0190") = Some (SStr "0190").
Proof. vm_compute. repeat split. Qed.

(** ** Colons inside names *)
Lemma key_split_first p r : (forall a b, p ++ [":"] = a ++ ":" :: b -> b <> [] -> exists c t, b = c :: t /\ blank c = false) ->
  (r = [] \/ exists t, r = " " :: t) -> key_split (p ++ ":" :: r) = Some (p, r).
Proof.
  intros H R. induction p as [| c p IH].
  - cbn [app key_split]. change (Ascii.eqb ":" ":") with true. destruct R as [-> | [t ->]]; reflexivity.
  - cbn [app key_split]. rewrite IH.
    + destruct (Ascii.eqb_spec c ":") as [-> | D]; [| reflexivity]. cbn [andb].
      destruct (H [] (p ++ [":"]) eq_refl) as (d & t & E & B); [destruct p; discriminate |].
      assert (E2 : exists t', p ++ ":" :: r = d :: t').
      { destruct p as [| d' p]; cbn [app] in E; injection E as <- _; eexists; reflexivity. }
      destruct E2 as [t' ->]. rewrite B. reflexivity.
    + intros a b E N. apply (H (c :: a) b); [cbn [app]; now rewrite E | exact N].
Qed.
Lemma key_split_no l : (forall p q, l = p ++ ":" :: q -> exists c t, q = c :: t /\ blank c = false) -> key_split l = None.
Proof.
  induction l as [| c l IH]; intros H; [reflexivity |]. cbn [key_split]. rewrite IH.
  - destruct (Ascii.eqb_spec c ":") as [-> | _]; [| reflexivity]. destruct (H [] l eq_refl) as (d & t & -> & B). now rewrite B.
  - intros p q E. apply (H (c :: p) q). cbn [app]. now rewrite E.
Qed.
Lemma only_colon a b p q : ~ In ":" a -> ~ In ":" b -> a ++ ":" :: b = p ++ ":" :: q -> p = a /\ q = b.
Proof.
  revert p. induction a as [| c a IH]; intros p NA NB E.
  - destruct p as [| d p]; cbn [app] in E; [injection E as E2; now subst |]. injection E as E1 E2. exfalso. apply NB. rewrite E2. apply in_or_app. right. now left.
  - destruct p as [| d p]; cbn [app] in E; injection E as E1 E2; [exfalso; apply NA; now left |].
    destruct (IH p) as [-> ->]; auto; [intros I; apply NA; now right |]. now subst.
Qed.
Lemma two_colons a b p q : ~ In ":" a -> ~ In ":" b -> a ++ ":" :: b ++ [":"] = p ++ ":" :: q -> q = b ++ [":"] \/ q = [].
Proof.
  revert p. induction a as [| c a IH]; intros p NA NB E.
  - destruct p as [| d p]; cbn [app] in E; [injection E as E2; now left |]. injection E as E1 E2. right.
    destruct (only_colon b [] p q NB (fun x => x) E2) as [_ Q]. exact Q.
  - destruct p as [| d p]; cbn [app] in E; injection E as E1 E2; [exfalso; apply NA; now left |].
    apply (IH p); auto. intros I; apply NA; now right.
Qed.
(** C129.  A colon with neither a blank nor the end of the line behind it belongs to the name: the line [a:b: v] gives the
    name [a:b] the value of v. *)
Theorem C129_colon a b v x k : is_name a -> is_name b -> k = a ++ ":" :: b -> stands_for v x ->
  line_entry (k ++ ":" :: " " :: v) = Some (EKey (st_ k) (Some x)).
Proof.
  intros A B -> V. destruct (name_reads a A) as (_ & Ca & _ & _). destruct (name_reads b B) as (_ & Cb & Sb & (hb & tb & Eb & Bb)).
  destruct (stands_reads v x V) as (Rv & _ & _ & (hv & tv & -> & Bv)).
  assert (NCa : ~ In ":" a) by now apply no_colon. assert (NCb : ~ In ":" b) by now apply no_colon.
  assert (K : scalar (a ++ ":" :: b) = Some (SStr (st_ (a ++ ":" :: b)))).
  { destruct A as ((c & r & -> & L) & _). unfold scalar. cbn [app]. rewrite letter_start by exact L.
    rewrite key_split_no.
    - apply resolve_letter; [exact L |]. intros I.
      assert (J : forallb (fun w => negb (existsb (Ascii.eqb ":") (tx w))) reserved = true) by (vm_compute; reflexivity).
      rewrite forallb_forall in J. specialize (J _ I). rewrite tx_st in J. apply negb_true_iff in J.
      assert (J2 : existsb (Ascii.eqb ":") (c :: r ++ ":" :: b) = true) by (apply existsb_exists; exists ":"; split; [right; apply in_or_app; right; now left | reflexivity]).
      congruence.
    - intros p q E. change (c :: r ++ ":" :: b) with ((c :: r) ++ ":" :: b) in E. destruct (only_colon (c :: r) b p q NCa NCb E) as [_ ->]. rewrite Eb. now exists hb, tb. }
  rewrite <- app_assoc. rewrite (key_not_item a) by exact A. rewrite app_assoc. unfold key_entry.
  change ((":" :: b) ++ ":" :: " " :: hv :: tv) with (":" :: b ++ ":" :: " " :: hv :: tv).
  replace ((a ++ (":" :: b)) ++ ":" :: " " :: hv :: tv) with ((a ++ ":" :: b) ++ ":" :: " " :: hv :: tv) by reflexivity.
  rewrite key_split_first; [| | right; eexists; reflexivity].
  - rewrite rtrim_solid by (apply solid_app, solid_cons, Sb). rewrite K. cbn [ltrim]. change (blank " ") with true. cbv iota. rewrite Bv. now rewrite Rv.
  - intros p q E N. rewrite <- app_assoc in E. cbn [app] in E.
    destruct (two_colons a b p q NCa NCb E) as [Q | Q]; [| easy]. subst q. rewrite Eb. cbn [app]. now exists hb, (tb ++ [":"]).
Qed.
Example C129_ex4 : line_entry (tx "a:b: 3") = Some (EKey "a:b" (Some (SInt 3))) /\ line_entry (tx "a: b:c") = Some (EKey "a" (Some (SStr "b:c"))) /\
  line_entry (tx "a:3") = None.
Proof. vm_compute. repeat split. Qed.
