(** * C129: what the aircraft and drag polar files say is what the package uses *)
From Coq Require Import String Ascii List Bool Arith ZArith QArith Lia.
From Verif Require Import Regex Bada3Text Py PropPy FileText FileLoad SpecFile FileFacts YamlFacts TextAc TextPolar DataAc DataPolar.
Import ListNotations.
Open Scope char_scope.
Open Scope nat_scope.
Open Scope list_scope.

(** ** The whole file *)
Lemma blanks_print n : List.Forall (fun c => c <> nl /\ printable c) (blanks n).
Proof.
  unfold blanks. induction n; constructor; [| exact IHn]. split; [discriminate |]. split; apply Nat.leb_le; reflexivity.
Qed.
Lemma one_print c : Ascii.eqb c nl = false -> (32 <=? nat_of_ascii c) && (nat_of_ascii c <=? 126) = true -> c <> nl /\ printable c.
Proof.
  intros E H. apply andb_prop in H. destruct H as [H1 H2]. apply Nat.leb_le in H1, H2.
  split; [intros ->; discriminate | now split].
Qed.
Lemma clean_print v : List.Forall (fun c => c <> "#" /\ c <> ":" /\ c <> nl /\ printable c) v -> List.Forall (fun c => c <> nl /\ printable c) v.
Proof. apply List.Forall_impl. now intros a (_ & _ & A & B). Qed.
Lemma printable_not_nl c : printable c -> c <> nl.
Proof. intros [A _] ->. apply Nat.leb_le in A. discriminate. Qed.
Lemma comment_print c : List.Forall printable c -> List.Forall (fun c => c <> nl /\ printable c) c.
Proof. apply List.Forall_impl. intros a P. split; [now apply printable_not_nl | exact P]. Qed.
Lemma end_print e : line_end e -> List.Forall (fun c => c <> nl /\ printable c) e.
Proof.
  intros [n | n c H]; [apply blanks_print |]. apply List.Forall_app. split; [apply blanks_print |].
  constructor; [now apply one_print | now apply comment_print].
Qed.
Lemma line_print l r : line_is l r -> List.Forall (fun c => c <> nl /\ printable c) l.
Proof.
  intros [n | n c H | n k a e K E | n k a b v x e K V E | n b v x e V E].
  - apply blanks_print.
  - apply List.Forall_app. split; [apply blanks_print |]. constructor; [now apply one_print | now apply comment_print].
  - apply List.Forall_app. split; [apply blanks_print |]. apply List.Forall_app. split; [apply clean_print; now destruct (name_reads k K) as (_ & C & _) |].
    apply List.Forall_app. split; [apply blanks_print |]. constructor; [now apply one_print | now apply end_print].
  - apply List.Forall_app. split; [apply blanks_print |]. apply List.Forall_app. split; [apply clean_print; now destruct (name_reads k K) as (_ & C & _) |].
    apply List.Forall_app. split; [apply blanks_print |]. constructor; [now apply one_print |].
    apply List.Forall_app. split; [apply blanks_print |]. apply List.Forall_app. split; [| now apply end_print].
    apply clean_print. now destruct (stands_reads v x V) as (_ & C & _).
  - apply List.Forall_app. split; [apply blanks_print |]. constructor; [now apply one_print |].
    apply List.Forall_app. split; [apply blanks_print |]. apply List.Forall_app. split; [| now apply end_print].
    apply clean_print. now destruct (stands_reads v x V) as (_ & C & _).
Qed.
Lemma lines_print ls es : lines_are ls es -> forall l, In l ls -> List.Forall (fun c => c <> nl /\ printable c) l.
Proof.
  induction 1 as [| l ls es L _ IH | l ls e es L _ IH]; intros x I; [destruct I | |]; (destruct I as [<- | I]; [| now apply IH]);
    eapply line_print; exact L.
Qed.

(** C129.  A file of lines that spell a mapping -- names with values, nested mappings at any deeper indentation, lists
    at any indentation not smaller than that of their name, blank lines, comments, any number of blanks before and
    after colons and at the ends of lines -- is read as that mapping. *)
Lemma load_lines ls es n m : lines_are ls es -> es <> [] -> mapping n es m -> safe_load (join nl ls) = Some (Map (dict_of m)).
Proof.
  intros L NE M. assert (NL : ls <> []) by (intros ->; inversion L; subst; easy).
  pose proof (lines_print ls es L) as P. unfold safe_load.
  assert (FC : forallb file_char (join nl ls) = true).
  { apply forallb_forall. apply List.Forall_forall. apply join_all; [reflexivity |]. intros l I.
    apply (List.Forall_impl _ (P := fun c => c <> nl /\ printable c)); [| now apply P].
    intros c [_ [A B]]. unfold file_char. apply Nat.leb_le in A, B. now rewrite A, B. }
  rewrite FC. rewrite split_join; [| exact NL |].
  2: { intros l I J. specialize (P l I). rewrite List.Forall_forall in P. now destruct (P _ J). }
  rewrite (lines_entries ls es L). pose proof (mapping_head n es m M) as HD.
  destruct es as [| [i [x | k x]] es]; [easy | easy |]. subst i.
  pose proof (pairs_mapping n _ m M (S (length ((n, EKey k x) :: es))) [] (Nat.lt_succ_diag_r _) I) as E.
  rewrite app_nil_r in E. now rewrite E.
Qed.
Theorem C129_layout ls es n m : lines_are ls es -> es <> [] -> mapping n es m -> NoDup (map fst m) -> safe_load (join nl ls) = Some (Map m).
Proof. intros L NE M N. rewrite (load_lines ls es n m L NE M). now rewrite dict_of_nodup. Qed.

(** C129.  A name that stands more than once keeps its first place and takes its last value: nothing warns of the
    repetition. *)
Theorem C129_repeated ls es n m : lines_are ls es -> es <> [] -> mapping n es m ->
  exists d, safe_load (join nl ls) = Some (Map d) /\ map fst d = first_names m /\ forall k, dict_get d k = last_value m k.
Proof.
  intros L NE M. exists (dict_of m). split; [exact (load_lines ls es n m L NE M) |]. clear.
  induction m as [| [k v] m IH] using rev_ind; [now split |]. destruct IH as [IH1 IH2].
  unfold dict_of in *. rewrite fold_left_app. cbn [fold_left fst snd]. set (d := fold_left _ m []) in *. split.
  - unfold first_names in *. rewrite map_app, rev_app_distr. cbn [map fst rev app nodup]. rewrite dict_set_names, IH1.
    destruct (in_dec string_dec k (rev (map fst m))) as [I | I]; destruct (in_dec string_dec k (rev (nodup string_dec (rev (map fst m))))) as [J | J].
    + reflexivity.
    + exfalso. apply J. apply in_rev. rewrite rev_involutive. now apply nodup_In.
    + exfalso. apply I. apply in_rev in J. now apply nodup_In in J.
    + reflexivity.
  - intros x. unfold last_value. rewrite rev_app_distr. cbn [rev app find fst snd]. destruct (String.eqb_spec k x) as [-> | N].
    + rewrite dict_get_set_same. reflexivity.
    + rewrite dict_get_set_other by congruence. apply IH2.
Qed.

(** C129.  A decimal number with an exponent is a number only if the exponent has a sign; without one it is a string. *)
Theorem C129_unsigned neg ds fs (big : bool) es : ds <> [] -> digits ds -> digits fs -> es <> [] -> digits es ->
  let l := minus neg ++ map dig ds ++ "." :: map dig fs ++ (if big then "E" else "e")%char :: map dig es in
  resolve l = Some (SStr (st_ l)) /\
  exists q, numeral l = Some q /\ (q == Qmake (sgn neg (horner (ds ++ fs))) (Pos.of_nat (10 ^ length fs)) * tens false es)%Q.
Proof.
  intros NE H Hf NEe He l. split; [exact (resolve_unsigned neg ds fs big es NE H Hf He) |].
  destruct ds as [| d r]; [easy |]. inversion H as [| ? ? L Hr]; subst. destruct es as [| e es]; [easy |]. inversion He as [| ? ? Le Hre]; subst.
  assert (TR : ltrim (rtrim l) = l).
  { unfold l. rewrite rtrim_solid; [| apply solid_app, solid_app, solid_cons, solid_app, solid_cons; now apply digits_solid].
    destruct neg; cbn [minus app map]; apply ltrim_id; [reflexivity | now destruct (digit_char d L)]. }
  assert (TS : take_sign l = (neg, map dig (d :: r) ++ "." :: map dig fs ++ (if big then "E" else "e")%char :: map dig (e :: es))).
  { unfold l. cbn [map app]. now rewrite sign_digits. }
  unfold numeral. rewrite TR, TS. rewrite span_digits by (auto; reflexivity). change (Ascii.eqb "." ".") with true. cbv iota.
  rewrite (span_digits fs _ Hf) by (now destruct big).
  assert (B : Ascii.eqb (if big then "E" else "e")%char "e" || Ascii.eqb (if big then "E" else "e")%char "E" = true) by now destruct big.
  rewrite B. cbn [map app]. pose proof (sign_digits false e (map dig es) [] Le) as TS2. rewrite app_nil_r in TS2. cbn [minus app] in TS2. rewrite TS2.
  pose proof (span_digits (e :: es) [] He I) as SP. rewrite app_nil_r in SP. cbn [map] in SP. rewrite SP.
  eexists. split; [reflexivity |].
  pose proof (yaml_exponent_tens big false (e :: es) (decimal neg (dig d :: map dig r) (map dig fs)) NEe He) as YT.
  assert (YE : yaml_exponent ((if big then "E" else "e")%char :: "+" :: map dig (e :: es)) = Some (signed false (digits_val (map dig (e :: es))))).
  { unfold yaml_exponent. rewrite B. change ((Ascii.eqb "+" "+") || (Ascii.eqb "+" "-")) with true. cbn [andb].
    pose proof (span_digits (e :: es) [] He I) as SP2. rewrite app_nil_r in SP2. rewrite SP2. reflexivity. }
  assert (YT2 : scale10 (decimal neg (dig d :: map dig r) (map dig fs)) (signed false (digits_val (dig e :: map dig es))) =
                (decimal neg (dig d :: map dig r) (map dig fs) * tens false (e :: es))%Q).
  { change (if false then "-" else "+")%char with "+" in YT. rewrite YE in YT. apply (f_equal (fun o => match o with Some x => x | None => 0%Q end)) in YT. exact YT. }
  match goal with |- (?x == _)%Q => change x with (scale10 (decimal neg (dig d :: map dig r) (map dig fs)) (signed false (digits_val (dig e :: map dig es)))) end.
  rewrite YT2.
  unfold decimal. change (dig d :: map dig r) with (map dig (d :: r)).
  rewrite <- map_app, digits_horner by (apply List.Forall_app; auto). rewrite map_length, p10_pow. reflexivity.
Qed.

(** C129.  The entry limits that [aircraft] adds holds the seven numbers under their old names, null where the file has
    none; every other entry is that of the file.  A file without any mapping raises AttributeError. *)
Definition limit_names : list (string * string) :=
  [("MTOW", "mtow"); ("MLW", "mlw"); ("OEW", "oew"); ("MFC", "mfc"); ("VMO", "vmo"); ("MMO", "mmo"); ("ceiling", "ceiling")]%string.
Theorem C129_limits y :
  match y with
  | Map m => exists d lim, add_limits y = inr (Map d) /\ (forall k, k <> "limits"%string -> dict_get d k = dict_get m k) /\
      dict_get d "limits"%string = Some (Map lim) /\ map fst lim = map fst limit_names /\
      (forall K k, In (K, k) limit_names -> dict_get lim K = Some (match dict_get m k with Some v => v | None => Sc SNull end))
  | _ => add_limits y = inl AttributeError
  end.
Proof.
  destruct y as [v | l | m]; [reflexivity | reflexivity |]. do 2 eexists. split; [reflexivity |].
  split; [intros k N; now apply dict_get_set_other |]. split; [apply dict_get_set_same |]. split; [reflexivity |].
  intros K k I. cbn in I. repeat (destruct I as [I | I]; [injection I as <- <-; reflexivity |]). destruct I.
Qed.

(** C129.  The engine options of an aircraft are the values of the mapping or the items of the list, in the order of the
    file; a single name (or nothing) after options is no list of one engine: the call raises UnboundLocalError. *)
Theorem C129_options m e :
  dict_get m "engine"%string = Some e ->
  match e with
  | Map em =>
      match dict_get em "options"%string with
      | Some (Map om) => engine_options (Map m) = inr (map snd om)
      | Some (Seq l) => engine_options (Map m) = inr l
      | Some (Sc _) => engine_options (Map m) = inl NameError
      | None => engine_options (Map m) = inl KeyError
      end
  | _ => engine_options (Map m) = inl TypeError
  end.
Proof.
  intros E. unfold engine_options. cbn [getitem]. rewrite E. destruct e as [v | l | em]; [reflexivity | reflexivity |]. cbn [getitem].
  destruct (dict_get em "options"%string) as [[v | l | om] |]; reflexivity.
Qed.

(** C129.  A numeral with an exponent but without a decimal point is a number for [float] and pandas, and a string in a
    YAML file. *)
Theorem C129_exponent ds es : ds <> [] -> digits ds -> es <> [] -> digits es ->
  let l := map dig ds ++ "e" :: map dig es in
  resolve l = Some (SStr (st_ l)) /\ exists q, numeral l = Some q /\ (q == inject_Z (horner ds) * inject_Z (10 ^ horner es))%Q.
Proof.
  intros NE H NE2 H2 l. destruct ds as [| d r]; [easy |]. inversion H as [| ? ? L Hr]; subst.
  assert (TS : take_sign l = (false, l)) by (exact (sign_digits false d (map dig r) ("e" :: map dig es) L)).
  assert (NX : forall (P : ascii -> bool), P "e" = false -> (forall d, d < 10 -> P (dig d) = false) -> List.Forall (fun a => P a = false) l).
  { intros P E1 E2. unfold l. apply List.Forall_app. split; [| constructor; [exact E1 |]].
    - clear - H E2. induction H; constructor; auto.
    - clear - H2 E2. induction H2; constructor; auto. }
  split.
  - unfold resolve. assert (NS : num_start (dig d)) by (right; eauto).
    assert (E : l = dig d :: (map dig r ++ "e" :: map dig es)) by reflexivity. rewrite E.
    destruct (words_num (dig d) (map dig r ++ "e" :: map dig es) NS) as (-> & -> & ->). rewrite <- E.
    destruct (digit_char d L) as (_ & D & _ & _ & _ & _ & _ & _ & E1 & E2 & E3 & _).
    assert (S0 : special l = false).
    { unfold special. rewrite TS. rewrite E at 1. rewrite D, E1, E2, E3. cbn [andb orb].
      assert (T : map dig r ++ "e" :: map dig es = skipn 1 l) by reflexivity. rewrite T.
      pose proof (none_in (fun a => Ascii.eqb a "_" || Ascii.eqb a ":") l (length l) 1) as Q1.
      rewrite firstn_all2 in Q1 by (rewrite skipn_length; lia).
      rewrite Q1; cycle 1.
      { apply NX; [reflexivity |]. intros x Lx. do 10 (destruct x as [| x]; [reflexivity |]). lia. }
      rewrite (none_in (fun a => Ascii.eqb a "x" || Ascii.eqb a "b") l 1 1); cycle 1.
      { apply NX; [reflexivity |]. intros x Lx. do 10 (destruct x as [| x]; [reflexivity |]). lia. }
      rewrite (none_in (fun a => Ascii.eqb a "-") l 1 4); cycle 1.
      { apply NX; [reflexivity |]. intros x Lx. do 10 (destruct x as [| x]; [reflexivity |]). lia. }
      now rewrite andb_false_r. }
    rewrite S0.
    assert (I0 : yaml_int l = None).
    { unfold yaml_int. rewrite TS. rewrite E at 1.
      destruct (Ascii.eqb (dig d) "0").
      - assert (F : exists a b, map dig r ++ "e" :: map dig es = a :: b) by (clear; destruct r; do 2 eexists; reflexivity).
        destruct F as (a & b & F). rewrite F. cbv iota beta. rewrite <- F.
        rewrite forallb_app. cbn [forallb]. change (octal "e") with false. cbn [andb]. now rewrite andb_false_r.
      - unfold l. rewrite forallb_app. cbn [forallb]. change (digit "e") with false. cbn [andb]. now rewrite andb_false_r. }
    assert (F0 : yaml_float l = None).
    { unfold yaml_float. rewrite TS. unfold l. rewrite span_digits by (auto; reflexivity). reflexivity. }
    now rewrite I0, F0.
  - assert (TR : ltrim (rtrim l) = l).
    { unfold l. rewrite rtrim_solid; [| apply solid_app, solid_cons; now apply digits_solid]. cbn [map app]. apply ltrim_id.
      now destruct (digit_char d L). }
    unfold numeral. rewrite TR, TS. unfold l. rewrite span_digits by (auto; reflexivity).
    change (Ascii.eqb "e" ".") with false. cbv iota. rewrite app_nil_r. cbn [map].
    change (Ascii.eqb "e" "e" || Ascii.eqb "e" "E") with true. cbv iota.
    destruct es as [| e es]; [easy |]. inversion H2 as [| ? ? L2 Hr2]; subst. cbn [map].
    pose proof (sign_digits false e (map dig es) [] L2) as TS2. rewrite app_nil_r in TS2. cbn [minus app] in TS2. rewrite TS2.
    pose proof (span_digits (e :: es) [] H2 I) as SP. rewrite app_nil_r in SP. cbn [map] in SP. rewrite SP.
    eexists. split; [reflexivity |].
    change (dig d :: map dig r) with (map dig (d :: r)). change (dig e :: map dig es) with (map dig (e :: es)).
    unfold decimal. rewrite app_nil_r. rewrite !digits_horner by assumption. cbn [signed length p10].
    assert (P0 : (0 <= horner (e :: es))%Z).
    { clear. unfold horner. assert (G : forall l v, (0 <= v)%Z -> (0 <= fold_left (fun v d => 10 * v + Z.of_nat d)%Z l v)%Z).
      { induction l as [| a l IH]; intros v V; cbn [fold_left]; [exact V |]. apply IH. lia. }
      apply G. lia. }
    assert (G : forall n, (Z.pos (p10 n) = 10 ^ Z.of_nat n)%Z).
    { induction n as [| n IHn]; [reflexivity |]. cbn [p10]. rewrite Nat2Z.inj_succ, Z.pow_succ_r by lia. rewrite Pos2Z.inj_mul, IHn. reflexivity. }
    unfold scale10. destruct (horner (e :: es)) as [| p | p] eqn:HE; [| | exfalso; now apply P0].
    + change (10 ^ 0)%Z with 1%Z. unfold Qeq, Qmult, inject_Z. cbn. lia.
    + rewrite G. rewrite Z2Nat.id by lia. unfold Qeq, Qmult, inject_Z. cbn [Qnum Qden]. rewrite !Z.mul_1_r. reflexivity.
Qed.

(** C129, refuted: "a numeral in an aircraft file is the number that Python's float makes of it".  Witnesses: 1e5 is a
    string, 010 is eight. *)
Theorem C129_numerals_refuted :
  ~ (forall l q, numeral l = Some q -> exists x p, resolve l = Some x /\ as_num (Sc x) = Some p /\ (p == q)%Q) /\
  resolve (tx "1e5") = Some (SStr "1e5") /\ numeral (tx "1e5") = Some 100000%Q /\
  resolve (tx "010") = Some (SInt 8) /\ numeral (tx "010") = Some 10%Q.
Proof.
  split; [| repeat (split; [vm_compute; reflexivity |]); vm_compute; reflexivity].
  intros H. destruct (H (tx "010") 10%Q eq_refl) as (x & p & E1 & E2 & E3).
  vm_compute in E1. injection E1 as <-. cbn in E2. injection E2 as <-. discriminate E3.
Qed.

(** ** The files of the package *)
(** the same record, numbers compared as numbers *)
Definition same_opt (a b : option Q) : Prop := match a, b with Some x, Some y => (x == y)%Q | None, None => True | _, _ => False end.
Definition same_ac (a b : acrec) : Prop :=
  ac_code a = ac_code b /\ (ac_mtow a == ac_mtow b)%Q /\ (ac_mlw a == ac_mlw b)%Q /\ (ac_oew a == ac_oew b)%Q /\ (ac_mfc a == ac_mfc b)%Q /\
  same_opt (ac_range a) (ac_range b) /\ (ac_height a == ac_height b)%Q /\ (ac_mach a == ac_mach b)%Q /\ (ac_area a == ac_area b)%Q /\
  (ac_span a == ac_span b)%Q /\ (ac_sweep a == ac_sweep b)%Q /\ same_opt (ac_tc a) (ac_tc b) /\ (ac_number a == ac_number b)%Q /\
  ac_rear a = ac_rear b /\ ac_default a = ac_default b /\ ac_options a = ac_options b.
Definition same_po (a b : porec) : Prop :=
  po_code a = po_code b /\ (po_cd0 a == po_cd0 b)%Q /\ (po_k a == po_k b)%Q /\ (po_lambda a == po_lambda b)%Q /\
  (po_cfc a == po_cfc b)%Q /\ (po_sfs a == po_sfs b)%Q.
Definition same_optb (a b : option Q) : bool := match a, b with Some x, Some y => Qeq_bool x y | None, None => true | _, _ => false end.
Definition list_eqb (a b : list string) : bool := if list_eq_dec string_dec a b then true else false.
Definition same_acb (a b : acrec) : bool :=
  String.eqb (ac_code a) (ac_code b) && (Qeq_bool (ac_mtow a) (ac_mtow b) && (Qeq_bool (ac_mlw a) (ac_mlw b) && (Qeq_bool (ac_oew a) (ac_oew b) &&
  (Qeq_bool (ac_mfc a) (ac_mfc b) && (same_optb (ac_range a) (ac_range b) && (Qeq_bool (ac_height a) (ac_height b) && (Qeq_bool (ac_mach a) (ac_mach b) &&
  (Qeq_bool (ac_area a) (ac_area b) && (Qeq_bool (ac_span a) (ac_span b) && (Qeq_bool (ac_sweep a) (ac_sweep b) && (same_optb (ac_tc a) (ac_tc b) &&
  (Qeq_bool (ac_number a) (ac_number b) && (Bool.eqb (ac_rear a) (ac_rear b) && (String.eqb (ac_default a) (ac_default b) &&
  list_eqb (ac_options a) (ac_options b))))))))))))))).
Definition same_pob (a b : porec) : bool :=
  String.eqb (po_code a) (po_code b) && (Qeq_bool (po_cd0 a) (po_cd0 b) && (Qeq_bool (po_k a) (po_k b) && (Qeq_bool (po_lambda a) (po_lambda b) &&
  (Qeq_bool (po_cfc a) (po_cfc b) && Qeq_bool (po_sfs a) (po_sfs b))))).
Ltac conj H := match type of H with (_ && _)%bool = true => let A := fresh in apply andb_prop in H; destruct H as [A H]; conj H | _ => idtac end.
Lemma same_opt_ok a b : same_optb a b = true -> same_opt a b.
Proof. destruct a, b; cbn; try discriminate; auto. apply Qeq_bool_eq. Qed.
Lemma list_eqb_ok a b : list_eqb a b = true -> a = b.
Proof. unfold list_eqb. destruct (list_eq_dec string_dec a b); [easy | discriminate]. Qed.
Ltac finish := repeat match goal with |- _ /\ _ => split end;
  first [now apply String.eqb_eq | now apply Qeq_bool_eq | now apply same_opt_ok | now apply Bool.eqb_prop | now apply list_eqb_ok].
Lemma same_ac_ok a b : same_acb a b = true -> same_ac a b.
Proof. unfold same_acb, same_ac. intros H. conj H. finish. Qed.
Lemma same_po_ok a b : same_pob a b = true -> same_po a b.
Proof. unfold same_pob, same_po. intros H. conj H. finish. Qed.
(** element by element *)
Fixpoint all2 {A B : Type} (f : A -> B -> bool) (l : list A) (m : list B) : bool :=
  match l, m with [], [] => true | a :: l', b :: m' => f a b && all2 f l' m' | _, _ => false end.
Lemma all2_ok {A B : Type} (f : A -> B -> bool) (P : A -> B -> Prop) l m : (forall a b, f a b = true -> P a b) -> all2 f l m = true -> Forall2 P l m.
Proof.
  intros H. revert m. induction l as [| a l IH]; intros [| b m] E; try discriminate; constructor; cbn in E; apply andb_prop in E; destruct E; auto.
Qed.
(** C129.  Every aircraft file and every drag polar file of the package is read, and what is read from its text is what
    the claims on shipped data are about. *)
Definition ac_ok (p : string * string) (a : acrec) : Prop := exists r, load_aircraft (fst p) (tx (snd p)) = Some r /\ same_ac r a.
Definition po_ok (p : string * string) (a : porec) : Prop := exists r, load_polar (fst p) (tx (snd p)) = Some r /\ same_po r a.
Theorem C129_shipped : Forall2 ac_ok ac_files shipped_aircraft /\ Forall2 po_ok polar_files shipped_polar.
Proof.
  split.
  - apply (all2_ok (fun p a => match load_aircraft (fst p) (tx (snd p)) with Some r => same_acb r a | None => false end)).
    + intros p a E. unfold ac_ok. destruct (load_aircraft (fst p) (tx (snd p))) as [r |]; [| discriminate]. exists r. split; [easy | now apply same_ac_ok].
    + vm_cast_no_check (eq_refl true).
  - apply (all2_ok (fun p a => match load_polar (fst p) (tx (snd p)) with Some r => same_pob r a | None => false end)).
    + intros p a E. unfold po_ok. destruct (load_polar (fst p) (tx (snd p))) as [r |]; [| discriminate]. exists r. split; [easy | now apply same_po_ok].
    + vm_cast_no_check (eq_refl true).
Qed.

(** ** A small file *)
Ltac name := split; [do 2 eexists; split; reflexivity | split; [| split]];
  [match goal with |- exists i c, ?s = _ /\ _ => exists (removelast s), (last s " "); split; [reflexivity | discriminate] end
  | repeat constructor
  | let I := fresh in intros I; cbn in I; repeat (destruct I as [I | I]; [discriminate I |]); exact I].
Example C129_ex :
  let ls := map tx ["# a comment"; ""; "mtow : 78000   #kg"; "mmo:  -0.820"; "engine:"; "   default: CFM56-5B4"; "   options:"; "   - V2500-A1"; "   - CFM56-5B4  "; "t/c: null"]%string in
  let es := [(0, EKey "mtow" (Some (SInt 78000))); (0, EKey "mmo" (Some (SFloat (-0820 # 1000)))); (0, EKey "engine" None);
             (3, EKey "default" (Some (SStr "CFM56-5B4"))); (3, EKey "options" None); (3, EItem (SStr "V2500-A1")); (3, EItem (SStr "CFM56-5B4"));
             (0, EKey "t/c" (Some SNull))] in
  let m := [("mtow", Sc (SInt 78000)); ("mmo", Sc (SFloat (-0820 # 1000)));
            ("engine", Map [("default", Sc (SStr "CFM56-5B4")); ("options", Seq [Sc (SStr "V2500-A1"); Sc (SStr "CFM56-5B4")])]); ("t/c", Sc SNull)]%string in
  lines_are ls es /\ mapping 0 es m /\ safe_load (join nl ls) = Some (Map m) /\
  engine_options (Map m) = inr [Sc (SStr "V2500-A1"); Sc (SStr "CFM56-5B4")].
Proof.
  intros ls es m. assert (L : lines_are ls es).
  { apply la_skip; [apply (li_comment 0 (tx " a comment")); repeat constructor; apply Nat.leb_le; reflexivity |].
    apply la_skip; [apply (li_blank 0) |].
    apply la_line; [apply (li_value 0 (tx "mtow") 1 0 (tx "78000") (SInt 78000) (tx "   #kg")); [name | |] |].
    { apply (sf_int false [7; 8; 0; 0; 0]); [easy | repeat constructor | now left]. }
    { apply (le_comment 2 (tx "kg")). repeat constructor; apply Nat.leb_le; reflexivity. }
    apply la_line; [apply (li_value 0 (tx "mmo") 0 1 (tx "-0.820") (SFloat (-0820 # 1000)) []); [name | | apply (le_blanks 0)] |].
    { apply (sf_dec true [0] [8; 2; 0]); [easy | repeat constructor | repeat constructor | reflexivity]. }
    apply la_line; [apply (li_key 0 (tx "engine") 0 []); [name | apply (le_blanks 0)] |].
    apply la_line; [apply (li_value 3 (tx "default") 0 0 (tx "CFM56-5B4") (SStr "CFM56-5B4") []); [name | apply (sf_name (tx "CFM56-5B4")); name | apply (le_blanks 0)] |].
    apply la_line; [apply (li_key 3 (tx "options") 0 []); [name | apply (le_blanks 0)] |].
    apply la_line; [apply (li_item 3 0 (tx "V2500-A1") (SStr "V2500-A1") []); [apply (sf_name (tx "V2500-A1")); name | apply (le_blanks 0)] |].
    apply la_line; [apply (li_item 3 0 (tx "CFM56-5B4") (SStr "CFM56-5B4") (tx "  ")); [apply (sf_name (tx "CFM56-5B4")); name | apply (le_blanks 2)] |].
    apply la_line; [apply (li_value 0 (tx "t/c") 0 0 (tx "null") SNull []); [name | apply (sf_null "null"); now left | apply (le_blanks 0)] |].
    apply la_nil. }
  assert (M : mapping 0 es m).
  { apply ma_value, ma_value.
    apply (ma_map 0 "engine" 3 [(3, EKey "default" (Some (SStr "CFM56-5B4"))); (3, EKey "options" None); (3, EItem (SStr "V2500-A1")); (3, EItem (SStr "CFM56-5B4"))]);
      [lia | easy | | repeat constructor; cbn; intuition discriminate | apply ma_value, ma_nil].
    apply ma_value. apply (ma_seq 3 "options" 3 [SStr "V2500-A1"; SStr "CFM56-5B4"] [] []); [lia | easy | apply ma_nil]. }
  split; [exact L |]. split; [exact M |]. split; [apply (C129_layout ls es 0 m L); [easy | exact M |] | reflexivity]. repeat constructor; cbn; intuition discriminate.
Qed.

(** a name that stands twice; exponents with and without sign; words *)
Example C129_ex2 :
  let ls := map tx ["mtow: 1"; "mlw: 2.5E-1"; "mtow: no"]%string in
  let es := [(0, EKey "mtow" (Some (SInt 1))); (0, EKey "mlw" (Some (SFloat ((25 # 10) * (1 # 10))))); (0, EKey "mtow" (Some (SBool false)))] in
  lines_are ls es /\ mapping 0 es [("mtow", Sc (SInt 1)); ("mlw", Sc (SFloat ((25 # 10) * (1 # 10)))); ("mtow", Sc (SBool false))]%string /\
  safe_load (join nl ls) = Some (Map [("mtow", Sc (SBool false)); ("mlw", Sc (SFloat (25 # 100)))]%string) /\
  resolve (tx "2.5E1") = Some (SStr "2.5E1").
Proof.
  intros ls es. split.
  { apply la_line; [apply (li_value 0 (tx "mtow") 0 0 (tx "1") (SInt 1) []); [name | apply (sf_int false [1]); [easy | repeat constructor | now left] | apply (le_blanks 0)] |].
    apply la_line; [apply (li_value 0 (tx "mlw") 0 0 (tx "2.5E-1") (SFloat ((25 # 10) * (1 # 10))) []); [name | | apply (le_blanks 0)] |].
    { apply (sf_exp false [2] [5] true true [1]); try easy; repeat constructor. }
    apply la_line; [apply (li_value 0 (tx "mtow") 0 0 (tx "no") (SBool false) []); [name | apply (sf_bool "no" false); cbn; tauto | apply (le_blanks 0)] |].
    apply la_nil. }
  split; [apply ma_value, ma_value, ma_value, ma_nil |]. split; reflexivity.
Qed.
