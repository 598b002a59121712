(** * C130: what the comma separated tables say is what the package uses *)
From Coq Require Import String Ascii List Bool Arith ZArith QArith Lia.
From Verif Require Import Regex Bada3Text Py PropPy FileText FileLoad SpecFile FileFacts YamlFacts P_Yaml.
From Verif Require Import TextAc TextPolar TextWrap TextEng DataAc DataPolar DataWrap DataEng.
Import ListNotations.
Open Scope char_scope.
Open Scope nat_scope.
Open Scope list_scope.

(** ** Cells *)
(** the ways to write a cell: as it is, when it has no comma and does not begin with a quotation mark; or between
    quotation marks, with those inside doubled *)
Definition doubled (c : text) : text := flat_map (fun a => if Ascii.eqb a """" then [""""; """"] else [a]) c.
Inductive cell_written : text -> text -> Prop :=
| cw_bare c : ~ In "," c -> (forall r, c <> """" :: r) -> cell_written c c
| cw_quoted c : cell_written c ("""" :: doubled c ++ [""""]).

Lemma bare_cells c : forall acc, ~ In "," c -> csv_cells CBare acc c = Some [rev acc ++ c] /\
  (forall r, csv_cells CBare acc (c ++ "," :: r) = option_map (cons (rev acc ++ c)) (csv_cells CStart [] r)).
Proof.
  induction c as [| a c IH]; intros acc N.
  - split; [cbn; now rewrite app_nil_r |]. intros r. cbn. now rewrite app_nil_r.
  - assert (E : Ascii.eqb a "," = false) by (destruct (Ascii.eqb_spec a ","); [subst; exfalso; apply N; now left | easy]).
    assert (N' : ~ In "," c) by (intros I; apply N; now right).
    destruct (IH (a :: acc) N') as [A B]. cbn [csv_cells app]. rewrite E, andb_false_r. cbn [rev] in A, B. rewrite <- app_assoc in A. split; [exact A |].
    intros r. specialize (B r). rewrite <- (app_assoc (rev acc) [a]) in B. exact B.
Qed.
Lemma quoted_cells c : forall acc, csv_cells CQuoted acc (doubled c ++ [""""]) = Some [rev acc ++ c] /\
  (forall r, csv_cells CQuoted acc ((doubled c ++ [""""]) ++ "," :: r) = option_map (cons (rev acc ++ c)) (csv_cells CStart [] r)).
Proof.
  induction c as [| a c IH]; intros acc.
  - split; [cbn; now rewrite app_nil_r |]. intros r. cbn. now rewrite app_nil_r.
  - destruct (IH (a :: acc)) as [A B]. cbn [rev] in A, B. rewrite <- app_assoc in A. cbn [doubled flat_map]. fold (doubled c).
    destruct (Ascii.eqb_spec a """") as [-> | D].
    + split; [exact A |]. intros r. specialize (B r). rewrite <- (app_assoc (rev acc) [""""]) in B. exact B.
    + assert (E : Ascii.eqb a """" = false) by (now destruct (Ascii.eqb_spec a """")).
      cbn [app csv_cells]. rewrite E. split; [exact A |]. intros r. specialize (B r). rewrite <- (app_assoc (rev acc) [a]) in B. exact B.
Qed.
Lemma start_cells c w : cell_written c w -> csv_cells CStart [] w = Some [c] /\
  (forall r, csv_cells CStart [] (w ++ "," :: r) = option_map (cons c) (csv_cells CStart [] r)).
Proof.
  intros [c' N Q | c'].
  - destruct c' as [| a c']; [split; reflexivity |].
    assert (E : Ascii.eqb a "," = false) by (destruct (Ascii.eqb_spec a ","); [subst; exfalso; apply N; now left | easy]).
    assert (E2 : Ascii.eqb a """" = false) by (destruct (Ascii.eqb_spec a """"); [subst; exfalso; now apply (Q c') | easy]).
    destruct (bare_cells c' [a]) as [A B]; [intros I; apply N; now right |]. cbn [csv_cells app]. rewrite E, E2. split; [exact A |]. exact B.
  - destruct (quoted_cells c' []) as [A B]. split; [exact A |]. intros r. exact (B r).
Qed.
(** C130.  A line of cells, each written bare or quoted, is read as these cells, whatever characters they hold (but ends
    of lines). *)
Theorem C130_cells cs ws : cs <> [] -> Forall2 cell_written cs ws -> csv_cells CStart [] (join "," ws) = Some cs.
Proof.
  intros NE H. induction H as [| c w cs ws W H IH]; [easy |]. destruct (start_cells c w W) as [A B].
  destruct H as [| c2 w2 cs ws W2 H]; [exact A |].
  change (join "," (w :: w2 :: ws)) with (w ++ "," :: join "," (w2 :: ws)). rewrite B, IH by easy. reflexivity.
Qed.

(** ** Tables *)
Inductive csv_lines : list text -> list (list text) -> Prop :=
| cl_nil : csv_lines [] []
| cl_blank n ls rows : csv_lines ls rows -> csv_lines (blanks n :: ls) rows
| cl_row cs ws ls rows : cs <> [] -> Forall2 cell_written cs ws -> ~ In nl (join "," ws) -> (forall n, join "," ws <> blanks n) ->
    csv_lines ls rows -> csv_lines (join "," ws :: ls) (cs :: rows).
Lemma ltrim_nil l : ltrim l = [] -> exists n, l = blanks n.
Proof.
  induction l as [| c r IH]; intros E; [now exists 0 |]. cbn in E. destruct (blank c) eqn:B; [| discriminate].
  destruct (IH E) as [n ->]. exists (S n). unfold blank in B. apply Ascii.eqb_eq in B. now subst.
Qed.
Lemma lines_rows ls rows : csv_lines ls rows -> csv_rows ls = Some rows.
Proof.
  induction 1 as [| n ls rows H IH | cs ws ls rows NE W N B H IH]; [reflexivity | |]; cbn [csv_rows].
  - pose proof (ltrim_blanks n []) as E. rewrite app_nil_r in E. now rewrite E.
  - destruct (ltrim (join "," ws)) eqn:E; [destruct (ltrim_nil _ E) as [n Q]; now apply B in Q |].
    now rewrite (C130_cells cs ws NE W), IH.
Qed.
(** C130.  A file of such lines, the first of which names the columns, is read as the table of its cells; blank lines
    do not count. *)
Theorem C130_table ls h rows : csv_lines ls (h :: rows) -> List.Forall (fun r => length r = length h) rows ->
  read_csv (join nl ls) = Some (mkTable h rows).
Proof.
  intros L F. assert (NE : ls <> []) by (intros ->; inversion L).
  assert (NN : forall l, In l ls -> ~ In nl l).
  { clear - L. remember (h :: rows) as R eqn:ER. clear ER h rows. induction L as [| n ls rows L IH | cs ws ls rows N0 W N B L IH]; intros l I; [destruct I | |]; (destruct I as [<- | I]; [| now apply IH]); [| exact N].
    intros J. apply repeat_spec in J. discriminate. }
  unfold read_csv. rewrite split_join by assumption. rewrite (lines_rows _ _ L). unfold table_of.
  assert (E : forallb (fun r => length r =? length h) rows = true).
  { apply forallb_forall. intros r I. rewrite List.Forall_forall in F. now apply Nat.eqb_eq, F. }
  now rewrite E.
Qed.

(** C130.  Columns are found by name: one more column, with another name, changes no other column. *)
Definition insert {A : Type} (i : nat) (x : A) (l : list A) : list A := firstn i l ++ x :: skipn i l.
Definition with_column (t : table) (i : nat) (name : string) (cells : list text) : table :=
  mkTable (insert i (tx name) (t_cols t)) (zip_with (fun r c => insert i c r) (t_rows t) cells).
Lemma position_insert i x cols n : n <> st_ x -> position (tx n) (insert i x cols) =
  option_map (fun p => if p <? i then p else S p) (position (tx n) cols) \/ length cols < i.
Proof.
  intros N. revert cols. induction i as [| i IH]; intros cols.
  - left. unfold insert. cbn [firstn skipn app position]. rewrite st_tx. destruct (String.eqb_spec (st_ x) n) as [Q | _]; [now rewrite Q in N |]. now destruct (position (tx n) cols).
  - destruct cols as [| c cols]; [right; cbn; lia |]. destruct (IH cols) as [E | L]; [| right; cbn; lia]. left.
    unfold insert in E |- *. cbn [firstn skipn app position]. rewrite st_tx. destruct (String.eqb_spec (st_ c) n); [reflexivity |].
    rewrite E. destruct (position (tx n) cols) as [p |]; [| reflexivity]. cbn [option_map].
    change (S p <? S i) with (p <? i). now destruct (p <? i).
Qed.
Lemma nth_insert {A : Type} i (x d : A) l p : i <= length l -> nth (if p <? i then p else S p) (insert i x l) d = nth p l d.
Proof.
  intros L. unfold insert. destruct (Nat.ltb_spec p i).
  - rewrite app_nth1 by (rewrite firstn_length; lia). rewrite <- (firstn_skipn i l) at 2. rewrite app_nth1 by (rewrite firstn_length; lia). reflexivity.
  - rewrite app_nth2 by (rewrite firstn_length; lia). rewrite firstn_length, Nat.min_l by lia.
    replace (S p - i) with (S (p - i)) by lia. cbn [nth]. rewrite <- (firstn_skipn i l) at 2. rewrite app_nth2 by (rewrite firstn_length; lia).
    rewrite firstn_length, Nat.min_l by lia. reflexivity.
Qed.
Theorem C130_column t i name cells n : n <> name -> i <= length (t_cols t) -> length cells = length (t_rows t) ->
  List.Forall (fun r => length r = length (t_cols t)) (t_rows t) -> column (with_column t i name cells) n = column t n.
Proof.
  intros N L LC F. unfold column, with_column. cbn [t_cols t_rows].
  destruct (position_insert i (tx name) (t_cols t) n) as [-> | X]; [now rewrite st_tx | | lia].
  destruct (position (tx n) (t_cols t)) as [p |]; [| reflexivity]. cbn [option_map]. f_equal.
  revert cells LC. induction F as [| r rows R F IH]; intros [| c cells] LC; try discriminate; [reflexivity |].
  cbn [zip_with map]. f_equal; [apply (nth_insert i c [] r p); exact (eq_ind_r (fun k => i <= k) L R) | apply IH; now injection LC].
Qed.

(** ** Types of columns *)
(** the texts of numbers *)
Lemma numeral_int neg ds : ds <> [] -> digits ds -> numeral (minus neg ++ map dig ds) = Some (Qmake (sgn neg (horner ds)) 1).
Proof.
  intros NE H. destruct ds as [| d r]; [easy |]. inversion H as [| ? ? L Hr]; subst.
  assert (TR : ltrim (rtrim (minus neg ++ map dig (d :: r))) = minus neg ++ map dig (d :: r)).
  { rewrite rtrim_solid by (apply solid_app; now apply digits_solid). destruct neg; [reflexivity |]. cbn [minus app map]. apply ltrim_id.
    now destruct (digit_char d L). }
  unfold numeral. rewrite TR. pose proof (sign_digits neg d (map dig r) [] L) as TS. rewrite app_nil_r in TS. cbn [map]. rewrite TS.
  pose proof (span_digits (d :: r) [] H I) as SP. rewrite app_nil_r in SP. cbn [map] in SP. rewrite SP. rewrite app_nil_r. cbv iota.
  unfold decimal. rewrite app_nil_r. change (dig d :: map dig r) with (map dig (d :: r)). now rewrite digits_horner.
Qed.
Lemma numeral_dec neg ds fs : ds <> [] -> digits ds -> digits fs ->
  numeral (minus neg ++ map dig ds ++ "." :: map dig fs) = Some (Qmake (sgn neg (horner (ds ++ fs))) (Pos.of_nat (10 ^ length fs))).
Proof.
  intros NE H Hf. destruct ds as [| d r]; [easy |]. inversion H as [| ? ? L Hr]; subst.
  assert (TR : ltrim (rtrim (minus neg ++ map dig (d :: r) ++ "." :: map dig fs)) = minus neg ++ map dig (d :: r) ++ "." :: map dig fs).
  { rewrite rtrim_solid.
    - destruct neg; [reflexivity |]. cbn [minus app map]. apply ltrim_id. now destruct (digit_char d L).
    - apply solid_app, solid_app. destruct fs as [| f fs]; [now apply solid_one |]. apply solid_cons. now apply digits_solid. }
  unfold numeral. rewrite TR. cbn [map app]. rewrite (sign_digits neg d (map dig r) ("." :: map dig fs) L).
  pose proof (span_digits (d :: r) ("." :: map dig fs) H eq_refl) as SP. cbn [map app] in SP. rewrite SP.
  change (Ascii.eqb "." ".") with true. cbv iota. pose proof (span_digits fs [] Hf I) as SP2. rewrite app_nil_r in SP2. rewrite SP2.
  cbn [app]. unfold decimal. change (dig d :: map dig r) with (map dig (d :: r)). rewrite <- map_app, digits_horner by (apply List.Forall_app; auto).
  now rewrite map_length, p10_pow.
Qed.
(** a numeral, written with or without a point, and its value *)
Inductive number : text -> Q -> Prop :=
| nu_int neg ds : ds <> [] -> digits ds -> number (minus neg ++ map dig ds) (Qmake (sgn neg (horner ds)) 1)
| nu_dec neg ds fs : ds <> [] -> digits ds -> digits fs ->
    number (minus neg ++ map dig ds ++ "." :: map dig fs) (Qmake (sgn neg (horner (ds ++ fs))) (Pos.of_nat (10 ^ length fs))).
Definition na_words : list string :=
  [""; "#N/A"; "#N/A N/A"; "#NA"; "-1.#IND"; "-1.#QNAN"; "-NaN"; "-nan"; "1.#IND"; "1.#QNAN"; "<NA>"; "N/A";
   "NA"; "NULL"; "NaN"; "None"; "n/a"; "nan"; "null"]%string.
Inductive cell_is : text -> option Q -> Prop :=
| ci_na c : In (st_ c) na_words -> cell_is c None
| ci_num c q : number c q -> cell_is c (Some q).
Lemma missing_iff c : missing c = true <-> In (st_ c) na_words.
Proof.
  unfold missing, one_of. rewrite existsb_exists. split.
  - intros (x & I & E). apply String.eqb_eq in E. now subst.
  - intros I. exists (st_ c). split; [exact I | apply String.eqb_refl].
Qed.
Lemma number_not_na c q : number c q -> missing c = false.
Proof.
  intros H. assert (C : forall c, In (st_ c) na_words -> numeral c = None).
  { intros a I. rewrite <- (tx_st a). generalize dependent (st_ a). clear. intros s I. cbn in I.
    repeat (destruct I as [<- | I]; [reflexivity |]). destruct I. }
  destruct (missing c) eqn:E; [| easy]. apply missing_iff in E. apply C in E.
  destruct H as [neg ds NE H | neg ds fs NE H Hf]; [rewrite numeral_int in E by easy | rewrite numeral_dec in E by easy]; discriminate.
Qed.
Lemma cell_num c x : cell_is c x -> num_cell c = Some x.
Proof.
  intros [a I | a q N]; unfold num_cell.
  - apply missing_iff in I. now rewrite I.
  - rewrite (number_not_na _ _ N). destruct N as [neg ds NE H | neg ds fs NE H Hf]; [now rewrite numeral_int | now rewrite numeral_dec].
Qed.
Lemma all_some_iff {A : Type} (l : list (option A)) m : all_some l = Some m <-> l = map Some m.
Proof.
  revert m. induction l as [| [a |] l IH]; intros m; cbn.
  - split; [intros E; injection E as <-; reflexivity | now destruct m].
  - destruct (all_some l) as [m' |] eqn:E; cbn.
    + split; [intros Q; injection Q as <-; cbn; f_equal; now apply IH |]. destruct m as [| b m]; [discriminate |]. cbn. intros Q. injection Q as <- Q.
      apply IH in Q. congruence.
    + split; [discriminate |]. destruct m as [| b m]; [discriminate |]. cbn. intros Q. injection Q as <- Q. apply IH in Q. discriminate.
  - split; [discriminate | now destruct m].
Qed.
(** C130.  A column whose cells are numerals or missing is a column of these numbers. *)
Theorem C130_numbers t name cs xs : column t name = Some cs -> Forall2 cell_is cs xs -> num_col t name = Some xs.
Proof.
  intros E H. unfold num_col. rewrite E. apply all_some_iff. clear E. induction H; [reflexivity |]. cbn. f_equal; [now apply cell_num | exact IHForall2].
Qed.
(** C130.  One cell that is no numeral makes its whole column a column of strings, the numerals in it included. *)
Theorem C130_strings t name cs c : column t name = Some cs -> In c cs -> num_cell c = None ->
  (forall a, In a cs -> ~ In (st_ a) ["True"; "TRUE"; "true"; "False"; "FALSE"; "false"]%string) ->
  num_col t name = None /\ exists ss, text_col t name = Some ss /\
    Forall2 (fun a s => s = if in_dec string_dec (st_ a) na_words then None else Some (st_ a)) cs ss.
Proof.
  intros E I B T. assert (A : all_some (map num_cell cs) = None).
  { destruct (all_some (map num_cell cs)) as [m |] eqn:F; [| easy]. apply all_some_iff in F.
    assert (J : In (num_cell c) (map num_cell cs)) by (now apply in_map). rewrite F, B in J. apply in_map_iff in J. destruct J as (x & Q & _). discriminate. }
  unfold num_col, text_col. rewrite E, A. split; [reflexivity |].
  assert (X : existsb (one_of ["True"; "TRUE"; "true"; "False"; "FALSE"; "false"]%string) cs = false).
  { destruct (existsb _ cs) eqn:F; [| easy]. apply existsb_exists in F. destruct F as (a & Ia & F). unfold one_of in F. apply existsb_exists in F.
    destruct F as (w & Iw & F). apply String.eqb_eq in F. subst w. exfalso. now apply (T a). }
  rewrite X. eexists. split; [reflexivity |]. clear. induction cs as [| a cs IH]; constructor; [| exact IH].
  destruct (missing a) eqn:M.
  - apply missing_iff in M. now destruct (in_dec string_dec (st_ a) na_words).
  - destruct (in_dec string_dec (st_ a) na_words) as [J |]; [| easy]. apply missing_iff in J. congruence.
Qed.

(** ** The tables of the package *)
(** a text read piece by piece, the pieces ending with a line *)
Lemma csv_rows_app a b : csv_rows (a ++ b) = match csv_rows a, csv_rows b with Some x, Some y => Some (x ++ y) | _, _ => None end.
Proof.
  induction a as [| l a IH]; cbn [app csv_rows]; [now destruct (csv_rows b) |]. destruct (ltrim l); [exact IH |].
  destruct (csv_cells CStart [] l); [| reflexivity]. rewrite IH. destruct (csv_rows a); [| reflexivity]. now destruct (csv_rows b).
Qed.
Definition piece_rows (p : text) : option (list (list text)) :=
  match last (split_on nl p) [nl] with [] => csv_rows (split_on nl p) | _ => None end.
Lemma split_on_cat c p q : last (split_on c p) [c] = [] -> split_on c (p ++ q) = removelast (split_on c p) ++ split_on c q.
Proof.
  induction p as [| a p IH]; [reflexivity |]. cbn [split_on app]. destruct (Ascii.eqb a c).
  - destruct (split_on c p) as [| l ls] eqn:E; [now apply split_on_ne in E |].
    change (last ([] :: l :: ls) [c]) with (last (l :: ls) [c]). intros H. rewrite (IH H). reflexivity.
  - destruct (split_on c p) as [| l ls] eqn:E; [now apply split_on_ne in E |]. destruct ls as [| l2 ls]; [discriminate |].
    change (last ((a :: l) :: l2 :: ls) [c]) with (last (l :: l2 :: ls) [c]). intros H. rewrite (IH H). reflexivity.
Qed.
Lemma piece_cut p q rows : piece_rows p = Some rows -> csv_rows (split_on nl (p ++ q)) =
  match csv_rows (split_on nl q) with Some y => Some (rows ++ y) | None => None end.
Proof.
  unfold piece_rows. intros H. destruct (last (split_on nl p) [nl]) as [| a l] eqn:E; [| discriminate].
  rewrite (split_on_cat nl p q E), csv_rows_app.
  assert (Q : split_on nl p = removelast (split_on nl p) ++ [[]]) by (rewrite <- E; apply app_removelast_last, split_on_ne).
  rewrite Q, csv_rows_app in H. cbn [csv_rows ltrim] in H.
  destruct (csv_rows (removelast (split_on nl p))) as [r |]; [| discriminate]. rewrite app_nil_r in H. injection H as ->. reflexivity.
Qed.
Lemma pieces_read ps rows : Forall2 (fun p r => piece_rows p = Some r) ps rows -> csv_rows (split_on nl (concat ps)) = Some (concat rows).
Proof.
  induction 1 as [| p r ps rows H F IH]; [reflexivity |]. cbn [concat]. rewrite (piece_cut p _ r H), IH. reflexivity.
Qed.
Lemma pieces_some ps rows : all_some (map piece_rows ps) = Some rows -> csv_rows (split_on nl (concat ps)) = Some (concat rows).
Proof.
  intros H. apply pieces_read. apply all_some_iff in H. revert rows H. induction ps as [| p ps IH]; intros [| r rows] H; try discriminate; constructor;
    cbn in H; injection H as A B; [exact A | now apply IH].
Qed.
Definition same4 (a b : Q * Q * Q * Q) : Prop :=
  let '(a1, a2, a3, a4) := a in let '(b1, b2, b3, b4) := b in (a1 == b1)%Q /\ (a2 == b2)%Q /\ (a3 == b3)%Q /\ (a4 == b4)%Q.
Definition same4b (a b : Q * Q * Q * Q) : bool :=
  let '(a1, a2, a3, a4) := a in let '(b1, b2, b3, b4) := b in Qeq_bool a1 b1 && (Qeq_bool a2 b2 && (Qeq_bool a3 b3 && Qeq_bool a4 b4)).
Lemma same4_ok a b : same4b a b = true -> same4 a b.
Proof. destruct a as [[[? ?] ?] ?], b as [[[? ?] ?] ?]. unfold same4b, same4. intros H. conj H. finish. Qed.
Definition same_en (a b : engrec) : Prop :=
  en_name a = en_name b /\ same_opt (en_bpr a) (en_bpr b) /\ same_opt (en_max_thrust a) (en_max_thrust b) /\
  same4 (en_hc a) (en_hc b) /\ same4 (en_co a) (en_co b) /\ same4 (en_nox a) (en_nox b) /\ same4 (en_ff a) (en_ff b) /\
  same_opt (en_cr_thrust a) (en_cr_thrust b) /\ same_opt (en_cr_sfc a) (en_cr_sfc b) /\ same_opt (en_cr_mach a) (en_cr_mach b) /\
  same_opt (en_cr_alt a) (en_cr_alt b).
Definition same_enb (a b : engrec) : bool :=
  String.eqb (en_name a) (en_name b) && (same_optb (en_bpr a) (en_bpr b) && (same_optb (en_max_thrust a) (en_max_thrust b) &&
  (same4b (en_hc a) (en_hc b) && (same4b (en_co a) (en_co b) && (same4b (en_nox a) (en_nox b) && (same4b (en_ff a) (en_ff b) &&
  (same_optb (en_cr_thrust a) (en_cr_thrust b) && (same_optb (en_cr_sfc a) (en_cr_sfc b) && (same_optb (en_cr_mach a) (en_cr_mach b) &&
  same_optb (en_cr_alt a) (en_cr_alt b)))))))))).
Lemma same_en_ok a b : same_enb a b = true -> same_en a b.
Proof.
  unfold same_enb, same_en. intros H. conj H.
  repeat match goal with |- _ /\ _ => split end; first [now apply String.eqb_eq | now apply same_opt_ok | now apply same4_ok].
Qed.
Definition same_fm (a b : fmrec) : Prop :=
  fm_type a = fm_type b /\ fm_engine a = fm_engine b /\ (fm_c1 a == fm_c1 b)%Q /\ (fm_c2 a == fm_c2 b)%Q /\ (fm_c3 a == fm_c3 b)%Q.
Definition same_fmb (a b : fmrec) : bool :=
  String.eqb (fm_type a) (fm_type b) && (String.eqb (fm_engine a) (fm_engine b) && (Qeq_bool (fm_c1 a) (fm_c1 b) &&
  (Qeq_bool (fm_c2 a) (fm_c2 b) && Qeq_bool (fm_c3 a) (fm_c3 b)))).
Lemma same_fm_ok a b : same_fmb a b = true -> same_fm a b.
Proof. unfold same_fmb, same_fm. intros H. conj H. finish. Qed.
Definition engine_text : text := concat (map tx engine_pieces).
Definition read_pieces (ps : list text) : option (list engrec) :=
  match all_some (map piece_rows ps) with
  | Some rows => match table_of (concat rows) with Some t => engines_of t | None => None end
  | None => None
  end.
Lemma by_pieces ps l : read_pieces ps = Some l -> load_engines (concat ps) = Some l.
Proof.
  unfold read_pieces, load_engines, read_csv. destruct (all_some (map piece_rows ps)) as [rows |] eqn:A; [| discriminate].
  rewrite (pieces_some _ _ A). exact (fun H => H).
Qed.
Lemma checked_engines (o : option (list engrec)) m :
  match o with Some l => all2 same_enb l m | None => false end = true -> exists l, o = Some l /\ Forall2 same_en l m.
Proof. destruct o as [l |]; [| discriminate]. intros V. exists l. split; [reflexivity | exact (all2_ok _ _ _ _ same_en_ok V)]. Qed.
Lemma checked_fuel (o : option (list fmrec)) m :
  match o with Some l => all2 same_fmb l m | None => false end = true -> exists l, o = Some l /\ Forall2 same_fm l m.
Proof. destruct o as [l |]; [| discriminate]. intros V. exists l. split; [reflexivity | exact (all2_ok _ _ _ _ same_fm_ok V)]. Qed.
Lemma engines_check : match read_pieces (map tx engine_pieces) with Some l => all2 same_enb l shipped_engines | None => false end = true.
Proof. vm_cast_no_check (eq_refl true). Qed.
Lemma fuel_check : match load_fuel (tx fuel_models) with Some l => all2 same_fmb l shipped_fuel | None => false end = true.
Proof. vm_cast_no_check (eq_refl true). Qed.
Lemma loaded_pieces ps m : (exists l, read_pieces ps = Some l /\ Forall2 same_en l m) -> exists l, load_engines (concat ps) = Some l /\ Forall2 same_en l m.
Proof. intros (l & E & F). exists l. split; [exact (by_pieces ps l E) | exact F]. Qed.
Definition engines_loaded : exists l, load_engines engine_text = Some l /\ Forall2 same_en l shipped_engines :=
  loaded_pieces (map tx engine_pieces) shipped_engines (checked_engines (read_pieces (map tx engine_pieces)) shipped_engines engines_check).
(** C130.  The engine table, the table of fuel models and the three tables of synonyms of the package are read, and
    what is read from their texts is what the claims on shipped data are about. *)
Theorem C130_shipped :
  (exists l, load_engines engine_text = Some l /\ Forall2 same_en l shipped_engines) /\
  (exists l, load_fuel (tx fuel_models) = Some l /\ Forall2 same_fm l shipped_fuel) /\
  load_synonyms (tx ac_synonym) = Some shipped_acsyn /\ load_synonyms (tx polar_synonym) = Some shipped_polsyn /\
  load_synonyms (tx wrap_synonym) = Some shipped_wrapsyn.
Proof.
  split; [| split; [| split; [| split]; vm_compute; reflexivity]].
  - exact engines_loaded.
  - exact (checked_fuel (load_fuel (tx fuel_models)) shipped_fuel fuel_check).
Qed.

(** ** A small table *)
Example C130_ex :
  let h := map tx ["name"; "bpr"]%string in
  let r1 := map tx ["JT8D, ""standard"""; "1.05"]%string in
  let r2 := map tx ["CFM56-5B4"; ""]%string in
  let ls := [tx "name,bpr"; tx """JT8D, """"standard"""""",1.05"; []; tx "CFM56-5B4,"] in
  let t := mkTable h [r1; r2] in
  csv_lines ls [h; r1; r2] /\ read_csv (join nl ls) = Some t /\
  num_col t "bpr" = Some [Some (105 # 100); None] /\ num_col t "name" = None /\
  text_col t "name" = Some [Some "JT8D, ""standard"""; Some "CFM56-5B4"]%string /\
  column (with_column t 1 "uid" (map tx ["1AS001"; "4AL003"]%string)) "bpr" = column t "bpr".
Proof.
  intros h r1 r2 ls t.
  assert (B : forall c, existsb (Ascii.eqb ",") c = false -> match c with a :: _ => Ascii.eqb a """" | [] => false end = false -> cell_written c c).
  { intros c E Q. apply cw_bare.
    - intros I. assert (existsb (Ascii.eqb ",") c = true) by (apply existsb_exists; exists ","; split; [exact I | reflexivity]). congruence.
    - intros r ->. discriminate. }
  assert (N : forall l, existsb (Ascii.eqb nl) l = false -> ~ In nl l).
  { intros l E I. assert (existsb (Ascii.eqb nl) l = true) by (apply existsb_exists; exists nl; split; [exact I | reflexivity]). congruence. }
  assert (S : forall l n, existsb (fun c => negb (Ascii.eqb c " ")) l = true -> l <> blanks n).
  { intros l n E ->. apply existsb_exists in E. destruct E as (c & I & E). apply repeat_spec in I. subst c. discriminate. }
  assert (L : csv_lines ls [h; r1; r2]).
  { unfold ls. apply (cl_row h (map tx ["name"; "bpr"]%string)); [discriminate | repeat (apply Forall2_cons; [now apply B |]); apply Forall2_nil | now apply N | intros n; now apply S |].
    apply (cl_row r1 [tx """JT8D, """"standard"""""""; tx "1.05"]);
      [discriminate | constructor; [exact (cw_quoted (tx "JT8D, ""standard""")) | repeat (apply Forall2_cons; [now apply B |]); apply Forall2_nil] | now apply N | intros n; now apply S |].
    apply (cl_blank 0).
    apply (cl_row r2 [tx "CFM56-5B4"; []]); [discriminate | repeat (apply Forall2_cons; [now apply B |]); apply Forall2_nil | now apply N | intros n; now apply S | apply cl_nil]. }
  split; [exact L |]. split; [apply (C130_table ls h [r1; r2] L); repeat constructor |].
  split.
  - apply (C130_numbers t "bpr" [tx "1.05"; []]); [reflexivity |]. constructor; [| constructor; [| constructor]].
    + apply ci_num. apply (nu_dec false [1] [0; 5]); repeat constructor; discriminate.
    + apply ci_na. now left.
  - split; [reflexivity |]. split; [reflexivity |]. apply C130_column; [discriminate | cbn; lia | reflexivity | repeat constructor].
Qed.
