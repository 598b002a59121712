(** * C131: what the fixed width tables of the kinematic model say is what the package uses *)
From Coq Require Import String Ascii List Bool Arith ZArith QArith Qreals Lia Sorting.Sorted.
From Verif Require Import Num Regex Bada3Text Py PropPy Gen Kinematic FileText FileLoad SpecFile FileFacts YamlFacts P_Yaml P_Csv.
From Verif Require Import TextWrap DataWrap.
Import ListNotations.
Open Scope char_scope.
Open Scope nat_scope.
Open Scope list_scope.

(** ** Columns *)
(** a position of the page is inked when some line has a character other than blank, tab or carriage return there *)
Definition white (c : ascii) : Prop := In c [" "; ascii_of_nat 9; ascii_of_nat 10; ascii_of_nat 13].
Definition inked (ls : list text) (i : nat) : Prop := exists l c, In l ls /\ nth_error l i = Some c /\ ~ white c.
(** a column is a longest run of inked positions, from a up to b *)
Definition a_column (ls : list text) (a b : nat) : Prop :=
  a < b /\ (forall i, a <= i < b -> inked ls i) /\ ~ inked ls b /\ (a = 0 \/ ~ inked ls (a - 1)).

Lemma white_iff c : fwf_delim c = true <-> white c.
Proof.
  unfold white. split.
  - intros E. unfold fwf_delim in E. rewrite <- (ascii_nat_embedding c). apply orb_prop in E. destruct E as [E | E];
      [apply orb_prop in E; destruct E as [E | E]; [apply orb_prop in E; destruct E as [E | E] |] |]; apply Nat.eqb_eq in E; rewrite E; cbn; tauto.
  - intros I. cbn in I. destruct I as [<- | [<- | [<- | [<- | []]]]]; reflexivity.
Qed.
Lemma mask_or_nth m l i : nth i (mask_or m l) false = nth i m false || match nth_error l i with Some c => negb (fwf_delim c) | None => false end.
Proof.
  revert m i. induction l as [| c l IH]; intros m i.
  - destruct m as [| b m]; cbn [mask_or]; destruct i; cbn; now rewrite ?orb_false_r.
  - destruct m as [| b m]; cbn [mask_or]; destruct i as [| i]; cbn [nth nth_error]; try reflexivity; rewrite IH; [now destruct i | reflexivity].
Qed.
Lemma mask_fold ls : forall m i, nth i (fold_left mask_or ls m) false = true <-> nth i m false = true \/ inked ls i.
Proof.
  induction ls as [| l ls IH]; intros m i; cbn [fold_left].
  - split; [now left | intros [H | (l & c & [] & _)]; exact H].
  - rewrite IH, mask_or_nth, orb_true_iff. split.
    + intros [[H | H] | (l' & c & I & E & W)]; [now left | | right; exists l', c; split; [now right | easy]].
      destruct (nth_error l i) as [c |] eqn:E; [| discriminate]. right. exists l, c. split; [now left |]. split; [exact E |].
      intros W. apply white_iff in W. now rewrite W in H.
    + intros [H | (l' & c & [<- | I] & E & W)]; [now left; left | left; right | right; now exists l', c].
      rewrite E. destruct (fwf_delim c) eqn:F; [apply white_iff in F; easy | reflexivity].
Qed.
Lemma mask_inked ls i : nth i (fwf_mask ls) false = true <-> inked ls i.
Proof. unfold fwf_mask. rewrite mask_fold. split; [intros [H | H]; [now destruct i | exact H] | now right]. Qed.

(** runs of marked positions *)
Definition marked (m : list bool) (p i : nat) : Prop := p <= i /\ nth (i - p) m false = true.
Definition run (m : list bool) (p : nat) (from : option nat) (a b : nat) : Prop :=
  match from with
  | None => p <= a < b /\ (forall i, a <= i < b -> marked m p i) /\ ~ marked m p b /\ (a = p \/ ~ marked m p (a - 1))
  | Some s => (a = s /\ p <= b /\ (forall i, p <= i < b -> marked m p i) /\ ~ marked m p b) \/
              (p < a < b /\ (forall i, a <= i < b -> marked m p i) /\ ~ marked m p b /\ ~ marked m p (a - 1))
  end.
Lemma marked_cons b m p i : S p <= i -> (marked (b :: m) p i <-> marked m (S p) i).
Proof. intros L. unfold marked. replace (i - p) with (S (i - S p)) by lia. cbn [nth]. intuition lia. Qed.
Lemma marked_head b m p : marked (b :: m) p p <-> b = true.
Proof. unfold marked. rewrite Nat.sub_diag. cbn. intuition lia. Qed.
Lemma spans_run m : forall p from, (match from with Some s => s < p | None => True end) ->
  forall a b, In (a, b) (fwf_spans p from m) <-> run m p from a b.
Proof.
  induction m as [| x m IH]; intros p from F a b.
  - assert (NM : forall i, ~ marked [] p i) by (intros i [_ H]; now destruct (i - p)).
    destruct from as [s |]; cbn [fwf_spans run].
    + split.
      * intros [E | []]. injection E as <- <-. left. split; [reflexivity |]. split; [lia |]. split; [intros i L; lia | apply NM].
      * intros [(-> & L & H & _) | (L & H & _)]; [| exfalso; apply (NM a), H; lia]. left. f_equal.
        destruct (Nat.eq_dec p b) as [E | D]; [exact E |]. exfalso. apply (NM p), H. lia.
    + split; [intros [] |]. intros (L & H & _). exfalso. apply (NM a), H. lia.
  - destruct x; cbn [fwf_spans].
    + assert (MH : marked (true :: m) p p) by (now apply marked_head).
      rewrite (IH (S p)) by (destruct from; lia). destruct from as [s |]; unfold run.
      * split.
        -- intros [(E & L & H & N) | (L & H & N & N2)].
           ++ left. split; [exact E |]. split; [lia |]. split; [| rewrite marked_cons by lia; exact N].
              intros i Li. destruct (Nat.eq_dec i p) as [-> | D]; [exact MH |]. rewrite marked_cons by lia. apply H. lia.
           ++ right. split; [lia |]. split; [intros i Li; rewrite marked_cons by lia; now apply H |]. rewrite !marked_cons by lia. easy.
        -- intros [(E & L & H & N) | (L & H & N & N2)].
           ++ left. assert (b <> p) by (intros ->; easy). split; [exact E |]. split; [lia |]. split; [| rewrite marked_cons in N by lia; exact N].
              intros i Li. rewrite <- (marked_cons true) by lia. apply H. lia.
           ++ right. assert (a - 1 <> p) by (intros Q; rewrite Q in N2; easy). split; [lia |].
              split; [intros i Li; rewrite <- (marked_cons true) by lia; apply H; lia |]. rewrite !marked_cons in N, N2 by lia. easy.
      * split.
        -- intros [(-> & L & H & N) | (L & H & N & N2)].
           ++ split; [lia |]. split; [| split; [rewrite marked_cons by lia; exact N | now left]].
              intros i Li. destruct (Nat.eq_dec i p) as [-> | D]; [exact MH |]. rewrite marked_cons by lia. apply H. lia.
           ++ split; [lia |]. split; [intros i Li; rewrite marked_cons by lia; now apply H |]. rewrite !marked_cons by lia. intuition.
        -- intros (L & H & N & N2). destruct (Nat.eq_dec a p) as [-> | D].
           ++ left. split; [reflexivity |]. split; [lia |]. split; [| rewrite marked_cons in N by lia; exact N].
              intros i Li. rewrite <- (marked_cons true) by lia. apply H. lia.
           ++ right. destruct N2 as [N2 | N2]; [easy |]. assert (a - 1 <> p) by (intros Q; rewrite Q in N2; easy). split; [lia |].
              split; [intros i Li; rewrite <- (marked_cons true) by lia; apply H; lia |]. rewrite !marked_cons in N, N2 by lia. easy.
    + assert (MH : ~ marked (false :: m) p p) by (rewrite marked_head; easy).
      assert (G : In (a, b) (fwf_spans (S p) None m) <->
        p < a < b /\ (forall i, a <= i < b -> marked (false :: m) p i) /\ ~ marked (false :: m) p b /\ ~ marked (false :: m) p (a - 1)).
      { rewrite (IH (S p) None I). unfold run. split.
        - intros (L & H & N & N2). split; [lia |]. split; [intros i Li; rewrite marked_cons by lia; now apply H |]. rewrite (marked_cons false m p b) by lia.
          split; [exact N |]. destruct (Nat.eq_dec a (S p)) as [-> | D]; [replace (S p - 1) with p by lia; exact MH |].
          rewrite marked_cons by lia. destruct N2 as [-> | N2]; [lia | exact N2].
        - intros (L & H & N & N2). split; [lia |]. split; [intros i Li; rewrite <- (marked_cons false) by lia; apply H; lia |].
          rewrite (marked_cons false m p b) in N by lia. split; [exact N |]. destruct (Nat.eq_dec a (S p)) as [-> | D]; [now left |]. right.
          rewrite marked_cons in N2 by lia. exact N2. }
      destruct from as [s |]; unfold run.
      * cbn [In]. rewrite G. split.
        -- intros [E | H]; [| now right]. injection E as <- <-. left. split; [reflexivity |]. split; [lia |]. split; [intros i Li; lia | exact MH].
        -- intros [(-> & L & H & N) | H]; [left | now right]. f_equal. destruct (Nat.eq_dec p b) as [E | D]; [exact E |].
           exfalso. apply MH, H. lia.
      * rewrite G. split.
        -- intros (L & H & N & N2). split; [lia |]. split; [exact H |]. split; [exact N | now right].
        -- intros (L & H & N & N2). assert (a <> p) by (intros ->; apply MH, H; lia). destruct N2 as [-> | N2]; [easy |]. split; [lia |]. split; [exact H |]. split; [exact N | exact N2].
Qed.
Lemma spans_from m : forall p from s, In s (fwf_spans p from m) -> match from with Some a => a < p -> a <= fst s | None => p <= fst s end.
Proof.
  induction m as [| x m IH]; intros p from s I; cbn [fwf_spans] in I.
  - destruct from; [| destruct I]. destruct I as [<- | []]. cbn. lia.
  - destruct x.
    + apply IH in I. destruct from; lia.
    + destruct from as [a |]; [destruct I as [<- | I]; [cbn; lia |] |]; apply IH in I; cbn in I; lia.
Qed.
Lemma spans_sorted m : forall p from, StronglySorted (fun x y => snd x < fst y) (fwf_spans p from m).
Proof.
  induction m as [| x m IH]; intros p from; cbn [fwf_spans].
  - destruct from; repeat constructor.
  - destruct x; [apply IH |]. destruct from as [a |]; [| apply IH]. constructor; [apply IH |].
    apply List.Forall_forall. intros s I. apply spans_from in I. cbn. lia.
Qed.
(** C131.  The columns of a table are exactly the longest runs of positions where some of the first hundred lines has a
    character, from left to right. *)
Theorem C131_columns ls : let spans := fwf_spans 0 None (fwf_mask ls) in
  (forall a b, In (a, b) spans <-> a_column ls a b) /\ StronglySorted (fun x y => snd x < fst y) spans.
Proof.
  intros spans. split; [| apply spans_sorted]. intros a b. unfold spans. rewrite (spans_run _ 0 None I). unfold run, a_column.
  assert (M : forall i, marked (fwf_mask ls) 0 i <-> inked ls i).
  { intros i. unfold marked. rewrite Nat.sub_0_r, mask_inked. intuition lia. }
  rewrite !M. split; intros (L & H & N & N2); (split; [lia |]); (split; [intros i Li; apply M, H; exact Li |]); easy.
Qed.

(** ** Cells *)
(** the page between the positions a and b of a line, blank beyond the end of the line, is the cell with blanks around *)
Definition holds (l : text) (a b : nat) (c : text) : Prop :=
  exists n m, n + length c + m = b - a /\ forall i, a <= i < b -> nth i l " " = nth (i - a) (blanks n ++ c ++ blanks m) " ".
(** a cell neither begins nor ends with a blank *)
Definition trimmed (c : text) : Prop :=
  c = [] \/ (exists a r, c = a :: r /\ ~ white a) /\ (exists i z, c = i ++ [z] /\ ~ white z).
(** a line whose columns hold the cells *)
Definition line_holds (zones : list (nat * nat)) (l : text) (cs : list text) : Prop :=
  Forall2 (fun ab c => holds l (fst ab) (snd ab) c /\ trimmed c) zones cs.

Lemma sorted_same (u v : list (nat * nat)) :
  (forall s, In s u \/ In s v -> fst s < snd s) -> (forall s, In s u <-> In s v) ->
  StronglySorted (fun x y => snd x < fst y) u -> StronglySorted (fun x y => snd x < fst y) v -> u = v.
Proof.
  revert v. induction u as [| x u IH]; intros v P S Su Sv.
  - destruct v as [| y v]; [reflexivity |]. exfalso. apply (S y). now left.
  - destruct v as [| y v]; [exfalso; apply (S x); now left |].
    inversion Su as [| ? ? Su' Fx]; subst. inversion Sv as [| ? ? Sv' Fy]; subst. rewrite List.Forall_forall in Fx, Fy.
    assert (E : x = y).
    { destruct (proj1 (S x)) as [E | I]; [now left | easy |]. destruct (proj2 (S y)) as [E | J]; [now left | easy |].
      apply Fy in I. apply Fx in J. pose proof (P x (or_introl (or_introl eq_refl))). pose proof (P y (or_intror (or_introl eq_refl))). lia. }
    subst y. f_equal. apply IH; [intros s [I | I]; apply P; [left | right]; now right | | easy | easy].
    intros s. split; intros I.
    + destruct (proj1 (S s)) as [E | J]; [now right | | easy]. subst s. apply Fx in I. pose proof (P x (or_introl (or_introl eq_refl))). lia.
    + destruct (proj2 (S s)) as [E | J]; [now right | | easy]. subst s. apply Fy in I. pose proof (P x (or_introl (or_introl eq_refl))). lia.
Qed.
Lemma blank_white : fwf_delim " " = true. Proof. reflexivity. Qed.
Lemma strip_left_blanks n l : strip_left (blanks n ++ l) = strip_left l.
Proof. induction n; [reflexivity |]. exact IHn. Qed.
Lemma strip_right_blanks l n : strip_right (l ++ blanks n) = strip_right l.
Proof.
  induction l as [| c l IH]; [| cbn [app strip_right]; now rewrite IH].
  cbn [app]. induction n; [reflexivity |]. cbn [blanks repeat strip_right]. fold (blanks n). now rewrite IHn.
Qed.
Lemma strip_left_app l n : strip_right (strip_left (l ++ blanks n)) = strip_right (strip_left l).
Proof.
  induction l as [| c l IH].
  - cbn [app]. rewrite <- (app_nil_r (blanks n)), strip_left_blanks. reflexivity.
  - cbn [app strip_left]. destruct (fwf_delim c); [exact IH |]. exact (strip_right_blanks (c :: l) n).
Qed.
Lemma strip_right_last i z : fwf_delim z = false -> strip_right (i ++ [z]) = i ++ [z].
Proof.
  intros W. induction i as [| c i IH]; cbn [app strip_right]; [now rewrite W |]. rewrite IH. now destruct i.
Qed.
Lemma strip_trimmed c n m : trimmed c -> strip_right (strip_left (blanks n ++ c ++ blanks m)) = c.
Proof.
  intros T. rewrite strip_left_blanks, strip_left_app. destruct T as [-> | [(a & r & E & W) (i & z & E2 & W2)]]; [reflexivity |].
  assert (F : fwf_delim a = false) by (destruct (fwf_delim a) eqn:F; [apply white_iff in F; easy | easy]).
  assert (F2 : fwf_delim z = false) by (destruct (fwf_delim z) eqn:G; [apply white_iff in G; easy | easy]).
  assert (S : strip_left c = c) by (rewrite E; cbn [strip_left]; now rewrite F). rewrite S, E2. now apply strip_right_last.
Qed.
Lemma nth_skipn {A : Type} (l : list A) a i d : nth i (skipn a l) d = nth (a + i) l d.
Proof. revert a. induction l as [| x l IH]; intros [| a]; cbn [skipn]; [reflexivity | now destruct i | reflexivity |]. now rewrite IH. Qed.
Lemma nth_firstn {A : Type} (l : list A) k i d : i < k -> nth i (firstn k l) d = nth i l d.
Proof. revert k i. induction l as [| x l IH]; intros [| k] [| i] L; cbn; try reflexivity; try lia. apply IH. lia. Qed.
Lemma nth_repeat_any {A : Type} (x : A) n i : nth i (repeat x n) x = x.
Proof. revert i. induction n; intros [| i]; cbn; auto. Qed.
Lemma holds_cell l a b c : a <= b -> holds l a b c -> trimmed c -> strip_right (strip_left (firstn (b - a) (skipn a l))) = c.
Proof.
  intros L (n & m & S & H) T. set (x := firstn (b - a) (skipn a l)).
  assert (LX : length x <= b - a) by (apply firstn_le_length).
  rewrite <- (strip_left_app x (b - a - length x)).
  assert (E : x ++ blanks (b - a - length x) = blanks n ++ c ++ blanks m).
  { assert (LB : forall k, length (blanks k) = k) by (intros k; apply repeat_length).
    apply (nth_ext _ _ " " " "); [rewrite !app_length, !LB; lia |]. intros i Li. rewrite app_length, LB in Li.
    assert (Q : nth (a + i) l " " = nth i (blanks n ++ c ++ blanks m) " ") by (rewrite H by lia; f_equal; lia).
    rewrite <- Q. destruct (Nat.lt_ge_cases i (length x)) as [J | J].
    - rewrite app_nth1 by exact J. unfold x. rewrite nth_firstn by lia. apply nth_skipn.
    - rewrite app_nth2 by exact J. unfold blanks. rewrite nth_repeat_any. rewrite nth_overflow; [reflexivity |].
      unfold x in J. rewrite firstn_length, skipn_length in J. lia. }
  rewrite E. now apply strip_trimmed.
Qed.
(** a line with some character on it *)
Definition visible (l : text) : bool :=
  existsb (fun c => if in_dec ascii_dec c [" "; ascii_of_nat 9; ascii_of_nat 10; ascii_of_nat 13] then false else true) l.
Lemma visible_spec l : visible l = negb (forallb fwf_delim l).
Proof.
  induction l as [| c l IH]; [reflexivity |]. cbn [visible existsb forallb]. fold (visible l). rewrite IH.
  destruct (in_dec ascii_dec c _) as [I | I]; pose proof (white_iff c) as W; unfold white in W; destruct (fwf_delim c); try reflexivity.
  - exfalso. now apply W in I.
  - exfalso. apply I. now apply W.
Qed.
(** C131.  A file is read as the table of its cells whenever every cell stands anywhere inside its column, among the
    first hundred lines every position of a column carries a character in some line and positions outside of columns
    are blank, and columns do not touch.  Blank lines do not count.  Cells may hold blanks and may be empty. *)
Theorem C131_table ls zones h rows :
  (forall s, In s zones -> fst s < snd s) -> StronglySorted (fun x y => snd x < fst y) zones ->
  (forall i, inked (firstn 100 ls) i <-> exists s, In s zones /\ fst s <= i < snd s) ->
  (forall l, In l ls -> ~ In nl l) ->
  Forall2 (line_holds zones) (filter visible ls) (h :: rows) ->
  read_fwf (join nl ls) = Some (mkTable h rows).
Proof.
  intros P S K NN F. assert (NE : ls <> []) by (intros ->; inversion F).
  unfold read_fwf, fwf_lines. rewrite split_join by assumption.
  destruct (C131_columns (firstn 100 ls)) as [C SS].
  assert (E : fwf_spans 0 None (fwf_mask (firstn 100 ls)) = zones).
  { apply sorted_same; [| | exact SS | exact S].
    - intros s [I | I]; [| now apply P]. destruct s as [a b]. apply C in I. now destruct I.
    - assert (D : forall s t i, In s zones -> In t zones -> fst s <= i < snd s -> fst t <= i <= snd t -> s = t).
      { clear - S P. intros s t i Is It Hs Ht. induction S as [| z zs S IH Fz]; [destruct Is |]. rewrite List.Forall_forall in Fz.
        destruct Is as [<- | Is], It as [<- | It]; [reflexivity | apply Fz in It; lia | | apply IH; auto; intros; apply P; now right].
        pose proof (Fz _ Is). pose proof (P z (or_introl eq_refl)). pose proof (P s (or_intror Is)). lia. }
      intros [a b]. rewrite C. unfold a_column. split.
      + intros (L & H & N & N2). destruct (proj1 (K a) (H a ltac:(lia))) as (s & Is & Ls).
        assert (B : snd s = b).
        { destruct (Nat.lt_trichotomy (snd s) b) as [X | [X | X]]; [| exact X |].
          - exfalso. destruct (proj1 (K (snd s)) (H (snd s) ltac:(lia))) as (t & It & Lt).
            assert (t = s) by (apply (D t s (snd s)); auto; lia). subst t. lia.
          - exfalso. apply N, K. exists s. split; [exact Is | lia]. }
        assert (A : fst s = a).
        { destruct (Nat.eq_dec (fst s) a) as [X | X]; [exact X |]. exfalso. destruct N2 as [-> | N2]; [lia |]. apply N2, K. exists s. split; [exact Is | lia]. }
        destruct s as [a' b']. cbn in A, B. now subst.
      + intros Is. pose proof (P _ Is) as L. cbn in L. split; [exact L |]. split; [intros i Li; apply K; now exists (a, b) |]. split.
        * intros X. apply K in X. destruct X as (t & It & Lt). assert (t = (a, b)) by (apply (D t (a, b) b); auto; cbn; lia). subst t. cbn in Lt. lia.
        * destruct (Nat.eq_dec a 0) as [-> | NZ]; [now left | right]. intros X. apply K in X. destruct X as (t & It & Lt).
          assert (It' := It). destruct (Nat.lt_trichotomy (snd t) a) as [Y | [Y | Y]]; [lia | |].
          -- assert (Q : (a, b) = t) by (apply (D (a, b) t a); auto; cbn; lia). subst t. cbn in *. lia.
          -- assert (Q : (a, b) = t) by (apply (D (a, b) t a); auto; cbn; lia). subst t. cbn in *. lia. }
  rewrite E.
  assert (FE : filter (fun r => negb (forallb fwf_delim r)) ls = filter visible ls).
  { apply filter_ext. intros l. symmetry. apply visible_spec. }
  rewrite FE.
  assert (M : map (fwf_cells zones) (filter visible ls) = h :: rows).
  { clear - F P. induction F as [| l cs ls' rs H F IH]; [reflexivity |]. cbn [map]. f_equal; [| exact IH].
    clear - H P. unfold fwf_cells. induction H as [| ab c zs cs [H T] F IH]; [reflexivity |]. cbn [map]. f_equal.
    - apply holds_cell; auto. pose proof (P ab (or_introl eq_refl)). lia.
    - apply IH. intros s I. apply P. now right. }
  rewrite M. unfold table_of.
  assert (LZ : forall r, In r (h :: rows) -> length r = length zones).
  { intros r I. clear - F I. induction F as [| l cs ls' rs H F IH]; [destruct I |]. destruct I as [<- | I]; [| now apply IH].
    symmetry. clear - H. induction H; cbn; auto. }
  assert (B : forallb (fun r => length r =? length h) rows = true).
  { apply forallb_forall. intros r I. apply Nat.eqb_eq. rewrite (LZ r), (LZ h); [reflexivity | now left | now right]. }
  now rewrite B.
Qed.

(** C131, refuted: "every cell is read in full".  Only the first hundred lines decide on the columns: a longer cell after
    them is cut. *)
Theorem C131_rows_refuted :
  ~ (forall h ls w, List.Forall (fun l => In nl l -> False) (h :: ls) -> In w ls -> visible w = true ->
       forall t, read_fwf (join nl (h :: ls)) = Some t -> forall a b, w = a ++ " " :: b -> ~ In " " a -> ~ In " " b ->
       length (t_cols t) = 2 -> In [a; b] (t_rows t)) /\
  let short := repeat (tx "cl_vs 5") 99 in
  exists t, read_fwf (join nl (tx "var   v" :: short ++ [tx "de_vs 12"])) = Some t /\ nth 99 (t_rows t) [] = [tx "de_vs"; tx "1"].
Proof.
  assert (E : exists t, read_fwf (join nl (tx "var   v" :: repeat (tx "cl_vs 5") 99 ++ [tx "de_vs 12"])) = Some t /\
    nth 99 (t_rows t) [] = [tx "de_vs"; tx "1"] /\ length (t_cols t) = 2 /\
    existsb (fun r => if list_eq_dec (list_eq_dec ascii_dec) r [tx "de_vs"; tx "12"] then true else false) (t_rows t) = false).
  { eexists. split; [vm_compute; reflexivity |]. split; [vm_compute; reflexivity |]. split; vm_compute; reflexivity. }
  destruct E as (t & E & N & L & X). split; [| exists t; now split].
  intros H. specialize (H (tx "var   v") (repeat (tx "cl_vs 5") 99 ++ [tx "de_vs 12"]) (tx "de_vs 12")).
  assert (I : In [tx "de_vs"; tx "12"] (t_rows t)).
  { assert (W : forall l, existsb (Ascii.eqb nl) l = false -> In nl l -> False).
    { intros l Q J. assert (existsb (Ascii.eqb nl) l = true) by (apply existsb_exists; exists nl; split; [exact J | reflexivity]). congruence. }
    apply H with (5 := eq_refl); try exact L; try exact E; try reflexivity.
    - apply List.Forall_forall. intros l J. apply W. destruct J as [<- | J]; [reflexivity |]. apply in_app_or in J. destruct J as [J | [<- | []]]; [| reflexivity].
      apply repeat_spec in J. now subst l.
    - apply in_or_app. right. now left.
    - cbn. intuition discriminate.
    - cbn. intuition discriminate. }
  assert (Y : existsb (fun r => if list_eq_dec (list_eq_dec ascii_dec) r [tx "de_vs"; tx "12"] then true else false) (t_rows t) = true).
  { apply existsb_exists. eexists. split; [exact I |]. now destruct (list_eq_dec _ _ _). }
  congruence.
Qed.

(** ** What [_get_var] returns *)
(** a row: name of the variable in the column variable, numbers in the fourth to sixth column, the name of the model in the
    seventh, numbers with bars between them in the eighth *)
Record row_is (iv : nat) (r : list text) (var : string) (v : kvar) : Prop := mkRow {
  ri_name : st_ (nth iv r []) = var;
  ri_opt : number (nth 3 r []) (k_default v);
  ri_min : number (nth 4 r []) (k_min v);
  ri_max : number (nth 5 r []) (k_max v);
  ri_model : st_ (nth 6 r []) = k_model v /\ ~ In (k_model v) na_words;
  ri_params : exists ps, nth 7 r [] = join "|" ps /\ ps <> [] /\ Forall2 number ps (k_params v) }.
(** the types of the columns: names, numbers and strings *)
Definition typed (iv : nat) (t : table) : Prop :=
  position (tx "variable") (t_cols t) = Some iv /\ 8 <= length (t_cols t) /\
  (forall i, In i [3; 4; 5] -> forall r, In r (t_rows t) -> exists x, cell_is (nth i r []) x) /\
  (forall i, In i [iv; 6; 7] -> exists r, In r (t_rows t) /\ num_cell (nth i r []) = None /\
     ~ In (st_ (nth i r [])) ["True"; "TRUE"; "true"; "False"; "FALSE"; "false"]%string).
Lemma numeric_yes t i : (forall r, In r (t_rows t) -> exists x, cell_is (nth i r []) x) -> numeric_at t i = true.
Proof.
  intros H. unfold numeric_at, col_at. assert (E : exists m, all_some (map num_cell (map (fun r => nth i r []) (t_rows t))) = Some m).
  { revert H. induction (t_rows t) as [| r rs IH]; intros H; [now exists [] |]. destruct (IH (fun r' I => H r' (or_intror I))) as [m E].
    destruct (H r (or_introl eq_refl)) as [x C]. apply cell_num in C. exists (x :: m). cbn [map all_some].
    match goal with |- match ?y with _ => _ end = _ => change y with (num_cell (nth i r [])) end. rewrite C. now rewrite E. }
  destruct E as [m ->]. reflexivity.
Qed.
Lemma numeric_no t i : (exists r, In r (t_rows t) /\ num_cell (nth i r []) = None) -> numeric_at t i = false.
Proof.
  intros (r & I & E). unfold numeric_at, col_at. destruct (all_some _) as [m |] eqn:F; [| reflexivity]. exfalso. apply all_some_iff in F.
  assert (J : In (num_cell (nth i r [])) (map num_cell (map (fun r => nth i r []) (t_rows t)))).
  { apply (in_map num_cell). now apply (in_map (fun r => nth i r [])). }
  rewrite F, E in J. apply in_map_iff in J. destruct J as (x & Q & _). discriminate.
Qed.
Lemma strings_yes t i : (exists r, In r (t_rows t) /\ num_cell (nth i r []) = None /\
  ~ In (st_ (nth i r [])) ["True"; "TRUE"; "true"; "False"; "FALSE"; "false"]%string) -> strings_at t i = true.
Proof.
  intros (r & I & E & N). unfold strings_at. rewrite numeric_no by (exists r; now split). cbn [negb andb].
  destruct (truth_at t i) eqn:T; [| reflexivity]. exfalso. apply N. unfold truth_at, col_at in T. rewrite forallb_forall in T.
  specialize (T (nth i r []) (in_map (fun r => nth i r []) _ _ I)). unfold one_of in T. apply existsb_exists in T. destruct T as (w & J & Q).
  apply String.eqb_eq in Q. now rewrite Q.
Qed.
Lemma typed_ok iv t : typed iv t -> wrap_types t = true /\ strings_at t 7 = true /\ strings_at t iv = true.
Proof.
  intros (_ & _ & N & S). unfold wrap_types. rewrite !(fun i H => numeric_yes t i (N i H)) by (cbn; tauto).
  rewrite !(fun i H => strings_yes t i (S i H)) by (cbn; tauto). now split.
Qed.
Lemma number_numeral c q : number c q -> numeral c = Some q.
Proof. intros [neg ds NE H | neg ds fs NE H Hf]; [now apply numeral_int | now apply numeral_dec]. Qed.
Lemma number_no_bar c q : number c q -> ~ In "|" c.
Proof.
  assert (D : forall ds, digits ds -> ~ In "|" (map dig ds)).
  { intros ds H I. apply in_map_iff in I. destruct I as (d & E & J). unfold digits in H. rewrite List.Forall_forall in H. apply H in J.
    apply (f_equal nat_of_ascii) in E. rewrite dig_code in E by exact J. change (nat_of_ascii "|") with 124 in E. lia. }
  intros [neg ds NE H | neg ds fs NE H Hf] I; apply in_app_or in I; destruct I as [I | I]; try (destruct neg; [destruct I as [I | []]; discriminate | destruct I]).
  - now apply D in I.
  - apply in_app_or in I. destruct I as [I | [I | I]]; [now apply D in I | discriminate | now apply D in I].
Qed.
Lemma digits_no_bar ds : digits ds -> ~ In "_" (map dig ds).
Proof.
  intros H I. apply in_map_iff in I. destruct I as (d & E & J). unfold digits in H. rewrite List.Forall_forall in H. apply H in J.
  apply (f_equal nat_of_ascii) in E. rewrite dig_code in E by exact J. change (nat_of_ascii "_") with 95 in E. lia.
Qed.
Lemma number_plain c q : number c q -> odd_float c = false.
Proof.
  assert (U : forall l, ~ In "_" l -> existsb (Ascii.eqb "_") l = false).
  { intros l N. destruct (existsb (Ascii.eqb "_") l) eqn:E; [| reflexivity]. apply existsb_exists in E. destruct E as (x & I & E). apply Ascii.eqb_eq in E. now subst. }
  assert (W : forall d r, d < 10 -> existsb (String.eqb (Str.lower (st_ (dig d :: r)))) ["nan"; "inf"; "infinity"]%string = false).
  { intros d r L. do 10 (destruct d as [| d]; [reflexivity |]). lia. }
  intros [neg ds NE H | neg ds fs NE H Hf]; destruct ds as [| d r]; try easy; inversion H as [| ? ? L Hr]; subst; unfold odd_float; apply orb_false_iff; split.
  - assert (TR : ltrim (rtrim (minus neg ++ map dig (d :: r))) = minus neg ++ map dig (d :: r)).
    { rewrite rtrim_solid by (apply solid_app; now apply digits_solid). destruct neg; [reflexivity |]. cbn [minus app map]. apply ltrim_id. now destruct (digit_char d L). }
    rewrite TR. pose proof (sign_digits neg d (map dig r) [] L) as TS. rewrite app_nil_r in TS. cbn [map]. rewrite TS. cbn [snd]. now apply W.
  - apply U. intros I. apply in_app_or in I. destruct I as [I | I]; [destruct neg; [destruct I as [I | []]; discriminate | destruct I] |]. now apply digits_no_bar in I.
  - assert (TR : ltrim (rtrim (minus neg ++ map dig (d :: r) ++ "." :: map dig fs)) = minus neg ++ map dig (d :: r) ++ "." :: map dig fs).
    { rewrite rtrim_solid.
      - destruct neg; [reflexivity |]. cbn [minus app map]. apply ltrim_id. now destruct (digit_char d L).
      - apply solid_app, solid_app. destruct fs as [| f fs]; [now apply solid_one |]. apply solid_cons. now apply digits_solid. }
    rewrite TR. cbn [map app]. rewrite (sign_digits neg d (map dig r) ("." :: map dig fs) L). cbn [snd]. now apply W.
  - apply U. intros I. apply in_app_or in I. destruct I as [I | I]; [destruct neg; [destruct I as [I | []]; discriminate | destruct I] |].
    apply in_app_or in I. destruct I as [I | [I | I]]; [now apply digits_no_bar in I | discriminate | now apply digits_no_bar in I].
Qed.
(** C131.  [_get_var] gives the numbers, the model and the parameters of the first row with the name; rows before and
    after do not matter.  For a name that no row has it raises ValueError. *)
Theorem C131_lookup iv t pre r post var v : typed iv t -> t_rows t = pre ++ r :: post ->
  (forall r', In r' pre -> st_ (nth iv r' []) <> var) -> ~ In var na_words -> row_is iv r var v -> get_var_text t var = Some (inr v).
Proof.
  intros T E P NA [RN RO RL RH [RM RM2] (ps & RP & NE & RQ)]. destruct (typed_ok iv t T) as (WT & S7 & NI). destruct T as (PV & L8 & _).
  unfold get_var_text. rewrite PV, NI, E. unfold text in *.
  assert (F : forall rs, (forall r', In r' rs -> st_ (nth iv r' []) <> var) ->
    find (fun r => String.eqb (st_ (nth iv r [])) var && negb (missing (nth iv r []))) (rs ++ r :: post) = Some r).
  { induction rs as [| r' rs IH]; intros Q; cbn [app find].
    - rewrite RN, String.eqb_refl. destruct (missing (nth iv r [])) eqn:M; [| reflexivity]. apply missing_iff in M. rewrite RN in M. easy.
    - destruct (String.eqb_spec (st_ (nth iv r' [])) var) as [X | X]; [exfalso; apply (Q r'); [now left | exact X] |]. cbn [andb].
      apply IH. intros r2 I. apply Q. now right. }
  rewrite (F pre P). assert (B : Nat.ltb (length (t_cols t)) 8 = false) by (apply Nat.ltb_ge; exact L8). unfold text in B. rewrite B.
  unfold row_var, row_params. rewrite S7, WT. pose proof (cell_num _ _ (ci_num _ _ RO)) as C3. pose proof (cell_num _ _ (ci_num _ _ RL)) as C4. pose proof (cell_num _ _ (ci_num _ _ RH)) as C5.
    assert (M6 : missing (nth 6 r []) = false) by (destruct (missing (nth 6 r [])) eqn:M; [apply missing_iff in M; rewrite RM in M; easy | easy]).
  assert (M7 : missing (nth 7 r []) = false).
  { rewrite RP. destruct ps as [| p ps]; [easy |]. inversion RQ as [| ? q ? qs Np RQ']; subst. destruct ps as [| p2 ps]; [exact (number_not_na _ _ Np) |].
    destruct (missing (join "|" (p :: p2 :: ps))) eqn:M; [| easy]. exfalso. apply missing_iff in M.
    assert (I : In "|" (join "|" (p :: p2 :: ps))) by (change (join "|" (p :: p2 :: ps)) with (p ++ "|" :: join "|" (p2 :: ps)); apply in_or_app; right; now left).
    revert M I. generalize (join "|" (p :: p2 :: ps)). clear. intros x M I. rewrite <- (tx_st x) in I. generalize dependent (st_ x). intros s M I.
    cbn in M. repeat (destruct M as [<- | M]; [cbn in I; intuition discriminate |]). exact M. }
  assert (OF : existsb odd_float ps = false).
  { clear - RQ. induction RQ as [| p q ps qs N F IH]; [reflexivity |]. cbn [existsb]. now rewrite (number_plain _ _ N), IH. }
  unfold text in *. rewrite M6, M7. cbn [negb orb andb]. rewrite RP, split_join; [| exact NE |].
  - rewrite OF. assert (A : all_some (map numeral ps) = Some (k_params v)).
    { apply all_some_iff. clear - RQ. induction RQ as [| p q ps qs N F IH]; [reflexivity |]. cbn [map]. f_equal; [now apply number_numeral | exact IH]. }
    unfold text in *. rewrite A, C3, C4, C5, RM. now destruct v.
  - intros p I. clear - RQ I. induction RQ as [| p' q ps qs N F IH]; [destruct I |]. destruct I as [<- | I]; [now apply number_no_bar in N | now apply IH].
Qed.
Theorem C131_unknown iv t var : typed iv t -> (forall r, In r (t_rows t) -> st_ (nth iv r []) <> var) -> get_var_text t var = Some (inl ValueError).
Proof.
  intros T P. destruct (typed_ok iv t T) as (_ & _ & NI). destruct T as (PV & L8 & _). unfold get_var_text. rewrite PV, NI.
  match goal with |- match find ?f ?l with _ => _ end = _ => destruct (find f l) as [r |] eqn:F; [| reflexivity] end. exfalso. apply find_some in F. destruct F as [I F]. apply andb_prop in F. destruct F as [F _].
  apply String.eqb_eq in F. now apply (P r).
Qed.
(** C131.  The accessors of [Kinematic] and [Gen] work on what the files say: a file that is loaded gives for every name the
    same numbers, or the same error, as [_get_var] on the table read from it. *)
Theorem C131_agree code file w : load_wrap code file = Some w ->
  exists t, read_fwf file = Some t /\ forall var,
    (exists v, get_var_text t var = Some (inr v) /\ get_var w var = inr (mkVar (Rdefinitions.Q2R (k_default v)) (Rdefinitions.Q2R (k_min v)) (Rdefinitions.Q2R (k_max v)))) \/
    (get_var_text t var = Some (inl ValueError) /\ get_var w var = inl ValueError).
Proof.
  unfold load_wrap. destruct (read_fwf file) as [t |]; [| discriminate]. intros H. exists t. split; [reflexivity |]. intros var.
  unfold get_var_text. destruct (position (tx "variable") (t_cols t)) as [[| k] |]; try discriminate.
  destruct (strings_at t 0 && negb (existsb missing (col_at t 0)) && (8 <=? length (t_cols t)))%bool eqn:C; [| discriminate].
  apply andb_prop in C. destruct C as [C C4]. apply andb_prop in C. destruct C as [C1 C3].
  apply negb_true_iff in C3. rewrite C1. assert (B : Nat.ltb (length (t_cols t)) 8 = false) by (apply Nat.leb_le in C4; now apply Nat.ltb_ge). rewrite B. clear B C1 C4.
  destruct (all_some _) as [vs |] eqn:A; [| discriminate]. injection H as <-. apply all_some_iff in A. unfold get_var. cbn [wr_vars]. unfold col_at in C3.
  revert vs A C3. induction (t_rows t) as [| r rs IH]; intros [| [nm [[o lo] hi]] vs] A C3; try discriminate; [right; now split |].
  cbn [map existsb] in C3. apply orb_false_iff in C3. destruct C3 as [M C3]. cbn [map] in A. injection A as A1 A2.
  cbn [find fst]. destruct (row_var t r) as [[e | v] |] eqn:RV; try discriminate. injection A1 as <- <- <- <-. rewrite M. cbn [negb]. rewrite andb_true_r. unfold text in *.
  destruct (String.eqb (st_ (nth 0 r [])) var); [| exact (IH vs A2 C3)]. left. exists v. now split.
Qed.

(** ** The files of the package *)
Definition same_var (a b : string * (Q * Q * Q)) : Prop :=
  fst a = fst b /\ (fst (fst (snd a)) == fst (fst (snd b)))%Q /\ (snd (fst (snd a)) == snd (fst (snd b)))%Q /\ (snd (snd a) == snd (snd b))%Q.
Definition same_wr (a b : wrrec) : Prop := wr_code a = wr_code b /\ Forall2 same_var (wr_vars a) (wr_vars b).
Definition same_varb (a b : string * (Q * Q * Q)) : bool :=
  String.eqb (fst a) (fst b) && (Qeq_bool (fst (fst (snd a))) (fst (fst (snd b))) && (Qeq_bool (snd (fst (snd a))) (snd (fst (snd b))) &&
  Qeq_bool (snd (snd a)) (snd (snd b)))).
Lemma same_var_ok a b : same_varb a b = true -> same_var a b.
Proof. unfold same_varb, same_var. intros H. conj H. finish. Qed.
Definition same_wrb (a b : wrrec) : bool := String.eqb (wr_code a) (wr_code b) && all2 same_varb (wr_vars a) (wr_vars b).
Lemma same_wr_ok a b : same_wrb a b = true -> same_wr a b.
Proof.
  unfold same_wrb, same_wr. intros H. apply andb_prop in H. destruct H as [A B]. split; [now apply String.eqb_eq | exact (all2_ok _ _ _ _ same_var_ok B)].
Qed.
(** the same functions with the types of the columns computed once *)
Definition row_once (b7 bw : bool) (r : list text) : option (py kvar) :=
  match (if negb b7 || missing (nth 7 r []) then Some (inl AttributeError)
         else if existsb odd_float (split_on "|" (nth 7 r [])) then None
         else match all_some (map numeral (split_on "|" (nth 7 r []))) with Some ps => Some (inr ps) | None => Some (inl ValueError) end) with
  | None => None
  | Some (inl e) => Some (inl e)
  | Some (inr ps) =>
      if bw && negb (missing (nth 6 r [])) then
        match num_cell (nth 3 r []), num_cell (nth 4 r []), num_cell (nth 5 r []) with
        | Some (Some o), Some (Some lo), Some (Some hi) => Some (inr (mkKvar o lo hi (st_ (nth 6 r [])) ps))
        | _, _, _ => None
        end
      else None
  end.
Definition load_once (code : string) (file : text) : option wrrec :=
  match read_fwf file with
  | Some t =>
      match position (tx "variable") (t_cols t) with
      | Some O =>
          if strings_at t 0 && negb (existsb missing (col_at t 0)) && Nat.leb 8 (length (t_cols t)) then
            let b7 := strings_at t 7 in let bw := wrap_types t in
            match all_some (map (fun r => match row_once b7 bw r with
                                          | Some (inr v) => Some (st_ (nth 0 r []), (k_default v, k_min v, k_max v))
                                          | _ => None
                                          end) (t_rows t)) with
            | Some vs => Some (mkWr code vs)
            | None => None
            end
          else None
      | _ => None
      end
  | None => None
  end.
Lemma load_once_eq code file : load_once code file = load_wrap code file.
Proof. reflexivity. Qed.
Definition var_once (t : table) (i : option nat) (s0 b7 bw b8 : bool) (var : string) : option (py kvar) :=
  match i with
  | None => Some (inl KeyError)
  | Some iv =>
      if s0 then
        match find (fun r => String.eqb (st_ (nth iv r [])) var && negb (missing (nth iv r []))) (t_rows t) with
        | None => Some (inl ValueError)
        | Some r => if b8 then Some (inl IndexError) else row_once b7 bw r
        end
      else None
  end.
Lemma var_once_eq t var : var_once t (position (tx "variable") (t_cols t))
  match position (tx "variable") (t_cols t) with Some iv => strings_at t iv | None => false end
  (strings_at t 7) (wrap_types t) (Nat.ltb (length (t_cols t)) 8) var = get_var_text t var.
Proof. unfold get_var_text, var_once. destruct (position (tx "variable") (t_cols t)); reflexivity. Qed.
Definition wr_ok (p : string * string) (a : wrrec) : Prop := exists r, load_wrap (fst p) (tx (snd p)) = Some r /\ same_wr r a.
(** C131.  Every file of the kinematic model is read, and what is read from its text is what the claims on shipped data
    are about. *)
Theorem C131_shipped : Forall2 wr_ok wrap_files shipped_wrap.
Proof.
  apply (all2_ok (fun p a => match load_once (fst p) (tx (snd p)) with Some r => same_wrb r a | None => false end)).
  - intros p a E. rewrite load_once_eq in E. unfold wr_ok. destruct (load_wrap (fst p) (tx (snd p))) as [r |]; [| discriminate]. exists r. split; [easy | now apply same_wr_ok].
  - vm_cast_no_check (eq_refl true).
Qed.
(** what makes a model with its parameters usable with scipy.stats, and its range one of that model: a normal distribution
    has mean and deviation, a gamma distribution a shape, a location and a scale, a beta distribution two shapes, a
    location and a scale; the range lies where the density is positive *)
Inductive usable : kvar -> Prop :=
| us_norm o lo hi mu s : (0 < s)%Q -> (lo < hi)%Q -> usable (mkKvar o lo hi "norm" [mu; s])
| us_gamma o lo hi a loc s : (0 < a)%Q -> (0 < s)%Q -> (lo < hi)%Q -> (loc <= lo)%Q -> usable (mkKvar o lo hi "gamma" [a; loc; s])
| us_beta o lo hi a b loc s : (0 < a)%Q -> (0 < b)%Q -> (0 < s)%Q -> (lo < hi)%Q -> (loc <= lo)%Q -> (hi <= loc + s)%Q ->
    usable (mkKvar o lo hi "beta" [a; b; loc; s]).
Definition Qltb (a b : Q) : bool := negb (Qle_bool b a).
Lemma Qltb_ok a b : Qltb a b = true -> (a < b)%Q.
Proof. unfold Qltb. intros H. apply Qnot_le_lt. intros L. apply Qle_bool_iff in L. now rewrite L in H. Qed.
Definition usableb (v : kvar) : bool :=
  Qltb (k_min v) (k_max v) &&
  match k_params v with
  | [mu; s] => String.eqb (k_model v) "norm" && Qltb 0 s
  | [a; loc; s] => String.eqb (k_model v) "gamma" && (Qltb 0 a && (Qltb 0 s && Qle_bool loc (k_min v)))
  | [a; b; loc; s] => String.eqb (k_model v) "beta" && (Qltb 0 a && (Qltb 0 b && (Qltb 0 s && (Qle_bool loc (k_min v) && Qle_bool (k_max v) (loc + s)))))
  | _ => false
  end.
Lemma usable_ok v : usableb v = true -> usable v.
Proof.
  destruct v as [o lo hi md ps]. unfold usableb. cbn [k_min k_max k_params k_model]. intros H. apply andb_prop in H. destruct H as [R H]. apply Qltb_ok in R.
  destruct ps as [| p1 [| p2 [| p3 [| p4 [| p5 ps]]]]]; try discriminate; conj H;
    repeat match goal with E : String.eqb _ _ = true |- _ => apply String.eqb_eq in E; subst md end;
    repeat match goal with E : Qltb _ _ = true |- _ => apply Qltb_ok in E | E : Qle_bool _ _ = true |- _ => apply Qle_bool_iff in E end.
  - now apply us_norm.
  - now apply us_gamma.
  - now apply us_beta.
Qed.
(** the models rounded to scale zero *)
Definition flat : list (string * string) := [("a333", "cr_v_mach_max"); ("a388", "cr_v_mach_max"); ("b788", "cr_v_mach_max")]%string.
Definition flatb (code var : string) : bool := existsb (fun p => String.eqb (fst p) code && String.eqb (snd p) var) flat.
Lemma flat_spec code var : flatb code var = true <-> In (code, var) flat.
Proof.
  unfold flatb. rewrite existsb_exists. split.
  - intros ([c v] & I & E). apply andb_prop in E. destruct E as [E F]. apply String.eqb_eq in E, F. cbn in E, F. now subst.
  - intros I. exists (code, var). split; [exact I |]. cbn [fst snd]. now rewrite !String.eqb_refl.
Qed.
(** a gamma distribution without scale *)
Definition scale_zero (v : kvar) : Prop := k_model v = "gamma"%string /\ exists a loc z, k_params v = [a; loc; z] /\ (z == 0)%Q.
Definition scale_zerob (v : kvar) : bool :=
  String.eqb (k_model v) "gamma" && match k_params v with [_; _; z] => Qeq_bool z 0 | _ => false end.
Definition models_okb (code : string) (t : table) : bool :=
  Nat.eqb (length (t_rows t)) 35 && (list_eqb (nodup string_dec (map (fun r => st_ (nth 0 r [])) (t_rows t))) (map (fun r => st_ (nth 0 r [])) (t_rows t)) &&
  let i := position (tx "variable") (t_cols t) in
  let s0 := match i with Some iv => strings_at t iv | None => false end in
  let b7 := strings_at t 7 in let bw := wrap_types t in let b8 := Nat.ltb (length (t_cols t)) 8 in
  forallb (fun r => match var_once t i s0 b7 bw b8 (st_ (nth 0 r [])) with
                    | Some (inr v) => if flatb code (st_ (nth 0 r [])) then scale_zerob v else usableb v
                    | _ => false end) (t_rows t)).
Lemma models_ok code t : models_okb code t = true -> length (t_rows t) = 35 /\ NoDup (map (fun r => st_ (nth 0 r [])) (t_rows t)) /\
  forall r, In r (t_rows t) -> exists v, get_var_text t (st_ (nth 0 r [])) = Some (inr v) /\
    (In (code, st_ (nth 0 r [])) flat -> scale_zero v) /\ (~ In (code, st_ (nth 0 r [])) flat -> usable v).
Proof.
  unfold models_okb. intros E. apply andb_prop in E. destruct E as [A E]. apply andb_prop in E. destruct E as [B E].
  split; [now apply Nat.eqb_eq |]. split; [apply list_eqb_ok in B; rewrite <- B; apply NoDup_nodup |]. intros r I. cbv zeta in E. rewrite forallb_forall in E. apply E in I. rewrite var_once_eq in I.
  match type of I with match ?o with _ => _ end = true => destruct o as [[e | v] |] eqn:X; try discriminate end. exists v. split; [exact X |].
  match type of I with (if flatb ?c ?w then _ else _) = true => pose proof (flat_spec c w) as F; destruct (flatb c w) end; split; intros J.
  - unfold scale_zerob in I. apply andb_prop in I. destruct I as [M Z]. apply String.eqb_eq in M. split; [exact M |].
    destruct (k_params v) as [| p1 [| p2 [| p3 [| p4 ps]]]]; try discriminate. exists p1, p2, p3. split; [reflexivity | now apply Qeq_bool_eq].
  - exfalso. now apply J, F.
  - apply F in J. discriminate.
  - now apply usable_ok.
Qed.
(** C131.  In every file every variable, of 35, has a usable model, but for the three of [flat], which have scale zero. *)
Theorem C131_models : List.Forall (fun p => exists t, read_fwf (tx (snd p)) = Some t /\ length (t_rows t) = 35 /\
  NoDup (map (fun r => st_ (nth 0 r [])) (t_rows t)) /\
  forall r, In r (t_rows t) -> exists v, get_var_text t (st_ (nth 0 r [])) = Some (inr v) /\
    (In (fst p, st_ (nth 0 r [])) flat -> scale_zero v) /\ (~ In (fst p, st_ (nth 0 r [])) flat -> usable v)) wrap_files.
Proof.
  assert (V : forallb (fun p : string * string => match read_fwf (tx (snd p)) with Some t => models_okb (fst p) t | None => false end) wrap_files = true) by (vm_cast_no_check (eq_refl true)).
  apply List.Forall_forall. intros p I. rewrite forallb_forall in V. apply V in I. destruct (read_fwf (tx (snd p))) as [t |]; [| discriminate].
  exists t. split; [reflexivity | now apply models_ok].
Qed.
(** C131, refuted: "the model of every variable can be used".  The maximum Mach number in cruise of the A333, the A388 and
    the B788 is a gamma distribution of scale 0.00. *)
Theorem C131_models_refuted :
  ~ (forall p t var v, In p wrap_files -> read_fwf (tx (snd p)) = Some t -> get_var_text t var = Some (inr v) -> usable v) /\
  List.Forall (fun cv => exists f t v, In (fst cv, f) wrap_files /\ read_fwf (tx f) = Some t /\ get_var_text t (snd cv) = Some (inr v) /\ scale_zero v) flat.
Proof.
  assert (F : List.Forall (fun cv => exists f t v, In (fst cv, f) wrap_files /\ read_fwf (tx f) = Some t /\ get_var_text t (snd cv) = Some (inr v) /\ scale_zero v) flat).
  { apply List.Forall_forall. intros [c w] I.
    assert (V : forallb (fun cv : string * string => match find (fun p : string * string => String.eqb (fst p) (fst cv)) wrap_files with
                | Some p => match read_fwf (tx (snd p)) with
                            | Some t => match get_var_text t (snd cv) with Some (inr v) => scale_zerob v | _ => false end
                            | None => false end
                | None => false end) flat = true) by (vm_cast_no_check (eq_refl true)).
    rewrite forallb_forall in V. apply V in I. clear V. cbn [fst snd] in *. destruct (find _ wrap_files) as [p |] eqn:FD; [| discriminate].
    apply find_some in FD. destruct FD as [J E]. apply String.eqb_eq in E. destruct p as [c' f]. cbn in E. subst c'. cbn [snd] in I.
    destruct (read_fwf (tx f)) as [t |] eqn:R; [| discriminate]. destruct (get_var_text t w) as [[e | v] |] eqn:G; try discriminate.
    exists f, t, v. split; [exact J |]. split; [exact R |]. split; [exact G |]. unfold scale_zerob in I. apply andb_prop in I. destruct I as [M Z].
    apply String.eqb_eq in M. split; [exact M |].
    destruct (k_params v) as [| p1 [| p2 [| p3 [| p4 ps]]]]; try discriminate. exists p1, p2, p3. split; [reflexivity | now apply Qeq_bool_eq]. }
  split; [| exact F]. intros H. inversion F as [| x l (f & t & v & I & R & G & M & (a & loc & z & P & Z)) _]; subst.
  pose proof (H _ t _ v I R G) as U. inversion U as [o lo hi mu s S L E | o lo hi a' loc' s A S L L2 E | o lo hi a' b' loc' s A B S L L2 L3 E]; subst v; cbn in M, P; try discriminate.
  injection P as <- <- ->. rewrite Z in S. now apply Qlt_irrefl in S.
Qed.

(** ** A small file *)
Definition small : list text := map tx
  ["variable phase         name           opt  min max  model  parameters";
   "to_v_lof takeoff       Liftoff speed 85.3 74.5  96  norm   85.29|7.47";
   "  ";
   "ic_va    initial_climb Mean airspeed   83   76  89  gamma  12|60|1.50"]%string.
Definition small_zones : list (nat * nat) := [(0, 8); (9, 22); (23, 36); (37, 41); (42, 46); (47, 50); (52, 57); (59, 69)].
Definition small_table : table := mkTable (map tx ["variable"; "phase"; "name"; "opt"; "min"; "max"; "model"; "parameters"]%string)
  [map tx ["to_v_lof"; "takeoff"; "Liftoff speed"; "85.3"; "74.5"; "96"; "norm"; "85.29|7.47"]%string;
   map tx ["ic_va"; "initial_climb"; "Mean airspeed"; "83"; "76"; "89"; "gamma"; "12|60|1.50"]%string].
(** a decision for [holds]: at the offset where the cell stands *)
Lemma holds_at l a b c n : a + n + length c <= b ->
  forallb (fun i => Ascii.eqb (nth i l " ") (nth (i - a) (blanks n ++ c ++ blanks (b - a - n - length c)) " ")) (seq a (b - a)) = true -> holds l a b c.
Proof.
  intros L E. exists n, (b - a - n - length c). split; [lia |]. intros i Li. rewrite forallb_forall in E. apply Ascii.eqb_eq, E, in_seq. lia.
Qed.
Lemma trimmed_at c : match c with [] => true | a :: _ => negb (fwf_delim a) && negb (fwf_delim (last c " ")) end = true -> trimmed c.
Proof.
  destruct c as [| a r]; intros E; [now left |]. right. apply andb_prop in E. destruct E as [E F]. apply negb_true_iff in E, F. split.
  - exists a, r. split; [reflexivity |]. intros W. apply white_iff in W. congruence.
  - exists (removelast (a :: r)), (last (a :: r) " "). split; [now apply app_removelast_last |]. intros W. apply white_iff in W. congruence.
Qed.
Lemma ink_at ls k (zones : list (nat * nat)) : List.Forall (fun l => length l <= k) ls -> (forall s, In s zones -> snd s <= k) ->
  forallb (fun i => Bool.eqb (nth i (fwf_mask ls) false) (existsb (fun s => (fst s <=? i) && (i <? snd s)) zones)) (seq 0 k) = true ->
  forall i, inked ls i <-> exists s, In s zones /\ fst s <= i < snd s.
Proof.
  intros LK ZK E i. rewrite forallb_forall in E. destruct (Nat.lt_ge_cases i k) as [L | G].
  - assert (Q := E i (proj2 (in_seq k 0 i) ltac:(lia))). apply Bool.eqb_prop in Q. rewrite <- mask_inked, Q, existsb_exists.
    split; intros (s & I & H); exists s; split; auto; [apply andb_prop in H; destruct H as [A B]; apply Nat.leb_le in A; apply Nat.ltb_lt in B; lia |].
    destruct H as [A B]. apply Nat.leb_le in A. apply Nat.ltb_lt in B. now rewrite A, B.
  - split.
    + intros (l & c & I & N & _). exfalso. rewrite List.Forall_forall in LK. apply LK in I. assert (nth_error l i <> None) by congruence.
      apply nth_error_Some in H. lia.
    + intros (s & I & H). apply ZK in I. lia.
Qed.
(** line by line: where each cell stands in its column *)
Ltac stands n := split; [apply (holds_at _ _ _ _ n); [cbn; lia | vm_compute; reflexivity] | apply trimmed_at; reflexivity].
Ltac int_is ds := apply (nu_int false ds); [discriminate | repeat constructor].
Ltac dec_is ds fs := apply (nu_dec false ds fs); [discriminate | repeat constructor | repeat constructor].
Lemma small_read : read_fwf (join nl small) = Some small_table.
Proof.
  apply (C131_table small small_zones).
  - intros s I. cbn in I. repeat (destruct I as [<- | I]; [cbn; lia |]). destruct I.
  - repeat (constructor; [| repeat (constructor; [cbn; lia |]); constructor]). constructor.
  - apply (ink_at _ 69); [repeat (constructor; [cbn; lia |]); constructor | | vm_compute; reflexivity].
    intros s I. cbn in I. repeat (destruct I as [<- | I]; [cbn; lia |]). destruct I.
  - intros l I J. assert (existsb (fun l => existsb (Ascii.eqb nl) l) small = true).
    { apply existsb_exists. exists l. split; [exact I |]. apply existsb_exists. exists nl. split; [exact J | reflexivity]. }
    discriminate.
  - change (filter visible small) with [nth 0 small []; nth 1 small []; nth 3 small []].
    apply Forall2_cons; [| apply Forall2_cons; [| apply Forall2_cons; [| apply Forall2_nil]]]; unfold line_holds, small_zones.
    + do 3 (apply Forall2_cons; [stands 0 |]). do 2 (apply Forall2_cons; [stands 1 |]). do 3 (apply Forall2_cons; [stands 0 |]). apply Forall2_nil.
    + do 5 (apply Forall2_cons; [stands 0 |]). apply Forall2_cons; [stands 1 |]. do 2 (apply Forall2_cons; [stands 0 |]). apply Forall2_nil.
    + do 3 (apply Forall2_cons; [stands 0 |]). do 2 (apply Forall2_cons; [stands 2 |]). apply Forall2_cons; [stands 1 |]. do 2 (apply Forall2_cons; [stands 0 |]). apply Forall2_nil.
Qed.
Lemma small_typed : typed 0 small_table.
Proof.
  split; [reflexivity |]. split; [cbn; lia |]. split.
  - intros i I r J. cbn in I, J. destruct J as [<- | [<- | []]]; destruct I as [<- | [<- | [<- | []]]]; cbn [nth map]; eexists; apply ci_num.
    + dec_is [8; 5] [3].
    + dec_is [7; 4] [5].
    + int_is [9; 6].
    + int_is [8; 3].
    + int_is [7; 6].
    + int_is [8; 9].
  - intros i I. exists (nth 0 (t_rows small_table) []). split; [now left |]. cbn in I. destruct I as [<- | [<- | [<- | []]]]; (split; [reflexivity | cbn; intuition discriminate]).
Qed.
Example C131_ex : read_fwf (join nl small) = Some small_table /\ typed 0 small_table /\
  get_var_text small_table "ic_va" = Some (inr (mkKvar 83 76 89 "gamma" [12; 60; 150 # 100])%Q) /\
  usable (mkKvar 83 76 89 "gamma" [12; 60; 150 # 100])%Q /\ get_var_text small_table "cr_h" = Some (inl ValueError).
Proof.
  split; [exact small_read |]. split; [exact small_typed |]. split; [| split].
  - apply (C131_lookup 0 small_table [nth 0 (t_rows small_table) []] (nth 1 (t_rows small_table) []) []); [exact small_typed | reflexivity | | |].
    + intros r [<- | []]. discriminate.
    + cbn. intuition discriminate.
    + constructor; cbn [k_default k_min k_max k_model k_params].
      * reflexivity.
      * int_is [8; 3].
      * int_is [7; 6].
      * int_is [8; 9].
      * split; [reflexivity | cbn; intuition discriminate].
      * exists (map tx ["12"; "60"; "1.50"]%string). split; [reflexivity |]. split; [discriminate |].
        apply Forall2_cons; [int_is [1; 2] | apply Forall2_cons; [int_is [6; 0] | apply Forall2_cons; [dec_is [1] [5; 0] | apply Forall2_nil]]].
  - apply us_gamma; reflexivity || discriminate.
  - apply (C131_unknown 0); [exact small_typed |]. intros r [<- | [<- | []]]; discriminate.
Qed.
(** C131, refuted: "one more column changes no result", which holds of the other tables (C130_column).  Default, minimum and
    maximum are the fourth to sixth column, whatever their names: with one more column before them every call raises
    ValueError, because the name of the model is taken for its parameters; with one more column after the parameters, or with
    columns in another order, there is no error. *)
Theorem C131_position_refuted :
  let wider := with_column small_table 3 "unit" (map tx ["m/s"; "m/s"]%string) in
  let swapped := mkTable (map tx ["variable"; "phase"; "name"; "min"; "opt"; "max"; "model"; "parameters"]%string)
                         (map (fun r => [nth 0 r []; nth 1 r []; nth 2 r []; nth 4 r []; nth 3 r []; nth 5 r []; nth 6 r []; nth 7 r []]) (t_rows small_table)) in
  get_var_text wider "ic_va" = Some (inl ValueError) /\ num_col wider "opt" = num_col small_table "opt" /\
  get_var_text swapped "ic_va" = Some (inr (mkKvar 76 83 89 "gamma" [12; 60; 150 # 100])%Q) /\ num_col swapped "opt" = num_col small_table "opt".
Proof. repeat split; vm_compute; reflexivity. Qed.
(** C131, refuted: "the words of a cell stay together".  A position that is blank in all lines cuts a cell in two: with the
    phase "initial climb" instead of "initial_climb" there are nine columns, and every call raises ValueError. *)
Theorem C131_words_refuted :
  let file := join nl (map tx ["variable phase         name           opt  min max  model  parameters";
                               "to_v_lof takeoff       Liftoff speed 85.3 74.5  96  norm   85.29|7.47";
                               "ic_va    initial climb Mean airspeed   83   76  89  gamma  12|60|1.50"]%string) in
  exists t, read_fwf file = Some t /\ length (t_cols t) = 9 /\ column t "phase" = Some (map tx ["takeoff"; "initial"]%string) /\
    get_var_text t "to_v_lof" = Some (inl ValueError) /\ get_var_text t "ic_va" = Some (inl ValueError).
Proof. eexists. split; [vm_compute; reflexivity |]. repeat split; vm_compute; reflexivity. Qed.
