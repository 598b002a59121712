(** * Lemmas about the readers of the data files *)
From Coq Require Import String Ascii List Bool Arith ZArith QArith Lia.
From Verif Require Import Regex Bada3Text Py FileText SpecFile.
Import ListNotations.
Open Scope char_scope.
Open Scope nat_scope.
Open Scope list_scope.

(** ** Strings and texts *)
Lemma tx_st l : tx (st_ l) = l.
Proof. apply list_ascii_of_string_of_list_ascii. Qed.
Lemma st_tx s : st_ (tx s) = s.
Proof. apply string_of_list_ascii_of_string. Qed.
Lemma st_inj l m : st_ l = st_ m -> l = m.
Proof. intros E. rewrite <- (tx_st l), E. apply tx_st. Qed.

Lemma ltrim_blanks n l : ltrim (blanks n ++ l) = ltrim l.
Proof. induction n; cbn; auto. Qed.
Lemma ltrim_id c r : blank c = false -> ltrim (c :: r) = c :: r.
Proof. intros E. cbn. now rewrite E. Qed.
Lemma rtrim_blanks l n : rtrim (l ++ blanks n) = rtrim l.
Proof.
  assert (B : rtrim (blanks n) = []) by (unfold blanks; induction n; cbn; [easy | now rewrite IHn]).
  induction l as [| c r IH]; cbn; [exact B |]. now rewrite IH.
Qed.
Lemma rtrim_last l c : blank c = false -> rtrim (l ++ [c]) = l ++ [c].
Proof.
  intros E. induction l as [| a r IH]; cbn; [now rewrite E |]. rewrite IH. now destruct (r ++ [c]) eqn:F; [destruct r |].
Qed.
(** no blank at the end *)
Definition solid (l : text) : Prop := exists i c, l = i ++ [c] /\ blank c = false.
Lemma rtrim_solid l : solid l -> rtrim l = l.
Proof. intros (i & c & -> & E). now apply rtrim_last. Qed.
Lemma solid_app a l : solid l -> solid (a ++ l).
Proof. intros (i & c & -> & E). exists (a ++ i), c. now rewrite app_assoc. Qed.
Lemma solid_cons a l : solid l -> solid (a :: l).
Proof. apply (solid_app [a]). Qed.
Lemma solid_one c : blank c = false -> solid [c].
Proof. intros E. now exists [], c. Qed.
Lemma solid_ne l : solid l -> l <> [].
Proof. intros (i & c & -> & _) E. now destruct i. Qed.

(** ** Lines *)
Lemma split_on_ne c l : split_on c l <> [].
Proof. destruct l as [| a r]; cbn; [easy |]. destruct (Ascii.eqb a c); [easy |]. now destruct (split_on c r). Qed.
Lemma split_on_free c l : ~ In c l -> split_on c l = [l].
Proof.
  induction l as [| a r IH]; intros N; cbn; [easy |].
  destruct (Ascii.eqb_spec a c) as [-> | D]; [exfalso; apply N; now left |].
  rewrite IH; [easy | intros I; apply N; now right].
Qed.
Lemma split_on_cut c l r : ~ In c l -> split_on c (l ++ c :: r) = l :: split_on c r.
Proof.
  induction l as [| a t IH]; intros N; cbn.
  - now rewrite Ascii.eqb_refl.
  - destruct (Ascii.eqb_spec a c) as [-> | D]; [exfalso; apply N; now left |].
    rewrite IH; [easy | intros I; apply N; now right].
Qed.
Lemma split_on_app c l m : split_on c (l ++ c :: m) = split_on c l ++ split_on c m.
Proof.
  induction l as [| a t IH]; cbn; [now rewrite Ascii.eqb_refl |].
  destruct (Ascii.eqb a c); [now rewrite IH |].
  rewrite IH. pose proof (split_on_ne c t). now destruct (split_on c t).
Qed.
Lemma split_join c ls : ls <> [] -> (forall l, In l ls -> ~ In c l) -> split_on c (join c ls) = ls.
Proof.
  induction ls as [| l r IH]; intros NE N; [easy |]. destruct r as [| l' r].
  - cbn. apply split_on_free, N. now left.
  - change (join c (l :: l' :: r)) with (l ++ c :: join c (l' :: r)).
    rewrite split_on_cut by (apply N; now left). f_equal. apply IH; [easy | intros x I; apply N; now right].
Qed.
Lemma join_all (P : ascii -> Prop) c ls : P c -> (forall l, In l ls -> List.Forall P l) -> List.Forall P (join c ls).
Proof.
  intros Pc. induction ls as [| l r IH]; intros H; [constructor |]. destruct r as [| l' r].
  - apply H. now left.
  - change (join c (l :: l' :: r)) with (l ++ c :: join c (l' :: r)). apply List.Forall_app. split; [apply H; now left |].
    constructor; [easy |]. apply IH. intros x I. apply H. now right.
Qed.

(** ** Comments, keys *)
Lemma uncomment_blanks s n : uncomment s (blanks n) = blanks n.
Proof. unfold blanks. revert s. induction n; intros s; cbn; [easy |]. rewrite andb_false_r. now rewrite IHn. Qed.
Lemma uncomment_comment s n c : uncomment s (blanks (S n) ++ "#" :: c) = blanks (S n).
Proof.
  revert s. induction n; intros s; cbn; rewrite andb_false_r; [easy |]. f_equal.
  specialize (IHn true). cbn in IHn. exact IHn.
Qed.
Lemma uncomment_app s b e : List.Forall (fun c => c <> "#") b -> exists s', uncomment s (b ++ e) = b ++ uncomment s' e.
Proof.
  revert s. induction b as [| c r IH]; intros s H; [now exists s |].
  inversion H as [| ? ? Hc Hr]; subst. destruct (IH (blank c) Hr) as [s' E]. exists s'. cbn.
  destruct (Ascii.eqb_spec c "#"); [easy |]. rewrite andb_false_r. now rewrite E.
Qed.
Lemma key_split_none l : ~ In ":" l -> key_split l = None.
Proof.
  induction l as [| c r IH]; intros N; [easy |]. cbn [key_split].
  destruct (Ascii.eqb_spec c ":") as [-> | D]; [exfalso; apply N; now left |]. cbn [andb].
  rewrite IH; [easy | intros I; apply N; now right].
Qed.
Lemma key_split_at p r : ~ In ":" p -> (r = [] \/ exists t, r = " " :: t) -> key_split (p ++ ":" :: r) = Some (p, r).
Proof.
  intros N H. induction p as [| c t IH].
  - cbn. destruct H as [-> | [t ->]]; reflexivity.
  - cbn [app key_split]. destruct (Ascii.eqb_spec c ":") as [-> | D]; [exfalso; apply N; now left |]. cbn [andb].
    rewrite IH; [easy | intros I; apply N; now right].
Qed.

(** ** Dictionaries *)
Lemma dict_set_new {A : Type} (d : list (string * A)) k v : ~ In k (map fst d) -> dict_set d k v = d ++ [(k, v)].
Proof.
  induction d as [| [k' v'] r IH]; intros N; [easy |]. cbn.
  destruct (String.eqb_spec k k') as [-> | D]; [exfalso; apply N; now left |].
  rewrite IH; [easy | intros I; apply N; now right].
Qed.
Lemma dict_set_names {A : Type} (d : list (string * A)) k v :
  map fst (dict_set d k v) = if in_dec string_dec k (map fst d) then map fst d else map fst d ++ [k].
Proof.
  induction d as [| [k' v'] r IH]; [reflexivity |]. cbn [dict_set map fst]. destruct (String.eqb_spec k k') as [-> | N].
  - destruct (in_dec string_dec k' (k' :: map fst r)) as [| I]; [reflexivity | exfalso; apply I; now left].
  - cbn [map fst]. rewrite IH. destruct (in_dec string_dec k (map fst r)) as [I | I]; destruct (in_dec string_dec k (k' :: map fst r)) as [J | J]; try reflexivity.
    + exfalso. apply J. now right.
    + exfalso. destruct J as [J | J]; [now apply N | now apply I].
Qed.
Lemma dict_of_nodup {A : Type} (l : list (string * A)) : NoDup (map fst l) -> dict_of l = l.
Proof.
  intros H. unfold dict_of.
  enough (G : forall d, NoDup (map fst (d ++ l)) -> fold_left (fun d p => dict_set d (fst p) (snd p)) l d = d ++ l)
    by (apply (G []); exact H).
  clear H. induction l as [| [k v] r IH]; intros d H; cbn; [now rewrite app_nil_r |].
  rewrite dict_set_new.
  - rewrite IH by (now rewrite <- app_assoc). now rewrite <- app_assoc.
  - rewrite map_app in H. cbn in H. apply NoDup_remove_2 in H. intros I. apply H. apply in_or_app. now left.
Qed.
Lemma dict_get_set_same {A : Type} (d : list (string * A)) k v : dict_get (dict_set d k v) k = Some v.
Proof.
  unfold dict_get. induction d as [| [k' v'] r IH]; cbn; [now rewrite String.eqb_refl |].
  destruct (String.eqb_spec k k') as [-> | D]; cbn; [now rewrite String.eqb_refl |].
  destruct (String.eqb_spec k' k); [now subst |]. exact IH.
Qed.
Lemma dict_get_set_other {A : Type} (d : list (string * A)) k k' v : k' <> k -> dict_get (dict_set d k v) k' = dict_get d k'.
Proof.
  intros N. unfold dict_get. induction d as [| [k2 v2] r IH]; cbn.
  - destruct (String.eqb_spec k k'); [now subst | easy].
  - destruct (String.eqb_spec k k2) as [-> | D]; cbn.
    + destruct (String.eqb_spec k2 k'); [now subst | easy].
    + destruct (String.eqb_spec k2 k'); [easy | exact IH].
Qed.

(** ** Numbers *)
Lemma dig_code d : d < 10 -> nat_of_ascii (dig d) = 48 + d.
Proof. intros H. unfold dig. apply nat_ascii_embedding. lia. Qed.
Lemma dig_digit d : d < 10 -> digit (dig d) = true.
Proof. intros H. do 10 (destruct d as [| d]; [reflexivity |]). lia. Qed.
Lemma digits_all ds : List.Forall (fun d => d < 10) ds -> forallb digit (map dig ds) = true.
Proof. induction 1 as [| d r Hd Hr IH]; cbn [map forallb]; [easy |]. rewrite dig_digit by easy. exact IH. Qed.
Lemma digits_horner ds : List.Forall (fun d => d < 10) ds -> digits_val (map dig ds) = horner ds.
Proof.
  intros H. unfold digits_val, horner. generalize 0%Z as v. induction H as [| d r Hd Hr IH]; intros v; cbn [map fold_left]; [easy |].
  rewrite IH, dig_code by easy. f_equal. lia.
Qed.
Lemma span_digits ds r : List.Forall (fun d => d < 10) ds -> match r with c :: _ => digit c = false | [] => True end ->
  span digit (map dig ds ++ r) = (map dig ds, r).
Proof.
  intros H E. induction H as [| d t Hd Ht IH]; cbn [map app span].
  - destruct r as [| c t]; [easy |]. cbn. now rewrite E.
  - rewrite dig_digit by easy. now rewrite IH.
Qed.
