(** * Facts about the regular expression model of Regex.v *)
From Coq Require Import String Ascii List Bool Arith Lia.
From Verif Require Import Str Regex Bada3Text.
Import ListNotations.
Open Scope list_scope.
Open Scope nat_scope.

(** the character before the text that follows [a] *)
Definition lastof (prev : option ascii) (a : text) : option ascii := fold_left (fun _ c => Some c) a prev.
Lemma lastof_app : forall a b p, lastof p (a ++ b) = lastof (lastof p a) b.
Proof. intros. unfold lastof. apply fold_left_app. Qed.

Lemma span_app : forall p l a b, span p l = (a, b) -> l = a ++ b.
Proof.
  induction l as [|c t IH]; cbn; intros a b H; [injection H as <- <-; auto|]. destruct (p c).
  - destruct (span p t) as [x y]. injection H as <- <-. cbn. f_equal. auto.
  - injection H as <- <-. auto.
Qed.
Lemma span_all : forall p l a b, span p l = (a, b) -> Forall (fun c => p c = true) a.
Proof.
  induction l as [|c t IH]; cbn; intros a b H; [injection H as <- <-; auto|]. destruct (p c) eqn:E.
  - destruct (span p t) as [x y]. injection H as <- <-. constructor; eauto.
  - injection H as <- <-. auto.
Qed.
Lemma span_stop : forall p l a b, span p l = (a, b) -> match b with c :: _ => p c = false | [] => True end.
Proof.
  induction l as [|c t IH]; cbn; intros a b H; [injection H as <- <-; auto|]. destruct (p c) eqn:E.
  - destruct (span p t) as [x y]. injection H as <- <-. apply (IH x y eq_refl).
  - injection H as <- <-. auto.
Qed.
Lemma span_intro : forall p a b, Forall (fun c => p c = true) a -> match b with c :: _ => p c = false | [] => True end -> span p (a ++ b) = (a, b).
Proof.
  induction a as [|c a IH]; intros b F H; cbn.
  - destruct b as [|c b]; auto. cbn. rewrite H. auto.
  - inversion F; subst. rewrite H2, IH; auto.
Qed.

Lemma greedy_det : forall A p l min prev (k : option ascii -> text -> option A) a b,
  ((forall c t pv, p c = true -> k pv (c :: t) = None) \/ (forall pv t, k pv t <> None)) ->
  span p l = (a, b) ->
  greedy p min prev l k = if (min <=? length a)%nat then k (lastof prev a) b else None.
Proof.
  intros A p l. induction l as [|c t IH]; intros min prev k a b K S; cbn in S.
  - injection S as <- <-. cbn. destruct min; auto.
  - cbn. destruct (p c) eqn:E.
    + destruct (span p t) as [x y] eqn:S'. injection S as <- <-. rewrite (IH _ _ k x y K eq_refl). cbn [length lastof fold_left].
      change (fold_left (fun _ c0 => Some c0) x (Some c)) with (lastof (Some c) x).
      destruct min as [|m]; cbn.
      * destruct (k (lastof (Some c) x) y) eqn:Q; auto. destruct K as [K|K]; [apply K; auto|destruct (K _ _ Q)].
      * destruct (m <=? length x); auto. destruct (k (lastof (Some c) x) y); auto.
    + injection S as <- <-. cbn. destruct min; auto.
Qed.

(** lazy skipping of anything *)
Lemma skip_some : forall A l prev (k : option ascii -> text -> option A) x,
  reluctant anychar 0 prev l k = Some x <->
  exists a b, l = a ++ b /\ k (lastof prev a) b = Some x /\
    forall a' b', l = a' ++ b' -> (List.length a' < length a)%nat -> k (lastof prev a') b' = None.
Proof.
  intros A l. induction l as [|c t IH]; intros prev k x; cbn.
  - split.
    + intros H. exists [], []. split; auto. split; [cbn; destruct (k prev []); congruence|]. intros a' b' _ L. cbn in L. lia.
    + intros (a & b & E & H & _). symmetry in E. apply app_eq_nil in E as [-> ->]. cbn in H. rewrite H. auto.
  - destruct (k prev (c :: t)) as [y|] eqn:K.
    + split.
      * intros H. injection H as ->. exists [], (c :: t). split; auto. split; auto. intros a' b' _ L. cbn in L. lia.
      * intros (a & b & E & H & F). destruct a as [|d a]; [cbn in *; subst b; congruence|].
        specialize (F [] (c :: t) eq_refl ltac:(cbn; lia)). cbn in F. congruence.
    + rewrite IH. split.
      * intros (a & b & E & H & F). exists (c :: a), b. split; [cbn; congruence|]. split; auto.
        intros a' b' E' L. destruct a' as [|d a']; [cbn in *; subst b'; auto|]. cbn in E'. injection E' as <- E'. cbn.
        apply (F a' b' E'). cbn in L. lia.
      * intros (a & b & E & H & F). destruct a as [|d a]; [cbn in *; subst b; congruence|]. cbn in E. injection E as <- E.
        exists a, b. split; auto. split; auto. intros a' b' E' L. apply (F (c :: a') b'); [cbn; congruence|cbn; lia].
Qed.
Lemma skip_none : forall A l prev (k : option ascii -> text -> option A),
  reluctant anychar 0 prev l k = None <-> forall a b, l = a ++ b -> k (lastof prev a) b = None.
Proof.
  intros A l. induction l as [|c t IH]; intros prev k; cbn.
  - split.
    + intros H a b E. symmetry in E. apply app_eq_nil in E as [-> ->]. cbn. destruct (k prev []); congruence.
    + intros H. specialize (H [] [] eq_refl). cbn in H. rewrite H. auto.
  - destruct (k prev (c :: t)) as [y|] eqn:K.
    + split; [discriminate|]. intros H. specialize (H [] (c :: t) eq_refl). cbn in H. congruence.
    + rewrite IH. split.
      * intros H a b E. destruct a as [|d a]; [cbn in *; subst b; auto|]. cbn in E. injection E as <- E. cbn. apply H; auto.
      * intros H a b E. apply (H (c :: a) b). cbn. congruence.
Qed.

(** searching *)
Lemma search_some : forall r l prev m,
  search_from r prev l = Some m <->
  exists a b, l = a ++ b /\ re_match r (lastof prev a) b = Some m /\
    forall a' b', l = a' ++ b' -> (List.length a' < length a)%nat -> re_match r (lastof prev a') b' = None.
Proof.
  intros r l. induction l as [|c t IH]; intros prev m; cbn [search_from].
  - split.
    + intros H. exists [], []. split; auto. split; [cbn [lastof fold_left]; destruct (re_match r prev []); congruence|]. intros a' b' _ L. cbn in L. lia.
    + intros (a & b & E & H & _). symmetry in E. apply app_eq_nil in E as [-> ->]. cbn [lastof fold_left] in H. rewrite H. auto.
  - destruct (re_match r prev (c :: t)) as [y|] eqn:K.
    + split.
      * intros H. injection H as ->. exists [], (c :: t). split; auto. split; auto. intros a' b' _ L. cbn in L. lia.
      * intros (a & b & E & H & F). destruct a as [|d a]; [cbn [lastof fold_left app] in *; subst b; congruence|].
        specialize (F [] (c :: t) eq_refl ltac:(cbn; lia)). cbn [lastof fold_left] in F. congruence.
    + rewrite IH. split.
      * intros (a & b & E & H & F). exists (c :: a), b. split; [cbn; congruence|]. split; auto.
        intros a' b' E' L. destruct a' as [|d a']; [cbn [lastof fold_left app] in *; subst b'; auto|]. cbn in E'. injection E' as <- E'.
        apply (F a' b' E'). cbn in L. lia.
      * intros (a & b & E & H & F). destruct a as [|d a]; [cbn [lastof fold_left app] in *; subst b; congruence|]. cbn in E. injection E as <- E.
        exists a, b. split; auto. split; auto. intros a' b' E' L. apply (F (c :: a') b'); [cbn; congruence|cbn; lia].
Qed.
Lemma search_none : forall r l prev,
  search_from r prev l = None <-> forall a b, l = a ++ b -> re_match r (lastof prev a) b = None.
Proof.
  intros r l. induction l as [|c t IH]; intros prev; cbn [search_from].
  - split.
    + intros H a b E. symmetry in E. apply app_eq_nil in E as [-> ->]. cbn [lastof fold_left]. destruct (re_match r prev []); congruence.
    + intros H. rewrite (H [] [] eq_refl : re_match r prev [] = None). auto.
  - destruct (re_match r prev (c :: t)) as [y|] eqn:K.
    + split; [discriminate|]. intros H. rewrite (H [] (c :: t) eq_refl : re_match r prev _ = None) in K. discriminate.
    + rewrite IH. split.
      * intros H a b E. destruct a as [|d a]; [cbn [lastof fold_left app] in *; subst b; auto|]. cbn in E. injection E as <- E. apply H; auto.
      * intros H a b E. apply (H (c :: a) b). cbn. congruence.
Qed.

Lemma app_eq_app_len : forall (A : Type) (a b c d : list A), a ++ b = c ++ d -> List.length a = List.length c -> a = c /\ b = d.
Proof.
  induction a as [|x a IH]; intros b [|y c] d E L; cbn in *; try lia; auto. injection E as -> E. destruct (IH b c d E ltac:(lia)) as [-> ->]. auto.
Qed.
(** literals *)
Fixpoint strip_prefix (h : list cls) (l : text) : option (text * text) :=
  match h, l with
  | [], _ => Some ([], l)
  | p :: h', d :: l' => if p d then match strip_prefix h' l' with Some (a, b) => Some (d :: a, b) | None => None end else None
  | _ :: _, [] => None
  end.
Lemma strip_prefix_some : forall h l a b, strip_prefix h l = Some (a, b) <-> l = a ++ b /\ Forall2 (fun (p : cls) c => p c = true) h a.
Proof.
  induction h as [|p h IH]; intros l a b; cbn.
  - split; [intros E; inversion E; subst; auto|]. intros [E F]. inversion F; subst. auto.
  - destruct l as [|d l].
    + split; [discriminate|]. intros [E F]. inversion F; subst. discriminate.
    + split.
      * intros E. destruct (p d) eqn:P; [|discriminate]. destruct (strip_prefix h l) as [[x y]|] eqn:S; [|discriminate].
        inversion E; subst. apply IH in S as [-> F]. auto.
      * intros [E F]. inversion F as [|p' c h' a' P F']; subst. cbn in E. inversion E; subst. rewrite P.
        rewrite (proj2 (IH (a' ++ b) a' b) (conj eq_refl F')). auto.
Qed.
Fixpoint ones (h : list cls) : re := match h with [] => Eps | p :: t => Seq (One p) (ones t) end.
Lemma run_ones : forall A h s (k : pos -> option A),
  run (ones h) s k = match strip_prefix h (p_rest s) with Some (a, r) => k (mkPos (lastof (p_prev s) a) r (p_groups s)) | None => None end.
Proof.
  intros A h. induction h as [|p h IH]; intros s k; cbn.
  - destruct s; auto.
  - destruct (p_rest s) as [|d l]; auto. destruct (p d); auto. rewrite IH. cbn [p_rest p_prev p_groups].
    destruct (strip_prefix h l) as [[a b]|]; auto.
Qed.
Lemma lit_ones : forall l, lit_of l = ones (map Ascii.eqb l).
Proof. induction l; cbn; congruence. Qed.
Definition same_ic (c : ascii) : cls := fun d => Ascii.eqb (low1 c) (low1 d).
Lemma lit_ic_ones : forall l, lit_ic_of l = ones (map same_ic l).
Proof. induction l; cbn; [auto|]. f_equal. auto. Qed.
Lemma strip_lit : forall h l a b, strip_prefix (map Ascii.eqb h) l = Some (a, b) <-> a = h /\ l = h ++ b.
Proof.
  intros h l a b. rewrite strip_prefix_some. split.
  - intros [E F]. assert (a = h) as ->; [|auto]. clear E. revert a F. induction h as [|c h IH]; intros a F; inversion F; subst; auto.
    f_equal; auto. symmetry. apply Ascii.eqb_eq. auto.
  - intros [-> ->]. split; auto. clear. induction h; constructor; auto. apply Ascii.eqb_refl.
Qed.

(** sequences of runs and single characters *)
Inductive item : Type := IRun (g : option nat) (p : cls) | IOnes (h : list cls).
Definition item_re (i : item) : re :=
  match i with IRun None p => Rep false 1 p | IRun (Some n) p => Grp n (Rep false 1 p) | IOnes h => ones h end.
Fixpoint run_list {A : Type} (its : list item) (s : pos) (k : pos -> option A) : option A :=
  match its with [] => k s | i :: t => run (item_re i) s (fun s' => run_list t s' k) end.
Definition scan1 (i : item) (s : pos) : option pos :=
  match i with
  | IRun g p =>
      let (a, b) := span p (p_rest s) in
      match a with
      | [] => None
      | _ => Some (mkPos (lastof (p_prev s) a) b (match g with Some n => (n, a) :: p_groups s | None => p_groups s end))
      end
  | IOnes h => match strip_prefix h (p_rest s) with Some (a, r) => Some (mkPos (lastof (p_prev s) a) r (p_groups s)) | None => None end
  end.
Fixpoint scan (its : list item) (s : pos) : option pos :=
  match its with [] => Some s | i :: t => match scan1 i s with Some s' => scan t s' | None => None end end.
Definition disjoint (p q : cls) : Prop := forall c, p c = true -> q c = false.
(** what comes next cannot start with a character of the run before it *)
Fixpoint ok (its : list item) : Prop :=
  match its with
  | IRun _ p :: ((IRun _ q :: _) as t) => disjoint p q /\ ok t
  | IRun _ p :: ((IOnes (q :: _) :: _) as t) => disjoint p q /\ ok t
  | IRun _ _ :: IOnes [] :: _ => False
  | _ :: t => ok t
  | [] => True
  end.
Lemma scan_blocked : forall p i t g c l pv gr, ok (IRun g p :: i :: t) -> p c = true -> scan (i :: t) (mkPos pv (c :: l) gr) = None.
Proof.
  intros p i t g c l pv gr K E. destruct i as [g' q|[|d h]].
  - destruct K as [K _]. cbn. rewrite (K c E). auto.
  - destruct K.
  - destruct K as [K _]. cbn. rewrite (K c E). auto.
Qed.
Lemma ok_tail : forall i t, ok (i :: t) -> ok t.
Proof. intros [g p|l] t K; [|destruct t; auto]. destruct t as [|[g' q|[|d h]] t]; cbn in *; tauto. Qed.
Lemma run_items : forall A its s (k : pos -> option A), ok its -> (forall s', k s' <> None) ->
  run_list its s k = match scan its s with Some s' => k s' | None => None end.
Proof.
  intros A its. induction its as [|i t IH]; intros s k K T; [auto|].
  assert (G : forall (k' : pos -> option A),
     ((forall g p c l pv gr, i = IRun g p -> p c = true -> k' (mkPos pv (c :: l) gr) = None) \/ (forall s', k' s' <> None)) ->
     run (item_re i) s k' = match scan1 i s with Some s' => k' s' | None => None end).
  { intros k' H. destruct i as [g p|l].
    - assert (H' : forall f : pos -> list (nat * text), let q := fun pv t => k' (mkPos pv t (f (mkPos pv t (p_groups s)))) in
         (forall c t pv, p c = true -> q pv (c :: t) = None) \/ (forall pv t, q pv t <> None)).
      { intros f q. destruct H as [H|H]; [left; intros; apply (H g p); auto|right; intros; apply H]. }
      cbn [scan1]. destruct (span p (p_rest s)) as [a b] eqn:S.
      destruct g as [n|]; cbn [item_re run].
      + set (f := fun q : pos => (n, firstn (List.length (p_rest s) - List.length (p_rest q)) (p_rest s)) :: p_groups q).
        refine (eq_trans (greedy_det _ p (p_rest s) 1 (p_prev s) _ a b (H' f) S) _). unfold f. cbn [p_prev p_rest p_groups].
        destruct a as [|x a]; auto. cbn [List.length Nat.leb]. f_equal. f_equal. f_equal. f_equal.
        apply span_app in S. rewrite S. rewrite app_length. replace (List.length (x :: a) + length b - length b) with (List.length (x :: a)) by lia.
        rewrite firstn_app, Nat.sub_diag, firstn_all. cbn. rewrite app_nil_r. auto.
      + refine (eq_trans (greedy_det _ p (p_rest s) 1 (p_prev s) _ a b (H' p_groups) S) _). destruct a; auto.
    - cbn [item_re scan1]. rewrite run_ones. destruct (strip_prefix l (p_rest s)) as [[a b]|]; auto. }
  cbn [run_list scan]. destruct t as [|j t].
  - cbn [run_list scan]. rewrite G by auto. destruct (scan1 i s); auto.
  - rewrite G.
    + destruct (scan1 i s) as [s'|]; auto. apply IH; auto. apply (ok_tail i); auto.
    + left. intros g p c l pv gr -> E. rewrite IH; auto; [|apply (ok_tail (IRun g p)); auto].
      rewrite (scan_blocked p j t g c l pv gr K E). auto.
Qed.

(** ** what a pattern can match, without the order of the attempts *)
Inductive matches : re -> pos -> pos -> Prop :=
| M_eps : forall s, matches Eps s s
| M_one : forall (p : cls) pv c t g, p c = true -> matches (One p) (mkPos pv (c :: t) g) (mkPos (Some c) t g)
| M_rep : forall lz min p pv a t g, min <= List.length a -> Forall (fun c => p c = true) a -> matches (Rep lz min p) (mkPos pv (a ++ t) g) (mkPos (lastof pv a) t g)
| M_seq : forall a b s s' s'', matches a s s' -> matches b s' s'' -> matches (Seq a b) s s''
| M_opt : forall a s s', matches a s s' -> matches (Opt a) s s'
| M_skip : forall a s, matches (Opt a) s s
| M_grp : forall n a s s', matches a s s' ->
    matches (Grp n a) s (mkPos (p_prev s') (p_rest s') ((n, firstn (List.length (p_rest s) - List.length (p_rest s')) (p_rest s)) :: p_groups s'))
| M_bol0 : forall multi t g, matches (Bol multi) (mkPos None t g) (mkPos None t g)
| M_bol1 : forall t g, matches (Bol true) (mkPos (Some nl) t g) (mkPos (Some nl) t g)
| M_eol0 : forall multi pv g, matches (Eol multi) (mkPos pv [] g) (mkPos pv [] g)
| M_eol1 : forall multi pv g, matches (Eol multi) (mkPos pv [nl] g) (mkPos pv [nl] g)
| M_eol2 : forall pv t g, matches (Eol true) (mkPos pv (nl :: t) g) (mkPos pv (nl :: t) g).

Lemma greedy_sound : forall A p l min pv (k : option ascii -> text -> option A) x, greedy p min pv l k = Some x ->
  exists a b, l = a ++ b /\ min <= List.length a /\ Forall (fun c => p c = true) a /\ k (lastof pv a) b = Some x.
Proof.
  intros A p l. induction l as [|c t IH]; intros min pv k x H; cbn in H.
  - destruct min; [|discriminate]. exists [], []. cbn. auto.
  - destruct (p c) eqn:P.
    + destruct (greedy p (pred min) (Some c) t k) as [y|] eqn:G.
      * injection H as ->. destruct (IH _ _ _ _ G) as (a & b & -> & L & F & K). exists (c :: a), b. split; auto. split; [cbn; lia|]. auto.
      * destruct min; [|discriminate]. exists [], (c :: t). cbn. auto with arith.
    + destruct min; [|discriminate]. exists [], (c :: t). cbn. auto with arith.
Qed.
Lemma greedy_complete : forall A p a b min pv (k : option ascii -> text -> option A), min <= List.length a -> Forall (fun c => p c = true) a ->
  k (lastof pv a) b <> None -> greedy p min pv (a ++ b) k <> None.
Proof.
  intros A p a. induction a as [|c a IH]; intros b min pv k L F K; cbn in *.
  - assert (min = 0) as -> by lia. destruct b as [|d b]; cbn; auto. destruct (p d); auto. destruct (greedy _ _ _ _ _); [discriminate|auto].
  - inversion F; subst. rewrite H1. specialize (IH b (pred min) (Some c) k ltac:(lia) H2 K). destruct (greedy _ _ _ _ _); [discriminate|congruence].
Qed.
Lemma reluctant_sound : forall A p l min pv (k : option ascii -> text -> option A) x, reluctant p min pv l k = Some x ->
  exists a b, l = a ++ b /\ min <= List.length a /\ Forall (fun c => p c = true) a /\ k (lastof pv a) b = Some x.
Proof.
  intros A p l. induction l as [|c t IH]; intros min pv k x H; cbn in H.
  - destruct min; [|discriminate]. exists [], []. cbn. destruct (k pv []) eqn:K; [|discriminate]. auto 6.
  - destruct (if (min =? 0)%nat then k pv (c :: t) else None) as [y|] eqn:K.
    + destruct min; [|discriminate]. injection H as ->. exists [], (c :: t). cbn. auto with arith.
    + destruct (p c) eqn:P; [|discriminate]. destruct (IH _ _ _ _ H) as (a & b & -> & L & F & K'). exists (c :: a), b. split; auto. split; [cbn; lia|]. auto.
Qed.
Lemma reluctant_complete : forall A p a b min pv (k : option ascii -> text -> option A), min <= List.length a -> Forall (fun c => p c = true) a ->
  k (lastof pv a) b <> None -> reluctant p min pv (a ++ b) k <> None.
Proof.
  intros A p a. induction a as [|c a IH]; intros b min pv k L F K; cbn in *.
  - assert (min = 0) as -> by lia. destruct b as [|d b]; cbn; destruct (k pv _); congruence.
  - inversion F; subst. rewrite H1. specialize (IH b (pred min) (Some c) k ltac:(lia) H2 K). destruct (if min =? 0 then _ else _); [discriminate|auto].
Qed.
Lemma run_sound : forall A r s (k : pos -> option A) x, run r s k = Some x -> exists s', matches r s s' /\ k s' = Some x.
Proof.
  intros A r. induction r as [|p|lz min p|a IHa b IHb|a IHa|n a IHa|multi|multi]; intros s k x H; cbn [run] in H; destruct s as [pv l g]; cbn [p_prev p_rest p_groups] in H.
  - exists (mkPos pv l g). split; auto. constructor.
  - destruct l as [|c t]; [discriminate|]. destruct (p c) eqn:P; [|discriminate]. eexists. split; [|eauto]. constructor. auto.
  - destruct lz; [apply reluctant_sound in H|apply greedy_sound in H]; destruct H as (a & b & -> & L & F & K); (eexists; split; [|eauto]; constructor; auto).
  - apply IHa in H as (s1 & M1 & H). apply IHb in H as (s2 & M2 & H). exists s2. split; auto. econstructor; eauto.
  - destruct (run a _ k) as [y|] eqn:R.
    + injection H as ->. apply IHa in R as (s1 & M1 & H). exists s1. split; auto. constructor; auto.
    + eexists. split; [|eauto]. apply M_skip.
  - apply IHa in H as (s1 & M1 & H). exists (mkPos (p_prev s1) (p_rest s1) ((n, firstn (List.length l - List.length (p_rest s1)) l) :: p_groups s1)). split; [|exact H]. apply (M_grp n a (mkPos pv l g) s1 M1).
  - destruct pv as [c|].
    + destruct multi; [|discriminate]. cbn in H. destruct (Ascii.eqb_spec c nl) as [->|]; [|discriminate]. eexists. split; [|eauto]. constructor.
    + eexists. split; [|eauto]. constructor.
  - destruct l as [|c [|d t]].
    + eexists. split; [|eauto]. constructor.
    + destruct (Ascii.eqb_spec c nl) as [->|]; [|discriminate]. eexists. split; [|eauto]. constructor.
    + destruct multi; [|discriminate]. cbn [andb] in H. destruct (Ascii.eqb_spec c nl) as [->|]; [|discriminate]. eexists. split; [|eauto]. constructor.
Qed.
Lemma run_complete : forall A r s s' (k : pos -> option A), matches r s s' -> k s' <> None -> run r s k <> None.
Proof.
  intros A r s s' k M. revert k. induction M; intros k K; cbn [run p_prev p_rest p_groups]; auto.
  - rewrite H. auto.
  - destruct lz; [apply reluctant_complete|apply greedy_complete]; auto.
  - specialize (IHM k K). destruct (run a s k); [discriminate|congruence].
  - destruct (run a s k); [discriminate|auto].
  - destruct t; auto.
Qed.
