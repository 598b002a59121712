(** * The searches of Bada3Text.v and the layout of SpecText.v *)
From Coq Require Import String Ascii List Bool Arith ZArith Reals Lia.
From Verif Require Import Str Py Regex Bada3 Bada3Text RegexFacts SpecText.
Import ListNotations.
Open Scope list_scope.
Open Scope nat_scope.

(** ** kinds of characters *)
Definition cls_of (f : field) : cls :=
  match f with Blanks => is_space | Number => numchar | Digits => digit | Word => nonspace | _ => fun _ => false end.
Lemma blank_iff : forall c, is_space c = true <-> blank c.
Proof.
  intros c. unfold is_space, blank, code. cbv zeta. rewrite orb_true_iff, !andb_true_iff, !Nat.leb_le. tauto.
Qed.
Lemma digit_iff : forall c, digit c = true <-> decimal_digit c.
Proof. intros c. unfold digit, decimal_digit, code. cbv zeta. rewrite andb_true_iff, !Nat.leb_le. tauto. Qed.
Lemma number_iff : forall c, numchar c = true <-> number_char c.
Proof.
  intros c. unfold numchar, number_char. rewrite !orb_true_iff, digit_iff, !Ascii.eqb_eq. cbn. intuition congruence.
Qed.
Lemma cls_iff : forall f c, cls_of f c = true <-> kind f c.
Proof.
  intros [| | | | |] c; cbn; try (split; [discriminate|tauto]).
  - apply blank_iff.
  - apply number_iff.
  - apply digit_iff.
  - unfold nonspace. rewrite negb_true_iff. rewrite <- blank_iff. destruct (is_space c); split; congruence.
Qed.
Lemma same_iff : forall c d, same_ic c d = true <-> same_letter c d.
Proof.
  intros c d. unfold same_ic, same_letter. rewrite Ascii.eqb_eq. unfold low1, code. cbv zeta.
  pose proof (nat_ascii_bounded c). pose proof (nat_ascii_bounded d).
  assert (Q : forall x y, x < 256 -> y < 256 -> ascii_of_nat x = ascii_of_nat y -> x = y).
  { intros x y X Y E. rewrite <- (nat_ascii_embedding x X), <- (nat_ascii_embedding y Y). congruence. }
  assert (I : forall a b, nat_of_ascii a = nat_of_ascii b -> a = b).
  { intros a b E. rewrite <- (ascii_nat_embedding a), <- (ascii_nat_embedding b). congruence. }
  destruct ((65 <=? nat_of_ascii c) && (nat_of_ascii c <=? 90)) eqn:C, ((65 <=? nat_of_ascii d) && (nat_of_ascii d <=? 90)) eqn:D;
  try (rewrite andb_true_iff, !Nat.leb_le in C); try (rewrite andb_true_iff, !Nat.leb_le in D);
  try (rewrite andb_false_iff, !Nat.leb_gt in C); try (rewrite andb_false_iff, !Nat.leb_gt in D).
  - split.
    + intros E. left. apply I. apply Q in E; lia.
    + intros [->|[|]]; [auto|lia|lia].
  - split.
    + intros E. right. left. split; auto. rewrite <- E, nat_ascii_embedding; lia.
    + intros [->|[[_ E]|[E _]]]; [lia| |lia]. rewrite <- E. apply ascii_nat_embedding.
  - split.
    + intros E. right. right. split; auto. rewrite E, nat_ascii_embedding; lia.
    + intros [->|[[E _]|[_ E]]]; [lia|lia|]. rewrite <- E. symmetry. apply ascii_nat_embedding.
  - split; auto. intros [->|[[E _]|[E _]]]; [auto|lia|lia].
Qed.
Lemma run_span : forall f a b, run_of f a b <-> a <> [] /\ span (cls_of f) (a ++ b) = (a, b).
Proof.
  intros f a b. unfold run_of. split.
  - intros (N & F & H). split; auto. apply span_intro.
    + apply Forall_forall. intros c I. apply cls_iff. rewrite Forall_forall in F. auto.
    + destruct b as [|c b]; auto. specialize (H c b eq_refl). rewrite <- cls_iff in H. destruct (cls_of f c); congruence.
  - intros [N E]. split; auto. split.
    + apply Forall_forall. intros c I. apply cls_iff. apply span_all in E. rewrite Forall_forall in E. auto.
    + intros c b' ->. apply span_stop in E. rewrite <- cls_iff. congruence.
Qed.

Lemma f2_length : forall (A B : Type) (P : A -> B -> Prop) l l', Forall2 P l l' -> List.length l = List.length l'.
Proof. intros A B P l l' F. induction F; cbn; auto. Qed.

(** ** fields as items *)
Definition item_of (fg : field * option nat) : item :=
  match fst fg with
  | Exactly s => IOnes (map Ascii.eqb (tx s))
  | AnyCase s => IOnes (map same_ic (tx s))
  | f => IRun (snd fg) (cls_of f)
  end.
Definition is_token (f : field) : bool := match f with Number | Digits | Word => true | _ => false end.
(** the groups closed by reading tokens, the last one first *)
Fixpoint caps (fgs : list (field * option nat)) (ts : list text) (g : list (nat * text)) : list (nat * text) :=
  match fgs with
  | [] => g
  | (f, n) :: r =>
      if is_token f then
        match ts with
        | t :: ts' => caps r ts' (match n with Some i => (i, t) :: g | None => g end)
        | [] => g
        end
      else caps r ts g
  end.
Lemma scan_reads : forall fgs s, Forall (fun fg => is_token (fst fg) = false -> snd fg = None) fgs ->
  match scan (map item_of fgs) s with
  | Some s' => exists ts, reads (map fst fgs) (p_rest s) ts /\ p_groups s' = caps fgs ts (p_groups s)
  | None => forall ts, ~ reads (map fst fgs) (p_rest s) ts
  end.
Proof.
  intros fgs. induction fgs as [|[f n] r IH]; intros s W.
  - cbn. exists []. split; auto. constructor.
  - apply Forall_cons_iff in W as [W0 W]. cbn in W0. cbn [map scan fst].
    assert (RUN : forall a b, run_of f a b -> forall a' b', run_of f a' b' -> a ++ b = a' ++ b' -> a = a' /\ b = b').
    { intros a b H a' b' H' E. apply run_span in H as [_ H]. apply run_span in H' as [_ H']. rewrite E in H. rewrite H in H'. injection H' as <- <-. auto. }
    destruct f as [| | | |h|h].
    1-4: cbn [item_of fst snd scan1];
      match goal with |- context [span (cls_of ?f) ?l] => destruct (span (cls_of f) l) as [a b] eqn:S; pose proof (span_app _ _ _ _ S) as SA end;
      destruct a as [|c a];
      [ intros ts H; inversion H; subst;
        match goal with R : run_of _ ?x ?y, E : ?x ++ ?y = _ |- _ => apply run_span in R as [R1 R2]; rewrite E, S in R2; injection R2 as R2 _; congruence end
      | assert (RO : forall f', cls_of f' = cls_of f' -> True) by auto;
        match type of S with span (cls_of ?f) _ = _ =>
          assert (R0 : run_of f (c :: a) b) by (apply run_span; split; [discriminate|rewrite <- SA; auto]) end;
        match goal with |- context [scan _ ?s'] => specialize (IH s' W) end;
        match goal with |- context [scan ?x ?y] => destruct (scan x y) as [s''|] eqn:Sc end; cbn [p_rest p_groups] in IH;
        [ destruct IH as (ts & IH1 & IH2); rewrite SA |
          intros ts H; inversion H; subst;
          match goal with R : run_of _ ?x ?y, E : ?x ++ ?y = _ |- _ => rewrite SA in E; destruct (RUN _ _ R _ _ R0 E) as [-> ->]; eapply IH; eauto end ] ].
    + exists ts. split; [constructor; auto|]. rewrite (W0 eq_refl) in IH2. cbn. auto.
    + exists ((c :: a) :: ts). split; [constructor; cbn; auto|]. cbn. destruct n; auto.
    + exists ((c :: a) :: ts). split; [constructor; cbn; auto|]. cbn. destruct n; auto.
    + exists ((c :: a) :: ts). split; [constructor; cbn; auto|]. cbn. destruct n; auto.
    + cbn [item_of fst snd scan1]. destruct (strip_prefix (map Ascii.eqb (tx h)) (p_rest s)) as [[a b]|] eqn:S.
      * pose proof S as S'. apply strip_lit in S' as [-> E]. specialize (IH (mkPos (lastof (p_prev s) (tx h)) b (p_groups s)) W).
        destruct (scan _ _) as [s''|]; cbn [p_rest p_groups] in IH.
        -- destruct IH as (ts & IH1 & IH2). exists ts. split; auto. rewrite E. apply R_exactly. auto.
        -- intros ts H. inversion H as [| |f0 fs a b1 ts0 I|s0 fs b0 ts0 R0 E0 E1 E2|]; subst; [cbn in I; intuition discriminate|]. rewrite E in E1. apply app_inv_head in E1. subst. eapply IH; eauto.
      * intros ts H. inversion H as [| |f0 fs a b ts0 I|s0 fs b0 ts0 R0 E0 E1 E2|]; subst; [cbn in I; intuition discriminate|].
        assert (X : strip_prefix (map Ascii.eqb (tx h)) (p_rest s) = Some (tx h, b0)) by (apply strip_lit; split; auto). congruence.
    + cbn [item_of fst snd scan1]. destruct (strip_prefix (map same_ic (tx h)) (p_rest s)) as [[a b]|] eqn:S.
      * pose proof S as S'. apply strip_prefix_some in S' as [E F].
        assert (F2 : Forall2 same_letter (chars h) a). { unfold tx, chars in *. clear -F. remember (list_ascii_of_string h) as z. clear Heqz. revert a F. induction z; intros a0 F; inversion F; subst; constructor; auto. apply same_iff; auto. }
        specialize (IH (mkPos (lastof (p_prev s) a) b (p_groups s)) W).
        destruct (scan _ _) as [s''|]; cbn [p_rest p_groups] in IH.
        -- destruct IH as (ts & IH1 & IH2). exists ts. split; auto. rewrite E. apply R_anycase; auto.
        -- intros ts H. inversion H as [| |f0 fs a0 b0 ts0 I| |s0 fs a0 b0 ts0 F0 R0 E0 E1 E2]; subst; [cbn in I; intuition discriminate|].
           rewrite E in E1. apply app_eq_app_len in E1 as [-> ->]; [eapply IH; eauto|]. apply f2_length in F2, F0. congruence.
      * intros ts H. inversion H as [| |f0 fs a0 b0 ts0 I| |s0 fs a0 b0 ts0 F0 R0 E0 E1 E2]; subst; [cbn in I; intuition discriminate|].
        assert (X : strip_prefix (map same_ic (tx h)) (p_rest s) = Some (a0, b0)).
        { apply strip_prefix_some. split; auto. clear -F0. unfold tx, chars in *. remember (list_ascii_of_string h) as z. clear Heqz. revert a0 F0. induction z; intros a0 F; inversion F; subst; cbn; constructor; auto. apply same_iff; auto. }
        congruence.
Qed.

(** ** places *)
Lemma first_place_unique : forall P l b b', first_place P l b -> first_place P l b' -> b = b'.
Proof.
  intros P l b b' (a & E & H & F) (a' & E' & H' & F').
  destruct (Nat.lt_trichotomy (List.length a) (List.length a')) as [L|[L|L]].
  - destruct (F' a b E L H).
  - rewrite E in E'. apply app_eq_app_len in E' as [_ E']; auto.
  - destruct (F a' b' E' L H').
Qed.
Lemma reads_unique : forall fs l ts ts', reads fs l ts -> reads fs l ts' -> ts = ts'.
Proof.
  assert (RUN : forall f a b, run_of f a b -> forall a' b', run_of f a' b' -> a' ++ b' = a ++ b -> a = a' /\ b = b').
  { intros f a b H a' b' H' E. apply run_span in H as [_ H]. apply run_span in H' as [_ H']. rewrite E in H'. rewrite H in H'. injection H' as <- <-. auto. }
  intros fs l ts ts' H. revert ts'. induction H as [l|fs a b ts R H IH|f fs a b ts I R H IH|s fs b ts H IH|s fs a b ts F H IH]; intros ts' H'.
  - inversion H'; auto.
  - inversion H' as [|fs' a' b' ts0 R' H0|f fs' a' b' ts0 I| |]; subst; [|cbn in I; intuition discriminate].
    match goal with E : _ ++ _ = _ ++ _ |- _ => destruct (RUN _ _ _ R _ _ R' E) as [-> ->] end. auto.
  - inversion H' as [|fs' a' b' ts0 R' H0|f' fs' a' b' ts0 I' R' H0| |]; subst; try (cbn in I; intuition discriminate).
    match goal with E : _ ++ _ = _ ++ _ |- _ => destruct (RUN _ _ _ R _ _ R' E) as [-> ->] end. f_equal. auto.
  - inversion H' as [| |f' fs' a' b' ts0 I' R' H0|s' fs' b' ts0 H0 E1 E2|]; subst; [cbn in I'; intuition discriminate|].
    apply app_inv_head in E2. subst. auto.
  - inversion H' as [| |f' fs' a' b' ts0 I' R' H0| |s' fs' a' b' ts0 F0 H0 E1 E2]; subst; [cbn in I'; intuition discriminate|].
    apply app_eq_app_len in E2 as [-> ->]; [auto|]. apply f2_length in F, F0. congruence.
Qed.
Lemma found_unique : forall fs l ts ts', found_at fs l ts -> found_at fs l ts' -> ts = ts'.
Proof. intros fs l ts ts' (b & P & R) (b' & P' & R'). rewrite (first_place_unique _ _ _ _ P' P) in R'. eapply reads_unique; eauto. Qed.
Lemma section_unique : forall h fs l ts ts', section h fs l ts -> section h fs l ts' -> ts = ts'.
Proof.
  intros h fs l ts ts' (b & P & R) (b' & P' & R'). pose proof (first_place_unique _ _ _ _ P' P) as E. apply app_inv_head in E. subst.
  eapply found_unique; eauto.
Qed.

(** ** searches *)
Definition recognised (r : re) (S : text -> list text -> Prop) (idx : list nat) (count : nat) : Prop :=
  forall l, match re_search r l with
            | Some (_, g) => exists ts, S l ts /\ map (fun i => group i g) (seq 1 count) = map (fun i => nth i ts []) idx
            | None => missing S l
            end.
Definition well (fgs : list (field * option nat)) : Prop :=
  ok (map item_of fgs) /\ Forall (fun fg => is_token (fst fg) = false -> snd fg = None) fgs.
Definition picks (fgs : list (field * option nat)) (idx : list nat) (count : nat) : Prop :=
  forall l ts, reads (map fst fgs) l ts -> map (fun i => group i (caps fgs ts [])) (seq 1 count) = map (fun i => nth i ts []) idx.
Lemma some_total : forall s : pos, Some s <> None.
Proof. discriminate. Qed.
Lemma place_recognised : forall r fgs idx count, well fgs -> picks fgs idx count ->
  (forall s (k : pos -> option pos), (forall s', k s' <> None) -> exists k', (forall s', k' s' <> None) /\ (forall s' x, k' s' = Some x -> (forall s1 y, k s1 = Some y -> p_groups y = p_groups s1) -> p_groups x = p_groups s') /\ run r s k = run_list (map item_of fgs) s k') ->
  recognised r (found_at (map fst fgs)) idx count.
Proof.
  intros r fgs idx count [W1 W2] PK H l.
  assert (M : forall pv b, match re_match r pv b with
     | Some (_, g) => exists ts, reads (map fst fgs) b ts /\ g = caps fgs ts []
     | None => forall ts, ~ reads (map fst fgs) b ts end).
  { intros pv b. unfold re_match. destruct (H (mkPos pv b []) Some some_total) as (k' & T & G & ->).
    rewrite run_items by auto. pose proof (scan_reads fgs (mkPos pv b []) W2) as SR.
    destruct (scan _ _) as [s'|]; auto. destruct SR as (ts & R & E). cbn [p_rest p_groups] in R, E.
    destruct (k' s') as [x|] eqn:K; [|destruct (T s' K)]. exists ts. split; auto. rewrite (G s' x K); auto.
    intros s1 y Y. congruence. }
  unfold re_search. destruct (search_from r None l) as [[m g]|] eqn:S.
  - apply search_some in S as (a & b & E & Mt & F). pose proof (M (lastof None a) b) as Mb. rewrite Mt in Mb. destruct Mb as (ts & R & ->).
    exists ts. split; [|eapply PK; eauto]. exists b. split; auto. exists a. split; auto. split; [eauto|].
    intros a' b' E' L [ts' R']. specialize (F a' b' E' L). pose proof (M (lastof None a') b') as Mb. rewrite F in Mb. eapply Mb; eauto.
  - intros ts (b & (a & E & [ts' R] & _) & _). pose proof (proj1 (search_none _ _ _) S a b E) as N. pose proof (M (lastof None a) b) as Mb. rewrite N in Mb.
    eapply Mb; eauto.
Qed.
Lemma section_recognised : forall r h fgs idx count, well fgs -> picks fgs idx count -> fgs <> [] ->
  (forall s, run r s Some = run (lit_of (tx h)) s (fun s' => reluctant anychar 0 (p_prev s') (p_rest s')
      (fun c t => run_list (map item_of fgs) (mkPos c t (p_groups s')) Some))) ->
  recognised r (section h (map fst fgs)) idx count.
Proof.
  intros r h fgs idx count [W1 W2] PK NE H l.
  assert (M : forall pv b, match re_match r pv b with
     | Some (_, g) => exists rest ts, b = tx h ++ rest /\ found_at (map fst fgs) rest ts /\ g = caps fgs ts []
     | None => forall rest, b = tx h ++ rest -> forall a' b' ts, rest = a' ++ b' -> ~ reads (map fst fgs) b' ts end).
  { intros pv b. unfold re_match. rewrite H, lit_ones, run_ones. cbn [p_rest p_prev p_groups].
    destruct (strip_prefix (map Ascii.eqb (tx h)) b) as [[a rest]|] eqn:S.
    2:{ intros rest E. assert (X : strip_prefix (map Ascii.eqb (tx h)) b = Some (tx h, rest)) by (apply strip_lit; auto). congruence. }
    apply strip_lit in S as [-> E].
    assert (K : forall c t, match run_list (map item_of fgs) (mkPos c t []) Some with
       | Some x => exists ts, reads (map fst fgs) t ts /\ p_groups x = caps fgs ts []
       | None => forall ts, ~ reads (map fst fgs) t ts end).
    { intros c t. rewrite run_items by (auto using some_total). pose proof (scan_reads fgs (mkPos c t []) W2) as SR. destruct (scan _ _); auto. }
    destruct (reluctant _ _ _ _ _) as [x|] eqn:Q.
    - apply skip_some in Q as (a' & b' & E' & X & F). pose proof (K (lastof (lastof pv (tx h)) a') b') as Kb. rewrite X in Kb. destruct Kb as (ts & R & G).
      exists rest, ts. split; auto. split; auto. exists b'. split; auto. exists a'. split; auto. split; [eauto|].
      intros a1 b1 E1 L [ts1 R1]. specialize (F a1 b1 E1 L). pose proof (K (lastof (lastof pv (tx h)) a1) b1) as Kb. rewrite F in Kb. eapply Kb; eauto.
    - intros rest' E' a' b' ts E1 R. rewrite E in E'. apply app_inv_head in E'. subst rest'.
      pose proof (proj1 (skip_none _ _ _ _) Q a' b' E1) as N. cbv beta in N. pose proof (K (lastof (lastof pv (tx h)) a') b') as Kb. rewrite N in Kb. eapply Kb; eauto. }
  unfold re_search. destruct (search_from r None l) as [[m g]|] eqn:S.
  - apply search_some in S as (a & b & E & Mt & F). pose proof (M (lastof None a) b) as Mb. rewrite Mt in Mb. destruct Mb as (rest & ts & -> & FA & ->).
    exists ts. split; [|destruct FA as (b & _ & R); eapply PK; eauto]. exists rest. split; auto. exists a. split; auto. split; [eauto|].
    intros a' b' E' L [c ->]. specialize (F a' _ E' L). pose proof (M (lastof None a') (chars h ++ c)) as Mb. rewrite F in Mb.
    destruct FA as (b & (pre & E1 & _) & R).
    (* the heading at [a'] is before the one at [a]; the row is after both *)
    assert (X : exists d, c = d ++ rest).
    { rewrite E in E'. assert (Y : exists z, a = a' ++ z /\ tx h ++ c = z ++ tx h ++ rest).
      { clear -E' L. revert a' E' L. induction a as [|x a IH]; intros a' E' L; [cbn in L; lia|]. destruct a' as [|y a'].
        - exists (x :: a). split; auto.
        - cbn in E', L. injection E' as <- E'. destruct (IH a' E' ltac:(lia)) as (z & -> & Z). exists z. auto. }
      destruct Y as (z & -> & Z). exists (skipn (List.length (tx h)) (z ++ tx h)).
      assert (Q : c = skipn (List.length (tx h)) (tx h ++ c)). { rewrite skipn_app, skipn_all, Nat.sub_diag. auto. }
      rewrite Q, Z, app_assoc, skipn_app. unfold chars in *. rewrite !app_length. replace (List.length (tx h) - (List.length z + List.length (tx h))) with 0 by lia. auto. }
    destruct X as [d ->]. apply (Mb _ eq_refl (d ++ pre) b ts); auto. rewrite E1, app_assoc. auto.
  - intros ts (rest & (a & E & _) & (b & (pre & E1 & _) & R)). pose proof (proj1 (search_none _ _ _) S a _ E) as N. pose proof (M (lastof None a) (chars h ++ rest)) as Mb.
    rewrite N in Mb. apply (Mb rest eq_refl pre b ts E1 R).
Qed.

(** ** numbers *)
Lemma digits_val_snoc : forall l c, digits_val (l ++ [c]) = (10 * digits_val l + (Z.of_nat (nat_of_ascii c) - 48))%Z.
Proof. intros. unfold digits_val. rewrite fold_left_app. reflexivity. Qed.
Lemma nat_value_iff : forall l v, nat_value l v <-> Forall (fun c => digit c = true) l /\ digits_val l = v.
Proof.
  intros l v. split.
  - intros H. induction H as [|l v c H [IH1 IH2] D]; [split; auto|]. split.
    + apply Forall_app. split; auto. constructor; auto. apply digit_iff. auto.
    + rewrite digits_val_snoc, IH2. reflexivity.
  - intros [F <-]. induction l as [|c l IH] using rev_ind; [constructor|]. rewrite digits_val_snoc. apply Forall_app in F as [F1 F2].
    apply V_digit; auto. inversion F2; subst. apply digit_iff. auto.
Qed.
Lemma sign_iff : forall l neg r, take_sign l = (neg, r) ->
  (exists sg, l = sg ++ r /\ sign sg (if neg then -1 else 1)).
Proof.
  intros [|c t] neg r H; cbn in H.
  - injection H as <- <-. exists []. split; auto. constructor.
  - destruct (Ascii.eqb_spec c "-") as [->|]; [injection H as <- <-; exists (chars "-"); split; auto; constructor|].
    destruct (Ascii.eqb_spec c "+") as [->|]; injection H as <- <-; [exists (chars "+")|exists []]; split; auto; constructor.
Qed.
Lemma take_sign_of : forall sg s r, sign sg s -> (forall c t, r = c :: t -> c <> "-"%char /\ c <> "+"%char) ->
  exists neg, take_sign (sg ++ r) = (neg, r) /\ s = (if neg then -1 else 1)%Z.
Proof.
  intros sg s r H N. inversion H; subst; cbn; [|eexists; auto..]. destruct r as [|c t]; [exists false; auto|]. destruct (N c t eq_refl) as [A B]. cbn.
  destruct (Ascii.eqb_spec c "-"); [congruence|]. destruct (Ascii.eqb_spec c "+"); [congruence|]. exists false. auto.
Qed.
Lemma signed_mul : forall (neg : bool) z, signed neg z = ((if neg then -1 else 1) * z)%Z.
Proof. intros [] z; cbn [signed]; lia. Qed.
Lemma digit_not : forall c, digit c = true -> c <> "-"%char /\ c <> "+"%char /\ c <> "."%char /\ c <> "E"%char.
Proof. intros c H. repeat split; intros ->; discriminate. Qed.
Lemma py_float_sound : forall t v, py_float t = inr v -> number_text t v.
Proof.
  intros t v. unfold py_float. destruct (take_sign t) as [neg l1] eqn:S0. destruct (span digit l1) as [ip l2] eqn:S1.
  apply sign_iff in S0 as (sg & -> & SG). pose proof (span_all _ _ _ _ S1) as D1. apply span_app in S1 as ->.
  set (sc := fun (fp : text) e => (IZR (signed neg (digits_val (ip ++ fp))) * powerRZ 10 (e - Z.of_nat (List.length fp)))%R).
  assert (G : forall (pt : bool) fp l3, (fp <> [] -> pt = true) -> Forall (fun c => digit c = true) fp -> l2 = (if pt then chars "." else []) ++ fp ++ l3 ->
     match ip ++ fp with
     | [] => inl ValueError
     | _ => match l3 with
            | [] => inr (sc fp 0%Z)
            | c :: t => if Ascii.eqb c "E" then
                let (eneg, t1) := take_sign t in let (ed, t2) := span digit t1 in
                match ed, t2 with _ :: _, [] => inr (sc fp (signed eneg (digits_val ed))) | _, _ => inl ValueError end
              else inl ValueError
            end
     end = inr v -> number_text (sg ++ ip ++ l2) v).
  { intros pt fp l3 PT D2 -> H.
    assert (NV : nat_value (ip ++ fp) (digits_val (ip ++ fp))). { apply nat_value_iff. split; auto. apply Forall_app; auto. }
    assert (NE : ip ++ fp <> []) by (intros E; rewrite E in H; discriminate).
    assert (Q : match l3 with
            | [] => inr (sc fp 0%Z)
            | c :: t => if Ascii.eqb c "E" then
                let (eneg, t1) := take_sign t in let (ed, t2) := span digit t1 in
                match ed, t2 with _ :: _, [] => inr (sc fp (signed eneg (digits_val ed))) | _, _ => inl ValueError end
              else inl ValueError
            end = inr v :> py R). { destruct (ip ++ fp); [congruence|auto]. }
    clear H. unfold sc in Q. rewrite signed_mul in Q. destruct l3 as [|c t].
    - injection Q as <-. eapply (N_text sg _ ip fp _ [] 0); eauto. constructor.
    - destruct (Ascii.eqb_spec c "E") as [->|]; [|discriminate]. destruct (take_sign t) as [eneg t1] eqn:S3. destruct (span digit t1) as [ed t2] eqn:S4.
      destruct ed as [|e0 ed]; [discriminate|]. destruct t2; [|discriminate]. injection Q as <-.
      apply sign_iff in S3 as (sg2 & -> & SG2). pose proof (span_all _ _ _ _ S4) as D4. apply span_app in S4 as ->. rewrite app_nil_r, signed_mul.
      eapply (N_text sg _ ip fp _ (chars "E" ++ sg2 ++ e0 :: ed)); eauto. constructor; auto; [discriminate|]. apply nat_value_iff. auto. }
  destruct l2 as [|c t].
  - intros H. apply (G false [] []); auto; congruence.
  - destruct (Ascii.eqb_spec c ".") as [->|N].
    + destruct (span digit t) as [fp l3] eqn:S2. intros H. apply (G true fp l3); auto; [apply (span_all _ _ _ _ S2)|]. apply span_app in S2 as ->. auto.
    + intros H. apply (G false [] (c :: t)); auto; congruence.
Qed.
Lemma py_float_complete : forall t v, number_text t v -> py_float t = inr v.
Proof.
  intros t v H. destruct H as [sg s ip fp m ex e pt SG NE NV PT EX].
  apply nat_value_iff in NV as [D <-]. apply Forall_app in D as [D1 D2].
  destruct (take_sign_of sg s (ip ++ (if pt then chars "." else []) ++ fp ++ ex) SG) as (neg & TS & ->).
  { intros c t E. destruct ip as [|i ip].
    - cbn in E. destruct pt; [cbn in E; injection E as <- _; split; discriminate|]. destruct fp as [|f fp]; [destruct NE; reflexivity|]. exfalso. assert (false = true) by (apply PT; discriminate). discriminate.
    - cbn in E. injection E as <- _. inversion D1; subst. split; apply digit_not; auto. }
  unfold py_float. rewrite TS.
  assert (EXS : match ex with c :: _ => c = "E"%char | [] => True end). { destruct EX; cbn; auto. }
  rewrite (span_intro digit ip ((if pt then chars "." else []) ++ fp ++ ex)); auto.
  2:{ destruct pt; [reflexivity|]. destruct fp; [|exfalso; assert (false = true) by (apply PT; discriminate); discriminate]. cbn. destruct ex; auto; subst; auto. }
  assert (Q : match (if pt then chars "." else []) ++ fp ++ ex with
       | c :: t => if Ascii.eqb c "." then span digit t else ([], (if pt then chars "." else []) ++ fp ++ ex)
       | [] => ([], (if pt then chars "." else []) ++ fp ++ ex) end = (fp, ex)).
  { destruct pt.
    - cbn [chars list_ascii_of_string app]. rewrite Ascii.eqb_refl. apply span_intro; auto. destruct ex; auto. subst. auto.
    - destruct fp; [|exfalso; assert (false = true) by (apply PT; discriminate); discriminate]. cbn. destruct ex as [|c ex]; auto. subst. auto. }
  match goal with |- (let (_, _) := ?z in _) = _ => change z with (match (if pt then chars "." else []) ++ fp ++ ex with
       | c :: t => if Ascii.eqb c "." then span digit t else ([], (if pt then chars "." else []) ++ fp ++ ex)
       | [] => ([], (if pt then chars "." else []) ++ fp ++ ex) end) end.
  rewrite Q. destruct (ip ++ fp) as [|x y] eqn:IF; [congruence|]. rewrite <- IF, <- signed_mul. destruct EX as [|sg2 s2 ds w SG2 DN NV2]; [reflexivity|].
  cbn [chars list_ascii_of_string app]. rewrite Ascii.eqb_refl. apply nat_value_iff in NV2 as [D3 <-].
  destruct (take_sign_of sg2 s2 ds SG2) as (neg2 & TS2 & ->). { intros c t ->. inversion D3; subst. split; apply digit_not; auto. }
  rewrite TS2. rewrite <- (app_nil_r ds) at 1. rewrite (span_intro digit ds []) by auto. destruct ds as [|d0 ds]; [congruence|]. rewrite <- signed_mul. reflexivity.
Qed.
Lemma py_float_error : forall t e, py_float t = inl e -> e = ValueError.
Proof.
  intros t e. unfold py_float. destruct (take_sign t) as [neg l1]. destruct (span digit l1) as [ip l2].
  destruct (match l2 with c :: t0 => if Ascii.eqb c "." then span digit t0 else ([], l2) | [] => ([], l2) end) as [fp l3].
  destruct (ip ++ fp); [congruence|]. destruct l3 as [|c t0]; [discriminate|]. destruct (Ascii.eqb c "E"); [|congruence].
  destruct (take_sign t0) as [en t1]. destruct (span digit t1) as [ed t2]. destruct ed; [congruence|]. destruct t2; congruence.
Qed.
Lemma floats_iff : forall ts, match floats ts with
  | inr xs => Forall2 number_text ts xs
  | inl e => e = ValueError /\ exists t, In t ts /\ forall v, ~ number_text t v
  end.
Proof.
  induction ts as [|t ts IH]; cbn; [constructor|]. destruct (py_float t) as [e|x] eqn:P.
  - split; [eapply py_float_error; eauto|]. exists t. split; auto. intros v H. apply py_float_complete in H. congruence.
  - destruct (floats ts) as [e|xs].
    + destruct IH as [-> (t' & I & N)]. split; auto. exists t'. auto.
    + constructor; auto. apply py_float_sound. auto.
Qed.
Lemma number_unique : forall t v w, number_text t v -> number_text t w -> v = w.
Proof. intros t v w H K. apply py_float_complete in H, K. congruence. Qed.
Lemma numbers_unique : forall ts xs ys, Forall2 number_text ts xs -> Forall2 number_text ts ys -> xs = ys.
Proof.
  intros ts xs ys H. revert ys. induction H; intros ys K; inversion K; subst; auto. f_equal; auto. eapply number_unique; eauto.
Qed.
(** what [get_floats] returns *)
Lemma get_floats_iff : forall r (S : text -> list text -> Prop) idx count, recognised r S idx count -> (forall l ts ts', S l ts -> S l ts' -> ts = ts') -> forall l,
  match get_floats l r count with
  | inr (Some xs) => given S idx l xs
  | inr None => missing S l
  | inl e => e = ValueError /\ not_a_number S idx l
  end.
Proof.
  intros r S idx count R U l. unfold get_floats. specialize (R l). destruct (re_search r l) as [[m g]|]; auto.
  destruct R as (ts & H & E). pose proof (floats_iff (map (fun i => group i g) (seq 1 count))) as F. destruct (floats _) as [e|xs].
  - destruct F as [-> (t & I & N)]. split; auto. rewrite E in I. apply in_map_iff in I as (i & <- & I). exists ts, i. auto.
  - exists ts. rewrite E in F. auto.
Qed.
Lemma given_unique : forall (S : text -> list text -> Prop) idx, (forall l ts ts', S l ts -> S l ts' -> ts = ts') -> forall l xs ys, given S idx l xs -> given S idx l ys -> xs = ys.
Proof. intros S idx U l xs ys (ts & A & F) (ts' & B & G). rewrite (U _ _ _ B A) in G. eapply numbers_unique; eauto. Qed.
Lemma given_not_missing : forall (S : text -> list text -> Prop) idx l xs, given S idx l xs -> missing S l -> False.
Proof. intros S idx l xs (ts & A & F) M. eapply M; eauto. Qed.
Lemma given_not_error : forall (S : text -> list text -> Prop) idx, (forall l ts ts', S l ts -> S l ts' -> ts = ts') -> forall l xs, given S idx l xs -> not_a_number S idx l -> False.
Proof.
  intros S idx U l xs (ts & A & F) (ts' & i & B & I & N). rewrite (U _ _ _ B A) in N.
  clear -F I N. remember (map (fun i => nth i ts []) idx) as z. revert idx I Heqz. induction F as [|x y zs ys H F IH]; intros idx I E; destruct idx as [|j idx]; cbn in E; try discriminate; [destruct I|].
  injection E as -> ->. destruct I as [->|I]; [eapply N; eauto|eapply IH; eauto].
Qed.
