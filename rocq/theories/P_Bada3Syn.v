(** * Property C126: the synonym file and the choice of the OPF file (openap/addon/bada3.py)

    The layout of the file is specified without regular expressions. *)
From Coq Require Import String Ascii List Bool Arith ZArith Reals Lia Lra.
From Verif Require Import Str Py Regex Bada3 Bada3Text RegexFacts SpecText Bada3TextFacts P_Bada3Text.
Import ListNotations.
Open Scope list_scope.
Open Scope nat_scope.

(** ** specification *)
Definition blanks (n : nat) (b : list ascii) : Prop := n <= List.length b /\ List.Forall blank b.
Definition word (w : list ascii) : Prop := w <> [] /\ List.Forall (fun c => ~ blank c) w.
Definition trimmed (x : list ascii) : Prop := (forall c t, x = c :: t -> ~ blank c) /\ (forall p c, x = p ++ [c] -> ~ blank c).
(** words with single blanks between them *)
Definition phrase (x : list ascii) : Prop := x <> [] /\ trimmed x /\ forall p c d q, x = p ++ c :: d :: q -> ~ (blank c /\ blank d).
(** an entry: CD, a mark, the code, manufacturer, model, synonym; the columns are set apart by two blanks or more where names may contain blanks *)
Definition columns (line code mf md sy b3 b4 b5 b6 tail : list ascii) : Prop :=
  exists b1 f b2 e,
    line = chars "CD" ++ b1 ++ [f] ++ b2 ++ code ++ b3 ++ mf ++ b4 ++ md ++ b5 ++ sy ++ b6 ++ tail ++ chars "/" ++ e /\
    blanks 1 b1 /\ ~ blank f /\ blanks 1 b2 /\ word code /\ blanks 1 b3 /\ mf <> [] /\ trimmed mf /\ ~ In newline mf /\ blanks 2 b4 /\
    md <> [] /\ ~ In newline md /\ blanks 2 b5 /\ word sy /\ blanks 1 b6 /\ ~ In newline tail /\ (e = [] \/ e = [newline]).
(** the line can be read as such an entry *)
Definition entry_line (line code mf md sy : list ascii) : Prop := exists b3 b4 b5 b6 tail, columns line code mf md sy b3 b4 b5 b6 tail.
(** the line is such an entry without doubt: names have single blanks only, and the manufacturer at least two characters *)
Definition clear_line (line code mf md sy : list ascii) : Prop :=
  exists b3 b4 b5 b6 tail, columns line code mf md sy b3 b4 b5 b6 tail /\ phrase mf /\ 2 <= List.length mf /\ phrase md /\ (forall c t, tail = c :: t -> ~ blank c).
(** letters compared without regard to case *)
Definition same_code (a b : list ascii) : Prop := Forall2 same_letter a b.

(** ** the engine on an entry *)
Lemma greedy_first : forall A p l a b min pv (k : option ascii -> text -> option A) r, span p l = (a, b) -> min <= List.length a ->
  k (lastof pv a) b = Some r -> greedy p min pv l k = Some r.
Proof.
  intros A p l. induction l as [|c t IH]; intros a b min pv k r S L K; cbn in S.
  - injection S as <- <-. cbn in *. assert (min = 0) as -> by lia. auto.
  - cbn. destruct (p c).
    + destruct (span p t) as [x y]. injection S as <- <-. rewrite (IH x y (pred min) (Some c) k r eq_refl); [auto| |auto]. cbn in L. lia.
    + injection S as <- <-. cbn in *. assert (min = 0) as -> by lia. auto.
Qed.
Lemma greedy_short : forall A p l a b min pv (k : option ascii -> text -> option A), span p l = (a, b) -> List.length a < min -> greedy p min pv l k = None.
Proof.
  intros A p l. induction l as [|c t IH]; intros a b min pv k S L; cbn in S.
  - injection S as <- <-. destruct min; [cbn in L; lia|auto].
  - cbn. destruct (p c).
    + destruct (span p t) as [x y]. injection S as <- <-. cbn in L. rewrite (IH x y (pred min) (Some c) k eq_refl) by lia. destruct min; [lia|auto].
    + injection S as <- <-. destruct min; [cbn in L; lia|auto].
Qed.
Lemma reluctant_first : forall A p a b min pv (k : option ascii -> text -> option A) r, List.Forall (fun c => p c = true) a -> min <= List.length a ->
  k (lastof pv a) b = Some r ->
  (forall a1 a2, a = a1 ++ a2 -> a2 <> [] -> min <= List.length a1 -> k (lastof pv a1) (a2 ++ b) = None) ->
  reluctant p min pv (a ++ b) k = Some r.
Proof.
  intros A p a. induction a as [|c a IH]; intros b min pv k r F L K N.
  - cbn in *. assert (min = 0) as -> by lia. destruct b; cbn; cbn in K; rewrite K; auto.
  - inversion F; subst. cbn [app reluctant].
    assert (X : (if min =? 0 then k pv (c :: a ++ b) else None) = None). { destruct (Nat.eqb_spec min 0) as [->|]; auto. apply (N [] (c :: a)); auto; discriminate. }
    rewrite X, H1. apply IH; auto; [cbn in L; lia|]. intros a1 a2 -> NE L1. apply (N (c :: a1) a2); auto. cbn. lia.
Qed.
Lemma firstn_len : forall (a b : text), firstn (List.length (a ++ b) - List.length b) (a ++ b) = a.
Proof. intros. rewrite app_length. replace (List.length a + List.length b - List.length b) with (List.length a) by lia. rewrite firstn_app, firstn_all, Nat.sub_diag. cbn. apply app_nil_r. Qed.

(** a successful end with the given groups *)
Definition P (G : list (nat * text)) (x : option pos) : Prop := exists r, x = Some r /\ p_groups r = G.
Definition not_start (Q : ascii -> Prop) (b : text) : Prop := forall c t, b = c :: t -> ~ Q c.
Lemma blanks_span : forall n a b, blanks n a -> not_start blank b -> span is_space (a ++ b) = (a, b).
Proof.
  intros n a b [_ F] N. apply span_intro.
  - eapply Forall_impl; [|exact F]. intros c. apply blank_iff.
  - destruct b as [|c b]; auto. destruct (is_space c) eqn:E; auto. apply blank_iff in E. destruct (N c b eq_refl E).
Qed.
Lemma nonspace_iff : forall c, nonspace c = true <-> ~ blank c.
Proof. intros c. apply (cls_iff Word). Qed.
Lemma word_span : forall a b, word a -> (forall c t, b = c :: t -> blank c) -> span nonspace (a ++ b) = (a, b).
Proof.
  intros a b [_ F] N. apply span_intro.
  - eapply Forall_impl; [|exact F]. intros c. apply nonspace_iff.
  - destruct b as [|c b]; auto. specialize (N c b eq_refl). apply blank_iff in N. unfold nonspace. rewrite N. auto.
Qed.
Lemma step_blanks : forall n m a b pv g k G, blanks m a -> n <= m -> not_start blank b ->
  P G (k (mkPos (lastof pv a) b g)) -> P G (run (Rep false n is_space) (mkPos pv (a ++ b) g) k).
Proof.
  intros n m a b pv g k G B L N (r & E & EG). exists r. split; auto. cbn [run p_prev p_rest p_groups].
  apply (greedy_first _ _ _ a b); auto; [eapply blanks_span; eauto|]. destruct B. lia.
Qed.
Lemma step_word : forall n a b pv g k G, word a -> (forall c t, b = c :: t -> blank c) ->
  P G (k (mkPos (lastof pv a) b ((n, a) :: g))) -> P G (run (Grp n word1) (mkPos pv (a ++ b) g) k).
Proof.
  intros n a b pv g k G W N (r & E & EG). exists r. split; auto. cbn [run word1 p_prev p_rest p_groups].
  apply (greedy_first _ _ _ a b); auto; [apply word_span; auto|destruct W as [W _]; destruct a; [congruence|cbn; lia]|]. cbn [p_prev p_rest p_groups]. rewrite firstn_len. auto.
Qed.
Lemma step_one : forall f t pv g k G, ~ blank f -> P G (k (mkPos (Some f) t g)) -> P G (run (One nonspace) (mkPos pv ([f] ++ t) g) k).
Proof. intros f t pv g k G N K. cbn. rewrite (proj2 (nonspace_iff f) N). auto. Qed.
Lemma no_gap : forall x p y b, phrase x -> x = p ++ y -> y <> [] -> forall b', span is_space (y ++ b) = b' -> List.length (fst b') < 2.
Proof.
  intros x p y b (NE & [_ TL] & ND) E NY b' <-. destruct y as [|c [|d y]]; [congruence| |].
  - cbn. destruct (is_space c) eqn:S; [|cbn; lia]. apply blank_iff in S. destruct (TL p c E S).
  - cbn. destruct (is_space c) eqn:S; [|cbn; lia]. destruct (is_space d) eqn:S2; [|cbn; lia]. apply blank_iff in S, S2. destruct (ND p c d y E (conj S S2)).
Qed.
Lemma step_mf : forall mf b rest pv g k G, phrase mf -> 2 <= List.length mf -> ~ In newline mf ->
  (forall pv', P G (run (Rep false 2 is_space) (mkPos pv' (b ++ rest) ((2, mf) :: g)) k)) ->
  P G (run (Grp 2 (One nonspace ;; Opt (Rep true 0 dot ;; One nonspace))) (mkPos pv (mf ++ b ++ rest) g) (fun s' => run (Rep false 2 is_space) s' k)).
Proof.
  intros mf b rest pv g k0 G PM LM NM K0.
  destruct mf as [|c mf]; [cbn in LM; lia|]. destruct mf as [|d x _] using rev_ind; [cbn in LM; lia|].
  pose proof PM as PM0. destruct PM as (_ & [T1 T2] & _).
  cbn [run p_rest app p_prev p_groups]. rewrite (proj2 (nonspace_iff c) (T1 c _ eq_refl)). cbn [p_rest app p_prev p_groups].
  match goal with |- P G (match reluctant dot 0 ?pv ?l ?K with Some y => _ | None => _ end) => set (k := K); set (pv0 := pv) end.
  assert (K1 : P G (k (lastof pv0 x) (d :: b ++ rest))).
  { unfold k. cbn [p_rest app p_prev p_groups]. rewrite (proj2 (nonspace_iff d) (T2 (c :: x) d eq_refl)). cbn [p_rest p_prev p_groups].
    rewrite <- (app_assoc x [d]).
    replace (c :: x ++ [d] ++ b ++ rest) with ((c :: x ++ [d]) ++ b ++ rest) by (cbn; rewrite <- app_assoc; auto).
    rewrite firstn_len. apply (K0 (Some d)). }
  destruct K1 as (r & K1 & EG). exists r. split; auto. rewrite <- app_assoc. cbn [app].
  rewrite (reluctant_first _ dot x (d :: b ++ rest) 0 pv0 k r); auto; [|lia|].
  - apply Forall_forall. intros z I. apply dot_iff. intros ->. apply NM. right. apply in_or_app. auto.
  - intros a1 a2 -> NE _. unfold k. destruct a2 as [|z a2]; [congruence|]. cbn [app p_rest p_prev p_groups]. destruct (nonspace z); auto.
    cbn [p_rest p_prev p_groups].
    assert (S : exists u w, span is_space (a2 ++ d :: b ++ rest) = (u, w) /\ List.length u < 2).
    { destruct (span is_space (a2 ++ d :: b ++ rest)) as [u w] eqn:S. exists u, w. split; auto.
      apply (no_gap (c :: (a1 ++ z :: a2) ++ [d]) (c :: a1 ++ [z]) (a2 ++ [d]) (b ++ rest) PM0) with (b' := (u, w)).
      - cbn. rewrite <- !app_assoc. auto.
      - destruct a2; discriminate.
      - rewrite <- app_assoc. auto. }
    destruct S as (u & w & S & L). apply (greedy_short _ _ _ u w); auto.
Qed.
Lemma step_md : forall md b rest pv g k G, phrase md -> ~ In newline md ->
  (forall pv', P G (run (Rep false 2 is_space) (mkPos pv' (b ++ rest) ((3, md) :: g)) k)) ->
  P G (run (Grp 3 (Rep true 1 dot)) (mkPos pv (md ++ b ++ rest) g) (fun s' => run (Rep false 2 is_space) s' k)).
Proof.
  intros md b rest pv g k0 G PD NM K0. cbn [run p_rest app p_prev p_groups].
  match goal with |- P G (reluctant dot 1 ?pv ?l ?K) => set (k := K); set (pv0 := pv) end.
  assert (K1 : P G (k (lastof pv0 md) (b ++ rest))).
  { unfold k. cbn [p_rest app p_prev p_groups]. rewrite firstn_len. apply (K0 (lastof pv0 md)). }
  destruct K1 as (r & K1 & EG). exists r. split; auto.
  apply reluctant_first; auto.
  - apply Forall_forall. intros z I. apply dot_iff. intros ->. auto.
  - destruct PD as (NE & _). destruct md; [congruence|cbn; lia].
  - intros a1 a2 E NE _. unfold k. cbn [p_rest p_prev p_groups].
    destruct (span is_space (a2 ++ b ++ rest)) as [u w] eqn:S.
    apply (greedy_short _ _ _ u w); auto. apply (no_gap md a1 a2 (b ++ rest) PD E NE (u, w) S).
Qed.
Lemma step_end : forall tail e pv g, ~ In newline tail -> (e = [] \/ e = [newline]) ->
  P g (run (Rep true 0 dot ;; One (Ascii.eqb "/") ;; Eol false) (mkPos pv (tail ++ chars "/" ++ e) g) Some).
Proof.
  intros tail e pv g N E.
  destruct (run (Rep true 0 dot ;; One (Ascii.eqb "/") ;; Eol false) (mkPos pv (tail ++ chars "/" ++ e) g) Some) as [r|] eqn:R.
  - exists r. split; auto. apply run_sound in R as (s & M & R). injection R as ->.
    inversion M as [| | |a1 a2 s1 s2 s3 M1 M2| | | | | | | |]; subst. inversion M1; subst. inversion M2 as [| | |a3 a4 s4 s5 s6 M3 M4| | | | | | | |]; subst.
    inversion M3; subst. inversion M4; subst; auto.
  - exfalso. revert R. apply run_complete with (s' := mkPos (Some "/"%char) e g); [|discriminate].
    econstructor; [apply (M_rep true 0 dot pv tail); [lia|]|].
    { apply Forall_forall. intros z I. apply dot_iff. intros ->. auto. }
    econstructor; [apply M_one; apply Ascii.eqb_refl|]. destruct E as [->| ->]; constructor.
Qed.
Lemma clear_run : forall line code mf md sy, clear_line line code mf md sy ->
  P [(4, sy); (3, md); (2, mf); (1, code)] (run synonym_re (mkPos None line []) Some).
Proof.
  intros line code mf md sy (b3 & b4 & b5 & b6 & tail & (b1 & f & b2 & e & -> & B1 & NF & B2 & WC & B3 & N2 & TM & NM & B4 & ND & NN & B5 & WS & B6 & NT & EE) & PM & LM & PD & TT).
  set (G := [(4, sy); (3, md); (2, mf); (1, code)]).
  assert (BS : forall n b t, blanks (S n) b -> forall c u, b ++ t = c :: u -> blank c).
  { intros n b t [L F] c u E. destruct b as [|x b]; [cbn in L; lia|]. cbn in E. injection E as <- _. inversion F; auto. }
  assert (WN : forall w t, word w -> not_start blank (w ++ t)).
  { intros w t [NE F] c u E. destruct w as [|x w]; [congruence|]. cbn in E. injection E as <- _. inversion F; auto. }
  assert (PN : forall x t, x <> [] -> trimmed x -> not_start blank (x ++ t)).
  { intros x t NE [H _] c u E. destruct x as [|y x]; [congruence|]. cbn in E. injection E as <- _. apply (H y x). auto. }
  change (P G (run (sp1 ;; One nonspace ;; sp1 ;; Grp 1 word1 ;; sp1 ;;
    Grp 2 (One nonspace ;; Opt (Rep true 0 dot ;; One nonspace)) ;; Rep false 2 is_space ;; Grp 3 (Rep true 1 dot) ;; Rep false 2 is_space ;;
    Grp 4 word1 ;; sp1 ;; Rep true 0 dot ;; One (Ascii.eqb "/") ;; Eol false)
    (mkPos (Some "D"%char) (b1 ++ [f] ++ b2 ++ code ++ b3 ++ mf ++ b4 ++ md ++ b5 ++ sy ++ b6 ++ tail ++ chars "/" ++ e) []) Some)).
  Ltac sq := cbv beta; match goal with |- P ?G (run (Seq ?a ?b) ?s ?k) => change (P G (run a s (fun s' => run b s' k))) end.
  sq. apply (step_blanks 1 1); auto. { intros c u E. injection E as <- _. auto. }
  sq. apply step_one; auto.
  sq. apply (step_blanks 1 1); auto.
  sq. apply step_word; [auto|apply (BS 0); auto|].
  sq. apply (step_blanks 1 1); auto.
  sq. match goal with |- P ?G (run ?a ?s (fun s' => run (Seq ?b ?c) s' Some)) => change (P G (run a s (fun s' => run b s' (fun s'' => run c s'' Some)))) end.
  apply step_mf; auto. intros pv2. apply (step_blanks 2 2); auto. { apply PN; auto. apply PD. }
  sq. match goal with |- P ?G (run ?a ?s (fun s' => run (Seq ?b ?c) s' Some)) => change (P G (run a s (fun s' => run b s' (fun s'' => run c s'' Some)))) end.
  apply step_md; auto. intros pv3. apply (step_blanks 2 2); auto.
  sq. apply step_word; [auto|apply (BS 0); auto|].
  sq. apply (step_blanks 1 1); auto.
  { intros c t E. destruct tail as [|y tail]; cbn in E; injection E as <- _; [|apply (TT y tail); auto]. rewrite <- nonspace_iff. reflexivity. }
  apply step_end; auto.
Qed.
(** ** what the engine accepts *)
Lemma forall_dot : forall x, List.Forall (fun c => dot c = true) x <-> ~ In newline x.
Proof.
  intros x. rewrite Forall_forall. split.
  - intros H I. specialize (H _ I). apply dot_iff in H. auto.
  - intros H c I. apply dot_iff. intros ->. auto.
Qed.
Lemma forall_blank : forall x, List.Forall (fun c => is_space c = true) x <-> List.Forall blank x.
Proof. intros x. rewrite !Forall_forall. split; intros H c I; apply blank_iff; auto. Qed.
Lemma forall_word : forall x, List.Forall (fun c => nonspace c = true) x <-> List.Forall (fun c => ~ blank c) x.
Proof. intros x. rewrite !Forall_forall. split; intros H c I; apply nonspace_iff; auto. Qed.
Lemma blanks_iff : forall n x, blanks n x <-> n <= List.length x /\ List.Forall (fun c => is_space c = true) x.
Proof. intros. unfold blanks. rewrite forall_blank. tauto. Qed.
Lemma word_iff : forall x, word x <-> 1 <= List.length x /\ List.Forall (fun c => nonspace c = true) x.
Proof. intros. unfold word. rewrite forall_word. destruct x; cbn; split; intros [A B]; split; auto; try lia; try congruence; discriminate. Qed.
(** the manufacturer column: a text that starts and ends with a character other than a blank *)
Lemma mf_iff : forall x, (x <> [] /\ trimmed x /\ ~ In newline x) <->
  (exists c, x = [c] /\ nonspace c = true) \/ (exists c y d, x = c :: y ++ [d] /\ nonspace c = true /\ List.Forall (fun c => dot c = true) y /\ nonspace d = true).
Proof.
  intros x. split.
  - intros (NE & [T1 T2] & N). destruct x as [|c x]; [congruence|]. destruct x as [|d y _] using rev_ind.
    + left. exists c. split; auto. apply nonspace_iff. apply (T1 c []). auto.
    + right. exists c, y, d. split; auto. split; [apply nonspace_iff; apply (T1 c (y ++ [d])); auto|]. split.
      * apply forall_dot. intros I. apply N. right. apply in_or_app. auto.
      * apply nonspace_iff. apply (T2 (c :: y) d). auto.
  - assert (NB : blank newline) by (left; cbn; lia).
    intros [(c & -> & H)|(c & y & d & -> & H & F & H2)]; rewrite nonspace_iff in *.
    + split; [discriminate|]. split.
      * split; intros.
        -- injection H0 as <- _. auto.
        -- destruct p as [|? [|]]; try discriminate. injection H0 as <-. auto.
      * intros [->|[]]. auto.
    + split; [discriminate|]. split.
      * split; intros.
        -- injection H0 as <- _. auto.
        -- change (c :: y ++ [d]) with ((c :: y) ++ [d]) in H0. apply app_inj_tail in H0 as [_ <-]. auto.
      * apply forall_dot in F. intros [->|I]; auto. apply in_app_or in I as [I|[->|[]]]; auto.
Qed.
Lemma inv_rep : forall lz n p s s', matches (Rep lz n p) s s' ->
  exists a, p_rest s = a ++ p_rest s' /\ n <= List.length a /\ List.Forall (fun c => p c = true) a /\ p_groups s' = p_groups s.
Proof. intros lz n p s s' M. inversion M; subst. exists a. cbn. auto. Qed.
Lemma inv_one : forall p s s', matches (One p) s s' -> exists c, p_rest s = [c] ++ p_rest s' /\ p c = true /\ p_groups s' = p_groups s.
Proof. intros p s s' M. inversion M; subst. exists c. cbn. auto. Qed.
Lemma inv_grp : forall n r s s', matches (Grp n r) s s' ->
  exists s1, matches r s s1 /\ p_rest s' = p_rest s1 /\ p_prev s' = p_prev s1 /\ forall a, p_rest s = a ++ p_rest s1 -> p_groups s' = (n, a) :: p_groups s1.
Proof. intros n r s s' M. inversion M; subst. exists s'0. cbn. repeat split; auto. intros a E. rewrite E, firstn_len. auto. Qed.
Lemma inv_grp_rep : forall m lz n p s s', matches (Grp m (Rep lz n p)) s s' ->
  exists a, p_rest s = a ++ p_rest s' /\ n <= List.length a /\ List.Forall (fun c => p c = true) a /\ p_groups s' = (m, a) :: p_groups s.
Proof.
  intros m lz n p s s' M. apply inv_grp in M as (s1 & M & E & _ & G). apply inv_rep in M as (a & R & L & F & Q).
  exists a. rewrite E. repeat split; auto. rewrite (G a R), Q. auto.
Qed.
Lemma inv_mf : forall s s', matches (Grp 2 (One nonspace ;; Opt (Rep true 0 dot ;; One nonspace))) s s' ->
  exists a, p_rest s = a ++ p_rest s' /\ (a <> [] /\ trimmed a /\ ~ In newline a) /\ p_groups s' = (2, a) :: p_groups s.
Proof.
  intros s s' M. apply inv_grp in M as (s1 & M & E & _ & G). inversion M; subst; clear M. apply inv_one in H1 as (c & R1 & N1 & G1). rewrite E.
  match goal with H : matches (Opt _) _ _ |- _ => inversion H; subst; clear H end.
  - match goal with H : matches (Seq _ _) _ _ |- _ => inversion H; subst; clear H end.
    match goal with H : matches (Rep _ _ _) _ _ |- _ => apply inv_rep in H as (y & R2 & _ & F & G2) end.
    match goal with H : matches (One _) _ _ |- _ => apply inv_one in H as (d & R3 & N3 & G3) end.
    exists (c :: y ++ [d]). split; [rewrite R1, R2, R3; cbn; rewrite <- app_assoc; auto|]. split; [apply mf_iff; right; eauto 8|].
    rewrite (G (c :: y ++ [d])); [congruence|]. rewrite R1, R2, R3; cbn; rewrite <- app_assoc; auto.
  - exists [c]. split; auto. split; [apply mf_iff; left; eauto|]. rewrite (G [c]); auto. congruence.
Qed.
Lemma accept_sound : forall line s, run synonym_re (mkPos None line []) Some = Some s ->
  exists code mf md sy, p_groups s = [(4, sy); (3, md); (2, mf); (1, code)] /\ entry_line line code mf md sy.
Proof.
  intros line s R. apply run_sound in R as (s' & M & E). injection E as ->. unfold synonym_re, lit, sp1, word1 in M. cbn [tx list_ascii_of_string lit_of] in M.
  repeat match goal with H : matches (Seq _ _) _ _ |- _ => inversion H; subst; clear H end.
  repeat match goal with
  | H : matches Eps _ _ |- _ => inversion H; subst; clear H
  | H : matches (Grp 2 (Seq _ _)) _ _ |- _ => apply inv_mf in H as (? & ? & ? & ?)
  | H : matches (Grp _ (Rep _ _ _)) _ _ |- _ => apply inv_grp_rep in H as (? & ? & ? & ? & ?)
  | H : matches (One _) _ _ |- _ => apply inv_one in H as (? & ? & ? & ?)
  | H : matches (Rep _ _ _) _ _ |- _ => apply inv_rep in H as (? & ? & ? & ? & ?)
  | H : matches (Bol _) _ _ |- _ => inversion H; subst; clear H
  end.
  cbn [p_rest p_groups] in *.
  repeat match goal with H : (_ =? _)%char = true |- _ => apply Ascii.eqb_eq in H; subst end.
  assert (GS : p_groups s = p_groups s'13 /\ (p_rest s'13 = [] \/ p_rest s'13 = [newline])).
  { match goal with H : matches (Eol false) _ _ |- _ => inversion H; subst; auto end. }
  destruct GS as [GS EE]. exists x2, x, x1, x0.
  split; [rewrite GS, H32, H37, H40, H20, H43, H23, H46, H8, H49, H26, H52, H34, H55, H28, H30; reflexivity|].
  exists x11, x10, x9, x8, x7, x13, x6, x12, (p_rest s'13).
  split; [rewrite H2, H3, H4, H5, H6, H7, H, H9, H10, H11, H12, H13, H14, H15; reflexivity|].
  rewrite !blanks_iff, !word_iff, <- !nonspace_iff, <- !forall_dot in *.
  repeat apply conj; auto; try apply H0. destruct x1; [cbn in H21; lia|discriminate].
Qed.
Lemma accept_complete : forall line code mf md sy, entry_line line code mf md sy -> run synonym_re (mkPos None line []) Some <> None.
Proof.
  intros line code mf md sy (b3 & b4 & b5 & b6 & tail & b1 & f & b2 & e & -> & B1 & NF & B2 & WC & B3 & N2 & TM & NM & B4 & ND & NN & B5 & WS & B6 & NT & EE).
  rewrite blanks_iff in *. rewrite word_iff in *. rewrite <- nonspace_iff in NF. rewrite <- forall_dot in NN, NT.
  assert (MF : forall pv g r, exists pv', matches (One nonspace ;; Opt (Rep true 0 dot ;; One nonspace)) (mkPos pv (mf ++ r) g) (mkPos pv' r g)).
  { intros pv g r. destruct (proj1 (mf_iff mf) (conj N2 (conj TM NM))) as [(c & -> & H)|(c & y & d & -> & H & F & H2)]; eexists.
    - econstructor; [apply M_one; exact H|apply M_skip].
    - replace ((c :: y ++ [d]) ++ r) with (c :: y ++ d :: r) by (cbn; rewrite <- app_assoc; auto).
      econstructor; [apply M_one; exact H|]. apply M_opt. econstructor; [apply M_rep; [lia|exact F]|]. apply M_one. exact H2. }
  assert (X : forall n r s s' (k : pos -> option pos), matches r s s' ->
     k (mkPos (p_prev s') (p_rest s') ((n, firstn (List.length (p_rest s) - List.length (p_rest s')) (p_rest s)) :: p_groups s')) <> None -> run (Grp n r) s k <> None).
  { intros n r s s' k M K. apply run_complete with (1 := M_grp n r s s' M). auto. }
  change (run (sp1 ;; One nonspace ;; sp1 ;; Grp 1 word1 ;; sp1 ;;
    Grp 2 (One nonspace ;; Opt (Rep true 0 dot ;; One nonspace)) ;; Rep false 2 is_space ;; Grp 3 (Rep true 1 dot) ;; Rep false 2 is_space ;;
    Grp 4 word1 ;; sp1 ;; Rep true 0 dot ;; One (Ascii.eqb "/") ;; Eol false)
    (mkPos (Some "D"%char) (b1 ++ [f] ++ b2 ++ code ++ b3 ++ mf ++ b4 ++ md ++ b5 ++ sy ++ b6 ++ tail ++ chars "/" ++ e) []) Some <> None).
  Ltac sn := cbv beta; match goal with |- run (Seq ?a ?b) ?s ?k <> None => change (run a s (fun s' => run b s' k) <> None) end.
  Ltac rp H := apply run_complete with (1 := M_rep _ _ _ _ _ _ _ (proj1 H) (proj2 H)).
  sn. rp B1. sn. apply run_complete with (1 := M_one nonspace _ f _ _ NF).
  sn. rp B2. sn. eapply X; [apply (M_rep _ _ _ _ _ _ _ (proj1 WC) (proj2 WC))|]. cbn [p_prev p_rest p_groups].
  sn. rp B3. sn. destruct (MF (lastof (lastof (lastof (Some f) b2) code) b3) [(1, firstn (List.length (code ++ b3 ++ mf ++ b4 ++ md ++ b5 ++ sy ++ b6 ++ tail ++ chars "/" ++ e) - List.length (b3 ++ mf ++ b4 ++ md ++ b5 ++ sy ++ b6 ++ tail ++ chars "/" ++ e)) (code ++ b3 ++ mf ++ b4 ++ md ++ b5 ++ sy ++ b6 ++ tail ++ chars "/" ++ e))] (b4 ++ md ++ b5 ++ sy ++ b6 ++ tail ++ chars "/" ++ e)) as (pv' & M).
  eapply X; [exact M|]. cbn [p_prev p_rest p_groups].
  sn. rp B4. sn. eapply X; [apply (M_rep true 1 dot _ md); [destruct md; [congruence|cbn; lia]|auto]|]. cbn [p_prev p_rest p_groups].
  sn. rp B5. sn. eapply X; [apply (M_rep _ _ _ _ _ _ _ (proj1 WS) (proj2 WS))|]. cbn [p_prev p_rest p_groups].
  sn. rp B6. sn. apply run_complete with (1 := M_rep true 0 dot _ tail _ _ (Nat.le_0_l _) NT).
  sn. apply run_complete with (1 := M_one (Ascii.eqb "/") _ "/"%char _ _ (Ascii.eqb_refl _)).
  destruct EE as [->| ->]; cbn; discriminate.
Qed.
(** the code of an entry is its third word *)
Lemma code_unique : forall line c1 a1 b1 d1 c2 a2 b2 d2, entry_line line c1 a1 b1 d1 -> entry_line line c2 a2 b2 d2 -> c1 = c2.
Proof.
  intros line c1 m1 o1 y1 c2 m2 o2 y2 (b3 & b4 & b5 & b6 & tail & b1 & f & b2 & e & E1 & B1 & NF & B2 & WC & B3 & _)
    (b3' & b4' & b5' & b6' & tail' & b1' & f' & b2' & e' & E2 & B1' & NF' & B2' & WC' & B3' & _).
  assert (BS : forall n b t, blanks (S n) b -> forall c u, b ++ t = c :: u -> blank c).
  { intros n b t [L F] c u E. destruct b as [|x b]; [cbn in L; lia|]. cbn in E. injection E as <- _. inversion F; auto. }
  assert (WN : forall w t, word w -> not_start blank (w ++ t)).
  { intros w t [NE F] c u E. destruct w as [|x w]; [congruence|]. cbn in E. injection E as <- _. inversion F; auto. }
  rewrite E1 in E2. apply (f_equal (skipn 2)) in E2. cbn [chars list_ascii_of_string app skipn] in E2.
  assert (C1 : forall a x a' x', blanks 1 a -> not_start blank x -> blanks 1 a' -> not_start blank x' -> a ++ x = a' ++ x' -> x = x').
  { intros a x a' x' A N A' N' E. pose proof (blanks_span _ _ _ A N) as S. rewrite E, (blanks_span _ _ _ A' N') in S. congruence. }
  apply C1 in E2; auto; [|intros c t H; injection H as <- _; auto|intros c t H; injection H as <- _; auto].
  injection E2 as _ E2. apply C1 in E2; auto.
  apply (f_equal (span nonspace)) in E2. rewrite !word_span in E2; auto; [congruence|apply (BS 0); auto|apply (BS 0); auto].
Qed.

(** ** the file *)
(** the lines of a file; each but the last ends with a newline *)
Inductive split_file : list ascii -> list (list ascii) -> Prop :=
| F_end : split_file [] []
| F_last : forall y, y <> [] -> ~ In newline y -> split_file y [y]
| F_line : forall y t ls, ~ In newline y -> split_file t ls -> split_file (y ++ newline :: t) ((y ++ [newline]) :: ls).
Lemma lines_line : forall y t, ~ In newline y -> lines (y ++ newline :: t) = (y ++ [newline]) :: lines t.
Proof.
  induction y as [|c y IH]; intros t N; cbn [app lines].
  - rewrite Ascii.eqb_refl. auto.
  - destruct (Ascii.eqb_spec c nl) as [->|]; [destruct N; left; auto|]. rewrite IH; auto. intros I. apply N. right. auto.
Qed.
Lemma lines_last : forall y, y <> [] -> ~ In newline y -> lines y = [y].
Proof.
  induction y as [|c y IH]; intros NE N; [congruence|]. cbn [lines].
  destruct (Ascii.eqb_spec c nl) as [->|]; [destruct N; left; auto|]. destruct y as [|d y]; auto. rewrite IH; [auto|discriminate|]. intros I. apply N. right. auto.
Qed.
Lemma split_lines : forall l ls, split_file l ls -> lines l = ls.
Proof. intros l ls S. induction S; auto; [apply lines_last; auto|]. rewrite lines_line; congruence. Qed.
Lemma lines_split : forall l, split_file l (lines l).
Proof.
  assert (H : forall l, (~ In newline l) \/ exists y t, l = y ++ newline :: t /\ ~ In newline y).
  { induction l as [|c l IH]; [left; auto|]. destruct (Ascii.ascii_dec c newline) as [->|D]; [right; exists [], l; auto|].
    destruct IH as [N|(y & t & -> & N)].
    - left. intros [E|I]; [congruence|auto].
    - right. exists (c :: y), t. split; auto. intros [E|I]; [congruence|auto]. }
  intros l. remember (List.length l) as n. revert l Heqn. induction n as [n IH] using lt_wf_ind. intros l ->.
  destruct (H l) as [N|(y & t & -> & N)].
  - destruct l as [|c l]; [constructor|]. rewrite lines_last; auto; [|discriminate]. constructor; auto. discriminate.
  - rewrite lines_line; auto. constructor; auto. apply (IH (List.length t)); auto. rewrite app_length. cbn. lia.
Qed.

(** ** case and blanks around a text *)
Lemma up1_low1 : forall c d, up1 c = up1 d <-> same_letter c d.
Proof.
  intros c d. rewrite <- same_iff. unfold same_ic.
  assert (Q : forall c d, Bool.eqb (Ascii.eqb (up1 c) (up1 d)) (Ascii.eqb (low1 c) (low1 d)) = true).
  { assert (B : forallb (fun i => forallb (fun j => Bool.eqb (Ascii.eqb (up1 (ascii_of_nat i)) (up1 (ascii_of_nat j))) (Ascii.eqb (low1 (ascii_of_nat i)) (low1 (ascii_of_nat j)))) (seq 0 256)) (seq 0 256) = true) by (vm_compute; reflexivity).
    intros x y. rewrite forallb_forall in B. assert (I : forall z, In (nat_of_ascii z) (seq 0 256)) by (intros z; apply in_seq; pose proof (nat_ascii_bounded z); lia).
    specialize (B _ (I x)). rewrite forallb_forall in B. specialize (B _ (I y)). rewrite !ascii_nat_embedding in B. auto. }
  specialize (Q c d). apply Bool.eqb_prop in Q. rewrite <- Ascii.eqb_eq. rewrite Q. tauto.
Qed.
Lemma upper_same : forall a s, upper (st_ a) = upper s <-> same_code a (chars s).
Proof.
  induction a as [|c a IH]; intros s; destruct s as [|d s]; cbn.
  - split; auto; constructor.
  - split; [discriminate|]. intros H; inversion H.
  - split; [discriminate|]. intros H; inversion H.
  - split.
    + intros E. injection E as E1 E2. constructor; [apply up1_low1; auto|apply IH; auto].
    + intros H. inversion H; subst. f_equal; [apply up1_low1; auto|apply IH; auto].
Qed.
(** [y] is [x] without the blanks around it *)
Definition trim (x y : list ascii) : Prop := trimmed y /\ exists a b, x = a ++ y ++ b /\ List.Forall blank a /\ List.Forall blank b.
Lemma rstrip_nil : forall b, List.Forall blank b -> rstrip (st_ b) = ""%string.
Proof. intros b F. induction F as [|c b B F IH]; auto. change (st_ (c :: b)) with (String c (st_ b)). cbn [rstrip]. rewrite IH. apply blank_iff in B. rewrite B. auto. Qed.
Lemma rstrip_app : forall y b, List.Forall blank b -> (forall p c, y = p ++ [c] -> ~ blank c) -> rstrip (st_ (y ++ b)) = st_ y.
Proof.
  induction y as [|c y IH]; intros b F T; [apply rstrip_nil; auto|].
  change (st_ ((c :: y) ++ b)) with (String c (st_ (y ++ b))). cbn [rstrip]. rewrite (IH b F); [|intros p d ->; apply (T (c :: p)); auto].
  destruct y as [|d y]; cbn; auto. assert (N : ~ blank c) by (apply (T []); auto). rewrite <- blank_iff in N. destruct (is_space c); congruence.
Qed.
Lemma strip_trim : forall x y, trim x y -> strip (st_ x) = st_ y.
Proof.
  intros x y ([T1 T2] & a & b & -> & FA & FB). unfold strip. induction FA as [|c a B F IH].
  - cbn [app]. destruct y as [|c y].
    + cbn [app]. assert (L : lstrip (st_ b) = ""%string). { clear -FB. induction FB as [|c b B F IH]; auto. change (st_ (c :: b)) with (String c (st_ b)). cbn [lstrip]. apply blank_iff in B. rewrite B. auto. }
      rewrite L. auto.
    + change (st_ ((c :: y) ++ b)) with (String c (st_ (y ++ b))). cbn [lstrip]. assert (N : ~ blank c) by (apply (T1 c y); auto). rewrite <- blank_iff in N. destruct (is_space c) eqn:E; [congruence|].
      apply (rstrip_app (c :: y)); auto.
  - change (st_ ((c :: a) ++ y ++ b)) with (String c (st_ (a ++ y ++ b))). cbn [lstrip]. apply blank_iff in B. rewrite B. apply IH.
Qed.
Lemma trimmed_trim : forall x, trimmed x -> trim x x.
Proof. intros x T. split; auto. exists [], []. cbn. rewrite app_nil_r. auto. Qed.
Lemma trim_exists : forall x, exists y, trim x y.
Proof.
  intros x. assert (L : exists a z, x = a ++ z /\ List.Forall blank a /\ not_start blank z).
  { destruct (span is_space x) as [a z] eqn:S. exists a, z. split; [apply span_app in S; auto|]. split; [apply forall_blank; apply (span_all _ _ _ _ S)|].
    intros c t ->. apply span_stop in S. rewrite <- blank_iff. congruence. }
  destruct L as (a & z & -> & FA & NS). induction z as [|c z IH] using rev_ind.
  - exists []. split; [split; intros; [discriminate|destruct p; discriminate]|]. exists a, []. auto.
  - destruct (is_space c) eqn:S.
    + destruct IH as (y & T & a' & b & E & F1 & F2). { intros d t ->. apply (NS d (t ++ [c])). auto. }
      exists y. split; auto. exists a', (b ++ [c]). rewrite !app_assoc in *. rewrite E. split; [rewrite <- !app_assoc; auto|]. split; auto. apply Forall_app. split; auto. constructor; auto. apply blank_iff. auto.
    + exists (z ++ [c]). split; [split; [exact NS|]|].
      * intros p d E. apply app_inj_tail in E as [_ <-]. rewrite <- blank_iff. congruence.
      * exists a, []. rewrite app_nil_r. auto.
Qed.
Lemma first4 : forall l n, substring 0 n (st_ l) = st_ (firstn n l).
Proof. induction l as [|c l IH]; intros [|n]; cbn; auto. f_equal. apply (IH n). Qed.
Lemma word_trimmed : forall w, word w -> trimmed w.
Proof. intros w [_ F]. rewrite Forall_forall in F. split; intros; apply F; subst; [left; auto|apply in_or_app; right; left; auto]. Qed.

(** the result for an entry: manufacturer and model without blanks around them, the first four characters of the synonym *)
Definition result (mf md sy : list ascii) (s : syn) : Prop :=
  chars (s_manufacturer s) = mf /\ trim md (chars (s_model s)) /\ chars (s_synonym s) = firstn 4 sy.
Lemma chars_st : forall l, chars (st_ l) = l.
Proof. apply list_ascii_of_string_of_list_ascii. Qed.

(** ** the loop over the lines *)
Definition accepts (ac : string) (l : list ascii) : Prop := exists c mf md sy, entry_line l c mf md sy /\ same_code c (chars ac).
Lemma step_line : forall l ls ac,
  (accepts ac l /\ exists c mf md sy s, entry_line l c mf md sy /\ same_code c (chars ac) /\ run synonym_re (mkPos None l []) Some = Some s /\ p_groups s = [(4, sy); (3, md); (2, mf); (1, c)] /\
     find_synonym (l :: ls) ac = inr (mkSyn (st_ mf) (strip (st_ md)) (st_ (firstn 4 sy)))) \/
  (~ accepts ac l /\ find_synonym (l :: ls) ac = find_synonym ls ac).
Proof.
  intros l ls ac. cbn [find_synonym]. unfold re_match. destruct (run synonym_re (mkPos None l []) Some) as [s|] eqn:R.
  - destruct (accept_sound l s R) as (c & mf & md & sy & G & E). rewrite G. cbn [group Nat.eqb].
    destruct (String.eqb_spec (upper (st_ c)) (upper ac)) as [U|U]; rewrite upper_same in U.
    + left. split; [exists c, mf, md, sy; auto|]. exists c, mf, md, sy, s. repeat split; auto.
      f_equal. f_equal.
      * apply strip_trim. apply trimmed_trim. destruct E as (? & ? & ? & ? & ? & ? & ? & ? & ? & _ & _ & _ & _ & _ & _ & _ & T & _). exact T.
      * rewrite (strip_trim sy sy), first4; auto. apply trimmed_trim, word_trimmed. destruct E as (? & ? & ? & ? & ? & ? & ? & ? & ? & _ & _ & _ & _ & _ & _ & _ & _ & _ & _ & _ & _ & _ & W & _). exact W.
    + right. split; auto. intros (c' & mf' & md' & sy' & E' & U'). rewrite (code_unique _ _ _ _ _ _ _ _ _ E' E) in U'. auto.
  - right. split; auto. intros (c' & mf' & md' & sy' & E' & U'). apply accept_complete in E'. auto.
Qed.
Lemma skip_lines : forall pre ls ac, (forall l, In l pre -> ~ accepts ac l) -> find_synonym (pre ++ ls) ac = find_synonym ls ac.
Proof.
  induction pre as [|l pre IH]; intros ls ac N; auto. cbn [app]. destruct (step_line l (pre ++ ls) ac) as [[A _]|[_ E]].
  - destruct (N l (or_introl eq_refl) A).
  - rewrite E. apply IH. intros x I. apply N. right. auto.
Qed.
Lemma first_accepting : forall ac ls, (forall l, In l ls -> ~ accepts ac l) \/ exists pre l post, ls = pre ++ l :: post /\ accepts ac l /\ forall x, In x pre -> ~ accepts ac x.
Proof.
  intros ac. induction ls as [|l ls IH]; [left; intros ? []|]. destruct (step_line l ls ac) as [[A _]|[N _]].
  - right. exists [], l, ls. repeat split; auto.
  - destruct IH as [H|(pre & x & post & -> & A & H)].
    + left. intros y [<-|I]; auto.
    + right. exists (l :: pre), x, post. split; auto. split; auto. intros y [<-|I]; auto.
Qed.

(** ** C126 *)
(** The first entry for the code, in any letter case, gives the result, exactly its columns if the line is a clear entry. *)
Theorem C126_found : forall ac dir content ls pre line post code mf md sy,
  dir "SYNONYM.NEW"%string = Some content -> split_file content ls -> ls = pre ++ line :: post ->
  (forall l c a b d, In l pre -> entry_line l c a b d -> ~ same_code c (chars ac)) ->
  clear_line line code mf md sy -> same_code code (chars ac) ->
  exists s, read_synonym ac dir = inr s /\ chars (s_manufacturer s) = mf /\ chars (s_model s) = md /\ chars (s_synonym s) = firstn 4 sy.
Proof.
  intros ac dir content ls pre line post code mf md sy D S -> N C U. unfold read_synonym. rewrite D, (split_lines _ _ S).
  rewrite skip_lines by (intros l I (c & a & b & d & E & U'); exact (N l c a b d I E U')).
  assert (E0 : entry_line line code mf md sy). { destruct C as (b3 & b4 & b5 & b6 & tail & H & _). exists b3, b4, b5, b6, tail. exact H. }
  destruct (step_line line post ac) as [(_ & c' & mf' & md' & sy' & s & E & U' & R & G & F)|[NA _]]; [|destruct NA; do 4 eexists; eauto].
  destruct (clear_run _ _ _ _ _ C) as (s' & R' & G'). rewrite R in R'. injection R' as <-. rewrite G in G'. injection G' as -> -> -> ->.
  eexists. split; [exact F|]. cbn [s_manufacturer s_model s_synonym]. rewrite !chars_st. repeat split; auto.
  rewrite (strip_trim md md); [apply chars_st|]. apply trimmed_trim. destruct C as (? & ? & ? & ? & ? & _ & _ & _ & (_ & T & _) & _). auto.
Qed.
(** Whatever is returned comes from the first line that can be read as an entry for the code. *)
Theorem C126_origin : forall ac dir s, read_synonym ac dir = inr s ->
  exists content ls pre line post code mf md sy, dir "SYNONYM.NEW"%string = Some content /\ split_file content ls /\ ls = pre ++ line :: post /\
    (forall l c a b d, In l pre -> entry_line l c a b d -> ~ same_code c (chars ac)) /\
    entry_line line code mf md sy /\ same_code code (chars ac) /\ result mf md sy s.
Proof.
  intros ac dir s H. unfold read_synonym in H. destruct (dir "SYNONYM.NEW"%string) as [content|] eqn:D; [|discriminate].
  destruct (first_accepting ac (lines content)) as [N|(pre & line & post & E & A & N)].
  - rewrite <- (app_nil_r (lines content)), skip_lines in H by auto. discriminate.
  - rewrite E, skip_lines in H by auto. destruct (step_line line post ac) as [(_ & c & mf & md & sy & q & EL & U & _ & _ & F)|[NA _]]; [|contradiction].
    rewrite F in H. injection H as <-. exists content, (lines content), pre, line, post, c, mf, md, sy. split; auto. split; [apply lines_split|]. split; auto. split.
    { intros l c' a b d I EL' U'. apply (N l I). exists c', a, b, d. auto. }
    split; auto. split; auto. split; [apply chars_st|]. split; [|apply chars_st].
    cbn [s_model]. destruct (trim_exists md) as (y & T). rewrite (strip_trim _ _ T), chars_st. apply T.
Qed.
(** The errors are exactly: no synonym file, no entry for the code. *)
Theorem C126_errors : forall ac dir e, read_synonym ac dir = inl e <->
  (dir "SYNONYM.NEW"%string = None /\ e = FileNotFoundError) \/
  (exists content ls, dir "SYNONYM.NEW"%string = Some content /\ split_file content ls /\ e = ValueError /\
     forall l c mf md sy, In l ls -> entry_line l c mf md sy -> ~ same_code c (chars ac)).
Proof.
  intros ac dir e. split.
  - intros H. destruct (dir "SYNONYM.NEW"%string) as [content|] eqn:D; unfold read_synonym in H; rewrite D in H; [right|left; split; congruence].
    exists content, (lines content). split; auto. split; [apply lines_split|].
    destruct (first_accepting ac (lines content)) as [N|(pre & line & post & E & A & N)].
    + rewrite <- (app_nil_r (lines content)), skip_lines in H by auto. split; [cbn in H; congruence|]. intros l c a b d I EL' U'. apply (N l I). exists c, a, b, d. auto.
    + rewrite E, skip_lines in H by auto. destruct (step_line line post ac) as [(_ & c & mf & md & sy & q & EL & U & _ & _ & F)|[NA _]]; [|contradiction]. rewrite F in H. discriminate.
  - intros [[D ->]|(content & ls & D & S & -> & N)]; unfold read_synonym; rewrite D; auto.
    rewrite (split_lines _ _ S), <- (app_nil_r ls), skip_lines; auto. intros l I (c & a & b & d & E & U). exact (N l c a b d I E U).
Qed.
(** Loading: the OPF file is the one named by the synonym, and its entries are those of the parsed file; errors are passed on. *)
Theorem C126_load : forall ac dir d, load_bada3 ac dir = inr d ->
  exists s content o, read_synonym ac dir = inr s /\ dir (s_synonym s ++ "__.OPF")%string = Some content /\ parse_opf_content content = inr o /\
    let str k x := look (Dict d) [k] = Some (Leaf (LStr x)) in
    str "typecode"%string ac /\ str "manufacturer"%string (s_manufacturer s) /\ str "model"%string (s_model s) /\ str "synonym"%string (s_synonym s) /\
    str "aircraft"%string (s_manufacturer s ++ " " ++ s_model s)%string /\
    forall k p, ~ In k ["typecode"; "manufacturer"; "model"; "synonym"; "aircraft"]%string -> look (Dict d) (k :: p) = look (Dict o) (k :: p).
Proof.
  intros ac dir d H. unfold load_bada3 in H. destruct (read_synonym ac dir) as [|s] eqn:RS; [discriminate|].
  destruct (dir (s_synonym s ++ "__.OPF")%string) as [content|] eqn:D; [|discriminate]. destruct (opf_search content) as [|o] eqn:O; [discriminate|]. injection H as <-.
  exists s, content, (opf_dict o). split; auto. split; auto. split; [unfold parse_opf_content; rewrite O; auto|]. cbv zeta.
  split; [reflexivity|]. split; [reflexivity|]. split; [reflexivity|]. split; [reflexivity|]. split; [reflexivity|].
  intros k p N. unfold b3_load. cbn [look app vget].
  repeat match goal with |- context [String.eqb ?a ?b] => destruct (String.eqb_spec a b); [subst; destruct N; cbn; auto 10|] end. auto.
Qed.
Theorem C126_load_errors : forall ac dir e, load_bada3 ac dir = inl e <->
  read_synonym ac dir = inl e \/
  (exists s, read_synonym ac dir = inr s /\ dir (s_synonym s ++ "__.OPF")%string = None /\ e = FileNotFoundError) \/
  (exists s content, read_synonym ac dir = inr s /\ dir (s_synonym s ++ "__.OPF")%string = Some content /\ parse_opf_content content = inl e).
Proof.
  intros ac dir e. unfold load_bada3, parse_opf_content. destruct (read_synonym ac dir) as [e'|s].
  - split; [intros H; left; congruence|]. intros [H|[(s & H & _)|(s & c & H & _)]]; congruence.
  - destruct (dir (s_synonym s ++ "__.OPF")%string) as [content|] eqn:D.
    + destruct (opf_search content) as [e'|o] eqn:O.
      * split.
        -- intros H. injection H as ->. right. right. exists s, content. rewrite O. auto.
        -- intros [H|[(s' & H & H' & _)|(s' & c & H & H' & H'')]]; try congruence. assert (s' = s) as -> by congruence. rewrite D in H'. injection H' as <-. rewrite O in H''. auto.
      * split; [discriminate|].
        intros [H|[(s' & H & H' & _)|(s' & c & H & H' & H'')]]; try congruence. assert (s' = s) as -> by congruence. rewrite D in H'. injection H' as <-. rewrite O in H''. discriminate.
    + split.
      * intros H. right. left. exists s. repeat split; auto. congruence.
      * intros [H|[(s' & H & H' & H'')|(s' & c & H & H' & _)]]; try congruence.
Qed.

(** ** a concrete folder *)
Definition synonyms : string :=
"CC  code  manufacturer         model                synonym        /
CD - A306   AIRBUS               A300B4-600           A306__      Y  /
CD * A20N   AIRBUS               A320 Neo             A320__      Y  /
CD - B742   BOEING COMPANY       747-200B             B742__      Y  /
"%string.
Definition place (s o : string) : folder := fun n => if String.eqb n "SYNONYM.NEW" then Some (chars s) else if String.eqb n "A320__.OPF" then Some (chars o) else None.
Example C126_ex : read_synonym "a20n" (place synonyms sample) = inr (mkSyn "AIRBUS" "A320 Neo" "A320") /\
  read_synonym "B744" (place synonyms sample) = inl ValueError /\
  load_bada3 "B742" (place synonyms sample) = inl FileNotFoundError /\
  read_synonym "A306" (fun _ => None) = inl FileNotFoundError.
Proof. vm_compute. repeat apply conj; reflexivity. Qed.
Example C126_ex_load : exists d, load_bada3 "A20N" (place synonyms sample) = inr d /\
  look (Dict d) ["aircraft"]%string = Some (Leaf (LStr "AIRBUS A320 Neo")) /\ look (Dict d) ["mtow"]%string = Some (Leaf (LNum 77000)).
Proof.
  unfold load_bada3. assert (R : read_synonym "A20N" (place synonyms sample) = inr (mkSyn "AIRBUS" "A320 Neo" "A320")) by (vm_compute; reflexivity).
  rewrite R. cbn [s_synonym s_manufacturer s_model].
  assert (D : place synonyms sample ("A320" ++ "__.OPF")%string = Some (chars sample)) by reflexivity. rewrite D.
  destruct C125_ex as (d & H & M & _). unfold parse_opf_content in H. destruct (opf_search (chars sample)) as [|o]; [discriminate|]. injection H as <-.
  eexists. split; [reflexivity|]. split; [reflexivity|]. exact M.
Qed.
(** a line of the file is a clear entry *)
Example C126_ex_line : clear_line (chars "CD * A20N   AIRBUS               A320 Neo             A320__      Y  /
") (chars "A20N") (chars "AIRBUS") (chars "A320 Neo") (chars "A320__").
Proof.
  assert (BL : forall n, blanks n (repeat " "%char n)).
  { intros n. split; [rewrite repeat_length; auto|]. apply Forall_forall. intros c I. apply repeat_spec in I. subst. right. cbn. lia. }
  assert (BN : forall m n, m <= n -> blanks m (repeat " "%char n)). { intros m n L. destruct (BL n) as [A B]. split; auto. lia. }
  assert (NB : forall l, forallb nonspace l = true -> List.Forall (fun c => ~ blank c) l).
  { intros l H. rewrite forallb_forall in H. apply Forall_forall. intros c I. apply nonspace_iff. auto. }
  assert (PH : forall x, x <> [] -> forallb nonspace x = true -> phrase x).
  { intros x NE H. apply NB in H. rewrite Forall_forall in H. split; auto. split; [apply word_trimmed; split; auto; apply Forall_forall; auto|].
    intros p c d q -> [B _]. apply (H c); auto. apply in_or_app. right. left. auto. }
  assert (PD : phrase (chars "A320 Neo")).
  { split; [discriminate|]. split.
    - split; intros.
      + injection H as <- _. apply nonspace_iff. reflexivity.
      + change (chars "A320 Neo") with (chars "A320 Ne" ++ ["o"%char]) in H. apply app_inj_tail in H as [_ <-]. apply nonspace_iff. reflexivity.
    - intros p c d q E [B1 B2]. apply blank_iff in B1, B2.
      do 7 (destruct p as [|? p]; [cbn in E; injection E as <- <- _; vm_compute in B1, B2; discriminate|cbn in E; try discriminate; injection E as _ E]); destruct p as [|? [|]]; discriminate. }
  exists (repeat " "%char 3), (repeat " "%char 15), (repeat " "%char 13), (repeat " "%char 6), (chars "Y  ").
  split; [|split; [apply PH; [discriminate|reflexivity]|split; [cbn; lia|split; [exact PD|]]]].
  - exists [" "%char], "*"%char, [" "%char], [newline]. split; [reflexivity|].
    assert (NN : forall l, forallb dot l = true -> ~ In newline l). { intros l H. rewrite forallb_forall in H. apply forall_dot. apply Forall_forall. auto. }
    split; [exact (BL 1)|]. split; [apply nonspace_iff; reflexivity|]. split; [exact (BL 1)|]. split; [split; [discriminate|apply NB; reflexivity]|]. split; [apply BN; lia|].
    split; [discriminate|]. split; [apply PH; [discriminate|reflexivity]|]. split; [apply NN; reflexivity|]. split; [apply BN; lia|]. split; [discriminate|]. split; [apply NN; reflexivity|].
    split; [apply BN; lia|]. split; [split; [discriminate|apply NB; reflexivity]|]. split; [apply BN; lia|]. split; [apply NN; reflexivity|]. auto.
  - intros c t E. injection E as <- _. apply nonspace_iff. reflexivity.
Qed.

(** ** what is not so *)
(** "The synonym is the column after the model."  A manufacturer of one letter is joined with the model, and the column after the synonym is taken. *)
Theorem C126_one_letter_refuted : read_synonym "A306" (place "CD - A306   A   A300B4-600   A306__  ICAO  Y /
" sample) = inr (mkSyn "A   A300B4-600" "A306__" "ICAO").
Proof. vm_compute. reflexivity. Qed.
(** "A column ends where the next one begins."  With one blank between a long manufacturer and the model the synonym is the flag after it. *)
Theorem C126_one_blank_refuted : read_synonym "B742" (place "CD - B742   BOEING COMMERCIAL AIRPLANES 747-200B   B742__   Y  /
" sample) = inr (mkSyn "BOEING COMMERCIAL AIRPLANES 747-200B" "B742__" "Y").
Proof. vm_compute. reflexivity. Qed.
(** "An entry is found."  With a blank after the slash it is passed over. *)
Theorem C126_slash_refuted : read_synonym "A306" (place "CD - A306   AIRBUS   A300B4-600   A306__   Y / 
" sample) = inl ValueError.
Proof. vm_compute. reflexivity. Qed.
(** "The OPF file is the one of the synonym."  Only four characters of the synonym count. *)
Theorem C126_synonym_refuted : read_synonym "A20N" (place "CD - A20N   AIRBUS   A320 Neo   A320NEO   Y /
" sample) = inr (mkSyn "AIRBUS" "A320 Neo" "A320") /\ exists d, load_bada3 "A20N" (place "CD - A20N   AIRBUS   A320 Neo   A320NEO   Y /
" sample) = inr d.
Proof.
  assert (R : read_synonym "A20N" (place "CD - A20N   AIRBUS   A320 Neo   A320NEO   Y /
" sample) = inr (mkSyn "AIRBUS" "A320 Neo" "A320")) by (vm_compute; reflexivity). split; auto.
  unfold load_bada3. rewrite R. cbn [s_synonym s_manufacturer s_model].
  match goal with |- context [place ?a sample ?n] => change (place a sample n) with (Some (chars sample)) end.
  destruct C125_ex as (d & H & _). unfold parse_opf_content in H. destruct (opf_search (chars sample)) as [|o]; [discriminate|]. eauto.
Qed.
