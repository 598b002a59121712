(** * Properties C23, C36-C39, C70 and C71: lookup and construction *)
From Coq Require Import String Ascii List Bool Arith Lia Permutation QArith.
From Verif Require Import Str StrFacts Py PropPy DataAc DataPolar DataWrap DataEng Build PropFacts.
Import ListNotations.
Open Scope string_scope.

(** ** C23 *)
Theorem C23_accepted_engine_belongs : forall d ac eng k o,
  kw_force k <> Some true -> thrust_new d ac eng k = inr o ->
  let req := match eng with Some e => e | None => ac_default (to_ac o) end in
  let row := er_row (to_eng o) in
  In row (d_engines d) /\ startswith (upper (en_name row)) (upper (strip req)) = true /\
  exists opt, In opt (ac_options (to_ac o)) /\ contains (upper opt) (upper req) = true /\
    (trimmed (upper opt) = true -> contains (upper opt) (upper (en_name row)) = true).
Proof.
  intros d ac eng k o Hf H. unfold thrust_new, bind in H. destruct (aircraft d ac _) as [?|a]; [discriminate|].
  set (req := get eng (ac_default a)) in *. rewrite engine_find in H.
  destruct (find _ (d_engines d)) as [row|] eqn:F; [|discriminate].
  assert (G : get (kw_force k) false = false) by (destruct (kw_force k) as [[|]|]; auto; congruence).
  rewrite G in H. cbn [negb andb er_name] in H.
  destruct (engine_matches (ac_options a) (upper req)) eqn:M; [|discriminate]. cbn in H. injection H as <-.
  cbn [to_ac to_eng er_row]. change (match eng with Some e => e | None => ac_default a end) with req. cbv zeta.
  apply find_some in F. destruct F as [I F]. split; auto.
  rewrite strip_upper, upper_idem in F. split; auto.
  unfold engine_matches in M. rewrite existsb_exists in M. destruct M as (opt & Io & C). rewrite upper_idem in C.
  exists opt. split; auto. split; auto. intros T.
  apply contains_strip in C; auto. rewrite strip_upper in C.
  unfold startswith in F. apply prefix_iff in F. destruct F as (t & ->). apply contains_app. auto.
Qed.
Theorem C23_mismatch_rejected : forall d ac e k a,
  kw_force k <> Some true -> aircraft d ac (get (kw_syn k) false) = inr a ->
  (forall opt, In opt (ac_options a) -> contains (upper opt) (upper e) = false) ->
  thrust_new d ac (Some e) k = inl ValueError.
Proof.
  intros d ac e k a Hf Ha H. unfold thrust_new, bind. rewrite Ha. cbn [get]. rewrite engine_find.
  destruct (find _ (d_engines d)); auto. cbn [er_name].
  assert (G : get (kw_force k) false = false) by (destruct (kw_force k) as [[|]|]; auto; congruence).
  rewrite G. cbn [negb andb]. replace (engine_matches (ac_options a) (upper e)) with false; auto.
  symmetry. unfold engine_matches. apply not_true_iff_false. rewrite existsb_exists. intros (opt & I & C).
  rewrite upper_idem in C. rewrite H in C by auto. discriminate.
Qed.
(** an abbreviation shorter than every option is rejected, even if it is unambiguous *)
Theorem C23_abbreviation_rejected : forall d ac e k a,
  kw_force k <> Some true -> aircraft d ac (get (kw_syn k) false) = inr a ->
  (forall opt, In opt (ac_options a) -> (String.length e < String.length opt)%nat) ->
  thrust_new d ac (Some e) k = inl ValueError.
Proof.
  intros d ac e k a Hf Ha H. eapply C23_mismatch_rejected; eauto. intros opt I.
  apply not_true_iff_false. intros C. apply contains_len in C.
  assert (L : forall s, String.length (upper s) = String.length s) by (induction s; cbn; auto).
  rewrite !L in C. specialize (H opt I). lia.
Qed.
Theorem C23_force_accepts_any : forall d ac e k a row,
  kw_force k = Some true -> aircraft d ac (get (kw_syn k) false) = inr a ->
  In row (d_engines d) -> startswith (upper (en_name row)) (upper (strip e)) = true ->
  exists o, thrust_new d ac (Some e) k = inr o.
Proof.
  intros d ac e k a row Hf Ha I F. unfold thrust_new, bind. rewrite Ha. cbn [get]. rewrite engine_find.
  destruct (find _ (d_engines d)) as [r|] eqn:E.
  - rewrite Hf. cbn [negb andb get]. eauto.
  - exfalso. pose proof (find_none _ _ E _ I) as N. cbv beta in N. rewrite strip_upper, upper_idem in N. congruence.
Qed.
(** an accepted engine, a rejected abbreviation of it, and an engine of another aircraft *)
Example C23_ex : (exists o, thrust_new shipped0 "A320" (Some "cfm56-5b4/p") (mkKwc None None) = inr o) /\
  thrust_new shipped0 "A320" (Some "CFM56-5B") (mkKwc None None) = inl ValueError /\
  thrust_new shipped0 "A320" (Some "GE90-115B") (mkKwc None None) = inl ValueError /\
  exists o, thrust_new shipped0 "A320" (Some "GE90-115B") (mkKwc None (Some true)) = inr o.
Proof. repeat split; try (vm_compute; reflexivity); vm_compute; eexists; reflexivity. Qed.

(** ** C36 *)
Theorem C36_lookup_without_synonyms : forall d ac, plain ac = true ->
  (forall r, aircraft d ac false = inr r -> In r (d_aircraft d) /\ ac_code r = lower ac) /\
  (In (lower ac) (map ac_code (d_aircraft d)) -> exists r, aircraft d ac false = inr r) /\
  (~ In (lower ac) (map ac_code (d_aircraft d)) -> aircraft d ac false = inl ValueError).
Proof.
  intros d ac H. rewrite aircraft_find by auto. split; [|split].
  - intros r E. destruct (find _ (d_aircraft d)) as [f|] eqn:F.
    + injection E as <-. apply find_some in F. destruct F as [I F]. apply String.eqb_eq in F. auto.
    + destruct (synonym _ _); discriminate.
  - intros I. apply find_code in I. destruct I as (r & ->). eauto.
  - intros N. destruct (find _ (d_aircraft d)) as [f|] eqn:F.
    + exfalso. apply N. apply find_code. eauto.
    + destruct (synonym _ _); auto.
Qed.
Theorem C36_lookup_with_synonyms : forall d ac, plain ac = true ->
  (forall n, In n (map snd (d_acsyn d)) -> plain n = true /\ In n (map ac_code (d_aircraft d))) ->
  (forall r, aircraft d ac true = inr r -> In r (d_aircraft d) /\ (ac_code r = lower ac \/ In (lower ac, ac_code r) (d_acsyn d))) /\
  (In (lower ac) (map ac_code (d_aircraft d)) \/ In (lower ac) (map fst (d_acsyn d)) -> exists r, aircraft d ac true = inr r) /\
  (~ In (lower ac) (map ac_code (d_aircraft d)) -> ~ In (lower ac) (map fst (d_acsyn d)) -> aircraft d ac true = inl ValueError) /\
  (forall r, aircraft d ac false = inr r -> aircraft d ac true = inr r).
Proof.
  intros d ac H HS. rewrite !aircraft_find by auto. split; [|split; [|split]].
  - intros r E. destruct (find _ (d_aircraft d)) as [f|] eqn:F.
    + injection E as <-. apply find_some in F. destruct F as [I F]. apply String.eqb_eq in F. auto.
    + destruct (synonym _ _) as [n|] eqn:Sy; [|discriminate]. apply synonym_in in Sy.
      destruct (HS n) as [Pn In_]; [apply (in_map snd) in Sy; exact Sy|].
      pose proof (glob_find d n Pn) as G. destruct (glob_aircraft d n) as [|f fs]; [discriminate|]. injection E as <-.
      symmetry in G. apply find_some in G. destruct G as [I G]. apply String.eqb_eq in G. rewrite G. auto.
  - intros I. destruct (find _ (d_aircraft d)) as [f|] eqn:F; eauto. destruct I as [I|I].
    + apply find_code in I. destruct I as (r & E). congruence.
    + destruct (synonym_some _ _ I) as (n & E). rewrite E. apply synonym_in in E.
      destruct (HS n) as [Pn In_]; [apply (in_map snd) in E; exact E|].
      pose proof (glob_find d n Pn) as G. destruct (glob_aircraft d n) as [|f fs]; eauto.
      exfalso. apply find_code in In_. destruct In_ as (r & E'). congruence.
  - intros N1 N2. destruct (find _ (d_aircraft d)) as [f|] eqn:F.
    + exfalso. apply N1. apply find_code. eauto.
    + destruct (synonym _ _) as [n|] eqn:Sy; auto. exfalso. apply N2. apply synonym_in in Sy. apply (in_map fst) in Sy. exact Sy.
  - intros r E. destruct (find _ (d_aircraft d)); auto. destruct (synonym _ _); discriminate.
Qed.

Lemma in_insert : forall y x l, In y (insert_s x l) <-> y = x \/ In y l.
Proof.
  intros y x l. induction l as [|z l IH]; cbn; [firstorder congruence|].
  destruct (String.leb x z); cbn; [firstorder congruence|]. rewrite IH. firstorder congruence.
Qed.
Lemma in_sorted : forall y l, In y (sorted l) <-> In y l.
Proof. intros y l. unfold sorted. induction l as [|z l IH]; cbn; [tauto|]. rewrite in_insert, IH. firstorder congruence. Qed.
(** the advertised list is exactly the set of accepted names *)
Theorem C36_advertised_iff_accepted : forall d, ships d -> forall ac s, plain ac = true ->
  (In (lower ac) (available_aircraft d s) <-> exists r, aircraft d ac s = inr r) /\
  (~ In (lower ac) (available_aircraft d s) -> aircraft d ac s = inl ValueError).
Proof.
  intros d S ac s H.
  assert (A : forall x, In x (map slice84 (sorted (map (fun r => d_dir d ++ ac_code r ++ ".yml") (d_aircraft d)))) <-> In x (map ac_code (d_aircraft d))).
  { intros x. assert (L : forall r, In r (d_aircraft d) -> slice84 (d_dir d ++ ac_code r ++ ".yml") = ac_code r).
    { intros r Hr. apply slice_ok; auto. apply (codes_len (map ac_code shipped_aircraft)); [vm_compute; reflexivity|].
      apply in_map. eapply Permutation_in; [apply Permutation_sym, (sh_ac d S)|auto]. }
    rewrite !in_map_iff. split.
    - intros (f & E & I). apply (proj1 (in_sorted _ _)) in I. apply in_map_iff in I. destruct I as (r & <- & I). exists r. rewrite L in E; auto.
    - intros (r & E & I). exists (d_dir d ++ ac_code r ++ ".yml"). rewrite L by auto. split; auto. apply in_sorted.
      apply in_map_iff. eauto. }
  assert (HS : forall n, In n (map snd (d_acsyn d)) -> plain n = true /\ In n (map ac_code (d_aircraft d))).
  { intros n I. rewrite (sh_acsyn d S) in I. split; [apply syn_plain; auto|].
    apply (Permutation_in n (Permutation_map ac_code (sh_ac d S))).
    assert (F : forallb (fun n => mem n (map ac_code shipped_aircraft)) (map snd shipped_acsyn) = true) by (vm_compute; reflexivity).
    rewrite forallb_forall in F. apply mem_in. auto. }
  unfold available_aircraft. cbv zeta. destruct s.
  - rewrite in_app_iff, A. destruct (C36_lookup_with_synonyms d ac H HS) as (H1 & H2 & H3 & _). split; [split|].
    + apply H2.
    + intros (r & E). destruct (H1 r E) as [I [C|C]]; [left; rewrite <- C; apply in_map; auto|].
      right. apply (in_map fst) in C. exact C.
    + intros N. apply H3; tauto.
  - rewrite A. destruct (C36_lookup_without_synonyms d ac H) as (H1 & H2 & H3). split; [split|]; auto.
    intros (r & E). destruct (H1 r E) as [I C]. rewrite <- C. apply in_map; auto.
Qed.
(** a name containing a wildcard is silently expanded: "*" yields the first listed aircraft *)
Theorem C36_wildcard_rejected_refuted : forall d s r rest, d_aircraft d = r :: rest -> aircraft d "*" s = inr r.
Proof.
  intros d s r rest E. unfold aircraft. cbn [lower]. unfold glob_aircraft. rewrite E. cbn [filter].
  change (low1 "*"%char) with "*"%char. change (String "*" "" ++ ".yml") with (String "*" ".yml").
  rewrite glob_star_any by (apply glob_refl_plain; reflexivity). auto.
Qed.
Example C36_ex : ships shipped0 /\ (exists r, aircraft shipped0 "A320" false = inr r /\ ac_code r = "a320") /\
  aircraft shipped0 "AT76" false = inl ValueError /\ (exists r, aircraft shipped0 "AT76" true = inr r /\ ac_code r = "e145") /\
  aircraft shipped0 "zzzz" true = inl ValueError /\ In "at76" (available_aircraft shipped0 true).
Proof.
  split; [apply shipped0_ships|]. split; [vm_compute; eexists; split; reflexivity|].
  split; [vm_compute; reflexivity|]. split; [vm_compute; eexists; split; reflexivity|]. split; [vm_compute; reflexivity|].
  apply mem_in. vm_compute. reflexivity.
Qed.

(** ** C37 *)
Theorem C37_first_prefix_match : forall d e,
  match engine d e with
  | inr r => er_name r = e /\ exists pre post, d_engines d = (pre ++ er_row r :: post)%list /\
      startswith (upper (en_name (er_row r))) (upper (strip e)) = true /\
      forall x, In x pre -> startswith (upper (en_name x)) (upper (strip e)) = false
  | inl er => er = ValueError /\ forall x, In x (d_engines d) -> startswith (upper (en_name x)) (upper (strip e)) = false
  end.
Proof.
  intros d e. rewrite engine_find. set (f := fun r => startswith (upper (en_name r)) (upper (strip e))).
  destruct (find f (d_engines d)) as [r|] eqn:F; cbn [er_name er_row].
  - split; auto. revert F. induction (d_engines d) as [|x l IH]; cbn; [discriminate|].
    destruct (f x) eqn:Fx.
    + intros E. injection E as <-. exists [], l. split; auto. split; [exact Fx|]. intros y [].
    + intros E. destruct (IH E) as (pre & post & E1 & E2 & E3). exists (x :: pre), post. rewrite E1. split; auto. split; auto.
      intros y [<-|Hy]; auto.
  - split; auto. intros x Hx. exact (find_none _ _ F _ Hx).
Qed.
(** a row preceded by a row whose name extends it cannot be obtained by any request *)
Theorem C37_shadowed_row_unreachable : forall d pre row mid row' post,
  d_engines d = (pre ++ row :: mid ++ row' :: post)%list ->
  NoDup (map en_name (d_engines d)) ->
  startswith (upper (en_name row)) (upper (en_name row')) = true ->
  forall e r, engine d e = inr r -> en_name (er_row r) <> en_name row'.
Proof.
  intros d pre row mid row' post E ND Sh e r Hr En.
  pose proof (C37_first_prefix_match d e) as C. rewrite Hr in C. destruct C as (_ & pre2 & post2 & E2 & P & N).
  assert (S2 : startswith (upper (en_name row)) (upper (strip e)) = true).
  { unfold startswith in *. rewrite En in P. eapply prefix_trans; eauto. }
  (* row' = er_row r, at the same place *)
  assert (K : forall (l1 l2 m1 m2 : list engrec) a b, (l1 ++ a :: l2 = m1 ++ b :: m2)%list -> en_name a = en_name b ->
    NoDup (map en_name (l1 ++ a :: l2)%list) -> l1 = m1).
  { induction l1 as [|x l1 IH]; intros l2 m1 m2 a b Eq Nm Nd.
    - destruct m1 as [|y m1]; auto. cbn in Eq. injection Eq as -> Eq. exfalso. cbn in Nd. inversion Nd. apply H1.
      rewrite Eq, map_app. apply in_or_app. right. cbn. auto.
    - destruct m1 as [|y m1].
      + cbn in Eq. injection Eq as -> Eq. exfalso. cbn in Nd. inversion Nd. apply H1. rewrite map_app. apply in_or_app. right. cbn. auto.
      + cbn in Eq. injection Eq as -> Eq. f_equal. cbn in Nd. inversion Nd. eapply IH; eauto. }
  assert (E3 : d_engines d = ((pre ++ row :: mid) ++ row' :: post)%list) by (rewrite E, <- app_assoc; auto).
  rewrite E2 in E3. assert (pre2 = (pre ++ row :: mid)%list).
  { eapply K; [exact E3|auto|]. rewrite <- E2. auto. }
  rewrite N in S2; [discriminate|]. subst. apply in_or_app. right. cbn. auto.
Qed.
Definition unreachable : list string := ["PW1923G"; "PW4X58"; "Trent XWB-79"].
(** positions of a shadowing pair in a list *)
Fixpoint split_at (n : nat) (l : list engrec) : option (list engrec * engrec * list engrec) :=
  match l, n with
  | [], _ => None
  | x :: t, O => Some ([], x, t)
  | x :: t, S n' => match split_at n' t with Some (a, b, c) => Some (x :: a, b, c) | None => None end
  end.
Lemma split_ok : forall n l a b c, split_at n l = Some (a, b, c) -> l = (a ++ b :: c)%list.
Proof.
  induction n as [|n IH]; intros [|x l] a b c H; cbn in H; try discriminate.
  - injection H as <- <- <-. auto.
  - destruct (split_at n l) as [[[a' b'] c']|] eqn:E; [|discriminate]. injection H as <- <- <-. cbn. f_equal. auto.
Qed.

Lemma shadow_shipped : forall d n i j, ships d ->
  match split_at i shipped_engines with
  | Some (_, a, rest) =>
      match split_at (j - i - 1) rest with
      | Some (_, b, _) => startswith (upper (en_name a)) (upper (en_name b)) && String.eqb (en_name b) n
      | None => false
      end
  | None => false
  end = true ->
  forall e r, engine d e = inr r -> en_name (er_row r) <> n.
Proof.
  intros d n i j S H. destruct (split_at i shipped_engines) as [[[pre a] rest]|] eqn:E1; [|discriminate].
  destruct (split_at (j - i - 1) rest) as [[[mid b] post]|] eqn:E2; [|discriminate].
  apply andb_prop in H. destruct H as [H N]. apply String.eqb_eq in N. subst n.
  apply split_ok in E1. apply split_ok in E2. subst rest.
  eapply C37_shadowed_row_unreachable; eauto.
  - rewrite (sh_engines d S). exact E1.
  - rewrite (sh_engines d S). apply nodupb_ok. vm_compute. reflexivity.
Qed.
(** three shipped engines cannot be obtained by any request whatever; every other one by its own name *)
Theorem C37_shipped_reachable : forall d, ships d ->
  (forall e r, engine d e = inr r -> ~ In (en_name (er_row r)) unreachable) /\
  (forall row, In row (d_engines d) -> ~ In (en_name row) unreachable ->
     exists r, engine d (en_name row) = inr r /\ er_row r = row).
Proof.
  intros d S. split.
  - intros e r Hr [N|[N|[N|[]]]]; symmetry in N; revert N.
    + apply (shadow_shipped d "PW1923G" 308 309 S) with (e := e); auto; vm_compute; reflexivity.
    + apply (shadow_shipped d "PW4X58" 343 344 S) with (e := e); auto; vm_compute; reflexivity.
    + apply (shadow_shipped d "Trent XWB-79" 406 407 S) with (e := e); auto; vm_compute; reflexivity.
  - intros row I N. rewrite (sh_engines d S) in I.
    assert (F : forallb (fun r => mem (en_name r) unreachable ||
       match find (fun x => startswith (upper (en_name x)) (upper (strip (en_name r)))) shipped_engines with
       | Some x => String.eqb (en_name x) (en_name r) | None => false end) shipped_engines = true) by (vm_compute; reflexivity).
    rewrite forallb_forall in F. specialize (F row I). apply orb_prop in F. destruct F as [F|F]; [exfalso; apply N, mem_in; auto|].
    rewrite engine_find, (sh_engines d S). destruct (find _ shipped_engines) as [x|] eqn:Fi; [|discriminate].
    apply String.eqb_eq in F. eexists. split; [reflexivity|]. cbn [er_row].
    apply find_some in Fi. destruct Fi as [Ix _].
    assert (ND : NoDup (map en_name shipped_engines)) by (apply nodupb_ok; vm_compute; reflexivity).
    revert ND I Ix F. clear. generalize shipped_engines. induction l as [|y l IH]; [intros ? []|].
    cbn. intros ND [<-|I] [<-|Ix] F; auto; inversion ND; subst.
    + exfalso. apply H1. rewrite <- F. apply in_map; auto.
    + exfalso. apply H1. rewrite F. apply in_map; auto.
    + apply IH; auto.
Qed.
(** "the request is the exact name of a row, so this row is returned" is false *)
Theorem C37_exact_name_refuted : exists row r, In row (d_engines shipped0) /\
  engine shipped0 (en_name row) = inr r /\ en_name (er_row r) <> en_name row /\ er_name r = en_name row.
Proof.
  destruct (split_at 407 shipped_engines) as [[[pre row] post]|] eqn:E.
  - exists row. rewrite engine_find. vm_compute in E. injection E as <- <- <-.
    destruct (find (fun r => startswith (upper (en_name r)) (upper (strip "Trent XWB-79"))) (d_engines shipped0)) as [x|] eqn:F.
    + cbn [en_name]. rewrite F. eexists. split; [|split; [reflexivity|]].
      * change (d_engines shipped0) with shipped_engines.
        assert (G : split_at 407 shipped_engines <> None) by (vm_compute; discriminate).
        destruct (split_at 407 shipped_engines) as [[[p q] t]|] eqn:E; [|congruence].
        pose proof (split_ok _ _ _ _ _ E) as K. rewrite K. apply in_or_app. right. left. vm_compute in E. injection E as <- <- <-. reflexivity.
      * cbn [er_row er_name]. split; [|reflexivity]. vm_compute in F. injection F as <-. cbn. discriminate.
    + vm_compute in F. discriminate.
  - vm_compute in E. discriminate.
Qed.
Example C37_ex : (exists r, engine shipped0 "cfm56-5b4" = inr r /\ en_name (er_row r) = "CFM56-5B4" /\ er_name r = "cfm56-5b4") /\
  (exists r, engine shipped0 " CFM56-5B" = inr r /\ en_name (er_row r) = "CFM56-5B1") /\
  engine shipped0 "RB999" = inl ValueError.
Proof.
  split; [|split]; [..|vm_compute; reflexivity]; vm_compute; eexists; repeat split; reflexivity.
Qed.

(** ** C38 *)
Theorem C38_search_literal_prefix : forall d e,
  match search_engine d e with
  | Some l => l <> [] /\ forall n, In n l <-> In n (map en_name (d_engines d)) /\ startswith n (upper (strip e)) = true
  | None => forall n, In n (map en_name (d_engines d)) -> startswith n (upper (strip e)) = false
  end.
Proof.
  intros d e. unfold search_engine. cbv zeta. set (f := fun r => startswith (en_name r) (upper (strip e))).
  assert (G : forall n, In n (map en_name (filter f (d_engines d))) <-> In n (map en_name (d_engines d)) /\ startswith n (upper (strip e)) = true).
  { intros n. rewrite !in_map_iff. split.
    - intros (r & <- & I). apply filter_In in I. destruct I. split; [exists r; auto|]. auto.
    - intros [(r & <- & I) P]. exists r. split; auto. apply filter_In. auto. }
  destruct (filter f (d_engines d)) as [|r l].
  - intros n I. apply not_true_iff_false. intros P. destruct (G n) as [_ G']. destruct (G' (conj I P)).
  - split; [discriminate|]. exact G.
Qed.
(** whatever the search lists, the lookup finds something for the same request *)
Theorem C38_search_hit_lookup_hit : forall d e l,
  search_engine d e = Some l -> exists r, engine d e = inr r.
Proof.
  intros d e l H. pose proof (C38_search_literal_prefix d e) as C. rewrite H in C. destruct C as [N C].
  destruct l as [|n l]; [congruence|]. destruct (C n) as [C' _]. destruct (C' (or_introl eq_refl)) as [I P].
  apply in_map_iff in I. destruct I as (row & <- & I).
  pose proof (C37_first_prefix_match d e) as F. destruct (engine d e) as [er|r]; eauto.
  destruct F as [_ F]. specialize (F row I). unfold startswith in *. apply prefix_iff in P. destruct P as (t & E).
  rewrite E, upper_app, upper_idem in F. assert (prefix (upper (strip e)) (upper (strip e) ++ upper t) = true) by (apply prefix_iff; eauto). congruence.
Qed.
(** no listed name has a lower-case letter inside the searched prefix *)
Theorem C38_no_lower_case : forall d e l n, search_engine d e = Some l -> In n l ->
  substring 0 (String.length (strip e)) n = upper (substring 0 (String.length (strip e)) n).
Proof.
  intros d e l n H I. pose proof (C38_search_literal_prefix d e) as C. rewrite H in C. destruct C as [_ C].
  destruct (C n) as [C' _]. destruct (C' I) as [_ P]. unfold startswith in P. apply prefix_iff in P. destruct P as (t & ->).
  assert (L : forall s, String.length (upper s) = String.length s) by (induction s; cbn; auto).
  assert (Z : forall a b, substring 0 (String.length a) (a ++ b) = a).
  { induction a as [|c a IH]; intros b; cbn; [destruct b; reflexivity|]. rewrite IH. reflexivity. }
  rewrite <- (L (strip e)), Z, upper_idem. reflexivity.
Qed.
(** so no search by two or more characters ever lists a Trent engine, although the lookup finds them *)
Theorem C38_case_insensitive_refuted : forall d e l n, (2 <= String.length (strip e))%nat ->
  search_engine d e = Some l -> In n l -> startswith n "Tr" = false.
Proof.
  intros d e l n L H I. pose proof (C38_search_literal_prefix d e) as C. rewrite H in C. destruct C as [_ C].
  destruct (C n) as [C' _]. destruct (C' I) as [_ P]. unfold startswith in *.
  destruct (strip e) as [|c1 [|c2 s]]; cbn [String.length] in L; try lia. cbn [upper] in P.
  apply prefix_iff in P. destruct P as (t & ->). apply not_true_iff_false. intros Q.
  apply prefix_iff in Q. destruct Q as (u & E). cbn [append] in E. injection E as _ E _.
  assert (K : forall c, negb (Ascii.eqb (up1 c) "r") = true)
    by (apply (all_ascii (fun c => negb (Ascii.eqb (up1 c) "r"))); vm_compute; reflexivity).
  specialize (K c2). rewrite E in K. discriminate.
Qed.
Example C38_ex : search_engine shipped0 "Trent 77" = None /\ (exists r, engine shipped0 "Trent 77" = inr r) /\
  search_engine shipped0 " cfm56-5b4" = Some ["CFM56-5B4"; "CFM56-5B4/2"; "CFM56-5B4/2P"; "CFM56-5B4/3"; "CFM56-5B4/P"].
Proof. split; [vm_compute; reflexivity|]. split; [vm_compute; eexists; reflexivity|]. vm_compute. reflexivity. Qed.
