(** * Property C40: what callers of the memoised lookups can observe *)
From Coq Require Import String List Bool Arith Lia.
From Verif Require Import Py Str PropPy PropFacts Cache.
Import ListNotations.
Open Scope list_scope.

(** ** Specification, independent of how the cache works *)
(** the content an object had at first and every assignment to it *)
Fixpoint last_written {K V} (l : nat) (v0 : V) (h : list (event K V)) : V :=
  match h with
  | [] => v0
  | EMut l' v :: t => last_written l (if Nat.eqb l l' then v else v0) t
  | ECall _ :: t => last_written l v0 t
  end.
(** keys used in a history *)
Fixpoint keys {K V} (h : list (event K V)) : list K :=
  match h with [] => [] | ECall k :: t => k :: keys t | EMut _ _ :: t => keys t end.
Definition pure {K V} (h : list (event K V)) : Prop := forall l v, ~ In (EMut l v) h.

Section Cache_facts.
Context {K V : Type}.
Context (eqb : K -> K -> bool) (eqb_ok : forall a b, eqb a b = true <-> a = b) (f : K -> py V) (n : nat) (n_pos : (0 < n)%nat).
Notation call := (call n eqb f).
Notation run := (run n eqb f).
Notation state := (st K V).

Lemma take_some : forall k c l c', take_key eqb k c = Some (l, c') -> exists a b, c = a ++ (k, l) :: b /\ c' = a ++ b /\ ~ In k (map fst a).
Proof.
  intros k. induction c as [|[k' m] c IH]; intros l c' H; cbn in H; [discriminate|].
  destruct (eqb k k') eqn:E.
  - apply eqb_ok in E. subst. injection H as <- <-. exists [], c. cbn. auto.
  - destruct (take_key eqb k c) as [[l2 c2]|] eqn:T; [|discriminate]. injection H as <- <-.
    destruct (IH _ _ eq_refl) as (a & b & -> & -> & N). exists ((k', m) :: a), b. cbn. repeat split; auto.
    intros [H|H]; auto. cbn in H. subst. assert (eqb k k = true) by (apply eqb_ok; auto). congruence.
Qed.
Lemma take_none : forall k c, take_key eqb k c = None -> ~ In k (map fst c).
Proof.
  intros k. induction c as [|[k' m] c IH]; cbn; intros H; [tauto|].
  destruct (eqb k k') eqn:E; [discriminate|]. destruct (take_key eqb k c) as [[? ?]|]; [discriminate|].
  intros [<-|I]; [|apply IH; auto]. assert (eqb k' k' = true) by (apply eqb_ok; auto). congruence.
Qed.
Lemma take_in : forall k a l b, ~ In k (map fst a) -> take_key eqb k (a ++ (k, l) :: b) = Some (l, a ++ b).
Proof.
  intros k. induction a as [|[k' m] a IH]; intros l b N; cbn.
  - replace (eqb k k) with true by (symmetry; apply eqb_ok; auto). auto.
  - destruct (eqb k k') eqn:E; [apply eqb_ok in E; cbn in N; subst; tauto|].
    rewrite IH; auto. cbn in N. tauto.
Qed.

Record inv (s : state) : Prop := mkInv {
  i_nodup : NoDup (map fst (cache s));
  i_len : length (cache s) <= n;
  i_alloc : forall k l, In (k, l) (cache s) -> l < length (heap s);
  i_ok : forall k l, In (k, l) (cache s) -> exists v, f k = inr v }.

Lemma inv_init : inv init.
Proof. constructor; cbn; try constructor; try lia; intros ? ? []. Qed.
Lemma firstn_incl : forall {A} m (x : A) l, In x (firstn m l) -> In x l.
Proof. induction m; intros x [|y l] H; cbn in *; try tauto. destruct H; auto. Qed.
Lemma firstn_nodup : forall {A} m (l : list A), NoDup l -> NoDup (firstn m l).
Proof. induction m; intros [|y l] H; cbn; try constructor; inversion H; auto. intros I. apply firstn_incl in I. auto. Qed.
Lemma set_len : forall (h : list V) l v, length (set_nth l v h) = length h.
Proof. induction h; intros [|l] v; cbn; auto. Qed.
Lemma set_same : forall (h : list V) l v, l < length h -> nth_error (set_nth l v h) l = Some v.
Proof. induction h; intros [|l] v H; cbn in *; try lia; auto. apply IHh. lia. Qed.
Lemma set_other : forall (h : list V) l m v, l <> m -> nth_error (set_nth l v h) m = nth_error h m.
Proof. induction h; intros [|l] [|m] v H; cbn; auto; try congruence. Qed.

Lemma inv_call : forall k s, inv s -> inv (snd (call k s)).
Proof.
  intros k s [I1 I2 I3 I4]. unfold Cache.call. destruct (take_key eqb k (cache s)) as [[l c]|] eqn:T.
  - apply take_some in T. destruct T as (a & b & E & -> & N). rewrite E in *. cbn.
    constructor; cbn [cache heap map fst].
    + rewrite map_app in *. cbn in I1. constructor; [apply NoDup_remove_2 in I1; auto|apply NoDup_remove_1 in I1; auto].
    + rewrite app_length in I2. cbn in *. rewrite app_length. lia.
    + intros k' l' [H|H]; [injection H as <- <-; apply (I3 k); apply in_or_app; right; left; auto|].
      apply (I3 k'). apply in_app_or in H. apply in_or_app. cbn. tauto.
    + intros k' l' [H|H]; [injection H as <- <-; apply (I4 k l); apply in_or_app; right; left; auto|].
      apply (I4 k' l'). apply in_app_or in H. apply in_or_app. cbn. tauto.
  - apply take_none in T. destruct (f k) as [e|v] eqn:F; [constructor; auto|]. cbv zeta. cbn [snd]. constructor; cbn [cache heap].
    + rewrite <- firstn_map. apply firstn_nodup. cbn. constructor; auto.
    + apply firstn_le_length.
    + intros k' l' H. apply firstn_incl in H. rewrite app_length. cbn. destruct H as [H|H]; [injection H as <- <-; lia|].
      apply I3 in H. lia.
    + intros k' l' H. apply firstn_incl in H. destruct H as [H|H]; [injection H as <- <-; eauto|]. eapply I4; eauto.
Qed.
Lemma inv_step : forall s e, inv s -> inv (step n eqb f s e).
Proof.
  intros s [k|l v] I; [apply inv_call; auto|]. destruct I as [I1 I2 I3 I4]. constructor; cbn; auto.
  intros k l' H. rewrite set_len. eauto.
Qed.
Lemma inv_run : forall h s, inv s -> inv (run h s).
Proof. induction h as [|e h IH]; intros s I; cbn; auto. apply IH, inv_step, I. Qed.

(** what a call changes in the heap *)
Lemma call_heap : forall k s, heap (snd (call k s)) = heap s \/ exists v, heap (snd (call k s)) = heap s ++ [v].
Proof.
  intros k s. unfold Cache.call. destruct (take_key eqb k (cache s)) as [[l c]|]; auto. destruct (f k); cbn; eauto.
Qed.
Lemma run_heap : forall h s l v0, l < length (heap s) -> nth_error (heap s) l = Some v0 ->
  nth_error (heap (run h s)) l = Some (last_written l v0 h) /\ l < length (heap (run h s)).
Proof.
  induction h as [|e h IH]; intros s l v0 L H; cbn [Cache.run fold_left last_written]; auto.
  destruct e as [k|m v]; cbn [step].
  - apply IH.
    + destruct (call_heap k s) as [->|(w & ->)]; auto. rewrite app_length. cbn. lia.
    + destruct (call_heap k s) as [->|(w & ->)]; auto. rewrite nth_error_app1; auto.
  - apply IH; cbn.
    + rewrite set_len; auto.
    + destruct (Nat.eqb_spec l m); [subst; apply set_same; auto|rewrite set_other; auto].
Qed.

(** position of a key in the cache *)
Definition at_ (k : K) (l : nat) (h : list K) (s : state) : Prop :=
  exists a b, cache s = a ++ (k, l) :: b /\ ~ In k (map fst a) /\ (forall x, In x (map fst a) -> In x h).
Lemma key_dec : forall a b : K, {a = b} + {a <> b}.
Proof.
  intros a b. destruct (eqb a b) eqn:E; [left; apply eqb_ok; auto|right; intros ->]. assert (eqb b b = true) by (apply eqb_ok; auto). congruence.
Defined.
Definition others (k : K) (h : list (event K V)) : nat := length (nodup key_dec (remove key_dec k (keys h))).

Lemma at_run : forall h s k l g, inv s -> at_ k l g s -> ~ In k g ->
  (forall x, In x (keys h) -> x <> k -> In x g) -> (forall d, NoDup d -> incl d g -> length d < n) -> at_ k l g (run h s).
Proof.
  induction h as [|e h IH]; intros s k l g I A Ng Hg Hn; cbn [Cache.run fold_left]; auto.
  assert (AS : at_ k l g (step n eqb f s e)).
  { destruct e as [k'|m v]; cbn [step]; [|exact A]. destruct A as (a & b & E & N & G).
    destruct (key_dec k' k) as [->|D].
    - unfold Cache.call. rewrite E, take_in by auto. cbn. exists [], (a ++ b). cbn. tauto.
    - assert (Gk : In k' g) by (apply Hg; cbn; auto).
      unfold Cache.call. destruct (take_key eqb k' (cache s)) as [[l' c]|] eqn:T.
      + apply take_some in T. destruct T as (p & q & E2 & -> & N2). cbn [snd].
        destruct (in_dec key_dec k' (map fst a)) as [J|J].
        * (* the entry is ahead of k *)
          apply in_map_iff in J. destruct J as ([kk ll] & Ek & J). cbn in Ek. subst kk. apply in_split in J. destruct J as (a1 & a2 & ->).
          pose proof (i_nodup s I) as ND. rewrite E in ND.
          assert (Q : p ++ q = (a1 ++ a2) ++ (k, l) :: b).
          { assert (E3 : p ++ (k', l') :: q = a1 ++ (k', ll) :: (a2 ++ (k, l) :: b)) by (rewrite <- E2, E, <- app_assoc; auto).
            assert (N3 : ~ In k' (map fst a1)).
            { rewrite <- app_assoc, map_app in ND. cbn in ND. apply NoDup_remove_2 in ND. intros Z. apply ND. apply in_or_app. auto. }
            revert E3 N2 N3. clear -eqb_ok. revert a1. induction p as [|[x y] p IHp]; intros [|[z w] a1] E3 N2 N3; cbn in *.
            - injection E3 as -> ->. auto.
            - injection E3 as <- <- E3. tauto.
            - injection E3 as -> -> E3. tauto.
            - injection E3 as -> -> E3. f_equal. apply IHp; tauto. }
          exists ((k', l') :: a1 ++ a2), b. cbn [cache]. rewrite Q. split; [auto|]. rewrite map_app in N, G. cbn [map fst] in *.
          rewrite map_app. split.
          -- intros [Z|Z]; [congruence|]. apply N. apply in_app_or in Z. apply in_or_app. cbn. tauto.
          -- intros x [Z|Z]; [congruence|]. apply G. apply in_app_or in Z. apply in_or_app. cbn. tauto.
        * (* behind k *)
          exists ((k', l') :: a). assert (exists b', p ++ q = a ++ (k, l) :: b') as (b' & Q).
          { assert (E3 : p ++ (k', l') :: q = a ++ (k, l) :: b) by congruence.
            revert E3 J D. clear. revert a. induction p as [|[x y] p IHp]; intros [|[z w] a] E3 J D; cbn in *.
            - injection E3 as -> -> _. congruence.
            - injection E3 as -> -> _. tauto.
            - injection E3 as -> -> E3. eauto.
            - injection E3 as -> -> E3. destruct (IHp a E3) as (b' & ->); [tauto|auto|]. eauto. }
          exists b'. cbn [cache map fst]. rewrite Q. split; auto. split; [intros [Z|Z]; congruence||tauto|].
          intros x [Z|Z]; [congruence|auto].
      + apply take_none in T. destruct (f k') as [er|v]; [exists a, b; auto|]. cbv zeta. cbn [snd].
        assert (L : length ((k', length (heap s)) :: a) < n).
        { rewrite <- (map_length fst). apply Hn.
          - cbn. rewrite E, map_app in T. constructor; [intros Z; apply T, in_or_app; auto|].
            pose proof (i_nodup s I) as ND. rewrite E, map_app in ND. clear -ND. induction (map fst a); [constructor|].
            inversion ND; subst. constructor; auto. intros Z; apply H1, in_or_app; auto.
          - intros x [<-|Z]; auto. }
        assert (SP : firstn n ((k', length (heap s)) :: cache s) = ((k', length (heap s)) :: a) ++ (k, l) :: firstn (n - S (length ((k', length (heap s)) :: a))) b).
        { rewrite E. change ((k', length (heap s)) :: a ++ (k, l) :: b) with (((k', length (heap s)) :: a) ++ (k, l) :: b).
          rewrite firstn_app. set (z := (k', length (heap s)) :: a) in *. rewrite firstn_all2 by lia. f_equal.
          destruct (n - length z) as [|mm] eqn:Z; [lia|]. cbn [firstn]. replace mm with (n - S (length z)) by lia. reflexivity. }
        exists ((k', length (heap s)) :: a), (firstn (n - S (length ((k', length (heap s)) :: a))) b). cbn [cache]. split; [exact SP|].
        cbn. split; [intros [Z|Z]; congruence||tauto|]. intros x [Z|Z]; [congruence|auto]. }
  apply IH; auto; [apply inv_step; auto|]. intros x Hx D. apply Hg; auto. destruct e; cbn; auto.
Qed.

(** a call returns either the content of the stored object or a new object with the computed content *)
Lemma call_front : forall k s l s1, inv s -> call k s = (inr l, s1) -> at_ k l [] s1 /\ l < length (heap s1).
Proof.
  intros k s l s1 I H. pose proof (inv_call k s I) as I1. rewrite H in I1. cbn in I1.
  unfold Cache.call in H. destruct (take_key eqb k (cache s)) as [[l' c]|] eqn:T.
  - injection H as <- <-. split; [exists [], c; cbn; auto; repeat split; intros; tauto|]. apply (i_alloc _ I1 k). cbn. auto.
  - destruct (f k) as [|v]; [discriminate|]. injection H as <- <-. split.
    + destruct n as [|m] eqn:En; [lia|]. cbn. exists [], (firstn m (cache s)). cbn. repeat split; intros; tauto.
    + cbn. rewrite app_length. cbn. lia.
Qed.

(** presence implies that all successful keys used since are ahead *)
Lemma ahead_run : forall h s k g, inv s ->
  (forall l a b, cache s = a ++ (k, l) :: b -> incl g (map fst a)) -> ~ In k (keys h) ->
  forall l a b, cache (run h s) = a ++ (k, l) :: b ->
    forall x, In x g \/ (In x (keys h) /\ exists v, f x = inr v) -> In x (map fst a).
Proof.
  induction h as [|e h IH]; intros s k g I H N l a b E x Hx; cbn [Cache.run fold_left] in E.
  - destruct Hx as [Hx|[[] _]]. eapply H; eauto.
  - destruct e as [k'|m v].
    + cbn [keys] in N, Hx. destruct (key_dec k' k) as [->|D]; [cbn in N; tauto|].
      assert (step_ok : forall l a b, cache (step n eqb f s (ECall k')) = a ++ (k, l) :: b ->
                 incl (match f k' with inr _ => k' :: g | inl _ => g end) (map fst a)).
      { clear l a b E x Hx. intros l a b E. cbn [step] in E. unfold Cache.call in E.
        destruct (take_key eqb k' (cache s)) as [[l' c]|] eqn:T.
        - apply take_some in T. destruct T as (p & q & E2 & -> & N2). cbn [snd cache] in E.
          destruct (i_ok s I k' l') as (v & Fv); [rewrite E2; apply in_or_app; right; left; auto|]. rewrite Fv.
          destruct a as [|[x y] a]; cbn in E; [injection E as -> -> _; congruence|]. injection E as <- <- E.
          cbn [map fst]. intros z [<-|Hz]; [left; auto|].
          (* put k' back where it was *)
          assert (exists a' b', cache s = a' ++ (k, l) :: b' /\ incl (map fst a') (k' :: map fst a)) as (a' & b' & E3 & J).
          { rewrite E2. destruct (in_dec key_dec k (map fst p)) as [Jp|Jp].
            - assert (exists r, p = a ++ (k, l) :: r) as (r & ->).
              { pose proof (i_nodup s I) as ND. rewrite E2 in ND. rewrite map_app in ND.
                assert (Na : forall w, p = a ++ w -> True) by auto.
                revert E Jp ND. clear -eqb_ok. revert a. induction p as [|[x y] p IHp]; intros [|[z w] a] E Jp ND; cbn in *.
                - tauto.
                - tauto.
                - injection E as -> -> E. eauto.
                - injection E as -> -> E. inversion ND; subst. destruct Jp as [->|Jp].
                  + exfalso. clear IHp. assert (In k (map fst (p ++ q))) by (rewrite E, map_app; apply in_or_app; right; left; auto).
                    apply H1. rewrite map_app in H. apply in_app_or in H. apply in_or_app. cbn. tauto.
                  + destruct (IHp a E Jp H2) as (r & ->). eauto. }
              exists a, (r ++ (k', l') :: q). split; [|intros ? ?; right; auto]. rewrite <- app_assoc. reflexivity.
            - assert (exists r, a = p ++ r /\ q = r ++ (k, l) :: b) as (r & -> & ->).
              { revert E Jp. clear. revert a. induction p as [|[x y] p IHp]; intros a E Jp; cbn in *.
                - exists a. auto.
                - destruct a as [|[z w] a]; cbn in E; [injection E as -> -> E; tauto|]. injection E as -> -> E.
                  destruct (IHp a E) as (r & -> & ->); [tauto|]. exists r. auto. }
              exists (p ++ (k', l') :: r), b. rewrite <- app_assoc. split; auto. rewrite !map_app. cbn. intros z' Hz'.
              apply in_app_or in Hz'. cbn in Hz'. cbn. destruct Hz' as [Hz'|[Hz'|Hz']]; auto; right; apply in_or_app; auto. }
          apply (H _ _ _ E3) in Hz. apply J in Hz. cbn in Hz. exact Hz.
        - destruct (f k') as [er|v] eqn:F; cbn [snd] in E; [eapply H; eauto|]. cbn [cache] in E.
          destruct n as [|mm] eqn:En; [lia|]. cbn [firstn] in E.
          destruct a as [|[x y] a]; cbn in E; [injection E as -> _ _; congruence|]. injection E as <- <- E.
          assert (E2 : cache s = a ++ (k, l) :: (b ++ skipn mm (cache s))).
          { rewrite <- (firstn_skipn mm (cache s)) at 1. rewrite E, <- app_assoc. auto. }
          intros z [<-|Hz]; [left; auto|]. right. eapply H; eauto. }
      eapply (IH (step n eqb f s (ECall k')) k); [apply inv_step; auto|exact step_ok|cbn in N; tauto|exact E|].
      destruct Hx as [Hx|[[<-|Hx] Fx]]; [left|left|right; auto].
      * destruct (f k'); cbn; auto.
      * destruct Fx as (v & Fx). rewrite Fx. left; auto.
    + eapply (IH (step n eqb f s (EMut m v)) k g); [apply inv_step; auto|exact H|exact N|exact E|].
      destruct Hx as [Hx|[Hx Fx]]; auto.
Qed.

(** what is stored under a key is what [f] computed, as long as nobody assigned into the objects *)
Definition clean (s : state) : Prop := forall k l, In (k, l) (cache s) -> exists v, f k = inr v /\ nth_error (heap s) l = Some v.
Lemma clean_call : forall k s, inv s -> clean s -> clean (snd (call k s)).
Proof.
  intros k s I C. unfold Cache.call. destruct (take_key eqb k (cache s)) as [[l c]|] eqn:T.
  - apply take_some in T. destruct T as (a & b & E & -> & N). intros k' l' H. cbn in H. cbn [snd heap]. apply C. rewrite E.
    destruct H as [H|H]; [injection H as <- <-; apply in_or_app; cbn; auto|]. apply in_app_or in H. apply in_or_app. cbn. tauto.
  - destruct (f k) as [e|v] eqn:F; auto. cbn [snd]. intros k' l' H. cbn [cache heap] in *. apply firstn_incl in H.
    destruct H as [H|H].
    + injection H as <- <-. exists v. split; auto. rewrite nth_error_app2 by lia. rewrite Nat.sub_diag. auto.
    + destruct (C _ _ H) as (w & E1 & E2). exists w. split; auto. rewrite nth_error_app1; eauto using i_alloc.
Qed.
Lemma clean_run : forall h s, pure h -> inv s -> clean s -> clean (run h s).
Proof.
  induction h as [|e h IH]; intros s P I C; cbn [Cache.run fold_left]; auto. apply IH.
  - intros l v H. apply (P l v). right; auto.
  - apply inv_step; auto.
  - destruct e as [k|l v]; [apply clean_call; auto|]. exfalso. apply (P l v). left; auto.
Qed.
End Cache_facts.

(** ** C40 *)
(** a later call with the same argument returns the very same object, with every assignment made to it in
    between, as long as fewer than [n] other arguments were used in between *)
Theorem C40_same_object : forall K V eqb (eqb_ok : forall a b : K, eqb a b = true <-> a = b) (f : K -> py V) n,
  0 < n -> forall h0 k l s1 h,
  call n eqb f k (run n eqb f h0 init) = (inr l, s1) ->
  others eqb eqb_ok k h < n ->
  forall v0, nth_error (heap s1) l = Some v0 ->
  exists s3, call n eqb f k (run n eqb f h s1) = (inr l, s3) /\ nth_error (heap s3) l = Some (last_written l v0 h).
Proof.
  intros K V eqb eqb_ok f n Hn h0 k l s1 h H O v0 Hv.
  pose proof (inv_run eqb eqb_ok f n Hn h0 init (inv_init f n Hn)) as I0.
  destruct (call_front eqb eqb_ok f n Hn k _ l s1 I0 H) as [A L].
  assert (I1 : inv f n s1) by (pose proof (inv_call eqb eqb_ok f n Hn k _ I0) as Z; rewrite H in Z; exact Z).
  assert (A2 : at_ k l (nodup (key_dec eqb eqb_ok) (remove (key_dec eqb eqb_ok) k (keys h))) (run n eqb f h s1)).
  { apply at_run; auto.
    - destruct A as (a & b & E & N & G). exists a, b. split; auto. split; auto. intros x Hx. destruct (G x Hx).
    - intros Z. apply nodup_In in Z. apply remove_In in Z. auto.
    - intros x Hx D. apply nodup_In. apply in_in_remove; auto.
    - intros d ND IN. eapply Nat.le_lt_trans; [|exact O]. apply NoDup_incl_length; auto. }
  destruct A2 as (a & b & E & N & _).
  unfold call. rewrite E, take_in by auto. eexists. split; [reflexivity|]. cbn [heap].
  apply (run_heap eqb f n Hn h s1 l v0 L Hv).
Qed.
(** without assignments by callers the memoised function is indistinguishable, in content, from the plain one *)
Theorem C40_transparent_without_mutation : forall K V eqb (eqb_ok : forall a b : K, eqb a b = true <-> a = b) (f : K -> py V) n,
  0 < n -> forall h k, pure h ->
  match f k, call n eqb f k (run n eqb f h init) with
  | inr v, (inr l, s) => nth_error (heap s) l = Some v
  | inl e, (inl e', s) => e' = e /\ s = run n eqb f h init
  | _, _ => False
  end.
Proof.
  intros K V eqb eqb_ok f n Hn h k P.
  pose proof (inv_run eqb eqb_ok f n Hn h init (inv_init f n Hn)) as I.
  assert (C : clean f (run n eqb f h init)) by (apply clean_run; auto; [apply inv_init; auto|intros ? ? []]).
  unfold call. destruct (take_key eqb k _) as [[l c]|] eqn:T.
  - apply (take_some eqb eqb_ok) in T. destruct T as (a & b & E & -> & N).
    destruct (C k l) as (v & -> & Hv); [rewrite E; apply in_or_app; cbn; auto|]. exact Hv.
  - destruct (f k) as [e|v]; auto. cbn [heap]. rewrite nth_error_app2 by lia. rewrite Nat.sub_diag. auto.
Qed.
(** after [n] other arguments were looked up successfully the object is forgotten: a new one, with the computed
    content, is returned *)
Theorem C40_forgotten_after_many : forall K V eqb (eqb_ok : forall a b : K, eqb a b = true <-> a = b) (f : K -> py V) n,
  0 < n -> forall h0 h k v ks, f k = inr v -> ~ In k (keys h) ->
  NoDup ks -> n <= length ks -> (forall x, In x ks -> In x (keys h) /\ exists w, f x = inr w) ->
  let s := run n eqb f (h0 ++ h) init in
  exists s', call n eqb f k s = (inr (length (heap s)), s') /\ nth_error (heap s') (length (heap s)) = Some v.
Proof.
  intros K V eqb eqb_ok f n Hn h0 h k v ks Fk Nk ND Ln Hks s.
  pose proof (inv_run eqb eqb_ok f n Hn h0 init (inv_init f n Hn)) as I0.
  pose proof (inv_run eqb eqb_ok f n Hn (h0 ++ h) init (inv_init f n Hn)) as I.
  unfold s. set (s0 := run n eqb f (h0 ++ h) init) in *.
  assert (Es : s0 = run n eqb f h (run n eqb f h0 init)) by (unfold s0, run; apply fold_left_app).
  unfold call. destruct (take_key eqb k (cache s0)) as [[l c]|] eqn:T.
  - exfalso. apply (take_some eqb eqb_ok) in T. destruct T as (a & b & E & -> & N).
    assert (A : incl ks (map fst a)).
    { intros x Hx. rewrite Es in E. eapply (ahead_run eqb eqb_ok f n Hn h _ k [] I0); eauto. intros ? ? ? ? ? []. }
    apply NoDup_incl_length in A; auto. rewrite map_length in A. pose proof (i_len _ _ _ I) as L. rewrite E, app_length in L. cbn in L. lia.
  - rewrite Fk. eexists. split; [reflexivity|]. cbn [heap]. rewrite nth_error_app2 by lia. rewrite Nat.sub_diag. auto.
Qed.
(** a function that is not memoised returns a new object with the computed content whatever callers did *)
Theorem C40_plain_lookup_always_fresh : forall K V (f : K -> py V) (s : st K V) k,
  match f k, call_plain f k s with
  | inr v, (inr l, s') => nth_error (heap s) l = None /\ nth_error (heap s') l = Some v
  | inl e, (inl e', s') => e' = e /\ s' = s
  | _, _ => False
  end.
Proof.
  intros K V f s k. unfold call_plain. destruct (f k) as [e|v]; auto. cbn [heap]. split.
  - apply nth_error_None. lia.
  - rewrite nth_error_app2 by lia. rewrite Nat.sub_diag. auto.
Qed.
(** two calls that return the same object share every later assignment: in particular the [engine] attributes of
    a FuelFlow and of an Emission object built with the same engine string are one object *)
Theorem C40_shared_between_holders : forall K V eqb (eqb_ok : forall a b : K, eqb a b = true <-> a = b) (f : K -> py V) n,
  0 < n -> forall h0 k l s1 h l2 s2 v0,
  call n eqb f k (run n eqb f h0 init) = (inr l, s1) -> others eqb eqb_ok k h < n -> nth_error (heap s1) l = Some v0 ->
  call n eqb f k (run n eqb f h s1) = (inr l2, s2) ->
  forall w, nth_error (heap (mutate l2 w s2)) l = Some w.
Proof.
  intros K V eqb eqb_ok f n Hn h0 k l s1 h l2 s2 v0 H O Hv H2 w.
  destruct (C40_same_object K V eqb eqb_ok f n Hn h0 k l s1 h H O v0 Hv) as (s3 & E & Hc).
  rewrite E in H2. injection H2 as <- <-. cbn. apply (set_same 1 ltac:(lia)). apply nth_error_Some. congruence.
Qed.

(** the shipped engine table: look up, overwrite the thrust, look up again: the changed value is returned *)
Open Scope string_scope.
(** the shipped lookups remember the results of the last 128 arguments *)
Theorem C40_shipped_limit : forall d (h0 h : list (event string engres)) k l s1, 
  let look := call maxsize String.eqb (engine d) in let run := run maxsize String.eqb (engine d) in
  look k (run h0 init) = (inr l, s1) ->
  (others String.eqb String.eqb_eq k h < 128 -> exists s3, look k (run h s1) = (inr l, s3)) /\
  (forall v ks, engine d k = inr v -> ~ In k (keys h) -> NoDup ks -> 128 <= length ks ->
     (forall x, In x ks -> In x (keys h) /\ exists w, engine d x = inr w) ->
     exists l' s3, look k (run h s1) = (inr l', s3) /\ l' <> l).
Proof.
  intros d h0 h k l s1 look rn H.
  assert (Hn : 0 < maxsize) by (unfold maxsize; lia).
  assert (I0 : inv (engine d) maxsize (rn h0 init)) by (apply inv_run; auto; [exact String.eqb_eq|apply inv_init; auto]).
  destruct (call_front String.eqb String.eqb_eq (engine d) maxsize Hn k (rn h0 init) l s1 I0 H) as [_ L]. split.
  - intros O. destruct (nth_error (heap s1) l) as [v0|] eqn:E; [|apply nth_error_None in E; lia].
    destruct (C40_same_object _ _ String.eqb String.eqb_eq (engine d) maxsize Hn h0 k l s1 h H O v0 E) as (s3 & A & _). eauto.
  - intros v ks Fk N ND Ln Hk.
    destruct (C40_forgotten_after_many _ _ String.eqb String.eqb_eq (engine d) maxsize Hn (h0 ++ [ECall k]) h k v ks Fk N ND Ln Hk)
      as (s3 & A & _).
    assert (Es : rn ((h0 ++ [ECall k]) ++ h)%list init = rn h s1).
    { unfold rn, run. rewrite !fold_left_app. cbn [fold_left step]. f_equal. unfold look, rn, run in H. rewrite H. reflexivity. }
    unfold rn in Es. rewrite Es in A. exists (length (heap (rn h s1))), s3. split; [exact A|].
    destruct (nth_error (heap s1) l) as [v0|] eqn:E; [|apply nth_error_None in E; lia].
    pose proof (proj2 (run_heap String.eqb (engine d) maxsize Hn h s1 l v0 L E)) as B.
    change (run maxsize String.eqb (engine d) h s1) with (rn h s1) in B. lia.
Qed.
Definition engine_call (k : string) (s : st string engres) := call maxsize String.eqb (engine shipped0) k s.
Definition broken (e : engres) : engres := mkEr "broken" (er_row e) None.
Example C40_ex : exists v l s1 s3, engine shipped0 "CFM56-5B4" = inr v /\ engine_call "CFM56-5B4" init = (inr l, s1) /\
  nth_error (heap s1) l = Some v /\
  engine_call "CFM56-5B4" (run maxsize String.eqb (engine shipped0) [ECall "GE90"; EMut l (broken v); ECall "nonsense"] s1) = (inr l, s3) /\
  nth_error (heap s3) l = Some (broken v).
Proof.
  destruct (engine shipped0 "CFM56-5B4") as [|v] eqn:E; [vm_compute in E; discriminate|].
  assert (C : engine_call "CFM56-5B4" init = (inr 0, mkSt [v] [("CFM56-5B4", 0)])).
  { unfold engine_call, call. cbn [cache init take_key]. rewrite E. reflexivity. }
  exists v, 0, (mkSt [v] [("CFM56-5B4", 0)]).
  destruct (C40_same_object string engres String.eqb String.eqb_eq (engine shipped0) maxsize ltac:(unfold maxsize; lia) [] "CFM56-5B4" 0 _
     [ECall "GE90"; EMut 0 (broken v); ECall "nonsense"] C ltac:(vm_compute; lia) v eq_refl) as (s3 & E1 & E2).
  exists s3. repeat split; auto.
Qed.
