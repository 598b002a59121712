(** * Lemmas about the string methods *)
From Coq Require Import String Ascii List Bool Arith Lia.
From Verif Require Import Str.
Import ListNotations.
Open Scope string_scope.

Lemma all_ascii : forall (P : ascii -> bool), forallb (fun n => P (ascii_of_nat n)) (seq 0 256) = true -> forall c, P c = true.
Proof.
  intros P H c. rewrite forallb_forall in H. rewrite <- (ascii_nat_embedding c). apply H.
  apply in_seq. pose proof (nat_ascii_bounded c). lia.
Qed.
Lemma up1_idem : forall c, up1 (up1 c) = up1 c.
Proof.
  intros c. apply Ascii.eqb_eq. revert c.
  apply (all_ascii (fun c => Ascii.eqb (up1 (up1 c)) (up1 c))). vm_compute. reflexivity.
Qed.
Lemma low1_idem : forall c, low1 (low1 c) = low1 c.
Proof.
  intros c. apply Ascii.eqb_eq. revert c.
  apply (all_ascii (fun c => Ascii.eqb (low1 (low1 c)) (low1 c))). vm_compute. reflexivity.
Qed.
Lemma up1_space : forall c, is_space (up1 c) = is_space c.
Proof.
  intros c. apply eqb_prop. revert c.
  apply (all_ascii (fun c => Bool.eqb (is_space (up1 c)) (is_space c))). vm_compute. reflexivity.
Qed.
Lemma upper_idem : forall s, upper (upper s) = upper s.
Proof. induction s as [|c s IH]; cbn; [auto|]. rewrite up1_idem, IH. auto. Qed.
Lemma lower_idem : forall s, lower (lower s) = lower s.
Proof. induction s as [|c s IH]; cbn; [auto|]. rewrite low1_idem, IH. auto. Qed.
Lemma lstrip_upper : forall s, lstrip (upper s) = upper (lstrip s).
Proof. induction s as [|c s IH]; cbn; auto. rewrite up1_space. destruct (is_space c); auto. Qed.
Lemma rstrip_upper : forall s, rstrip (upper s) = upper (rstrip s).
Proof.
  induction s as [|c s IH]; cbn; auto. rewrite IH. rewrite up1_space.
  destruct (rstrip s); cbn; auto. destruct (is_space c); auto.
Qed.
Lemma strip_upper : forall s, strip (upper s) = upper (strip s).
Proof. intros. unfold strip. rewrite lstrip_upper, rstrip_upper. auto. Qed.

Lemma prefix_iff : forall p s, prefix p s = true <-> exists t, s = p ++ t.
Proof.
  induction p as [|c p IH]; intros s; cbn.
  - split; [intros _; exists s; reflexivity|intros _; destruct s; reflexivity].
  - destruct s as [|c' s]; cbn.
    + split; [discriminate|intros (t & E); discriminate].
    + destruct (ascii_dec c c') as [<-|N].
      * rewrite IH. split; intros (t & E); exists t; congruence.
      * split; [discriminate|intros (t & E); congruence].
Qed.
Lemma upper_app : forall a b, upper (a ++ b) = upper a ++ upper b.
Proof. induction a as [|c a IH]; intros; cbn; auto. rewrite IH. auto. Qed.
Lemma app_assoc_s : forall a b c : string, (a ++ b) ++ c = a ++ (b ++ c).
Proof. induction a as [|x a IH]; intros; cbn; auto. rewrite IH. auto. Qed.
Lemma prefix_trans : forall a b c, prefix a b = true -> prefix b c = true -> prefix a c = true.
Proof.
  intros a b c H1 H2. apply prefix_iff in H1, H2. destruct H1 as (t & ->). destruct H2 as (u & ->).
  apply prefix_iff. exists (t ++ u). apply app_assoc_s.
Qed.
Lemma prefix_refl : forall a, prefix a a = true.
Proof. intros. apply prefix_iff. exists "". induction a; cbn; congruence. Qed.

Lemma contains_iff : forall sub s, contains sub s = true <-> exists a b, s = a ++ sub ++ b.
Proof.
  intros sub. induction s as [|c s IH]; cbn [contains].
  - rewrite orb_false_r. rewrite prefix_iff. split.
    + intros (t & E). exists "", t. auto.
    + intros (a & b & E). destruct a; [|discriminate]. exists b. auto.
  - rewrite orb_true_iff, prefix_iff, IH. split.
    + intros [(t & E)|(a & b & ->)]; [exists "", t; auto|exists (String c a), b; auto].
    + intros (a & b & E). destruct a as [|x a]; cbn in E; [left; exists b; auto|].
      right. injection E as _ ->. exists a, b. auto.
Qed.
Lemma contains_app : forall sub s t, contains sub s = true -> contains sub (s ++ t) = true.
Proof.
  intros sub s t H. apply contains_iff in H. destruct H as (a & b & ->). apply contains_iff.
  exists a, (b ++ t). rewrite !app_assoc_s. auto.
Qed.
(** a word that does not begin or end with white space *)
Definition first_ok (s : string) : bool := match s with "" => false | String c _ => negb (is_space c) end.
Fixpoint last_ok (s : string) : bool :=
  match s with "" => false | String c "" => negb (is_space c) | String _ t => last_ok t end.
Definition trimmed (s : string) : bool := first_ok s && last_ok s.

Lemma contains_lstrip : forall sub s, first_ok sub = true -> contains sub s = true -> contains sub (lstrip s) = true.
Proof.
  intros sub s F. induction s as [|c s IH]; intros H; cbn [lstrip]; auto.
  destruct (is_space c) eqn:Sp; auto. apply IH. cbn [contains] in H. apply orb_true_iff in H. destruct H as [H|H]; auto.
  destruct sub as [|c' sub]; [discriminate|]. cbn in H. destruct (ascii_dec c' c) as [->|]; [|discriminate].
  cbn in F. rewrite Sp in F. discriminate.
Qed.
Lemma rstrip_nil_all : forall sub s, rstrip s = "" -> prefix sub s = true -> last_ok sub = true -> False.
Proof.
  induction sub as [|c sub IH]; intros s E P L; [discriminate|].
  destruct s as [|c' s]; [discriminate|]. cbn in P. destruct (ascii_dec c c') as [<-|]; [|discriminate].
  cbn in E. destruct (rstrip s) eqn:R; [|discriminate]. destruct (is_space c) eqn:Sp; [|discriminate].
  destruct sub as [|c2 sub]; [cbn in L; rewrite Sp in L; discriminate|].
  apply (IH s); auto.
Qed.
Lemma prefix_rstrip : forall sub s, last_ok sub = true -> prefix sub s = true -> prefix sub (rstrip s) = true.
Proof.
  induction sub as [|c sub IH]; intros s L P; [discriminate|].
  destruct s as [|c' s]; [discriminate|]. cbn in P. destruct (ascii_dec c c') as [<-|]; [|discriminate].
  cbn [rstrip]. destruct sub as [|c2 sub].
  - cbn in L. apply negb_true_iff in L. rewrite L. destruct (rstrip s); cbn; destruct (ascii_dec c c); auto; congruence.
  - assert (L' : last_ok (String c2 sub) = true) by exact L.
    destruct (rstrip s) eqn:R; [exfalso; eapply rstrip_nil_all; eauto|].
    rewrite <- R. pose proof (IH s L' P) as Q. cbn [prefix]. destruct (ascii_dec c c); [|congruence]. exact Q.
Qed.
Lemma contains_rstrip : forall sub s, last_ok sub = true -> contains sub s = true -> contains sub (rstrip s) = true.
Proof.
  intros sub s L. induction s as [|c s IH]; intros H.
  - exact H.
  - cbn [contains] in H. apply orb_true_iff in H. destruct H as [H|H].
    + apply prefix_rstrip in H; auto. destruct (rstrip (String c s)) eqn:R; [destruct sub; discriminate|].
      cbn [contains]. rewrite H. auto.
    + specialize (IH H). cbn [rstrip]. destruct (rstrip s) eqn:R.
      * destruct sub; [discriminate|]. cbn in IH. discriminate.
      * cbn [contains]. rewrite orb_true_iff. right. exact IH.
Qed.
Lemma contains_strip : forall sub s, trimmed sub = true -> contains sub s = true -> contains sub (strip s) = true.
Proof.
  intros sub s T H. apply andb_true_iff in T. destruct T. unfold strip. apply contains_rstrip, contains_lstrip; auto.
Qed.
Lemma contains_len : forall sub s, contains sub s = true -> (String.length sub <= String.length s)%nat.
Proof.
  intros sub s H. apply contains_iff in H. destruct H as (a & b & ->).
  assert (L : forall x y : string, String.length (x ++ y) = (String.length x + String.length y)%nat) by (induction x; cbn; intros; auto).
  rewrite !L. lia.
Qed.

(** ** glob *)
Fixpoint plain (s : string) : bool :=
  match s with
  | "" => true
  | String c t => negb (Ascii.eqb c "*") && negb (Ascii.eqb c "?") && negb (Ascii.eqb c "[") && negb (Ascii.eqb c "/") && plain t
  end.
Lemma glob_plain : forall p s, plain p = true -> glob_match p s = String.eqb p s.
Proof.
  induction p as [|c p IH]; intros s H; cbn.
  - destruct s; auto.
  - cbn in H. repeat rewrite andb_true_iff in H. destruct H as ((((H1 & H2) & H3) & H4) & H5).
    apply negb_true_iff in H1, H2. rewrite H1, H2. destruct s as [|c' s]; auto. cbn [orb].
    destruct (Ascii.eqb c c') eqn:E; auto. cbn. apply IH; auto.
Qed.
Lemma plain_app : forall a b, plain (a ++ b) = plain a && plain b.
Proof. induction a as [|c a IH]; intros; cbn; auto. rewrite IH. rewrite !andb_assoc. auto. Qed.
Lemma low1_meta : forall c m, In m ["*"; "?"; "["; "/"]%char -> Ascii.eqb (low1 c) m = Ascii.eqb c m.
Proof.
  intros c m Hm. apply eqb_prop. revert c. cbn in Hm.
  destruct Hm as [<-|[<-|[<-|[<-|[]]]]]; apply (all_ascii (fun c => Bool.eqb (Ascii.eqb (low1 c) _) (Ascii.eqb c _))); vm_compute; reflexivity.
Qed.
Lemma plain_lower : forall s, plain (lower s) = plain s.
Proof.
  induction s as [|c s IH]; cbn; auto. rewrite !low1_meta by (cbn; tauto). rewrite IH. auto.
Qed.
Lemma app_inj_r : forall a b c : string, a ++ c = b ++ c -> a = b.
Proof.
  assert (L : forall x y : string, String.length (x ++ y) = (String.length x + String.length y)%nat) by (induction x; cbn; intros; auto).
  induction a as [|x a IH]; intros b c E.
  - destruct b as [|y b]; auto. apply (f_equal String.length) in E. rewrite !L in E. cbn in E. lia.
  - destruct b as [|y b].
    + apply (f_equal String.length) in E. rewrite !L in E. cbn in E. lia.
    + cbn in E. injection E as -> E. f_equal. eapply IH; eauto.
Qed.
Lemma eqb_app_r : forall a b c, String.eqb (a ++ c) (b ++ c) = String.eqb a b.
Proof.
  intros. destruct (String.eqb_spec a b) as [->|N]; [apply String.eqb_refl|].
  apply String.eqb_neq. intros E. apply N. eapply app_inj_r; eauto.
Qed.
Lemma glob_star : forall p s, glob_match p s = true -> glob_match (String "*" p) s = true.
Proof. intros p s H. cbn. destruct s; cbn in *; rewrite H; auto. Qed.
Lemma slen_app : forall x y : string, String.length (x ++ y) = (String.length x + String.length y)%nat.
Proof. induction x; cbn; intros; auto. Qed.
Lemma glob_star_any : forall q pre s, glob_match q s = true -> glob_match (String "*" q) (pre ++ s) = true.
Proof.
  intros q pre s H. induction pre as [|c pre IH]; [apply glob_star; auto|].
  cbn in IH |- *. rewrite IH. apply orb_true_r.
Qed.
Lemma glob_refl_plain : forall p, plain p = true -> glob_match p p = true.
Proof. intros. rewrite glob_plain by auto. apply String.eqb_refl. Qed.
(** the slice [-8:-4] of a path whose file name is four characters and a four character suffix *)
Lemma substring_app : forall a b n, substring (String.length a) n (a ++ b) = substring 0 n b.
Proof. induction a; cbn; auto. Qed.
Lemma slice_ok : forall dir code ext, String.length code = 4%nat -> String.length ext = 4%nat -> slice84 (dir ++ code ++ ext) = code.
Proof.
  intros dir code ext H1 H2. unfold slice84. rewrite !slen_app, H1, H2.
  replace (String.length dir + (4 + 4) - 8)%nat with (String.length dir) by lia.
  replace (String.length dir + (4 + 4) - 4 - String.length dir)%nat with 4%nat by lia.
  rewrite substring_app. destruct code as [|a [|b [|c [|d [|]]]]]; try discriminate. cbn. destruct ext; reflexivity.
Qed.
