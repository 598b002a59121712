(** * Property C104: what the attributes of the BADA4 objects are *)
From Coq Require Import String Ascii List Bool Arith Lia.
From Coq Require Import Reals Lra.
From Verif Require Import Num Py Str Bada4 P_Bada4.
Import ListNotations.
Open Scope list_scope.
Open Scope R_scope.

(** ** What the attributes are *)
(** The texts of a BADA4 file. *)
Record texts : Type := mkTexts {
  x_S : string; x_scalar : string; x_mmax : string; x_d : list string;
  x_mref : string; x_lhv : string; x_a : list string; x_f : list string; x_ti : list string; x_fi : list string;
  x_kink_z : string; x_b_z : list string; x_c_z : list string;
  x_kink_m : string; x_b_m : list string; x_c_m : list string }.
(** The tags that the add-on looks for. *)
Definition known_tags : list string :=
  ["AFCM"; "S"; "DPM_clean"; "scalar"; "M_max"; "CD_clean"; "d"; "PFM"; "MREF"; "LHV"; "TFM"; "CT"; "CF"; "a"; "f"; "LIDL"; "ti"; "fi";
   "MCRZ"; "MCMB"; "kink"; "flat_rating"; "temp_rating"; "b"; "c"]%string.
Definition leaves (tag : string) (l : list string) : list xml := map (leaf tag) l.
Section Document.
(** elements with other tags, anywhere; further elements with the tag of a single number, after it *)
Context (junk : list (string * string)) (again : list string) (t : texts).
Let J : list xml := map (fun p => leaf (fst p) (snd p)) junk.
Definition one (tag text : string) : list xml := (leaf tag text :: leaves tag again)%list.
Definition many (tag : string) (l : list string) : list xml := (J ++ leaves tag l ++ J)%list.
Definition rating_doc (tag k : string) (b c : list string) : xml :=
  node tag (J ++ one "kink" k ++ [node "flat_rating" (many "b" b); node "temp_rating" (many "c" c)] ++ J)%list.
Definition doc : xml :=
  node "bada40_model" (J ++
    [node "AFCM" (J ++ one "S" (x_S t) ++ [node "Configuration" (J ++ [node "LGUP" (J ++ [node "DPM_clean" (J ++ one "scalar" (x_scalar t) ++ one "M_max" (x_mmax t) ++
       [node "CD_clean" (many "d" (x_d t))] ++ J)] ++ J)] ++ J)] ++ J);
     node "PFM" (J ++ one "MREF" (x_mref t) ++ one "LHV" (x_lhv t) ++
       [node "TFM" (J ++ [node "CT" (many "a" (x_a t)); node "CF" (many "f" (x_f t));
         node "LIDL" (J ++ [node "CT" (many "ti" (x_ti t)); node "CF" (many "fi" (x_fi t))] ++ J);
         rating_doc "MCRZ" (x_kink_z t) (x_b_z t) (x_c_z t); rating_doc "MCMB" (x_kink_m t) (x_b_m t) (x_c_m t)] ++ J)] ++ J)] ++ J)%list.

Context (HJ : forall p, In p junk -> ~ In (fst p) known_tags).
Lemma pick_J : forall tag, In tag known_tags -> filter (fun c => String.eqb (x_tag c) tag) J = [].
Proof.
  intros tag K. unfold J. clear t again. induction junk as [|p l IH]; [reflexivity|]. cbn [map filter x_tag leaf].
  destruct (String.eqb_spec (fst p) tag) as [E|_]; [destruct (HJ p (or_introl eq_refl)); rewrite E; exact K|].
  apply IH. intros q Hq. apply HJ. right; exact Hq.
Qed.
Lemma pick_same : forall tag l, filter (fun c => String.eqb (x_tag c) tag) (leaves tag l) = leaves tag l.
Proof. intros tag l. induction l; cbn [leaves map filter x_tag leaf]; auto. rewrite String.eqb_refl. f_equal; auto. Qed.
Lemma pick_other : forall tag tag' l, String.eqb tag' tag = false -> filter (fun c => String.eqb (x_tag c) tag) (leaves tag' l) = [].
Proof. intros tag tag' l E. induction l; cbn [leaves map filter x_tag leaf]; auto. rewrite E. auto. Qed.
Lemma sub_leaves : forall tag l tg, flat_map (fun e => filter (fun c => String.eqb (x_tag c) tg) (x_children e)) (leaves tag l) = [].
Proof. intros tag l tg. induction l; cbn; auto. Qed.
Lemma sub_J : forall tg, flat_map (fun e => filter (fun c => String.eqb (x_tag c) tg) (x_children e)) J = [].
Proof. intros tg. unfold J. clear HJ t again. induction junk; cbn; auto. Qed.
Lemma below_leaves : forall tag l, flat_map (fun c => c :: below c) (leaves tag l) = leaves tag l.
Proof. intros tag l. induction l; cbn in *; auto. f_equal; auto. Qed.
Lemma below_J : flat_map (fun c => c :: below c) J = J.
Proof. unfold J. clear HJ t again. induction junk; cbn in *; auto. f_equal; auto. Qed.

Ltac path := unfold steps, step, doc, rating_doc, node, many, one; cbn [fold_left flat_map x_children app];
  rewrite ?app_nil_r;
  repeat (rewrite ?filter_app, ?flat_map_app, ?pick_same, ?sub_leaves, ?sub_J, ?app_nil_r;
          try rewrite (pick_J _) by (cbn; tauto); try rewrite pick_other by reflexivity;
          cbn [filter flat_map x_children x_tag app leaf String.eqb Ascii.eqb Bool.eqb]).
Lemma p_S : steps ["AFCM"; "S"]%string [doc] = one "S" (x_S t).
Proof. path. reflexivity. Qed.
Lemma p_mref : steps ["PFM"; "MREF"]%string [doc] = one "MREF" (x_mref t).
Proof. path. reflexivity. Qed.
Lemma p_lhv : steps ["PFM"; "LHV"]%string [doc] = one "LHV" (x_lhv t).
Proof. path. reflexivity. Qed.
Lemma p_a : steps ["PFM"; "TFM"; "CT"; "a"]%string [doc] = leaves "a" (x_a t).
Proof. path. reflexivity. Qed.
Lemma p_f : steps ["PFM"; "TFM"; "CF"; "f"]%string [doc] = leaves "f" (x_f t).
Proof. path. reflexivity. Qed.
Lemma p_ti : steps ["PFM"; "TFM"; "LIDL"; "CT"; "ti"]%string [doc] = leaves "ti" (x_ti t).
Proof. path. reflexivity. Qed.
Lemma p_fi : steps ["PFM"; "TFM"; "LIDL"; "CF"; "fi"]%string [doc] = leaves "fi" (x_fi t).
Proof. path. reflexivity. Qed.
Lemma p_kz : steps ["PFM"; "TFM"; "MCRZ"; "kink"]%string [doc] = one "kink" (x_kink_z t).
Proof. path. reflexivity. Qed.
Lemma p_bz : steps ["PFM"; "TFM"; "MCRZ"; "flat_rating"; "b"]%string [doc] = leaves "b" (x_b_z t).
Proof. path. reflexivity. Qed.
Lemma p_cz : steps ["PFM"; "TFM"; "MCRZ"; "temp_rating"; "c"]%string [doc] = leaves "c" (x_c_z t).
Proof. path. reflexivity. Qed.
Lemma p_km : steps ["PFM"; "TFM"; "MCMB"; "kink"]%string [doc] = one "kink" (x_kink_m t).
Proof. path. reflexivity. Qed.
Lemma p_bm : steps ["PFM"; "TFM"; "MCMB"; "flat_rating"; "b"]%string [doc] = leaves "b" (x_b_m t).
Proof. path. reflexivity. Qed.
Lemma p_cm : steps ["PFM"; "TFM"; "MCMB"; "temp_rating"; "c"]%string [doc] = leaves "c" (x_c_m t).
Proof. path. reflexivity. Qed.
Ltac path2 := unfold doc, rating_doc, node, many, one; cbn [below flat_map];
  repeat (rewrite ?flat_map_app, ?below_leaves, ?below_J; cbn [below flat_map app leaf]); path.
Lemma p_scalar : steps ["DPM_clean"; "scalar"]%string (below doc) = one "scalar" (x_scalar t).
Proof. path2. reflexivity. Qed.
Lemma p_mmax : steps ["DPM_clean"; "M_max"]%string (below doc) = one "M_max" (x_mmax t).
Proof. path2. reflexivity. Qed.
Lemma p_d : steps ["CD_clean"; "d"]%string (below doc) = leaves "d" (x_d t).
Proof. path2. reflexivity. Qed.
End Document.

(** the numbers that a list of texts denotes *)
Definition denote (num : string -> option R) (l : list string) (r : list R) : Prop := map num l = map Some r.
Lemma denote_numbers : forall num tag l r, denote num l r -> get_numbers num (leaves tag l) = inr r.
Proof.
  intros num tag l. induction l as [|s l IH]; intros [|x r] H; try discriminate H; [reflexivity|].
  unfold denote in H. cbn [map] in H. injection H as H1 H2. change (leaves tag (s :: l)) with (leaf tag s :: leaves tag l). cbn [get_numbers x_text leaf]. rewrite H1. rewrite (IH r H2). reflexivity.
Qed.
(** Every attribute comes from its own element; elements with other tags do not matter, nor do later elements with the
    tag of a single number. *)
Theorem C104_contents : forall num junk again t dir ac S scalar mmax d mref lhv a f ti fi kz bz cz km bm cm,
  (forall p, In p junk -> ~ In (fst p) known_tags) ->
  load_bada4 dir ac = inr (doc junk again t) ->
  num (x_S t) = Some S -> num (x_scalar t) = Some scalar -> num (x_mmax t) = Some mmax -> denote num (x_d t) d ->
  num (x_mref t) = Some mref -> num (x_lhv t) = Some lhv -> denote num (x_a t) a -> denote num (x_f t) f ->
  denote num (x_ti t) ti -> denote num (x_fi t) fi ->
  num (x_kink_z t) = Some kz -> denote num (x_b_z t) bz -> denote num (x_c_z t) cz ->
  num (x_kink_m t) = Some km -> denote num (x_b_m t) bm -> denote num (x_c_m t) cm ->
  exists od ot of_, b4_drag_new num true dir ac = inr od /\ b4_thrust_new num dir ac = inr ot /\ b4_fuel_new num true dir ac = inr of_ /\
    (d_scalar od = scalar /\ d_d od = d /\ d_mmax od = mmax /\ d_S od = S) /\
    (t_mref ot = mref /\ t_a ot = a /\ t_ti ot = ti /\
     (r_kink (t_mcrz ot) = kz /\ r_b (t_mcrz ot) = bz /\ r_c (t_mcrz ot) = cz) /\
     (r_kink (t_mcmb ot) = km /\ r_b (t_mcmb ot) = bm /\ r_c (t_mcmb ot) = cm)) /\
    (f_thrust of_ = ot /\ f_drag of_ = od /\ f_mref of_ = mref /\ f_f of_ = f /\ f_fi of_ = fi /\ f_lhv of_ = lhv).
Proof.
  intros num junk again t dir ac S scalar mmax d mref lhv a f ti fi kz bz cz km bm cm HJ L N1 N2 N3 N4 N5 N6 N7 N8 N9 N10 N11 N12 N13 N14 N15 N16.
  assert (ED : b4_drag_new num true dir ac = inr (mkB4d scalar d mmax S)).
  { unfold b4_drag_new. rewrite L. cbn [need_sci]. rewrite (p_scalar junk again t HJ), (p_mmax junk again t HJ), (p_d junk again t HJ), (p_S junk again t HJ), (denote_numbers num "d" _ d N4).
    unfold one. cbn [get_number x_text leaf]. rewrite N2, N3, N1. reflexivity. }
  assert (ET : b4_thrust_new num dir ac = inr (mkB4t mref a ti (mkB4r kz bz cz) (mkB4r km bm cm))).
  { unfold b4_thrust_new, b4_rating_new. rewrite L. rewrite (p_mref junk again t HJ), (p_a junk again t HJ), (p_ti junk again t HJ), (p_kz junk again t HJ), (p_bz junk again t HJ),
      (p_cz junk again t HJ), (p_km junk again t HJ), (p_bm junk again t HJ), (p_cm junk again t HJ).
    rewrite (denote_numbers num "a" _ a N7), (denote_numbers num "ti" _ ti N9), (denote_numbers num "b" _ bz N12), (denote_numbers num "c" _ cz N13),
      (denote_numbers num "b" _ bm N15), (denote_numbers num "c" _ cm N16).
    unfold one. cbn [get_number x_text leaf]. rewrite N5, N11, N14. reflexivity. }
  eexists _, _, _. split; [exact ED|]. split; [exact ET|]. split.
  - unfold b4_fuel_new. rewrite ED, ET, L. rewrite (p_mref junk again t HJ), (p_lhv junk again t HJ), (p_f junk again t HJ), (p_fi junk again t HJ).
    rewrite (denote_numbers num "f" _ f N8), (denote_numbers num "fi" _ fi N10). unfold one. cbn [get_number x_text leaf]. rewrite N5, N6. reflexivity.
  - repeat split.
Qed.
Example C104_contents_ex :
  let t := mkTexts "122.6" "1" "0.8" (repeat "0" 15) "64000" "43000000" (repeat "1" 36) (repeat "1" 25) (repeat "0" 12) (repeat "1" 9)
             "0" (repeat "1" 36) (repeat "0" 45) "1" (repeat "0" 36) (repeat "1" 45) in
  (exists o, b4_thrust_new num1 [("A320-231", [Some (doc [("Sref", "1"); ("d2", "0")] ["1"; "zzz"] t)])] "A320" = inr o /\
    r_kink (t_mcrz o) = 0 /\ r_kink (t_mcmb o) = 1 /\ r_b (t_mcmb o) = repeat 0 36)%string.
Proof.
  cbv zeta. pose (t := (mkTexts "122.6" "1" "0.8" (repeat "0" 15) "64000" "43000000" (repeat "1" 36) (repeat "1" 25) (repeat "0" 12) (repeat "1" 9)
             "0" (repeat "1" 36) (repeat "0" 45) "1" (repeat "0" 36) (repeat "1" 45))%string).
  destruct (C104_contents num1 [("Sref", "1"); ("d2", "0")]%string ["1"; "zzz"]%string t [("A320-231", [Some (doc [("Sref", "1"); ("d2", "0")] ["1"; "zzz"] t)])]%string "A320"
    122.6 1 0.8 (repeat 0 15) 64000 43000000 (repeat 1 36) (repeat 1 25) (repeat 0 12) (repeat 1 9) 0 (repeat 1 36) (repeat 0 45) 1 (repeat 0 36) (repeat 1 45))
    as (od & ot & of_ & _ & E & _ & _ & (_ & _ & _ & K1 & K2) & _); try reflexivity.
  - intros p [<-|[<-|[]]]; cbn; intuition discriminate.
  - exists ot. split; [exact E|]. tauto.
Qed.
