(** * Lemmas about the reader of YAML files *)
From Coq Require Import String Ascii List Bool Arith ZArith QArith Lia.
From Verif Require Import Regex Bada3Text Py PropPy FileText FileLoad SpecFile FileFacts.
Import ListNotations.
Open Scope char_scope.
Open Scope nat_scope.
Open Scope list_scope.

(** ** Characters *)
Ltac chars := intros [[] [] [] [] [] [] [] []]; vm_compute; intuition congruence.
Lemma letter_char c : letter c = true ->
  blank c = false /\ digit c = false /\ existsb (Ascii.eqb c) [","; "["; "]"; "{"; "}"; "#"; "&"; "*"; "!"; "|"; ">"; "'"; """"; "%"; "@"; "`"] = false /\
  existsb (Ascii.eqb c) ["-"; "?"; ":"] = false /\ Ascii.eqb c "." = false /\ Ascii.eqb c "<" = false /\ Ascii.eqb c "=" = false /\
  Ascii.eqb c "-" = false /\ Ascii.eqb c "+" = false.
Proof. revert c. chars. Qed.
Lemma name_char_ok c : name_char c = true -> c <> "#" /\ c <> ":" /\ c <> nl /\ printable c.
Proof.
  intros H. assert (P : printable c).
  { revert H. unfold printable. destruct c as [[] [] [] [] [] [] [] []]; vm_compute; intros H; try discriminate H; lia. }
  revert H P. revert c. intros [[] [] [] [] [] [] [] []]; vm_compute; intros H P; try discriminate H; repeat (split; [congruence |]); exact P.
Qed.
Lemma digit_char d : d < 10 -> let c := dig d in
  blank c = false /\ digit c = true /\ c <> "#" /\ c <> ":" /\ c <> nl /\ printable c /\
  existsb (Ascii.eqb c) [","; "["; "]"; "{"; "}"; "#"; "&"; "*"; "!"; "|"; ">"; "'"; """"; "%"; "@"; "`"] = false /\
  existsb (Ascii.eqb c) ["-"; "?"; ":"] = false /\ Ascii.eqb c "." = false /\ Ascii.eqb c "<" = false /\ Ascii.eqb c "=" = false /\
  Ascii.eqb c "-" = false /\ Ascii.eqb c "+" = false /\ Ascii.eqb c "_" = false /\ Ascii.eqb c "x" = false /\ Ascii.eqb c "b" = false.
Proof.
  intros H c. unfold printable.
  do 10 (destruct d as [| d]; [repeat (split; [first [reflexivity | vm_compute; discriminate | split; apply Nat.leb_le; reflexivity] |]); reflexivity |]). lia.
Qed.

(** ** Scalars *)
Lemma name_ne_words s ws : ~ In (st_ s) reserved -> (forall w, In w ws -> In w reserved) -> one_of ws s = false.
Proof.
  intros N H. unfold one_of. destruct (existsb (String.eqb (st_ s)) ws) eqn:E; [| easy].
  apply existsb_exists in E. destruct E as (w & I & E). apply String.eqb_eq in E. subst w. exfalso. auto.
Qed.
Lemma letter_start c r : letter c = true -> plain_start (c :: r) = true.
Proof.
  intros L. destruct (letter_char c L) as (_ & _ & E1 & E2 & E3 & _ & _ & E4 & _). unfold plain_start. rewrite E1, E2.
  assert (P : forall x y, (c = x -> False) -> String.prefix (String x y) (st_ (c :: r)) = false).
  { intros x y D. cbn. destruct (ascii_dec x c); [exfalso; auto | easy]. }
  rewrite !P; [easy | |]; intros ->; discriminate.
Qed.
Lemma resolve_letter c r : letter c = true -> ~ In (st_ (c :: r)) reserved -> resolve (c :: r) = Some (SStr (st_ (c :: r))).
Proof.
  intros L N. destruct (letter_char c L) as (_ & D & _ & _ & E1 & E2 & E3 & E4 & E5).
  unfold resolve. assert (R : one_of ["~"]%string (c :: r) = false).
  { unfold one_of. cbn. destruct (Ascii.eqb_spec c "~") as [-> | X]; [discriminate L |]. destruct c as [[] [] [] [] [] [] [] []]; try reflexivity; now destruct X. }
  assert (R0 : one_of null_words (c :: r) = false).
  { assert (Q0 : one_of null_words (c :: r) = one_of ["~"]%string (c :: r) || one_of ["null"; "Null"; "NULL"]%string (c :: r)).
    { unfold one_of, null_words. exact (existsb_app (String.eqb (st_ (c :: r))) ["~"]%string ["null"; "Null"; "NULL"]%string). }
    rewrite Q0, R. apply name_ne_words; [easy |]. intros w I. cbn in I |- *. intuition. }
  rewrite R0.
  rewrite (name_ne_words _ true_words), (name_ne_words _ false_words); [| easy | | easy |];
    try (intros w I; cbn in I |- *; intuition).
  assert (S0 : special (c :: r) = false).
  { unfold special, take_sign. rewrite E4, E5, D, E1, E2, E3. cbn [andb orb]. cbn [firstn forallb]. rewrite D. reflexivity. }
  rewrite S0.
  assert (I0 : yaml_int (c :: r) = None).
  { unfold yaml_int, take_sign. rewrite E4, E5. cbn [forallb]. rewrite D. cbn [andb].
    destruct c as [[] [] [] [] [] [] [] []]; try discriminate L; reflexivity. }
  assert (F0 : yaml_float (c :: r) = None).
  { unfold yaml_float, take_sign. rewrite E4, E5. cbn [span]. rewrite D.
    destruct c as [[] [] [] [] [] [] [] []]; try discriminate L; reflexivity. }
  now rewrite I0, F0.
Qed.
Lemma resolve_name s : is_name s -> resolve s = Some (SStr (st_ s)).
Proof. intros ((c & r & -> & L) & _ & _ & N). now apply resolve_letter. Qed.
Lemma signed_sgn n z : signed n z = sgn n z.
Proof. reflexivity. Qed.
Lemma p10_pow n : p10 n = Pos.of_nat (10 ^ n).
Proof.
  induction n as [| n IH]; [reflexivity |]. cbn [p10]. rewrite IH. rewrite Nat.pow_succ_r'.
  rewrite Nat2Pos.inj_mul; [reflexivity | easy | apply Nat.pow_nonzero; easy].
Qed.
Lemma sign_digits neg d ds r : d < 10 -> take_sign (minus neg ++ dig d :: ds ++ r) = (neg, dig d :: ds ++ r).
Proof.
  intros H. destruct (digit_char d H) as (_ & _ & _ & _ & _ & _ & _ & _ & _ & _ & _ & E1 & E2 & _).
  destruct neg; [reflexivity |]. cbn [minus app]. unfold take_sign. now rewrite E1, E2.
Qed.
Definition num_start (c : ascii) : Prop := c = "-" \/ exists d, d < 10 /\ c = dig d.
Lemma words_num c r : num_start c ->
  one_of null_words (c :: r) = false /\ one_of true_words (c :: r) = false /\ one_of false_words (c :: r) = false.
Proof.
  intros [-> | (d & H & ->)]; [repeat split |].
  do 10 (destruct d as [| d]; [repeat split |]). lia.
Qed.
Lemma none_in (P : ascii -> bool) l n m : List.Forall (fun a => P a = false) l -> existsb P (firstn n (skipn m l)) = false.
Proof.
  intros H. destruct (existsb P (firstn n (skipn m l))) eqn:E; [| easy]. apply existsb_exists in E. destruct E as (x & I & E).
  rewrite List.Forall_forall in H. rewrite H in E; [discriminate |].
  rewrite <- (firstn_skipn m l). apply in_or_app. right. rewrite <- (firstn_skipn n (skipn m l)). apply in_or_app. now left.
Qed.
Lemma none_all (P : ascii -> bool) l : List.Forall (fun a => P a = false) l -> existsb P l = false.
Proof. intros H. rewrite <- (none_in P l (length l) 0 H). cbn. now rewrite firstn_all. Qed.
(** a digit, or the point *)
Definition dd (c : ascii) : Prop := (exists d, d < 10 /\ c = dig d) \/ c = ".".
Lemma dd_not l (P : ascii -> bool) : List.Forall dd l -> P "." = false -> (forall d, d < 10 -> P (dig d) = false) ->
  List.Forall (fun a => P a = false) l.
Proof. intros H E1 E2. apply (List.Forall_impl _ (P := dd)); [| exact H]. intros a [(d & L & ->) | ->]; auto. Qed.
Lemma special_num neg d r : d < 10 -> List.Forall dd r -> special (minus neg ++ dig d :: r) = false.
Proof.
  intros L H. unfold special. pose proof (sign_digits neg d r [] L) as E. rewrite app_nil_r in E. rewrite E.
  destruct (digit_char d L) as (_ & D & _ & _ & _ & _ & _ & _ & E1 & E2 & E3 & _).
  rewrite D, E1, E2, E3. cbn [andb orb].
  rewrite (none_all (fun a => Ascii.eqb a "_" || Ascii.eqb a ":") r); cycle 1.
  { apply dd_not; [exact H | reflexivity |]. intros x Lx. do 10 (destruct x as [| x]; [reflexivity |]). lia. }
  pose proof (none_in (fun a => Ascii.eqb a "x" || Ascii.eqb a "b") r 1 0) as N1. cbn [skipn] in N1. rewrite N1; cycle 1.
  { apply dd_not; [exact H | reflexivity |]. intros x Lx. do 10 (destruct x as [| x]; [reflexivity |]). lia. }
  cbn [orb].
  assert (S0 : exists m, skipn 4 (minus neg ++ dig d :: r) = skipn m r) by (destruct neg; [now exists 2 | now exists 3]).
  destruct S0 as [m ->]. rewrite (none_in (fun a => Ascii.eqb a "-") r 1 m); cycle 1.
  { apply dd_not; [exact H | reflexivity |]. intros x Lx. do 10 (destruct x as [| x]; [reflexivity |]). lia. }
  now rewrite andb_false_r.
Qed.
Lemma dd_digits ds : digits ds -> List.Forall dd (map dig ds).
Proof. induction 1 as [| d r L _ IH]; constructor; [left; eauto | exact IH]. Qed.
Lemma num_head neg d r : d < 10 -> exists c t, minus neg ++ dig d :: r = c :: t /\ num_start c.
Proof. intros L. destruct neg; do 2 eexists; split; try reflexivity; [now left | right; eauto]. Qed.

Lemma resolve_int neg ds : ds <> [] -> digits ds -> (hd 0 ds <> 0 \/ ds = [0]) ->
  resolve (minus neg ++ map dig ds) = Some (SInt (sgn neg (horner ds))).
Proof.
  intros NE H Z0. destruct ds as [| d r]; [easy |]. inversion H as [| ? ? L Hr]; subst. cbn [map].
  unfold resolve. destruct (num_head neg d (map dig r) L) as (c & t & E & NS). rewrite E.
  destruct (words_num c t NS) as (-> & -> & ->). rewrite <- E.
  rewrite special_num by (auto using dd_digits).
  unfold yaml_int. pose proof (sign_digits neg d (map dig r) [] L) as E2. rewrite app_nil_r in E2. rewrite E2. clear E2.
  destruct (Ascii.eqb (dig d) "0") eqn:E0.
  - assert (d = 0) by (do 10 (destruct d as [| d]; [try discriminate E0; reflexivity |]); lia). subst d.
    destruct Z0 as [Z0 | Z0]; [now destruct Z0 |]. injection Z0 as ->. cbn. now destruct neg.
  - change (dig d :: map dig r) with (map dig (d :: r)). rewrite digits_all, digits_horner by exact H. reflexivity.
Qed.
Lemma resolve_dec neg ds fs : ds <> [] -> digits ds -> digits fs ->
  resolve (minus neg ++ map dig ds ++ "." :: map dig fs) =
  Some (SFloat (scale10 (Qmake (sgn neg (horner (ds ++ fs))) (Pos.of_nat (10 ^ length fs))) 0)).
Proof.
  intros NE H Hf. destruct ds as [| d r]; [easy |]. inversion H as [| ? ? L Hr]; subst. cbn [map app].
  assert (DD : List.Forall dd (map dig r ++ "." :: map dig fs)).
  { apply List.Forall_app. split; [now apply dd_digits |]. constructor; [now right | now apply dd_digits]. }
  unfold resolve. destruct (num_head neg d (map dig r ++ "." :: map dig fs) L) as (c & t & E & NS). rewrite E.
  destruct (words_num c t NS) as (-> & -> & ->). rewrite <- E.
  rewrite special_num by auto.
  assert (E2 : take_sign (minus neg ++ dig d :: map dig r ++ "." :: map dig fs) = (neg, map dig (d :: r) ++ "." :: map dig fs)).
  { rewrite sign_digits by exact L. reflexivity. }
  assert (I0 : yaml_int (minus neg ++ dig d :: map dig r ++ "." :: map dig fs) = None).
  { unfold yaml_int. rewrite E2. cbn [map app].
    destruct (Ascii.eqb (dig d) "0").
    - destruct (map dig r ++ "." :: map dig fs) as [| a b] eqn:F; [now destruct (map dig r) |]. rewrite <- F.
      rewrite forallb_app. cbn. now rewrite andb_false_r.
    - change (dig d :: map dig r ++ "." :: map dig fs) with (map dig (d :: r) ++ "." :: map dig fs).
      rewrite forallb_app. cbn. now rewrite andb_false_r. }
  rewrite I0. unfold yaml_float. rewrite E2.
  rewrite span_digits by (auto; reflexivity). cbn [Ascii.eqb]. change (Ascii.eqb "." ".") with true. cbv iota.
  pose proof (span_digits fs [] Hf I) as E3. rewrite app_nil_r in E3. rewrite E3.
  cbn [map yaml_exponent option_map]. unfold decimal. change (dig d :: map dig r) with (map dig (d :: r)).
  rewrite <- map_app, digits_horner by (apply List.Forall_app; auto). rewrite map_length, p10_pow. reflexivity.
Qed.
Lemma yaml_exponent_tens (big eneg : bool) es q : es <> [] -> digits es ->
  option_map (scale10 q) (yaml_exponent ((if big then "E" else "e")%char :: (if eneg then "-" else "+")%char :: map dig es)) = Some (q * tens eneg es)%Q.
Proof.
  intros NE H. unfold yaml_exponent.
  assert (G1 : Ascii.eqb (if big then "E" else "e")%char "e" || Ascii.eqb (if big then "E" else "e")%char "E" = true) by now destruct big.
  assert (G2 : Ascii.eqb (if eneg then "-" else "+")%char "+" || Ascii.eqb (if eneg then "-" else "+")%char "-" = true) by now destruct eneg.
  assert (G3 : Ascii.eqb (if eneg then "-" else "+")%char "-" = eneg) by now destruct eneg.
  rewrite G1, G2, G3. cbn [andb]. pose proof (span_digits es [] H I) as SP. rewrite app_nil_r in SP. rewrite SP.
  rewrite digits_horner by exact H. destruct es as [| e es]; [easy |]. cbn [map option_map]. f_equal.
  assert (P0 : (0 <= horner (e :: es))%Z).
  { clear. unfold horner. assert (G : forall l v, (0 <= v)%Z -> (0 <= fold_left (fun v d => 10 * v + Z.of_nat d)%Z l v)%Z).
    { induction l as [| a l IH]; intros v V; cbn [fold_left]; [exact V |]. apply IH. lia. }
    apply G. lia. }
  assert (G : forall n, (Z.pos (p10 n) = 10 ^ Z.of_nat n)%Z).
  { induction n as [| n IHn]; [reflexivity |]. cbn [p10]. rewrite Nat2Z.inj_succ, Z.pow_succ_r by lia. rewrite Pos2Z.inj_mul, IHn. reflexivity. }
  unfold tens, scale10. destruct (horner (e :: es)) as [| p | p] eqn:HE; [now destruct eneg | | exfalso; now apply P0].
  destruct eneg; cbn [signed].
  - change (Z.to_nat (Z.pos p)) with (Pos.to_nat p). rewrite <- p10_pow. reflexivity.
  - rewrite G. change (Z.to_nat (Z.pos p)) with (Pos.to_nat p). rewrite positive_nat_Z. reflexivity.
Qed.
Lemma no_mark l : digits l -> List.Forall (fun a => (Ascii.eqb a "_" || Ascii.eqb a ":") = false) (map dig l).
Proof. intros HH. induction HH as [| x l Lx _ IH]; constructor; [| exact IH]. do 10 (destruct x as [| x]; [reflexivity |]). lia. Qed.
Lemma special_point neg ds t : ds <> [] -> digits ds -> List.Forall (fun a => (Ascii.eqb a "_" || Ascii.eqb a ":") = false) t ->
  special (minus neg ++ map dig ds ++ "." :: t) = false.
Proof.
  intros NE H Ht. destruct ds as [| d r]; [easy |]. inversion H as [| ? ? L Hr]; subst.
  set (tl := "." :: t).
  cbn [map app]. unfold special. rewrite sign_digits by exact L.
  destruct (digit_char d L) as (_ & D & _ & _ & _ & _ & _ & _ & E1 & E2 & E3 & _).
  rewrite D, E1, E2, E3. cbn [andb orb].
  rewrite (none_all (fun a => Ascii.eqb a "_" || Ascii.eqb a ":") (map dig r ++ tl)); cycle 1.
  { apply List.Forall_app. split; [now apply no_mark |]. constructor; [reflexivity | exact Ht]. }
  assert (X : existsb (fun a => Ascii.eqb a "x" || Ascii.eqb a "b") (firstn 1 (map dig r ++ tl)) = false).
  { destruct r as [| x r]; [reflexivity |]. inversion Hr as [| ? ? Lx _]; subst. cbn. do 10 (destruct x as [| x]; [reflexivity |]). lia. }
  rewrite X. cbn [orb]. rewrite !orb_false_r.
  destruct neg; [reflexivity |]. cbn [minus app].
  destruct r as [| x1 r]; [cbn; now rewrite !andb_false_r |]. destruct r as [| x2 r]; [cbn; now rewrite !andb_false_r |].
  destruct r as [| x3 r]; [cbn; now rewrite !andb_false_r |]. destruct r as [| x4 r]; [cbn [map app firstn skipn existsb tl]; now rewrite !andb_false_r |].
  cbn [map app firstn skipn existsb]. inversion Hr as [| ? ? _ H1]; subst. inversion H1 as [| ? ? _ H2]; subst.
  inversion H2 as [| ? ? _ H3]; subst. inversion H3 as [| ? ? L4 _]; subst.
  destruct (digit_char x4 L4) as (_ & _ & _ & _ & _ & _ & _ & _ & _ & _ & _ & -> & _). now rewrite andb_false_r.
Qed.
Lemma resolve_point neg ds fs ex : ds <> [] -> digits ds -> digits fs ->
  List.Forall (fun a => (Ascii.eqb a "_" || Ascii.eqb a ":") = false) ex -> match ex with c :: _ => digit c = false | [] => True end ->
  let l := minus neg ++ map dig ds ++ "." :: map dig fs ++ ex in
  resolve l = match option_map (scale10 (Qmake (sgn neg (horner (ds ++ fs))) (Pos.of_nat (10 ^ length fs)))) (yaml_exponent ex) with
              | Some q => Some (SFloat q)
              | None => Some (SStr (st_ l))
              end.
Proof.
  intros NE H Hf Hx HD l. unfold l. clear l.
  assert (SP : special (minus neg ++ map dig ds ++ "." :: map dig fs ++ ex) = false).
  { apply special_point; [exact NE | exact H |]. apply List.Forall_app. split; [now apply no_mark | exact Hx]. }
  destruct ds as [| d r]; [easy |]. inversion H as [| ? ? L Hr]; subst. cbn [map app] in SP |- *.
  unfold resolve. destruct (num_head neg d (map dig r ++ "." :: map dig fs ++ ex) L) as (c & t & E & NS). rewrite E.
  destruct (words_num c t NS) as (-> & -> & ->). rewrite <- E. rewrite SP.
  assert (E2 : take_sign (minus neg ++ dig d :: map dig r ++ "." :: map dig fs ++ ex) = (neg, map dig (d :: r) ++ "." :: map dig fs ++ ex)).
  { rewrite sign_digits by exact L. reflexivity. }
  assert (I0 : yaml_int (minus neg ++ dig d :: map dig r ++ "." :: map dig fs ++ ex) = None).
  { unfold yaml_int. rewrite E2. cbn [map app].
    destruct (Ascii.eqb (dig d) "0").
    - destruct (map dig r ++ "." :: map dig fs ++ ex) as [| a b] eqn:F; [now destruct (map dig r) |]. rewrite <- F.
      rewrite forallb_app. cbn. now rewrite andb_false_r.
    - change (dig d :: map dig r ++ "." :: map dig fs ++ ex) with (map dig (d :: r) ++ "." :: map dig fs ++ ex).
      rewrite forallb_app. cbn. now rewrite andb_false_r. }
  rewrite I0. unfold yaml_float. rewrite E2.
  rewrite span_digits by (auto; reflexivity). cbn [Ascii.eqb]. change (Ascii.eqb "." ".") with true. cbv iota.
  rewrite (span_digits fs ex Hf HD). cbn [map].
  unfold decimal. change (dig d :: map dig r) with (map dig (d :: r)).
  rewrite <- map_app, digits_horner by (apply List.Forall_app; auto). rewrite map_length, p10_pow. reflexivity.
Qed.
Lemma resolve_exp neg ds fs (big eneg : bool) es : ds <> [] -> digits ds -> digits fs -> es <> [] -> digits es ->
  resolve (minus neg ++ map dig ds ++ "." :: map dig fs ++ (if big then "E" else "e")%char :: (if eneg then "-" else "+")%char :: map dig es) =
  Some (SFloat (Qmake (sgn neg (horner (ds ++ fs))) (Pos.of_nat (10 ^ length fs)) * tens eneg es)%Q).
Proof.
  intros NE H Hf NEe He. pose proof (resolve_point neg ds fs ((if big then "E" else "e")%char :: (if eneg then "-" else "+")%char :: map dig es) NE H Hf) as R.
  cbv zeta in R. rewrite R.
  - now rewrite yaml_exponent_tens.
  - constructor; [now destruct big |]. constructor; [now destruct eneg | now apply no_mark].
  - now destruct big.
Qed.
Lemma resolve_unsigned neg ds fs (big : bool) es : ds <> [] -> digits ds -> digits fs -> digits es ->
  let l := minus neg ++ map dig ds ++ "." :: map dig fs ++ (if big then "E" else "e")%char :: map dig es in
  resolve l = Some (SStr (st_ l)).
Proof.
  intros NE H Hf He l. unfold l. pose proof (resolve_point neg ds fs ((if big then "E" else "e")%char :: map dig es) NE H Hf) as R.
  cbv zeta in R. rewrite R.
  - destruct He as [| d es L He]; [now destruct big |]. cbn [map yaml_exponent].
    destruct (digit_char d L) as (_ & _ & _ & _ & _ & _ & _ & _ & _ & _ & _ & -> & -> & _). now rewrite andb_false_r.
  - constructor; [now destruct big | now apply no_mark].
  - now destruct big.
Qed.
Lemma scale10_0 q : scale10 q 0 = q.
Proof. unfold scale10. cbn. unfold Qmult. destruct q as [a b]. cbn. now rewrite Z.mul_1_r, Pos.mul_1_r. Qed.

(** a text without colon, comment sign or end of line that is read as the value *)
Definition reads (v : text) (x : scal) : Prop :=
  scalar v = Some x /\ List.Forall (fun c => c <> "#" /\ c <> ":" /\ c <> nl /\ printable c) v /\ solid v /\
  exists c r, v = c :: r /\ blank c = false.
Lemma digits_clean ds : digits ds -> List.Forall (fun c => c <> "#" /\ c <> ":" /\ c <> nl /\ printable c) (map dig ds).
Proof.
  induction 1 as [| d r L _ IH]; constructor; [| exact IH].
  destruct (digit_char d L) as (_ & _ & A & B & C & D & _). auto.
Qed.
Lemma digits_solid ds : ds <> [] -> digits ds -> solid (map dig ds).
Proof.
  intros NE H. destruct (exists_last NE) as (i & d & ->). rewrite map_app. apply solid_app. apply solid_one.
  apply List.Forall_app in H. destruct H as [_ H]. inversion H as [| ? ? L _]; subst. now destruct (digit_char d L).
Qed.
Lemma plain_num neg d r : d < 10 -> plain_start (minus neg ++ dig d :: r) = true.
Proof.
  intros L. destruct (digit_char d L) as (B & _ & _ & _ & _ & _ & E1 & E2 & E3 & _ & _ & E4 & _).
  assert (N1 : dig d <> "-") by (intros E; rewrite E in E4; discriminate).
  assert (N2 : dig d <> ".") by (intros E; rewrite E in E3; discriminate).
  destruct neg; unfold plain_start, minus; cbn [app].
  - cbn [existsb Ascii.eqb]. change (existsb _ [","; "["; "]"; "{"; "}"; "#"; "&"; "*"; "!"; "|"; ">"; "'"; """"; "%"; "@"; "`"]) with false.
    rewrite B. cbn [negb orb andb]. unfold st_. cbn [string_of_list_ascii String.prefix].
    destruct (ascii_dec "-" "-"); [| easy]. destruct (ascii_dec "-" (dig d)); [congruence |].
    destruct (ascii_dec "." "-"); [discriminate |]. reflexivity.
  - rewrite E1, E2. cbn [negb andb]. unfold st_. cbn [string_of_list_ascii String.prefix].
    destruct (ascii_dec "-" (dig d)); [congruence |]. destruct (ascii_dec "." (dig d)); [congruence |]. reflexivity.
Qed.
Lemma no_colon v : List.Forall (fun c => c <> "#" /\ c <> ":" /\ c <> nl /\ printable c) v -> ~ In ":" v.
Proof. intros H I. rewrite List.Forall_forall in H. now destruct (H _ I) as (_ & E & _). Qed.
Lemma no_hash v : List.Forall (fun c => c <> "#" /\ c <> ":" /\ c <> nl /\ printable c) v -> List.Forall (fun c => c <> "#") v.
Proof. apply List.Forall_impl. now intros a (E & _). Qed.
Lemma name_reads s : is_name s -> reads s (SStr (st_ s)).
Proof.
  intros H. pose proof (resolve_name s H) as R. destruct H as ((c & r & -> & L) & (i & c2 & Ei & N2) & F & N).
  assert (C : List.Forall (fun c => c <> "#" /\ c <> ":" /\ c <> nl /\ printable c) (c :: r)).
  { apply (List.Forall_impl _ (P := fun c => name_char c = true)); [| exact F]. intros a. apply name_char_ok. }
  split; [| split; [exact C | split]].
  - unfold scalar. rewrite letter_start by exact L. rewrite key_split_none by (now apply no_colon). exact R.
  - exists i, c2. split; [exact Ei |]. unfold blank. now destruct (Ascii.eqb_spec c2 " ").
  - exists c, r. split; [reflexivity |]. now destruct (letter_char c L).
Qed.
Ltac word := split; [reflexivity |]; split; [repeat constructor; try discriminate; apply Nat.leb_le; reflexivity |]; split;
  [match goal with |- solid ?s => exists (removelast s), (last s " "); split; reflexivity end | do 2 eexists; split; reflexivity].
Lemma stands_reads v x : stands_for v x -> reads v x.
Proof.
  intros H. destruct H as [w I | w b I | neg ds NE H Z0 | neg ds fs q NE H Hf -> | neg ds fs big eneg es q NE H Hf NEe He -> | s H].
  - cbn in I. repeat (destruct I as [<- | I]; [word |]). destruct I.
  - cbn in I. repeat (destruct I as [I | I]; [injection I as <- <-; word |]). destruct I.
  - pose proof (resolve_int neg ds NE H Z0) as R.
    assert (C : List.Forall (fun c => c <> "#" /\ c <> ":" /\ c <> nl /\ printable c) (minus neg ++ map dig ds)).
    { apply List.Forall_app. split; [| now apply digits_clean]. destruct neg; repeat constructor; try discriminate; apply Nat.leb_le; reflexivity. }
    split; [| split; [exact C | split]].
    + unfold scalar. rewrite key_split_none by (now apply no_colon). destruct ds as [| d r]; [easy |]. inversion H; subst.
      cbn [map]. rewrite plain_num by easy. exact R.
    + apply solid_app. now apply digits_solid.
    + destruct ds as [| d r]; [easy |]. inversion H as [| ? ? L _]; subst. destruct neg; do 2 eexists; (split; [reflexivity |]); [reflexivity |].
      now destruct (digit_char d L).
  - pose proof (resolve_dec neg ds fs NE H Hf) as R. rewrite scale10_0 in R.
    assert (C : List.Forall (fun c => c <> "#" /\ c <> ":" /\ c <> nl /\ printable c) (minus neg ++ map dig ds ++ "." :: map dig fs)).
    { apply List.Forall_app. split.
      { destruct neg; repeat constructor; try discriminate; apply Nat.leb_le; reflexivity. }
      apply List.Forall_app. split; [now apply digits_clean |].
      constructor; [| now apply digits_clean]. repeat constructor; try discriminate; apply Nat.leb_le; reflexivity. }
    split; [| split; [exact C | split]].
    + unfold scalar. rewrite key_split_none by (now apply no_colon). destruct ds as [| d r]; [easy |]. inversion H; subst.
      cbn [map app]. rewrite plain_num by easy. exact R.
    + apply solid_app, solid_app. destruct fs as [| f fs]; [now apply solid_one |]. apply solid_cons. now apply digits_solid.
    + destruct ds as [| d r]; [easy |]. inversion H as [| ? ? L _]; subst. destruct neg; do 2 eexists; (split; [reflexivity |]); [reflexivity |].
      now destruct (digit_char d L).
  - pose proof (resolve_exp neg ds fs big eneg es NE H Hf NEe He) as R.
    assert (C : List.Forall (fun c => c <> "#" /\ c <> ":" /\ c <> nl /\ printable c)
      (minus neg ++ map dig ds ++ "." :: map dig fs ++ (if big then "E" else "e")%char :: (if eneg then "-" else "+")%char :: map dig es)).
    { apply List.Forall_app. split.
      { destruct neg; repeat constructor; try discriminate; apply Nat.leb_le; reflexivity. }
      apply List.Forall_app. split; [now apply digits_clean |].
      constructor; [repeat constructor; try discriminate; apply Nat.leb_le; reflexivity |].
      apply List.Forall_app. split; [now apply digits_clean |].
      constructor; [destruct big; repeat constructor; try discriminate; apply Nat.leb_le; reflexivity |].
      constructor; [destruct eneg; repeat constructor; try discriminate; apply Nat.leb_le; reflexivity | now apply digits_clean]. }
    split; [| split; [exact C | split]].
    + unfold scalar. rewrite key_split_none by (now apply no_colon). destruct ds as [| d r]; [easy |]. inversion H; subst.
      cbn [map app] in R |- *. rewrite plain_num by easy. exact R.
    + apply solid_app, solid_app, solid_cons, solid_app, solid_cons, solid_cons. now apply digits_solid.
    + destruct ds as [| d r]; [easy |]. inversion H as [| ? ? L _]; subst. destruct neg; do 2 eexists; (split; [reflexivity |]); [reflexivity |].
      now destruct (digit_char d L).
  - now apply name_reads.
Qed.

(** ** Lines *)
Lemma line_end_cut s b e : List.Forall (fun c => c <> "#") b -> line_end e -> exists m, uncomment s (b ++ e) = b ++ blanks m.
Proof.
  intros H E. destruct (uncomment_app s b e H) as [s' ->]. destruct E as [n | n c _].
  - exists n. now rewrite uncomment_blanks.
  - exists (S n). now rewrite uncomment_comment.
Qed.
Lemma blanks_no_hash n : List.Forall (fun c => c <> "#") (blanks n).
Proof. unfold blanks. induction n; constructor; [discriminate | exact IHn]. Qed.
Lemma line_cut n b e : List.Forall (fun c => c <> "#") b -> solid b -> (exists c r, b = c :: r /\ blank c = false) -> line_end e ->
  rtrim (uncomment true (blanks n ++ b ++ e)) = blanks n ++ b /\ ltrim (blanks n ++ b) = b /\
  length (blanks n ++ b) - length (ltrim (blanks n ++ b)) = n.
Proof.
  intros H S0 (c & r & E & B) LE. rewrite app_assoc.
  destruct (line_end_cut true (blanks n ++ b) e) as [m ->]; [apply List.Forall_app; auto using blanks_no_hash | exact LE |].
  rewrite rtrim_blanks, rtrim_solid by (now apply solid_app).
  assert (T : ltrim (blanks n ++ b) = b) by (rewrite ltrim_blanks; subst b; now apply ltrim_id).
  split; [easy |]. split; [exact T |]. rewrite T, app_length. unfold blanks. rewrite repeat_length. lia.
Qed.
Lemma blanks_clean n : ~ In ":" (blanks n).
Proof. unfold blanks. intros I. apply repeat_spec in I. discriminate. Qed.
Lemma not_in_app (c : ascii) l m : ~ In c l -> ~ In c m -> ~ In c (l ++ m).
Proof. intros A B I. apply in_app_or in I. tauto. Qed.
Lemma key_not_item k t : is_name k -> line_entry (k ++ t) = key_entry (k ++ t).
Proof.
  intros ((c & r & -> & L) & _). destruct (letter_char c L) as (_ & _ & _ & _ & _ & _ & _ & E & _).
  unfold line_entry. cbn [app]. rewrite E. cbn [andb]. now destruct (r ++ t).
Qed.
Lemma line_skip l : line_is l None -> rtrim (uncomment true l) = [].
Proof.
  intros H. inversion H as [n E | n c F E | | |]; subst.
  - rewrite uncomment_blanks. exact (rtrim_blanks [] n).
  - destruct n as [| n].
    + reflexivity.
    + rewrite uncomment_comment. exact (rtrim_blanks [] (S n)).
Qed.
Lemma line_some l n e : line_is l (Some (n, e)) ->
  exists l', rtrim (uncomment true l) = l' /\ l' <> [] /\ line_entry (ltrim l') = Some e /\ length l' - length (ltrim l') = n.
Proof.
  intros H. inversion H as [| | n0 k a t K LE E1 E2 | n0 k a b v x t K V LE E1 E2 | n0 b v x t V LE E1 E2]; subst.
  - destruct (name_reads k K) as (SK & CK & SO & HD). pose proof (no_hash _ CK) as NH.
    assert (Q : blanks n ++ k ++ blanks a ++ ":" :: t = blanks n ++ (k ++ blanks a ++ [":"]) ++ t).
    { f_equal. rewrite <- !app_assoc. reflexivity. }
    rewrite Q. destruct (line_cut n (k ++ blanks a ++ [":"]) t) as (R1 & R2 & R3); [| | | exact LE |].
    + apply List.Forall_app. split; [exact NH |]. apply List.Forall_app. split; [apply blanks_no_hash |]. now repeat constructor.
    + apply solid_app, solid_app, solid_one. reflexivity.
    + destruct HD as (c & r & -> & B). exists c, (r ++ blanks a ++ [":"]). now split.
    + exists (blanks n ++ k ++ blanks a ++ [":"]). split; [exact R1 |]. split; [| split; [| exact R3]].
      * intros E. apply app_eq_nil in E. destruct E as [_ E]. apply app_eq_nil in E. destruct E as [_ E]. now destruct (blanks a).
      * rewrite R2. rewrite key_not_item by exact K. unfold key_entry.
        rewrite (app_assoc k (blanks a) [":"]). rewrite key_split_at; [| apply not_in_app; [now apply no_colon | apply blanks_clean] | now left].
        rewrite rtrim_blanks, rtrim_solid, SK by exact SO. reflexivity.
  - destruct (name_reads k K) as (SK & CK & SO & HD). pose proof (no_hash _ CK) as NH.
    destruct (stands_reads v x V) as (SV & CV & SOV & HDV). pose proof (no_hash _ CV) as NHV.
    assert (Q : blanks n ++ k ++ blanks a ++ ":" :: blanks (S b) ++ v ++ t = blanks n ++ (k ++ blanks a ++ ":" :: blanks (S b) ++ v) ++ t).
    { f_equal. rewrite <- !app_assoc. cbn [app]. now rewrite <- !app_assoc. }
    rewrite Q. destruct (line_cut n (k ++ blanks a ++ ":" :: blanks (S b) ++ v) t) as (R1 & R2 & R3); [| | | exact LE |].
    + apply List.Forall_app. split; [exact NH |]. apply List.Forall_app. split; [apply blanks_no_hash |]. constructor; [discriminate |].
      apply List.Forall_app. split; [apply blanks_no_hash | exact NHV].
    + apply solid_app, solid_app, solid_cons, solid_app. exact SOV.
    + destruct HD as (c & r & -> & B). exists c, (r ++ blanks a ++ ":" :: blanks (S b) ++ v). now split.
    + exists (blanks n ++ k ++ blanks a ++ ":" :: blanks (S b) ++ v). split; [exact R1 |]. split; [| split; [| exact R3]].
      * intros E. apply app_eq_nil in E. destruct E as [_ E]. apply app_eq_nil in E. destruct E as [_ E]. now destruct (blanks a).
      * rewrite R2. rewrite key_not_item by exact K. unfold key_entry.
        rewrite (app_assoc k (blanks a)). rewrite key_split_at; [| apply not_in_app; [now apply no_colon | apply blanks_clean] | right; now exists (blanks b ++ v)].
        rewrite rtrim_blanks, rtrim_solid, SK by exact SO. rewrite ltrim_blanks.
        destruct HDV as (c & r & -> & B). rewrite ltrim_id by exact B. rewrite SV. reflexivity.
  - destruct (stands_reads v x V) as (SV & CV & SOV & HDV). pose proof (no_hash _ CV) as NHV.
    assert (Q : blanks n ++ "-" :: blanks (S b) ++ v ++ t = blanks n ++ ("-" :: blanks (S b) ++ v) ++ t).
    { f_equal. cbn [app]. now rewrite <- !app_assoc. }
    rewrite Q. destruct (line_cut n ("-" :: blanks (S b) ++ v) t) as (R1 & R2 & R3); [| | | exact LE |].
    + constructor; [discriminate |]. apply List.Forall_app. split; [apply blanks_no_hash | exact NHV].
    + apply solid_cons, solid_app. exact SOV.
    + exists "-", (blanks (S b) ++ v). now split.
    + exists (blanks n ++ "-" :: blanks (S b) ++ v). split; [exact R1 |]. split; [| split; [| exact R3]].
      * intros E. apply app_eq_nil in E. now destruct E as [_ E].
      * rewrite R2. unfold line_entry. cbn [blanks repeat app]. change (Ascii.eqb "-" "-" && blank " ") with true. cbv iota.
        change (repeat " " b) with (blanks b). rewrite ltrim_blanks. destruct HDV as (c & r & -> & B). rewrite ltrim_id by exact B.
        rewrite SV. reflexivity.
Qed.
Lemma lines_entries ls es : lines_are ls es -> entries ls = Some es.
Proof.
  induction 1 as [| l ls es L _ IH | l ls [n e] es L _ IH]; [reflexivity | |]; cbn [entries].
  - now rewrite (line_skip l L).
  - destruct (line_some l n e L) as (l' & -> & NE & E1 & E2). destruct l' as [| a t]; [easy |]. cbv iota. now rewrite E1, IH, E2.
Qed.

(** ** Mappings *)
Definition ends (n : nat) (rest : list (nat * entry)) : Prop := match rest with [] => True | (i, _) :: _ => i < n end.
Lemma mapping_head n es m : mapping n es m -> match es with [] => True | (i, EKey _ _) :: _ => i = n | _ => False end.
Proof. now destruct 1. Qed.
Lemma items_all j vs r : match r with (i, EItem _) :: _ => i <> j | _ => True end ->
  items j (map (fun v => (j, EItem v)) vs ++ r) = (map Sc vs, r).
Proof.
  intros H. induction vs as [| v t IH]; cbn [map app items].
  - destruct r as [| [i e] r]; [easy |]. destruct e; [| easy]. cbn. now destruct (Nat.eqb_spec i j).
  - rewrite Nat.eqb_refl, IH. reflexivity.
Qed.
Lemma pairs_mapping n es m : mapping n es m -> forall fuel rest, length es < fuel -> ends n rest ->
  pairs fuel n (es ++ rest) = Some (m, rest).
Proof.
  induction 1 as [n | n k v es m M IH | n k es m M IH | n k j sub m' es m J NE M' IH' N M IH | n k j vs es m J NE M IH];
    intros fuel rest F E; (destruct fuel as [| f]; [cbn in F; lia |]).
  - cbn [app pairs]. destruct rest as [| [i e] r]; [easy |]. cbn [ends] in E. apply Nat.ltb_lt in E. now rewrite E.
  - cbn [app pairs]. rewrite Nat.ltb_irrefl. rewrite IH by (cbn in F; try lia; exact E). reflexivity.
  - assert (P : pairs f n (es ++ rest) = Some (m, rest)) by (apply IH; [cbn in F; lia | exact E]).
    cbn [app pairs]. rewrite Nat.ltb_irrefl.
    pose proof (mapping_head _ _ _ M) as HD. destruct es as [| [i [x | k2 x]] es]; cbn [app] in P |- *; [| easy |].
    + destruct rest as [| [i [x | k2 x]] rest]; [now rewrite P | |]; cbn [ends] in E.
      * apply Nat.leb_gt in E. now rewrite E, P.
      * assert (n <? i = false) as -> by (apply Nat.ltb_ge; lia). now rewrite P.
    + subst i. now rewrite Nat.ltb_irrefl, P.
  - cbn [app pairs]. rewrite Nat.ltb_irrefl. rewrite <- app_assoc. cbn [length] in F. rewrite app_length in F.
    pose proof (mapping_head _ _ _ M') as HD. destruct sub as [| [i [x | k2 x]] sub]; [easy | easy |]. subst i.
    change (((j, EKey k2 x) :: sub) ++ es ++ rest) with ((j, EKey k2 x) :: sub ++ es ++ rest). cbv iota beta.
    assert (n <? j = true) as -> by (now apply Nat.ltb_lt).
    change ((j, EKey k2 x) :: sub ++ es ++ rest) with (((j, EKey k2 x) :: sub) ++ es ++ rest).
    rewrite IH'; [| cbn [length] in *; lia |].
    + rewrite IH; [| lia | exact E]. rewrite dict_of_nodup by exact N. reflexivity.
    + pose proof (mapping_head _ _ _ M) as HD. destruct es as [| [i [y | k3 y]] es]; cbn [app ends]; [| easy | subst i; lia].
      destruct rest as [| [i e] rest]; [easy |]. cbn in E |- *. lia.
  - cbn [app pairs]. rewrite Nat.ltb_irrefl. rewrite <- app_assoc. cbn [length] in F. rewrite app_length, map_length in F.
    destruct vs as [| v vs]; [easy |].
    change (map (fun v => (j, EItem v)) (v :: vs) ++ es ++ rest) with ((j, EItem v) :: map (fun v => (j, EItem v)) vs ++ es ++ rest).
    cbv iota beta. apply Nat.leb_le in J as J'. rewrite J'.
    change ((j, EItem v) :: map (fun v => (j, EItem v)) vs ++ es ++ rest) with (map (fun v => (j, EItem v)) (v :: vs) ++ es ++ rest).
    rewrite items_all.
    + rewrite IH; [reflexivity | lia | exact E].
    + pose proof (mapping_head _ _ _ M) as HD. destruct es as [| [i [y | k3 y]] es]; cbn [app]; [| easy | easy].
      destruct rest as [| [i [y | k3 y]] rest]; [easy | | easy]. cbn in E. lia.
Qed.

