(** * Property C119: timestamps of the solar zenith angle *)
From Coq Require Import Reals List Bool ZArith Lia Lra Psatz.
From Flocq Require Import Core.
From Interval Require Import Tactic.
From Verif Require Import Num NumFacts SpecNum Py Vec SpecVec VecFacts Hom Geo GeoFacts P_Geo P_Sun P_Vec Timestamp.
Import ListNotations.
Open Scope Z_scope.

(** ** Calendar *)
Lemma leap_cases : forall a b c e, 0 <= b <= 3 -> 0 <= c <= 24 -> 0 <= e <= 3 ->
  is_leap (400 * a + 100 * b + 4 * c + e + 1) = ((e =? 3) && (negb (c =? 24) || (b =? 3)))%bool.
Proof.
  intros a b c e Hb Hc He. unfold is_leap.
  assert (H4 : (400 * a + 100 * b + 4 * c + e + 1) mod 4 = (e + 1) mod 4) by
    (replace (400 * a + 100 * b + 4 * c + e + 1) with (e + 1 + (100 * a + 25 * b + c) * 4) by ring; apply Z_mod_plus_full).
  assert (H100 : (400 * a + 100 * b + 4 * c + e + 1) mod 100 = (4 * c + e + 1) mod 100) by
    (replace (400 * a + 100 * b + 4 * c + e + 1) with (4 * c + e + 1 + (4 * a + b) * 100) by ring; apply Z_mod_plus_full).
  assert (H400 : (400 * a + 100 * b + 4 * c + e + 1) mod 400 = (100 * b + 4 * c + e + 1) mod 400) by
    (replace (400 * a + 100 * b + 4 * c + e + 1) with (100 * b + 4 * c + e + 1 + a * 400) by ring; apply Z_mod_plus_full).
  rewrite H4, H100, H400.
  destruct (Z.eqb_spec e 3); destruct (Z.eqb_spec c 24); destruct (Z.eqb_spec b 3); cbn [andb negb orb];
  repeat match goal with |- context[?x =? ?y] => destruct (Z.eqb_spec x y) end; cbn [andb negb orb]; try reflexivity; exfalso; Z.div_mod_to_equations; lia.
Qed.
Lemma dby_cases : forall a b c e, 0 <= b <= 3 -> 0 <= c <= 24 -> 0 <= e <= 3 ->
  days_before_year (400 * a + 100 * b + 4 * c + e + 1) = 146097 * a + 36524 * b + 1461 * c + 365 * e.
Proof. intros. unfold days_before_year. Z.div_mod_to_equations. lia. Qed.

(** the leap-year rule, as a proposition *)
Definition leap (y : Z) : Prop := (4 | y) /\ (~ (100 | y) \/ (400 | y)).
Lemma leap_iff y : is_leap y = true <-> leap y.
Proof.
  unfold is_leap, leap. rewrite andb_true_iff, orb_true_iff, negb_true_iff, !Z.eqb_eq, Z.eqb_neq, !Z.mod_divide by lia. tauto.
Qed.
Definition year_days (y : Z) : Z := if is_leap y then 366 else 365.
Lemma div_step y k : 1 < k -> y / k = (y - 1) / k + (if y mod k =? 0 then 1 else 0).
Proof.
  intros Hk. destruct (Z.eqb_spec (y mod k) 0) as [E|E].
  - symmetry. rewrite <- (Z.div_unique (y - 1) k (y / k - 1) (k - 1)); [lia|lia|]. pose proof (Z.div_mod y k ltac:(lia)). lia.
  - symmetry. rewrite <- (Z.div_unique (y - 1) k (y / k) (y mod k - 1)); [lia| |]; pose proof (Z.div_mod y k ltac:(lia)); pose proof (Z.mod_pos_bound y k ltac:(lia)); lia.
Qed.
Lemma mod_weaken y k j : 0 < k -> 0 < j -> y mod (k * j) = 0 -> y mod k = 0.
Proof. intros Hk Hj H. rewrite Z.mod_divide in * by lia. destruct H as [q H]. exists (q * j). lia. Qed.
Lemma dby_succ y : days_before_year (y + 1) = days_before_year y + year_days y.
Proof.
  unfold days_before_year, year_days, is_leap. replace (y + 1 - 1) with y by lia.
  pose proof (div_step y 4 ltac:(lia)). pose proof (div_step y 100 ltac:(lia)). pose proof (div_step y 400 ltac:(lia)).
  pose proof (mod_weaken y 4 25 ltac:(lia) ltac:(lia)) as W1. pose proof (mod_weaken y 100 4 ltac:(lia) ltac:(lia)) as W2. cbn [Z.mul Pos.mul] in W1, W2.
  change (4 * 25) with 100 in W1. change (100 * 4) with 400 in W2.
  destruct (Z.eqb_spec (y mod 4) 0); destruct (Z.eqb_spec (y mod 100) 0); destruct (Z.eqb_spec (y mod 400) 0); cbn [andb negb orb];
  try lia; exfalso; auto.
Qed.
Lemma year_days_pos y : 365 <= year_days y <= 366.
Proof. unfold year_days. destruct is_leap; lia. Qed.
Lemma dby_mono_nat y (n : nat) : days_before_year y + 365 * Z.of_nat n <= days_before_year (y + Z.of_nat n).
Proof.
  induction n. { replace (y + Z.of_nat 0) with y by lia. lia. }
  replace (y + Z.of_nat (S n)) with (y + Z.of_nat n + 1) by lia. rewrite dby_succ. pose proof (year_days_pos (y + Z.of_nat n)). lia.
Qed.
Lemma dby_mono y z : y < z -> days_before_year y + year_days y <= days_before_year z.
Proof.
  intros. rewrite <- dby_succ. pose proof (dby_mono_nat (y + 1) (Z.to_nat (z - y - 1))) as H0.
  rewrite Z2Nat.id in H0 by lia. replace (y + 1 + (z - y - 1)) with z in H0 by lia. lia.
Qed.
Lemma year_unique y k y' k' : 1 <= k <= year_days y -> 1 <= k' <= year_days y' ->
  days_before_year y + k = days_before_year y' + k' -> y = y' /\ k = k'.
Proof.
  intros H1 H2 E. destruct (Z.lt_trichotomy y y') as [H|[H|H]].
  - pose proof (dby_mono _ _ H). lia.
  - subst. lia.
  - pose proof (dby_mono _ _ H). lia.
Qed.
Lemma yday_range y m d : 1 <= m <= 12 -> 1 <= d <= days_in_month y m -> 1 <= days_before_month y m + d <= year_days y.
Proof.
  intros Hm Hd. unfold days_before_month, days_in_month, year_days in *.
  assert (m = 1 \/ m = 2 \/ m = 3 \/ m = 4 \/ m = 5 \/ m = 6 \/ m = 7 \/ m = 8 \/ m = 9 \/ m = 10 \/ m = 11 \/ m = 12) as C by lia.
  repeat destruct C as [->|C]; [..|subst m];
  match type of Hd with context[Z.to_nat ?x] => let v := eval vm_compute in (Z.to_nat x) in change (Z.to_nat x) with v in * end;
  cbn -[is_leap Z.add Z.le] in *; destruct (is_leap y); cbn [andb] in *; lia.
Qed.
Lemma dim12 y : days_in_month y 12 = 31.
Proof. reflexivity. Qed.
Lemma dbm12 y : days_before_month y 12 = 334 + (if is_leap y then 1 else 0).
Proof. reflexivity. Qed.
Lemma months_ok : forallb (fun lp => forallb (fun n =>
   let month := (n + 50) / 32 in
    let preceding := nth (Z.to_nat (month - 1)) days_before_months 0 + (if (2 <? month) && lp then 1 else 0) in
    let '(m, d) := (if n <? preceding then
      let month := month - 1 in
      let preceding := preceding - (nth (Z.to_nat (month - 1)) month_lengths 0 + (if (month =? 2) && lp then 1 else 0)) in
      (month, n - preceding + 1)
    else (month, n - preceding + 1)) in
    (1 <=? m) && (m <=? 12) && (1 <=? d) && (d <=? nth (Z.to_nat (m - 1)) month_lengths 0 + (if (m =? 2) && lp then 1 else 0)) &&
    (nth (Z.to_nat (m - 1)) days_before_months 0 + (if (2 <? m) && lp then 1 else 0) + d =? n + 1))
   (map Z.of_nat (seq 0 365))) [true; false] = true.
Proof. vm_compute. reflexivity. Qed.

Lemma ord_correct n : exists y m d, ord2ymd n = (y, m, d) /\ 1 <= m <= 12 /\ 1 <= d <= days_in_month y m /\
  n = days_before_year y + days_before_month y m + d.
Proof.
  unfold ord2ymd. set (n0 := n - 1). set (a := n0 / 146097). set (r1 := n0 mod 146097). set (b := r1 / 36524). set (r2 := r1 mod 36524).
  set (c := r2 / 1461). set (r3 := r2 mod 1461). set (e := r3 / 365). set (r4 := r3 mod 365).
  assert (Hn : n = 146097 * a + 36524 * b + 1461 * c + 365 * e + r4 + 1 /\ 0 <= b <= 4 /\ 0 <= c <= 24 /\ 0 <= e <= 4 /\ 0 <= r4 < 365 /\
     (b = 4 -> c = 0 /\ e = 0 /\ r4 = 0) /\ (e = 4 -> r4 = 0) /\ (c = 24 -> e <> 4 \/ b = 3 )).
  { subst e r4 r3 c r2 b r1 a n0. Z.div_mod_to_equations. lia. }
  destruct Hn as (Hn & Hb & Hc & He & Hr & H4 & H5 & H6). clearbody a b c e r4. clear n0 r1 r2 r3.
  replace (a * 400 + 1 + b * 100 + c * 4 + e) with (400 * a + 100 * b + 4 * c + e + 1) by ring.
  destruct (Z.eqb_spec e 4) as [E|E]; [|destruct (Z.eqb_spec b 4) as [E'|E']]; cbn [orb].
  - assert (b <> 4) by (intro; destruct (H4 H); lia).
    exists (400 * a + 100 * b + 4 * c + e + 1 - 1), 12, 31. split; [reflexivity|]. split; [lia|].
    replace (400 * a + 100 * b + 4 * c + e + 1 - 1) with (400 * a + 100 * b + 4 * c + 3 + 1) by lia.
    split; [rewrite dim12; lia|]. rewrite dby_cases, dbm12, leap_cases by lia.
    specialize (H5 E). destruct (Z.eqb_spec c 24); destruct (Z.eqb_spec b 3); cbn [andb negb orb Z.eqb Pos.eqb]; lia.
  - destruct (H4 E') as (-> & -> & ->). exists (400 * a + 100 * b + 4 * 0 + 0 + 1 - 1), 12, 31. split; [reflexivity|]. split; [lia|].
    replace (400 * a + 100 * b + 4 * 0 + 0 + 1 - 1) with (400 * a + 100 * 3 + 4 * 24 + 3 + 1) by lia.
    split; [rewrite dim12; lia|]. rewrite dby_cases, dbm12, leap_cases by lia. cbn [andb negb orb Z.eqb Pos.eqb]; lia.
  - assert (Hl := leap_cases a b c e ltac:(lia) ltac:(lia) ltac:(lia)). rewrite <- Hl.
    set (y := 400 * a + 100 * b + 4 * c + e + 1) in *.
    pose proof months_ok as HM. rewrite forallb_forall in HM. specialize (HM (is_leap y) ltac:(destruct (is_leap y); cbn; tauto)).
    rewrite forallb_forall in HM. specialize (HM r4).
    assert (Hin : In r4 (map Z.of_nat (seq 0 365))). { apply in_map_iff. exists (Z.to_nat r4). split; [lia|]. apply in_seq. lia. }
    specialize (HM Hin). cbv zeta in HM |- *.
    assert (Hd : days_before_year y = 146097 * a + 36524 * b + 1461 * c + 365 * e) by (apply dby_cases; lia).
    destruct (r4 <? _); cbv beta iota zeta in HM; rewrite !andb_true_iff, !Z.leb_le, Z.eqb_eq in HM;
    destruct HM as ((((M1 & M2) & M3) & M4) & M5); do 3 eexists; (split; [reflexivity|]); unfold days_in_month, days_before_month;
    (split; [lia|]); (split; [lia|]); lia.
Qed.

(** ** Specification *)
(** number of days of a month *)
Definition month_days (y m : Z) : Z :=
  if m =? 2 then (if is_leap y then 29 else 28)
  else if (m =? 4) || (m =? 6) || (m =? 9) || (m =? 11) then 30 else 31.
(** [f y m] counts the days from 1 January 1970 to the first of month [m] of year [y] *)
Definition calendar (f : Z -> Z -> Z) : Prop :=
  f 1970 1 = 0 /\ (forall y m, 1 <= m < 12 -> f y (m + 1) = f y m + month_days y m) /\ (forall y, f (y + 1) 1 = f y 12 + month_days y 12).
(** an existing date and time of day in the years 1 to 9999 *)
Definition exists_date (d : datetime) : Prop :=
  1 <= dt_year d <= 9999 /\ 1 <= dt_month d <= 12 /\ 1 <= dt_day d <= month_days (dt_year d) (dt_month d) /\
  0 <= dt_hour d <= 23 /\ 0 <= dt_minute d <= 59 /\ 0 <= dt_second d <= 59 /\ 0 <= dt_micro d <= 999999.
(** what the clock shows, in seconds since the start of 1970 *)
Definition clock (f : Z -> Z -> Z) (d : datetime) : Z :=
  86400 * (f (dt_year d) (dt_month d) + dt_day d - 1) + 3600 * dt_hour d + 60 * dt_minute d + dt_second d.
(** the instant of a datetime, in seconds since the start of 1970 UTC *)
Definition instant (f : Z -> Z -> Z) (d : datetime) : R :=
  (IZR (clock f d - match dt_offset d with None => 0 | Some o => o end)%Z + IZR (dt_micro d) / 1000000)%R.
(** second [k] falls into day [day] of year [y], at hour [hour] *)
Definition falls (f : Z -> Z -> Z) (k y day : Z) (hour : R) : Prop :=
  1 <= day <= f (y + 1) 1 - f y 1 /\ (0 <= hour < 24)%R /\ (IZR k = IZR (86400 * (f y 1 + day - 1))%Z + 3600 * hour)%R.

Lemma month_days_eq y m : 1 <= m <= 12 -> month_days y m = days_in_month y m.
Proof.
  intros Hm. assert (m = 1 \/ m = 2 \/ m = 3 \/ m = 4 \/ m = 5 \/ m = 6 \/ m = 7 \/ m = 8 \/ m = 9 \/ m = 10 \/ m = 11 \/ m = 12) as C by lia.
  unfold month_days, days_in_month. repeat destruct C as [->|C]; [..|subst m]; try reflexivity. destruct (is_leap y); reflexivity.
Qed.
Lemma dbm_succ y m : 1 <= m < 12 -> days_before_month y (m + 1) = days_before_month y m + days_in_month y m.
Proof.
  intros Hm. assert (m = 1 \/ m = 2 \/ m = 3 \/ m = 4 \/ m = 5 \/ m = 6 \/ m = 7 \/ m = 8 \/ m = 9 \/ m = 10 \/ m = 11) as C by lia.
  unfold days_before_month, days_in_month. repeat destruct C as [->|C]; [..|subst m]; destruct (is_leap y); reflexivity.
Qed.
Lemma dbm1 y : days_before_month y 1 = 0.
Proof. reflexivity. Qed.
Lemma calendar_exists : calendar (fun y m => days_before_year y + days_before_month y m - 719162).
Proof.
  split; [reflexivity|split].
  - intros y m H. rewrite dbm_succ, month_days_eq by lia. lia.
  - intros y. rewrite dby_succ, dbm1, dbm12, month_days_eq, dim12 by lia. unfold year_days. destruct is_leap; lia.
Qed.
Lemma calendar_unique f y m : calendar f -> 1 <= m <= 12 -> f y m = days_before_year y + days_before_month y m - 719162.
Proof.
  intros (H0 & H1 & H2) Hm.
  assert (Hmo : forall y m, 1 <= m <= 12 -> f y m = f y 1 + days_before_month y m).
  { intros y' m' Hm'. assert (exists n, m' = Z.of_nat n + 1) as (n & ->) by (exists (Z.to_nat (m' - 1)); lia).
    induction n. - change (Z.of_nat 0 + 1) with 1. rewrite dbm1. lia.
    - replace (Z.of_nat (S n) + 1) with (Z.of_nat n + 1 + 1) by lia. rewrite H1, dbm_succ, month_days_eq by lia. rewrite IHn by lia. lia. }
  assert (Hy : forall y, f y 1 = days_before_year y - 719162).
  { assert (Hs : forall y, f (y + 1) 1 - days_before_year (y + 1) = f y 1 - days_before_year y).
    { intros z. rewrite H2, Hmo, dby_succ, dbm12, month_days_eq, dim12 by lia. unfold year_days. destruct is_leap; lia. }
    assert (Hc : forall z, f (z + 1970) 1 - days_before_year (z + 1970) = f 1970 1 - days_before_year 1970).
    { intros z. induction z using Z.peano_ind; [reflexivity| |].
      - replace (Z.succ z + 1970) with (z + 1970 + 1) by lia. rewrite Hs. exact IHz.
      - rewrite <- IHz. rewrite <- Hs. replace (Z.pred z + 1970 + 1) with (z + 1970) by lia. reflexivity. }
    intros z. specialize (Hc (z - 1970)). replace (z - 1970 + 1970) with z in Hc by lia. rewrite H0 in Hc. change (days_before_year 1970) with 719162 in Hc. lia. }
  rewrite Hmo, Hy by lia. lia.
Qed.
Lemma year_length f y : calendar f -> f (y + 1) 1 - f y 1 = year_days y.
Proof. intros H. rewrite !(calendar_unique f) by (auto; lia). rewrite dby_succ, !dbm1. lia. Qed.

Lemma hour_range h m s : 0 <= h <= 23 -> 0 <= m <= 59 -> 0 <= s <= 59 -> (0 <= hour_utc h m s < 24)%R.
Proof.
  intros A B C. unfold hour_utc. destruct A as [A1%IZR_le A2%IZR_le], B as [B1%IZR_le B2%IZR_le], C as [C1%IZR_le C2%IZR_le]. lra.
Qed.
Lemma hour_sec h m s : (3600 * hour_utc h m s = IZR (3600 * h + 60 * m + s))%R.
Proof. unfold hour_utc. rewrite !plus_IZR, !mult_IZR. field. Qed.

(** the clock decomposition *)
Lemma of_clock_ok s us off : exists y m d, of_clock s us off = mkDt y m d (s mod 86400 / 3600) (s mod 86400 mod 3600 / 60) (s mod 86400 mod 60) us off /\
  1 <= m <= 12 /\ 1 <= d <= days_in_month y m /\ s / 86400 + 719163 = days_before_year y + days_before_month y m + d.
Proof.
  unfold of_clock. destruct (ord_correct (s / 86400 + 719163)) as (y & m & d & -> & Hm & Hd & E). exists y, m, d. auto.
Qed.
Lemma sec_parts s : 0 <= s mod 86400 / 3600 <= 23 /\ 0 <= s mod 86400 mod 3600 / 60 <= 59 /\ 0 <= s mod 86400 mod 60 <= 59 /\
  3600 * (s mod 86400 / 3600) + 60 * (s mod 86400 mod 3600 / 60) + s mod 86400 mod 60 = s mod 86400.
Proof.
  pose proof (Z.mod_pos_bound s 86400 ltac:(lia)). set (r := s mod 86400) in *. clearbody r.
  assert (r mod 60 = r mod 3600 mod 60). { rewrite <- (Znumtheory.Zmod_div_mod 60 3600) by (try lia; exists 60; reflexivity). reflexivity. }
  Z.div_mod_to_equations. lia.
Qed.
Lemma of_clock_fields f s us off : calendar f -> exists y day hour, fields (of_clock s us off) = (day, hour) /\ falls f s y day hour /\
  (forall y' day', 1 <= day' <= year_days y' -> s / 86400 + 719163 = days_before_year y' + day' -> day = day').
Proof.
  intros Hf. destruct (of_clock_ok s us off) as (y & m & d & E & Hm & Hd & Hn). pose proof (sec_parts s) as (P1 & P2 & P3 & P4).
  exists y, (days_before_month y m + d), (hour_utc (s mod 86400 / 3600) (s mod 86400 mod 3600 / 60) (s mod 86400 mod 60)).
  rewrite E. split; [reflexivity|]. pose proof (yday_range y m d Hm Hd). split.
  - split; [rewrite year_length by auto; lia|]. split; [apply hour_range; lia|]. rewrite hour_sec, P4, <- plus_IZR. f_equal.
    rewrite (calendar_unique f) by (auto; lia). rewrite dbm1. pose proof (Z.div_mod s 86400 ltac:(lia)). lia.
  - intros y' day' Hd' E'. apply (year_unique y _ y' day'); lia.
Qed.

(** the whole second of a number *)
Lemma nearest_second t k : (IZR k <= t + / 2000000 < IZR k + 1)%R -> ZnearestE (t * 1000000) / 1000000 = k.
Proof.
  intros H. symmetry. set (u := ZnearestE (t * 1000000)).
  assert (Hle : (1000000 * k <= u)%Z).
  { destruct (Rle_or_lt (IZR (1000000 * k)) (t * 1000000)) as [L|L].
    - rewrite <- (Zrnd_IZR ZnearestE (1000000 * k)). apply Zrnd_le; [apply valid_rnd_N|exact L].
    - (* half a unit below an even integer rounds up *)
      unfold u, ZnearestE, Znearest. rewrite mult_IZR in L.
      assert (Hfl : Zfloor (t * 1000000) = 1000000 * k - 1). { apply Zfloor_imp. rewrite plus_IZR, minus_IZR, mult_IZR. lra. }
      assert (Hce : Zceil (t * 1000000) = 1000000 * k). { rewrite Zceil_floor_neq; [lia|]. rewrite Hfl, minus_IZR, mult_IZR. lra. }
      rewrite Hfl, Hce. rewrite minus_IZR, mult_IZR.
      destruct (Rcompare_spec (t * 1000000 - (1000000 * IZR k - 1)) (/ 2)) as [A|A|A].
      + exfalso. lra.
      + replace (Z.even (1000000 * k - 1)) with false; [cbn; lia|]. symmetry. rewrite Z.even_sub, Z.even_mul. reflexivity.
      + lia. }
  assert (Hlt : (u < 1000000 * (k + 1))%Z).
  { apply lt_IZR. rewrite mult_IZR, plus_IZR. pose proof (Znearest_half (fun x => negb (Z.even x)) (t * 1000000)) as Hh.
    apply Rabs_le_inv in Hh. fold u in Hh. unfold u, ZnearestE in *. lra. }
  apply (Z.div_unique u 1000000 k (u - 1000000 * k)); lia.
Qed.

(** a call with one timestamp *)
Lemma one_sc lat lon v : solar_zenith_angle (Sc lat) (Sc lon) (TOne v) =
  match (if has_timetuple v then from_datetime v else from_unix v) with
  | inl e => inl e
  | inr (d, h) => inr (Sc (solar_zenith NP lat lon (Fin (IZR d)) (Fin h)))
  end.
Proof. unfold solar_zenith_angle, day_and_hour. destruct (if has_timetuple v then _ else _) as [e|[d h]]; reflexivity. Qed.

(** ** Theorems *)
(** A number is a count of seconds since 1970: the day of the year and the hour are those of its whole second (numbers
    are rounded to microseconds) in the Gregorian calendar. *)
Theorem C119_number f t k : calendar f -> (IZR k <= t + / 2000000 < IZR k + 1)%R ->
  f 1 1 <= k / 86400 < f 10000 1 ->
  exists y day hour, falls f k y day hour /\ forall lat lon,
  solar_zenith_angle (Sc lat) (Sc lon) (TOne (TNumber t)) = inr (Sc (solar_zenith NP lat lon (Fin (IZR day)) (Fin hour))).
Proof.
  intros Hf Hk Hr. rewrite !(calendar_unique f) in Hr by (auto; lia). change (days_before_year 1 + days_before_month 1 1 - 719162) with (-719162) in Hr.
  change (days_before_year 10000 + days_before_month 10000 1 - 719162) with 2932897 in Hr.
  set (us := ZnearestE (t * 1000000) mod 1000000).
  destruct (of_clock_fields f k us (Some 0) Hf) as (y & day & hour & E & F & _). exists y, day, hour. split; [exact F|]. intros.
  rewrite one_sc. cbn [has_timetuple]. unfold from_unix, fromtimestamp. rewrite (nearest_second t k Hk). fold us.
  assert (-62135596800 <= k < 253402300800). { pose proof (Z.div_mod k 86400 ltac:(lia)). pose proof (Z.mod_pos_bound k 86400 ltac:(lia)). lia. }
  replace ((-62135596800 <=? k) && (k <? 253402300800))%bool with true by (symmetry; apply andb_true_intro; split; [apply Z.leb_le|apply Z.ltb_lt]; lia).
  rewrite E. reflexivity.
Qed.
(** beyond the years 1 to 9999, as for times in milliseconds, it raises *)
Theorem C119_range f t k lat lon : calendar f -> (IZR k <= t + / 2000000 < IZR k + 1)%R ->
  ~ (f 1 1 <= k / 86400 < f 10000 1) -> solar_zenith_angle lat lon (TOne (TNumber t)) = inl ValueError.
Proof.
  intros Hf Hk Hr. rewrite !(calendar_unique f) in Hr by (auto; lia). change (days_before_year 1 + days_before_month 1 1 - 719162) with (-719162) in Hr.
  change (days_before_year 10000 + days_before_month 10000 1 - 719162) with 2932897 in Hr.
  unfold solar_zenith_angle, day_and_hour. cbn [has_timetuple]. unfold from_unix, fromtimestamp. rewrite (nearest_second t k Hk).
  replace ((-62135596800 <=? k) && (k <? 253402300800))%bool with false; [reflexivity|]. symmetry. apply not_true_iff_false.
  rewrite andb_true_iff, Z.leb_le, Z.ltb_lt. pose proof (Z.div_mod k 86400 ltac:(lia)). pose proof (Z.mod_pos_bound k 86400 ltac:(lia)). lia.
Qed.
(** A datetime gives what the number of seconds its clock shows gives: a naive or UTC datetime and its unix timestamp
    agree, whatever the microseconds. *)
Theorem C119_datetime f d lat lon : calendar f -> exists_date d ->
  solar_zenith_angle (Sc lat) (Sc lon) (TOne (TDatetime d)) =
  solar_zenith_angle (Sc lat) (Sc lon) (TOne (TNumber (IZR (clock f d) + IZR (dt_micro d) / 1000000)%R)).
Proof.
  intros Hf (Hy & Hm & Hd & Hh & Hmi & Hs & Hu). rewrite month_days_eq in Hd by lia.
  set (k := clock f d). assert (Hk : (IZR k <= IZR k + IZR (dt_micro d) / 1000000 + / 2000000 < IZR k + 1)%R).
  { destruct Hu as [U1%IZR_le U2%IZR_le]. lra. }
  assert (Ek : k / 86400 = f (dt_year d) (dt_month d) + dt_day d - 1 /\ k mod 86400 = 3600 * dt_hour d + 60 * dt_minute d + dt_second d).
  { unfold k, clock. split; [symmetry; apply Z.div_unique with (3600 * dt_hour d + 60 * dt_minute d + dt_second d)|
      symmetry; apply Z.mod_unique with (f (dt_year d) (dt_month d) + dt_day d - 1)]; lia. }
  destruct Ek as [Eq Er]. rewrite (calendar_unique f) in Eq by auto. pose proof (yday_range _ _ _ Hm Hd) as Hyd.
  assert (Hlo : 0 <= days_before_year (dt_year d)).
  { destruct (Z.eq_dec (dt_year d) 1) as [->|]; [cbn; lia|]. pose proof (dby_mono 1 (dt_year d) ltac:(lia)) as H. change (days_before_year 1) with 0 in H. pose proof (year_days_pos 1). lia. }
  assert (Hhi : days_before_year (dt_year d) + year_days (dt_year d) <= 3652059).
  { pose proof (dby_mono (dt_year d) 10000 ltac:(lia)) as H. change (days_before_year 10000) with 3652059 in H. lia. }
  rewrite !one_sc. cbn [has_timetuple from_datetime]. unfold from_unix, fromtimestamp. rewrite (nearest_second _ k Hk).
  set (us := _ mod 1000000). destruct (of_clock_fields f k us (Some 0) Hf) as (y & day & hour & E & F & U).
  replace ((-62135596800 <=? k) && (k <? 253402300800))%bool with true.
  2:{ symmetry. apply andb_true_intro. pose proof (Z.div_mod k 86400 ltac:(lia)). pose proof (Z.mod_pos_bound k 86400 ltac:(lia)). split; [apply Z.leb_le|apply Z.ltb_lt]; lia. }
  rewrite E. unfold fields, tm_yday. rewrite (U (dt_year d) (days_before_month (dt_year d) (dt_month d) + dt_day d)) by lia.
  do 4 f_equal. assert (E3 : (3600 * hour = 3600 * hour_utc (dt_hour d) (dt_minute d) (dt_second d))%R); [|lra].
  rewrite hour_sec, <- Er. destruct F as (F1 & F2 & F3). 
  assert (IZR (86400 * (f y 1 + day - 1))%Z <= IZR k < IZR (86400 * (f y 1 + day - 1))%Z + 86400)%R as [G1 G2] by lra.
  apply le_IZR in G1. change 86400%R with (IZR 86400) in G2. rewrite <- plus_IZR in G2. apply lt_IZR in G2.
  assert (k mod 86400 = k - 86400 * (f y 1 + day - 1)) as ->. { symmetry. apply Z.mod_unique with (f y 1 + day - 1); lia. }
  rewrite minus_IZR. lra.
Qed.

(** ** Arrays *)
Lemma shape_solar lat lon d h : shape (solar_zenith VB lat lon d h) = join (shape lat) (join (shape lon) (join (shape d) (shape h))).
Proof.
  pose proof (solar_zenith_hom VB MB (mask_hom [shape lat; shape lon; shape d; shape h]) lat lon d h [true] [false; true] [false; false; true] [false; false; false; true]) as H.
  cbn [mask_hom hR] in H. unfold mask_rel in H. cbn [sel] in H. rewrite !join_S0_r in H. rewrite H by reflexivity.
  cbn. rewrite !join_S0_r. reflexivity.
Qed.
Lemma comp_ok {A B} (f : A -> py B) l : (forall x, In x l -> exists y, f x = inr y) ->
  exists r, comprehension f l = inr r /\ length r = length l /\ forall i x, nth_error l i = Some x -> exists y, f x = inr y /\ nth_error r i = Some y.
Proof.
  induction l as [|x l IH]; intros H; cbn [comprehension].
  - exists []. split; [reflexivity|]. split; [reflexivity|]. intros [|i]; discriminate.
  - destruct (H x (or_introl eq_refl)) as (y & E). rewrite E. destruct IH as (r & -> & L & N); [intros; apply H; right; auto|].
    exists (y :: r). split; [reflexivity|]. split; [cbn; lia|]. intros [|i] z Hz; cbn in Hz.
    + injection Hz as <-. exists y. auto.
    + destruct (N i z Hz) as (w & Ew & Nw). exists w. auto.
Qed.
Lemma comp_raise {A B} (f : A -> py B) e l1 x l2 : (forall z, In z l1 -> exists y, f z = inr y) -> f x = inl e -> comprehension f (l1 ++ x :: l2) = inl e.
Proof.
  intros H E. induction l1 as [|z l1 IH]; cbn [comprehension app].
  - rewrite E. reflexivity.
  - destruct (H z (or_introl eq_refl)) as (y & ->). rewrite IH; [reflexivity|]. intros; apply H; right; auto.
Qed.
(** a timestamp that a call accepts on its own *)
Definition accepted (v : tsval) : Prop := match v with TDatetime _ => True | TNumber t => exists k, (IZR k <= t + / 2000000 < IZR k + 1)%R /\ -719162 <= k / 86400 < 2932897 | _ => False end.
Definition same_kind (v w : tsval) : Prop := match v, w with TDatetime _, TDatetime _ => True | TNumber _, TNumber _ => True | _, _ => False end.
Lemma accepted_ok v : accepted v -> exists p, (if has_timetuple v then from_datetime v else from_unix v) = inr p.
Proof.
  destruct v as [d|t|n|]; cbn [accepted has_timetuple]; intros H; try contradiction.
  - exists (fields d). reflexivity.
  - destruct H as (k & Hk & Hr). unfold from_unix, fromtimestamp. rewrite (nearest_second t k Hk).
    replace ((-62135596800 <=? k) && (k <? 253402300800))%bool with true; [eauto|].
    symmetry. apply andb_true_intro. pose proof (Z.div_mod k 86400 ltac:(lia)). pose proof (Z.mod_pos_bound k 86400 ltac:(lia)). split; [apply Z.leb_le|apply Z.ltb_lt]; lia.
Qed.
(** A list of datetimes, or of numbers, gives an array with the angle of each timestamp at its place; places are single
    values or as many as timestamps. *)
Theorem C119_array l v lat lon : nth_error l 0 = Some v -> (forall w, In w l -> same_kind v w /\ accepted w) ->
  fits (length l) lat -> fits (length l) lon ->
  exists r, solar_zenith_angle lat lon (TMany l) = inr (Ar r) /\ length r = length l /\
  forall i w x y, nth_error l i = Some w -> element i lat x -> element i lon y ->
  exists z, solar_zenith_angle (Sc x) (Sc y) (TOne w) = inr (Sc z) /\ nth_error r i = Some z.
Proof.
  intros H0 Hl Hla Hlo. destruct l as [|v' l']; [discriminate|]. cbn in H0. injection H0 as ->. set (l := v :: l') in *.
  assert (Hk : forall w, In w l -> has_timetuple w = has_timetuple v). { intros w Hw. destruct (Hl w Hw) as [K _]. destruct v, w; cbn in K |- *; tauto. }
  destruct (comp_ok (if has_timetuple v then from_datetime else from_unix) l) as (r & Er & Lr & Nr).
  { intros w Hw. destruct (Hl w Hw) as [_ A]. destruct (accepted_ok w A) as (p & Ep). rewrite (Hk w Hw) in Ep. exists p. destruct (has_timetuple v); exact Ep. }
  unfold solar_zenith_angle. unfold day_and_hour at 1. unfold l at 1. fold l. rewrite Er.
  set (D := Ar (map (fun p => Fin (IZR (fst p))) r)). set (H := Ar (map (fun p => Fin (snd p)) r)).
  assert (Hn : (0 < length l)%nat) by (unfold l; cbn; lia).
  assert (S : exists z, solar_zenith VB lat lon D H = Ar z /\ length z = length l).
  { pose proof (shape_solar lat lon D H) as S. unfold D at 2, H at 2 in S. cbn [shape] in S. rewrite !map_length, Lr in S.
    assert (J : forall u : varr ext, fits (length l) u -> join (shape u) (SA (length l)) = SA (length l)).
    { intros [x|m|] Hu; cbn [fits shape join] in Hu |- *; try contradiction; [reflexivity|]. destruct (Nat.eqb_spec (length m) (length l)) as [->|]; [reflexivity|].
      destruct Hu as [Hu|Hu]; [rewrite Hu; cbn [Nat.eqb]; reflexivity|contradiction]. }
    rewrite join_idem, !J in S by assumption. destruct (solar_zenith VB lat lon D H) as [x|m|]; cbn in S; try discriminate. exists m. split; [reflexivity|]. injection S as S'. exact S'. }
  destruct S as (z & Ez & Lz). rewrite Ez. exists z. split; [reflexivity|]. split; [exact Lz|].
  intros i w x y Hw Hx Hy. destruct (Nr i w Hw) as ((d & h) & Ed & Nd).
  assert (Hi : (i < length l)%nat) by (apply nth_error_Some; rewrite Hw; discriminate).
  assert (A : at_rel (length l) i (solar_zenith VB lat lon D H) (solar_zenith NP x y (Fin (IZR d)) (Fin h))).
  { assert (Hel : forall g : Z * R -> ext, element i (Ar (map g r)) (g (d, h))).
    { intros g. cbn [element]. rewrite map_length, Lr. destruct (Nat.eqb_spec (length l) 1) as [E'|E'].
      - assert (i = 0)%nat by lia. subst i. rewrite nth_error_map, Nd. reflexivity.
      - rewrite nth_error_map, Nd. reflexivity. }
    apply (solar_zenith_hom VB NP (elem_hom (length l) i)); cbn [elem_hom hR]; split; auto; unfold D, H; cbn [fits]; rewrite ?map_length, ?Lr; auto.
    - apply (Hel (fun p => Fin (IZR (fst p)))). - apply (Hel (fun p => Fin (snd p))). }
  rewrite Ez in A. destruct A as [_ A]. cbn [element] in A. rewrite Lz in A.
  exists (solar_zenith NP x y (Fin (IZR d)) (Fin h)). split.
  - fold (solar_zenith_angle (Sc x) (Sc y) (TOne w)). rewrite one_sc. rewrite (Hk w (nth_error_In _ _ Hw)).
    destruct (has_timetuple v); rewrite Ed; reflexivity.
  - destruct (Nat.eqb_spec (length l) 1) as [E'|E']; [assert (i = 0)%nat by lia; subst i|]; exact A.
Qed.

(** ** How the angle changes from second to second *)
Open Scope R_scope.
Lemma zen lat lon day hour : solar_zenith NP (Fin lat) (Fin lon) (Fin day) (Fin hour) =
  Fin (deg (acos (dotp (lat * (PI / 180)) 0 (dcl (gm day)) (hangle lon day hour)))).
Proof.
  unfold solar_zenith. rewrite cos_zenith_NP, decl_eq.
  replace (sin (lat * (PI / 180)) * sin (dcl (gm day)) + cos (lat * (PI / 180)) * cos (dcl (gm day)) * cos (hangle lon day hour))
    with (dotp (lat * (PI / 180)) 0 (dcl (gm day)) (hangle lon day hour)) by (unfold dotp; rewrite Rminus_0_r; ring).
  pose proof (dotp_range (lat * (PI / 180)) 0 (dcl (gm day)) (hangle lon day hour)) as H. set (c := dotp _ _ _ _) in *. clearbody c.
  unfold rad2deg_. cbn -[ediv eunit Rmin Rmax]. pose proof PI_RGT_0. rewrite ediv_fin by lra.
  rewrite Rmax_left, Rmin_left by (try rewrite Rmax_left; lra). rewrite eunit_fin by auto. cbn. f_equal. unfold deg. qr. field. lra.
Qed.
Lemma cos_lip a b : Rabs (cos a - cos b) <= Rabs (a - b).
Proof.
  rewrite form2, Rabs_mult, Rabs_mult. replace (Rabs (-2)) with 2 by (rewrite Rabs_left; lra).
  assert (S : forall x, Rabs (sin x) <= Rabs x).
  { intros x. destruct (Req_dec x 0) as [->|N]; [rewrite sin_0; lra|]. destruct (Rle_or_lt 0 x).
    - rewrite (Rabs_right x) by lra. apply Rabs_le. destruct (Rle_or_lt x 1); [|pose proof (SIN_bound x); lra].
      pose proof (sin_lt_x x ltac:(lra)). pose proof PI_RGT_0. assert (0 <= sin x) by (apply sin_ge_0; pose proof PI2_1; lra). lra.
    - rewrite (Rabs_left x) by lra. rewrite <- Rabs_Ropp, <- sin_neg. apply Rabs_le. destruct (Rle_or_lt (- x) 1); [|pose proof (SIN_bound (- x)); lra].
      pose proof (sin_lt_x (- x) ltac:(lra)). assert (0 <= sin (- x)) by (apply sin_ge_0; pose proof PI2_1; lra). lra. }
  pose proof (S ((a - b) / 2)) as H1. assert (Rabs (sin ((a + b) / 2)) <= 1) by (apply Rabs_le; apply SIN_bound).
  unfold Rdiv in H1 at 2. rewrite Rabs_mult in H1. rewrite (Rabs_right (/ 2)) in H1 by lra.
  pose proof (Rabs_pos (sin ((a - b) / 2))). pose proof (Rabs_pos (sin ((a + b) / 2))). nra.
Qed.
Lemma sin_lip a b : Rabs (sin a - sin b) <= Rabs (a - b).
Proof. rewrite <- !cos_shift. replace (a - b) with (- ((PI / 2 - a) - (PI / 2 - b))) by ring. rewrite Rabs_Ropp. apply cos_lip. Qed.
Ltac lips g h := pose proof (Rabs_le_inv _ _ (cos_lip g h)); pose proof (Rabs_le_inv _ _ (sin_lip g h)).
Lemma dcl_lip g h : Rabs (dcl g - dcl h) <= 0.4981 * Rabs (g - h).
Proof.
  unfold dcl. lips g h. lips (2 * g) (2 * h). lips (3 * g) (3 * h).
  replace (2 * g - 2 * h) with (2 * (g - h)) in * by ring. replace (3 * g - 3 * h) with (3 * (g - h)) in * by ring.
  rewrite !(Rabs_mult 2), !(Rabs_mult 3), !(Rabs_right 2), !(Rabs_right 3) in * by lra. apply Rabs_le. lra.
Qed.
Lemma eqm_lip g h : Rabs (eqm g - eqm h) <= 33.21 * Rabs (g - h).
Proof.
  unfold eqm. lips g h. lips (2 * g) (2 * h).
  replace (2 * g - 2 * h) with (2 * (g - h)) in * by ring.
  rewrite !(Rabs_mult 2), !(Rabs_right 2) in * by lra. apply Rabs_le. lra.
Qed.
Lemma dcl_per g : dcl (g + 2 * PI) = dcl g.
Proof.
  unfold dcl. replace (2 * (g + 2 * PI)) with (2 * g + 2 * INR 2 * PI) by (cbn; ring). replace (3 * (g + 2 * PI)) with (3 * g + 2 * INR 3 * PI) by (cbn; ring).
  replace (g + 2 * PI) with (g + 2 * INR 1 * PI) by (cbn; ring). rewrite !cos_period, !sin_period. reflexivity.
Qed.
Lemma eqm_per g : eqm (g + 2 * PI) = eqm g.
Proof.
  unfold eqm. replace (2 * (g + 2 * PI)) with (2 * g + 2 * INR 2 * PI) by (cbn; ring).
  replace (g + 2 * PI) with (g + 2 * INR 1 * PI) by (cbn; ring). rewrite !cos_period, !sin_period. reflexivity.
Qed.
Lemma ang_lat a d1 d2 h : acos (dotp a 0 d1 h) <= acos (dotp a 0 d2 h) + acos (dotp d2 h d1 h).
Proof. apply acos_triangle; try apply dotp_range. rewrite !dotp_xyz. apply gram; apply unit_xyz. Qed.
Lemma ang_lon a d h1 h2 : acos (dotp a 0 d h1) <= acos (dotp a 0 d h2) + acos (dotp d h2 d h1).
Proof. apply acos_triangle; try apply dotp_range. rewrite !dotp_xyz. apply gram; apply unit_xyz. Qed.
(** the arccosine of something at least cos x *)
Lemma acos_bnd c x : 0 <= x <= PI -> cos x <= c -> c <= 1 -> acos c <= x.
Proof.
  intros Hx H Hc. pose proof (COS_bound x) as B. destruct (Rle_or_lt (acos c) x) as [|L]; [assumption|exfalso].
  pose proof (acos_range c). assert (cos (acos c) < cos x) by (apply cos_decreasing_1; lra). rewrite cos_acos in * by lra. lra.
Qed.
Lemma ang_dd d1 d2 h : Rabs (d1 - d2) <= PI -> acos (dotp d2 h d1 h) <= Rabs (d1 - d2).
Proof.
  intros H. pose proof (dotp_range d2 h d1 h) as D. apply acos_bnd; [split; [apply Rabs_pos|exact H]| |lra].
  unfold dotp. replace (h - h) with 0 by ring. rewrite cos_0, Rmult_1_r.
  replace (cos d2 * cos d1 + sin d2 * sin d1) with (cos (d1 - d2)) by (rewrite cos_minus; ring).
  unfold Rabs. destruct Rcase_abs; [rewrite cos_neg|]; lra.
Qed.
Lemma ang_hh d h1 h2 : Rabs (h1 - h2) <= PI -> acos (dotp d h2 d h1) <= Rabs (h1 - h2).
Proof.
  intros H. pose proof (dotp_range d h2 d h1) as D. apply acos_bnd; [split; [apply Rabs_pos|exact H]| |lra].
  unfold dotp. replace (cos (Rabs (h1 - h2))) with (cos (h1 - h2)) by (unfold Rabs; destruct Rcase_abs; [rewrite cos_neg|]; reflexivity).
  pose proof (sin2_cos2 d) as P. unfold Rsqr in P. pose proof (COS_bound (h1 - h2)). nra.
Qed.
Lemma ang_step a d1 h1 d2 h2 : Rabs (d1 - d2) <= PI -> Rabs (h1 - h2) <= PI ->
  acos (dotp a 0 d1 h1) <= acos (dotp a 0 d2 h2) + Rabs (d1 - d2) + Rabs (h1 - h2).
Proof.
  intros A B. pose proof (ang_lat a d1 d2 h1). pose proof (ang_dd d1 d2 h1 A). pose proof (ang_lon a d2 h1 h2). pose proof (ang_hh d2 h1 h2 B). lra.
Qed.
(** two moments whose dates are at most a day apart (up to whole years) and whose clocks are at most a second apart (up to whole days) *)
Lemma zen_step lat lon d1 t1 d2 t2 m n : Rabs (gm d1 - gm d2 - IZR n * (2 * PI)) <= 2 * PI / 365 -> (n = 0 \/ n = 1 \/ n = -1)%Z ->
  Rabs (t1 - t2 - IZR m * 24) <= / 3600 -> (m = 0 \/ m = 1 \/ m = -1)%Z ->
  deg (acos (dotp (lat * (PI / 180)) 0 (dcl (gm d1)) (hangle lon d1 t1))) <=
  deg (acos (dotp (lat * (PI / 180)) 0 (dcl (gm d2)) (hangle lon d2 t2))) + 0.65.
Proof.
  intros Hg Hn Ht Hm. pose proof PI_RGT_0 as P. set (g2 := gm d2 + IZR n * (2 * PI)).
  assert (D2 : dcl (gm d2) = dcl g2 /\ eqm (gm d2) = eqm g2).
  { unfold g2. destruct Hn as [->|[->|E]].
    - split; f_equal; ring.
    - replace (gm d2 + 1 * (2 * PI)) with (gm d2 + 2 * PI) by ring. rewrite dcl_per, eqm_per. auto.
    - subst n. replace (gm d2) with (gm d2 + -1 * (2 * PI) + 2 * PI) at 1 3 by ring. rewrite dcl_per, eqm_per. auto. }
  destruct D2 as [Ed Ee].
  set (h2 := hangle lon d2 (t2 + IZR m * 24)).
  assert (Hh : dotp (lat * (PI / 180)) 0 (dcl (gm d2)) (hangle lon d2 t2) = dotp (lat * (PI / 180)) 0 (dcl (gm d2)) h2).
  { unfold dotp. do 2 f_equal. unfold h2, hangle. rewrite !Rminus_0_r. destruct Hm as [->|[->|E]].
    - replace (t2 + 0 * 24) with t2 by ring. reflexivity.
    - replace (((t2 + 1 * 24) * 60 + (eqt d2 + 4 * lon)) / 4 - 180) with (((t2 * 60 + (eqt d2 + 4 * lon)) / 4 - 180) + 360) by field.
      rewrite Rmult_plus_distr_r. replace (360 * (PI / 180)) with (2 * INR 1 * PI) by (cbn; field). rewrite cos_period. reflexivity.
    - subst m. replace ((t2 * 60 + (eqt d2 + 4 * lon)) / 4 - 180) with ((((t2 + -1 * 24) * 60 + (eqt d2 + 4 * lon)) / 4 - 180) + 360) by field.
      rewrite Rmult_plus_distr_r. replace (360 * (PI / 180)) with (2 * INR 1 * PI) by (cbn; field). rewrite cos_period. reflexivity. }
  rewrite Hh.
  assert (P4 : 3 < PI < 3.2) by (split; interval).
  assert (Hg' : Rabs (gm d1 - g2) <= 2 * PI / 365) by (unfold g2; replace (gm d1 - (gm d2 + IZR n * (2 * PI))) with (gm d1 - gm d2 - IZR n * (2 * PI)) by ring; exact Hg).
  pose proof (dcl_lip (gm d1) g2) as L1. pose proof (eqm_lip (gm d1) g2) as L2. rewrite <- Ed in L1. rewrite <- Ee in L2.
  assert (B1 : Rabs (dcl (gm d1) - dcl (gm d2)) <= 0.4981 * (2 * PI / 365)) by lra.
  assert (B2 : Rabs (hangle lon d1 t1 - h2) <= (33.21 * (2 * PI / 365) / 4 + 15 / 3600) * (PI / 180)).
  { unfold h2, hangle. rewrite !eqt_eq.
    replace (((t1 * 60 + (eqm (gm d1) + 4 * lon)) / 4 - 180) * (PI / 180) - (((t2 + IZR m * 24) * 60 + (eqm (gm d2) + 4 * lon)) / 4 - 180) * (PI / 180))
      with (((t1 - t2 - IZR m * 24) * 15 + (eqm (gm d1) - eqm (gm d2)) / 4) * (PI / 180)) by field.
    rewrite Rabs_mult, (Rabs_right (PI / 180)) by lra. apply Rmult_le_compat_r; [lra|].
    apply Rabs_le_inv in Ht. assert (Rabs (eqm (gm d1) - eqm (gm d2)) <= 33.21 * (2 * PI / 365)) as Q by lra. apply Rabs_le_inv in Q. apply Rabs_le. lra. }
  assert (C1 : 0.4981 * (2 * PI / 365) <= 0.00858) by interval.
  assert (C2 : (33.21 * (2 * PI / 365) / 4 + 15 / 3600) * (PI / 180) <= 0.00257) by interval.
  pose proof (ang_step (lat * (PI / 180)) (dcl (gm d1)) (hangle lon d1 t1) (dcl (gm d2)) h2 ltac:(lra) ltac:(lra)) as S.
  set (A := acos (dotp _ _ (dcl (gm d1)) _)) in *. set (B := acos (dotp _ _ (dcl (gm d2)) _)) in *. clearbody A B.
  assert (AB : A <= B + 0.01115) by lra. unfold deg. qr.
  assert (0.01115 * (180 / PI) <= 0.65) by interval. assert (0 < 180 / PI) by (apply Rdiv_lt_0_compat; lra).
  assert (A * (180 / PI) <= (B + 0.01115) * (180 / PI)) by (apply Rmult_le_compat_r; lra). lra.
Qed.

Lemma falls_hour f k y day hour : calendar f -> falls f k y day hour ->
  (k / 86400 + 719163 = days_before_year y + day /\ 1 <= day <= year_days y)%Z /\ 3600 * hour = IZR (k mod 86400).
Proof.
  intros Hf (F1 & F2 & F3). rewrite year_length in F1 by auto.
  assert (IZR (86400 * (f y 1 + day - 1))%Z <= IZR k < IZR (86400 * (f y 1 + day - 1))%Z + 86400) as [G1 G2] by lra.
  apply le_IZR in G1. change 86400 with (IZR 86400) in G2. rewrite <- plus_IZR in G2. apply lt_IZR in G2.
  assert (Ed : (k / 86400 = f y 1 + day - 1)%Z). { symmetry. apply Z.div_unique with (k - 86400 * (f y 1 + day - 1))%Z; lia. }
  assert (Em : (k mod 86400 = k - 86400 * (f y 1 + day - 1))%Z). { symmetry. apply Z.mod_unique with (f y 1 + day - 1)%Z; lia. }
  rewrite (calendar_unique f) in Ed by (auto; lia). rewrite dbm1 in Ed. split; [split; lia|].
  rewrite Em, minus_IZR. lra.
Qed.
Lemma gm_next d : gm (d + 1) - gm d = 2 * PI / 365.
Proof. unfold gm. field. Qed.
(** From one second to the next the angle changes by less than 0.65 degrees, at midnight and at the end of the year too. *)
Theorem C119_smooth f k lat lon : calendar f -> (f 1 1 <= k / 86400)%Z -> ((k + 1) / 86400 < f 10000 1)%Z ->
  exists z z', solar_zenith_angle (Sc (Fin lat)) (Sc (Fin lon)) (TOne (TNumber (IZR k))) = inr (Sc (Fin z)) /\
  solar_zenith_angle (Sc (Fin lat)) (Sc (Fin lon)) (TOne (TNumber (IZR (k + 1)))) = inr (Sc (Fin z')) /\ Rabs (z' - z) <= 0.65.
Proof.
  intros Hf Hlo Hhi. assert (Hm : (k / 86400 <= (k + 1) / 86400)%Z) by (apply Z.div_le_mono; lia).
  destruct (C119_number f (IZR k) k Hf) as (y & day & hour & F & E); [lra|lia|].
  destruct (C119_number f (IZR (k + 1)) (k + 1) Hf) as (y' & day' & hour' & F' & E'); [lra|lia|].
  rewrite E, E', !zen. do 2 eexists. split; [reflexivity|]. split; [reflexivity|].
  destruct (falls_hour _ _ _ _ _ Hf F) as ((A1 & A2) & A3). destruct (falls_hour _ _ _ _ _ Hf F') as ((B1 & B2) & B3).
  assert (HP := PI_RGT_0).
  assert (exists m n, (m = 0 \/ m = 1 \/ m = -1)%Z /\ (n = 0 \/ n = 1 \/ n = -1)%Z /\
     Rabs (gm (IZR day) - gm (IZR day') - IZR n * (2 * PI)) <= 2 * PI / 365 /\ Rabs (hour - hour' - IZR m * 24) <= / 3600) as (m & n & M & N & G & T).
  { assert (HP' : 0 <= 2 * PI / 365) by lra.
    destruct (Z.eq_dec (k mod 86400) 86399) as [Q|Q].
    - assert (D : ((k + 1) / 86400 = k / 86400 + 1)%Z).
      { symmetry. apply Z.div_unique with 0%Z; [lia|]. pose proof (Z.div_mod k 86400 ltac:(lia)). lia. }
      assert (R : ((k + 1) mod 86400 = 0)%Z). { symmetry. apply Z.mod_unique with (k / 86400 + 1)%Z; [lia|]. pose proof (Z.div_mod k 86400 ltac:(lia)). lia. }
      assert (T : Rabs (hour - hour' - IZR 1 * 24) <= / 3600). { rewrite Q in A3. rewrite R in B3. apply Rabs_le. lra. }
      destruct (Z.eq_dec day (year_days y)) as [L|L].
      + destruct (year_unique (y + 1) 1 y' day') as [_ <-]; [pose proof (year_days_pos (y + 1)); lia|lia|rewrite dby_succ; lia|].
        exists 1%Z, 1%Z. split; [lia|]. split; [lia|]. split; [|exact T]. subst day. unfold year_days, gm. destruct (is_leap y); apply Rabs_le; lra.
      + destruct (year_unique y (day + 1) y' day') as [_ <-]; [lia|lia|lia|].
        exists 1%Z, 0%Z. split; [lia|]. split; [lia|]. split; [|exact T]. rewrite plus_IZR. pose proof (gm_next (IZR day)). apply Rabs_le. lra.
    - pose proof (Z.mod_pos_bound k 86400 ltac:(lia)).
      assert (D : ((k + 1) / 86400 = k / 86400)%Z). { symmetry. apply Z.div_unique with (k mod 86400 + 1)%Z; [lia|]. pose proof (Z.div_mod k 86400 ltac:(lia)). lia. }
      assert (R : ((k + 1) mod 86400 = k mod 86400 + 1)%Z). { symmetry. apply Z.mod_unique with (k / 86400)%Z; [lia|]. pose proof (Z.div_mod k 86400 ltac:(lia)). lia. }
      destruct (year_unique y day y' day') as [_ <-]; [lia|lia|lia|]. exists 0%Z, 0%Z. split; [lia|]. split; [lia|].
      rewrite R, plus_IZR in B3. split; apply Rabs_le; lra. }
  pose proof (zen_step lat lon _ _ _ _ m n G N T M) as S1.
  pose proof (zen_step lat lon (IZR day') hour' (IZR day) hour (- m) (- n)) as S2. rewrite !opp_IZR in S2.
  replace (gm (IZR day') - gm (IZR day) - - IZR n * (2 * PI)) with (- (gm (IZR day) - gm (IZR day') - IZR n * (2 * PI))) in S2 by ring.
  replace (hour' - hour - - IZR m * 24) with (- (hour - hour' - IZR m * 24)) in S2 by ring. rewrite !Rabs_Ropp in S2.
  specialize (S2 G ltac:(lia) T ltac:(lia)). apply Rabs_le. lra.
Qed.
(** The last day of a leap year is taken for the first day of a year. *)
Theorem C119_leap_year lat lon d d' : leap (dt_year d) -> dt_month d = 12%Z -> dt_day d = 31%Z -> dt_month d' = 1%Z -> dt_day d' = 1%Z ->
  dt_hour d = dt_hour d' -> dt_minute d = dt_minute d' -> dt_second d = dt_second d' ->
  solar_zenith_angle (Sc (Fin lat)) (Sc (Fin lon)) (TOne (TDatetime d)) = solar_zenith_angle (Sc (Fin lat)) (Sc (Fin lon)) (TOne (TDatetime d')).
Proof.
  intros L M1 D1 M2 D2 H1 H2 H3. rewrite !one_sc. cbn [has_timetuple from_datetime]. unfold fields, tm_yday. rewrite M1, D1, M2, D2, H1, H2, H3.
  apply leap_iff in L. rewrite dbm12, dbm1, L, !zen. change (334 + 1 + 31)%Z with 366%Z. change (0 + 1)%Z with 1%Z.
  assert (E : gm 366 = gm 1 + 2 * PI) by (unfold gm; field). unfold hangle. rewrite !eqt_eq, E.
  rewrite dcl_per, eqm_per. reflexivity.
Qed.
Close Scope R_scope.

(** What raises: no timestamps, [np.datetime64] and strings, a list that mixes datetimes and numbers, more places than
    timestamps. *)
Theorem C119_raises :
  (forall lat lon, solar_zenith_angle lat lon (TMany []) = inl IndexError) /\
  (forall lat lon v, match v with TDatetime64 _ | TOther => True | _ => False end ->
     solar_zenith_angle lat lon (TOne v) = inl TypeError /\ forall l, solar_zenith_angle lat lon (TMany (v :: l)) = inl TypeError) /\
  (forall lat lon v l1 w l2, accepted v -> (forall u, In u l1 -> same_kind v u /\ accepted u) -> ~ same_kind v w ->
     solar_zenith_angle lat lon (TMany (v :: l1 ++ w :: l2)) = inl (if has_timetuple v then AttributeError else TypeError)) /\
  (forall l lats lon v, nth_error l 0 = Some v -> (forall w, In w l -> same_kind v w /\ accepted w) ->
     length lats <> length l -> length lats <> 1%nat -> length l <> 1%nat -> solar_zenith_angle (Ar lats) lon (TMany l) = inl ValueError) /\
  (forall l lat lons v, nth_error l 0 = Some v -> (forall w, In w l -> same_kind v w /\ accepted w) ->
     length lons <> length l -> length lons <> 1%nat -> length l <> 1%nat -> solar_zenith_angle lat (Ar lons) (TMany l) = inl ValueError).
Proof.
  split; [reflexivity|]. split; [|split; [|split]].
  - intros lat lon v Hv. destruct v; try contradiction; split; reflexivity.
  - intros lat lon v l1 w l2 Hv Hl Hw. unfold solar_zenith_angle, day_and_hour.
    rewrite app_comm_cons. rewrite (comp_raise _ (if has_timetuple v then AttributeError else TypeError) (v :: l1) w l2); [reflexivity| |].
    + intros z [<-|Hz].
      * destruct (accepted_ok v Hv) as (p & Ep). exists p. destruct (has_timetuple v); exact Ep.
      * destruct (Hl z Hz) as [K A]. destruct (accepted_ok z A) as (p & Ep). exists p. destruct v, z; cbn in K |- *; try contradiction; exact Ep.
    + destruct v, w; cbn in Hv, Hw |- *; try contradiction; try reflexivity; tauto.
  - intros l lats lon v H0 Hl N1 N2 N3. destruct l as [|v' l']; [discriminate|]. cbn in H0. injection H0 as ->. set (l := v :: l') in *.
    assert (Hk : forall w, In w l -> has_timetuple w = has_timetuple v). { intros w Hw. destruct (Hl w Hw) as [K _]. destruct v, w; cbn in K |- *; tauto. }
    destruct (comp_ok (if has_timetuple v then from_datetime else from_unix) l) as (r & Er & Lr & _).
    { intros w Hw. destruct (Hl w Hw) as [_ A]. destruct (accepted_ok w A) as (p & Ep). rewrite (Hk w Hw) in Ep. exists p. destruct (has_timetuple v); exact Ep. }
    unfold solar_zenith_angle. unfold day_and_hour. unfold l at 1. fold l. rewrite Er.
    set (D := Ar (map (fun p => Fin (IZR (fst p))) r)). set (H := Ar (map (fun p => Fin (snd p)) r)).
    pose proof (shape_solar (Ar lats) lon D H) as S. unfold D at 2, H at 2 in S. cbn [shape] in S. rewrite !map_length, Lr in S.
    rewrite join_idem in S.
    assert (E : join (SA (length lats)) (SA (length l)) = SE).
    { cbn [join]. rewrite (proj2 (Nat.eqb_neq _ _) N1), (proj2 (Nat.eqb_neq _ _) N2), (proj2 (Nat.eqb_neq _ _) N3). reflexivity. }
    rewrite (join_comm (shape lon)), join_assoc, E in S. cbn [join] in S. destruct (solar_zenith VB (Ar lats) lon D H); cbn in S; try discriminate. reflexivity.
  - intros l lat lons v H0 Hl N1 N2 N3. destruct l as [|v' l']; [discriminate|]. cbn in H0. injection H0 as ->. set (l := v :: l') in *.
    assert (Hk : forall w, In w l -> has_timetuple w = has_timetuple v). { intros w Hw. destruct (Hl w Hw) as [K _]. destruct v, w; cbn in K |- *; tauto. }
    destruct (comp_ok (if has_timetuple v then from_datetime else from_unix) l) as (r & Er & Lr & _).
    { intros w Hw. destruct (Hl w Hw) as [_ A]. destruct (accepted_ok w A) as (p & Ep). rewrite (Hk w Hw) in Ep. exists p. destruct (has_timetuple v); exact Ep. }
    unfold solar_zenith_angle. unfold day_and_hour. unfold l at 1. fold l. rewrite Er.
    set (D := Ar (map (fun p => Fin (IZR (fst p))) r)). set (H := Ar (map (fun p => Fin (snd p)) r)).
    pose proof (shape_solar lat (Ar lons) D H) as S. unfold D at 2, H at 2 in S. cbn [shape] in S. rewrite !map_length, Lr in S.
    rewrite join_idem in S.
    assert (E : join (SA (length lons)) (SA (length l)) = SE).
    { cbn [join]. rewrite (proj2 (Nat.eqb_neq _ _) N1), (proj2 (Nat.eqb_neq _ _) N2), (proj2 (Nat.eqb_neq _ _) N3). reflexivity. }
    rewrite E, join_comm in S. cbn [join] in S. destruct (solar_zenith VB lat (Ar lons) D H); cbn in S; try discriminate. reflexivity.
Qed.

(** Arrays of dates from numpy and from pandas without a time zone raise; pandas with a time zone is accepted. *)
Theorem C119_dates lat lon zone l : l <> [] ->
  solar_zenith_angle lat lon (asarray (NpDates l)) = inl TypeError /\
  solar_zenith_angle lat lon (asarray (PdIndex None l)) = inl TypeError /\
  exists r, day_and_hour (asarray (PdIndex (Some zone) l)) = inr r.
Proof.
  intros H. destruct l as [|x l]; [contradiction|]. split; [reflexivity|]. split; [reflexivity|].
  cbn [asarray map]. unfold day_and_hour. cbn [has_timetuple].
  destruct (comp_ok from_datetime (TDatetime (of_clock (x / 1000000000 + zone) (x mod 1000000000 / 1000) (Some zone)) ::
    map (fun ns => TDatetime (of_clock (ns / 1000000000 + zone) (ns mod 1000000000 / 1000) (Some zone))) l)) as (r & -> & _).
  { intros w Hw. change (In w (map (fun ns => TDatetime (of_clock (ns / 1000000000 + zone) (ns mod 1000000000 / 1000) (Some zone))) (x :: l))) in Hw.
    apply in_map_iff in Hw as (n & <- & _). eexists. reflexivity. }
  eauto.
Qed.
(** so the documented "array of timestamps" is not accepted from pandas *)
Theorem C119_pandas_refuted : ~ (forall zone l lat lon, l <> [] -> exists r, solar_zenith_angle (Sc (Fin lat)) (Sc (Fin lon)) (asarray (PdIndex zone l)) = inr r).
Proof. intros H. destruct (H None [0] 0%R 0%R) as (r & E); [discriminate|]. discriminate E. Qed.
(** Datetimes with a time zone are not converted to UTC: the same instant gives different angles. *)
Theorem C119_zone_refuted : ~ (forall f d d' lat lon, calendar f -> exists_date d -> exists_date d' -> instant f d = instant f d' ->
  solar_zenith_angle (Sc (Fin lat)) (Sc (Fin lon)) (TOne (TDatetime d)) = solar_zenith_angle (Sc (Fin lat)) (Sc (Fin lon)) (TOne (TDatetime d'))).
Proof.
  intros H. specialize (H _ (mkDt 2023 3 21 12 0 0 0 (Some 0)) (mkDt 2023 3 21 14 0 0 0 (Some 7200)) 0%R 0%R calendar_exists).
  assert (E : solar_zenith NP (Fin 0) (Fin 0) (Fin 80) (Fin (hour_utc 12 0 0)) = solar_zenith NP (Fin 0) (Fin 0) (Fin 80) (Fin (hour_utc 14 0 0))).
  { rewrite !one_sc in H. cbn [has_timetuple from_datetime] in H. 
    assert (I : forall x y : ext, @inr pyerr (varr ext) (Sc x) = inr (Sc y) -> x = y) by congruence. apply I. apply H.
    - repeat apply conj; vm_compute; discriminate.
    - repeat apply conj; vm_compute; discriminate.
    - unfold instant. f_equal. }
  destruct (C18_solar_zenith 0 0 80 (hour_utc 12 0 0)) as (c & z & C1 & _ & Z1 & _ & R1 & _).
  destruct (C18_solar_zenith 0 0 80 (hour_utc 14 0 0)) as (c' & z' & C2 & _ & Z2 & _ & R2 & _).
  rewrite Z1, Z2 in E. injection E as <-. rewrite R1 in R2. subst c'. rewrite <- C2 in C1. rewrite !cos_zenith_NP in C1. injection C1 as C1.
  unfold hangle, hour_utc in C1. rewrite !decl_eq, !eqt_eq in C1. unfold dcl, eqm, gm in C1.
  match type of C1 with ?a = ?b => assert (b < 0.9)%R by interval; assert (0.95 < a)%R by interval end. lra.
Qed.

(** Noon on 21 June 2024 as a datetime and as a number. *)
Example C119_ex : exists z, solar_zenith_angle (Sc (Fin 52)) (Sc (Fin 4)) (TOne (TDatetime (mkDt 2024 6 21 12 0 0 500000 None))) = inr (Sc (Fin z)) /\
  solar_zenith_angle (Sc (Fin 52)) (Sc (Fin 4)) (TOne (TNumber 1718971200.5%R)) = inr (Sc (Fin z)) /\ (28 < z < 30)%R.
Proof.
  exists (deg (acos (dotp (52 * (PI / 180)) 0 (dcl (gm 173)) (hangle 4 173 (hour_utc 12 0 0))))). split; [|split].
  - rewrite one_sc. cbn [has_timetuple from_datetime]. unfold fields. change (tm_yday _) with 173. cbn [dt_hour dt_minute dt_second]. rewrite zen. reflexivity.
  - pose proof (C119_datetime _ (mkDt 2024 6 21 12 0 0 500000 None) (Fin 52) (Fin 4) calendar_exists) as H.
    replace 1718971200.5%R with (IZR (clock (fun y m => days_before_year y + days_before_month y m - 719162)%Z (mkDt 2024 6 21 12 0 0 500000 None)) + IZR (dt_micro (mkDt 2024 6 21 12 0 0 500000 None)) / 1000000)%R.
    2:{ change (clock _ _) with 1718971200. cbn [dt_micro]. lra. }
    rewrite <- H by (unfold exists_date; cbn [dt_year dt_month dt_day dt_hour dt_minute dt_second dt_micro]; change (month_days 2024 6) with 30; lia).
    rewrite one_sc. cbn [has_timetuple from_datetime]. unfold fields. change (tm_yday _) with 173. cbn [dt_hour dt_minute dt_second]. rewrite zen. reflexivity.
  - pose proof PI_RGT_0 as P. set (c := dotp _ _ _ _). assert (C : (0.867 < c < 0.882)%R).
    { unfold c, dotp, hangle, hour_utc. rewrite eqt_eq. unfold dcl, eqm, gm. split; interval. }
    assert (A : (28 * PI / 180 < acos c < 30 * PI / 180)%R).
    { pose proof (acos_range c). split; apply Rnot_le_lt; intro B.
      - assert (cos (28 * PI / 180) <= cos (acos c))%R by (apply cos_decr_1; lra). rewrite cos_acos in * by lra. assert (0.8825 < cos (28 * PI / 180))%R by interval. lra.
      - assert (cos (acos c) <= cos (30 * PI / 180))%R by (apply cos_decr_1; lra). rewrite cos_acos in * by lra. assert (cos (30 * PI / 180) < 0.8661)%R by interval. lra. }
    set (a := acos c) in *. clearbody a. clear - P A. unfold deg. replace 180.0%R with 180%R by lra.
    assert (E : (a = a * (180 / PI) * (PI / 180))%R) by (field; lra). set (b := (a * (180 / PI))%R) in *. clearbody b. subst a.
    destruct A as [A1 A2]. split; nra.
Qed.
