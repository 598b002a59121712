(** * Model of openap/addon/bada4.py

    The classes read [self.sci], which no class sets (openap/base.py:27-29, 57-59, 97-99); [sci] says whether
    somebody has added it to the classes as NumPy.  Texts of XML elements are turned into numbers by an abstract
    function [num] (Python's [float]); texts denoting NaN or infinities are not covered.  Arguments are numbers or
    arrays ([Nd.v]); arrays of symbols are not covered. *)
From Coq Require Import String List Bool Arith.
From Coq Require Import Reals.
From Verif Require Import Num Py Str Aero Nd.
Import ListNotations.
Open Scope R_scope.

(** sequencing of Python statements (openap/addon/bada4.py throughout) *)
Notation "'do' x <- e ; f" := (match e with inl err => inl err | inr x => f end)
  (at level 200, x pattern, e at level 100, f at level 200, right associativity).

(** ** Files *)
(** an XML element: tag, text before the first child, children (xml.etree; openap/addon/bada4.py:31) *)
Inductive xml : Type := Elem (tag : string) (text : option string) (children : list xml).
(** openap/addon/bada4.py:53-58 *)
Definition x_tag (e : xml) : string := match e with Elem t _ _ => t end.
(** openap/addon/bada4.py:53-58 *)
Definition x_text (e : xml) : option string := match e with Elem _ t _ => t end.
(** openap/addon/bada4.py:53-58 *)
Definition x_children (e : xml) : list xml := match e with Elem _ _ l => l end.
(** all elements below [e], in document order ([.//*], openap/addon/bada4.py:53, 55, 57) *)
Fixpoint below (e : xml) : list xml :=
  match e with Elem _ _ l => flat_map (fun c => c :: below c) l end.
(** one step [/tag] of a path (openap/addon/bada4.py:53-58) *)
Definition step (tag : string) (l : list xml) : list xml :=
  flat_map (fun e => filter (fun c => String.eqb (x_tag c) tag) (x_children e)) l.
(** the steps of a path (openap/addon/bada4.py:156-172) *)
Definition steps (tags : list string) (l : list xml) : list xml := fold_left (fun l t => step t l) tags l.

(** what a directory entry below the data path holds: the XML files in it, in the order of the listing, [None] for
    a file that is not well formed (openap/addon/bada4.py:28-31) *)
Definition folder : Type := (string * list (option xml))%type.
(** [glob(f"{path}/{ac.upper()}*")], in the order of the directory listing; a star or a question mark in the code is
    part of the pattern, names beginning with a dot match only when the code begins with one.  Codes with a slash or a
    bracket are not covered (openap/addon/bada4.py:24) *)
Definition options (dir : list folder) (ac : string) : list folder :=
  filter (fun f => glob_match (upper ac ++ "*") (fst f) && negb (prefix "." (fst f) && negb (prefix "." (upper ac)))) dir.
(** openap/addon/bada4.py:12-32 *)
Definition load_bada4 (dir : list folder) (ac : string) : py xml :=
  match options dir ac with
  | [] => inl ValueError
  | (_, files) :: _ =>
      match files with
      | [] => inl IndexError
      | None :: _ => inl ParseError
      | Some x :: _ => inr x
      end
  end.

Section Bada4.
Context (num : string -> option R).
(** is the attribute [sci] there? *)
Context (sci : bool).
(** [self.sci] (openap/addon/bada4.py:54) *)
Definition need_sci : py unit := if sci then inr tt else inl AttributeError.

(** [float(e.findtext(path))]: an element without text counts as an empty text, a missing element is [None]
    (openap/addon/bada4.py:53, 57, 58, 156, 165, 327, 330) *)
Definition get_number (l : list xml) : py R :=
  match l with
  | [] => inl TypeError
  | e :: _ => match num (match x_text e with Some s => s | None => "" end) with Some r => inr r | None => inl ValueError end
  end.
(** [[float(v.text) for v in e.findall(path)]] (openap/addon/bada4.py:55, 157-158, 166-172, 328-329) *)
Fixpoint get_numbers (l : list xml) : py (list R) :=
  match l with
  | [] => inr []
  | e :: t =>
      match x_text e with
      | None => inl TypeError
      | Some s => match num s with
                  | None => inl ValueError
                  | Some r => do rs <- get_numbers t; inr (r :: rs)
                  end
      end
  end.

(** ** Constructors *)
(** attributes of a Drag object (openap/addon/bada4.py:53-58) *)
Record b4_drag : Type := mkB4d { d_scalar : R; d_d : list R; d_mmax : R; d_S : R }.
(** the coefficients of one rating (openap/addon/bada4.py:164-172) *)
Record b4_rating : Type := mkB4r { r_kink : R; r_b : list R; r_c : list R }.
(** attributes of a Thrust object (openap/addon/bada4.py:156-172) *)
Record b4_thrust : Type := mkB4t { t_mref : R; t_a : list R; t_ti : list R; t_mcrz : b4_rating; t_mcmb : b4_rating }.
(** attributes of a FuelFlow object (openap/addon/bada4.py:322-330) *)
Record b4_fuel : Type := mkB4f { f_thrust : b4_thrust; f_drag : b4_drag; f_mref : R; f_f : list R; f_fi : list R; f_lhv : R }.

(** openap/addon/bada4.py:39-58 *)
Definition b4_drag_new (dir : list folder) (ac : string) : py b4_drag :=
  do x <- load_bada4 dir ac;
  do s <- get_number (steps ["DPM_clean"; "scalar"]%string (below x));
  do _ <- need_sci;
  do d <- get_numbers (steps ["CD_clean"; "d"]%string (below x));
  do m <- get_number (steps ["DPM_clean"; "M_max"]%string (below x));
  do a <- get_number (steps ["AFCM"; "S"]%string [x]);
  inr (mkB4d s d m a).
(** openap/addon/bada4.py:164-172, one turn of the loop *)
Definition b4_rating_new (x : xml) (rating : string) : py b4_rating :=
  do k <- get_number (steps ["PFM"; "TFM"; rating; "kink"]%string [x]);
  do b <- get_numbers (steps ["PFM"; "TFM"; rating; "flat_rating"; "b"]%string [x]);
  do c <- get_numbers (steps ["PFM"; "TFM"; rating; "temp_rating"; "c"]%string [x]);
  inr (mkB4r k b c).
(** openap/addon/bada4.py:143-172 *)
Definition b4_thrust_new (dir : list folder) (ac : string) : py b4_thrust :=
  do x <- load_bada4 dir ac;
  do m <- get_number (steps ["PFM"; "MREF"]%string [x]);
  do a <- get_numbers (steps ["PFM"; "TFM"; "CT"; "a"]%string [x]);
  do ti <- get_numbers (steps ["PFM"; "TFM"; "LIDL"; "CT"; "ti"]%string [x]);
  do cr <- b4_rating_new x "MCRZ";
  do cl <- b4_rating_new x "MCMB";
  inr (mkB4t m a ti cr cl).
(** openap/addon/bada4.py:312-330 *)
Definition b4_fuel_new (dir : list folder) (ac : string) : py b4_fuel :=
  do t <- b4_thrust_new dir ac;
  do d <- b4_drag_new dir ac;
  do x <- load_bada4 dir ac;
  do m <- get_number (steps ["PFM"; "MREF"]%string [x]);
  do f <- get_numbers (steps ["PFM"; "TFM"; "CF"; "f"]%string [x]);
  do fi <- get_numbers (steps ["PFM"; "TFM"; "LIDL"; "CF"; "fi"]%string [x]);
  do l <- get_number (steps ["PFM"; "LHV"]%string [x]);
  inr (mkB4f t d m f fi l).
End Bada4.

(** ** Drag (with [sci]; without it there is no Drag object) *)
Local Notation "# r" := (cst AB r) (at level 1, r at level 0, format "# r").
Local Notation "x +: y" := (add AB x y) (at level 50, left associativity).
Local Notation "x -: y" := (sub AB x y) (at level 50, left associativity).
Local Notation "x *: y" := (mul AB x y) (at level 40, left associativity).
Local Notation "x /: y" := (div AB x y) (at level 40, left associativity).

(** [np.dot(np.array([mm[:, 0] ** i for i in exps]).T, d[from:to].reshape(n, 1))] for a column [mm]; the slice must
    have as many elements as there are powers (openap/addon/bada4.py:64-77) *)
Definition dot_powers (mm : nd ext) (exps : list nat) (d : list R) : py (nd ext) :=
  if Nat.eqb (length d) (length exps)
  then inr (mkNd 2 (nd_r mm) 1 (fun k _ => nsum (map (fun p => emul (epowi (nd_at mm k 0) (fst p)) (Fin (snd p))) (combine exps d))))
  else inl ValueError.
(** the slice [l[a:b]] (openap/addon/bada4.py:66, 71, 76) *)
Definition part (a b : nat) (l : list R) : list R := firstn (b - a) (skipn a l).

(** openap/addon/bada4.py:60-81 *)
Definition b4_cd_base (m : b4_drag) (cl mach : T AB) : T AB :=
  let cl := col cl in let mach := col mach in
  item (
    do mm <- power AB (#1 -: powi AB mach 2) #(-0.5);
    do C0 <- dot_powers mm [0; 1; 2; 3; 4]%nat (part 0 5 (d_d m));
    do C2 <- dot_powers mm [0; 3; 6; 9; 12]%nat (part 5 10 (d_d m));
    do d10 <- match nth_error (d_d m) 10 with Some r => inr r | None => inl IndexError end;
    do C6 <- #d10 +: dot_powers mm [14; 15; 16; 17]%nat (part 11 15 (d_d m));
    #(d_scalar m) *: (inr C0 +: inr C2 *: powi AB cl 2 +: inr C6 *: powi AB cl 6)).

(** openap/addon/bada4.py:83-100 *)
Definition b4_cd (m : b4_drag) (cl mach : T AB) : T AB :=
  let cl := col cl in let mach := col mach in
  item (
    let cd := b4_cd_base m cl mach in
    let mach_base := d_mmax m - 0.01 in
    let cd_mach_max := b4_cd_base m cl #(d_mmax m) in
    let cd_mach_base := b4_cd_base m cl #mach_base in
    let divergent := maximum AB ((mach -: #mach_base) /: #0.01) #0 in
    let cd_crit := cd_mach_base +: power AB divergent #1.5 *: (cd_mach_max -: cd_mach_base) in
    where_ AB (gt AB #(d_mmax m) mach) cd cd_crit).

(** openap/addon/bada4.py:102-113: lift coefficient and q S *)
Definition b4_cl (m : b4_drag) (mass tas alt : T AB) : T AB * T AB :=
  let mass := col mass in let tas := col tas in let alt := col alt in
  let v := tas *: #kts in
  let h := alt *: #ft in
  let rho := density AB h #0 in
  let qS := #0.5 *: rho *: powi AB v 2 *: #(d_S m) in
  let L := mass *: #g0 in
  (item (L /: maximum AB qS #1e-3), item qS).

(** openap/addon/bada4.py:115-136; the vertical rate is not used *)
Definition b4_clean (m : b4_drag) (mass tas alt : T AB) : T AB :=
  let mass := col mass in let tas := col tas in let alt := col alt in
  item (
    let v := tas *: #kts in
    let h := alt *: #ft in
    let mach := tas2mach AB v h #0 in
    let '(cl, qS) := b4_cl m mass tas alt in
    b4_cd m cl mach *: qS).

(** ** Thrust *)
Section Thrust.
Context (sci : bool).

(** [if dT <= kink]: the truth value of an array is defined for one element only (openap/addon/bada4.py:205) *)
Definition le_kink (dT : nd ext) (kink : R) : py bool :=
  if Nat.eqb (nd_size dT) 1
  then match egt (nd_at dT 0 0) (Fin kink) with Some b => inr (negb b) | None => inr false end
  else inl ValueError.

(** openap/addon/bada4.py:174-224 *)
Definition b4_cT (m : b4_thrust) (mach h : T AB) (rating : string) (dT : T AB) : T AB :=
  do mach <- col mach;
  do h <- col h;
  do dT <- col dT;
  item (
    let rating := upper rating in
    do rt <- (if String.eqb rating "MCRZ" then inr (Some (t_mcrz m))
              else if String.eqb rating "MCMB" then inr (Some (t_mcmb m))
              else if String.eqb rating "LIDL" then inr None else inl AssertionError);
    do delta <- pressure AB (inr h) #0 /: #p0;
    do theta <- temperature AB (inr h) #0 /: #T0;
    match rt with
    | None =>
        do _ <- need_sci sci;
        do ti <- matrix (t_ti m) 3 4;
        let delta_pow := mkNd 2 4 (nd_size delta) (fun i k =>
          match i with O => ediv (Fin 1) (flat delta k) | S n => epowi (flat delta k) n end) in
        einsum ti 3 4 delta_pow (powers 3 mach)
    | Some r =>
        do flat_rated <- le_kink dT (r_kink r);
        do _ <- need_sci sci;
        do delta_T <- (if flat_rated : bool then
            do b <- matrix (r_b r) 6 6;
            einsum b 6 6 (powers 6 mach) (powers 6 delta)
          else
            do c <- matrix (r_c r) 9 5;
            do theta_t <- inr theta *: (#1 +: powi AB (inr mach) 2 *: #(1.4 - 1) /: #2);
            if Nat.eqb (nd_size theta_t) (nd_size delta) then
              einsum c 9 5 (powers 5 mach) (mkNd 2 9 (nd_size theta_t) (fun i k =>
                if Nat.leb i 4 then epowi (flat theta_t k) i else epowi (flat delta k) (i - 4)))
            else inl ValueError);
        do a <- matrix (t_a m) 6 6;
        einsum a 6 6 (powers 6 mach) (powers 6 delta_T)
    end).

(** openap/addon/bada4.py:226-246, 248-268, 285-306: the common body of [climb], [cruise] and [idle] *)
Definition b4_rated (m : b4_thrust) (rating : string) (tas alt dT : T AB) : T AB :=
  let tas := col tas in let alt := col alt in let dT := col dT in
  item (
    let h := alt *: #ft in
    let v := tas *: #kts in
    do mach <- tas2mach AB v h #0;
    do delta <- pressure AB h #0 /: #p0;
    do cT <- b4_cT m (inr mach) h rating dT;
    inr delta *: #(t_mref m) *: #g0 *: inr cT).
(** openap/addon/bada4.py:226-246 *)
Definition b4_climb (m : b4_thrust) (tas alt dT : T AB) : T AB := b4_rated m "MCMB" tas alt dT.
(** openap/addon/bada4.py:248-268 *)
Definition b4_cruise (m : b4_thrust) (tas alt dT : T AB) : T AB := b4_rated m "MCRZ" tas alt dT.
(** openap/addon/bada4.py:270-283 *)
Definition b4_takeoff (m : b4_thrust) (tas alt dT : T AB) : T AB :=
  item (b4_climb m (col tas) (col alt) (col dT)).
(** openap/addon/bada4.py:285-306 *)
Definition b4_idle (m : b4_thrust) (tas alt dT : T AB) : T AB := b4_rated m "LIDL" tas alt dT.
End Thrust.

(** ** Fuel flow (with [sci]; without it there is no FuelFlow object) *)
(** openap/addon/bada4.py:332-342; [1 / self.lhv] is a division of Python numbers *)
Definition b4_calc_fuel (m : b4_fuel) (delta theta cF : T AB) : T AB :=
  let delta := col delta in let theta := col theta in let cF := col cF in
  item (
    do inv <- (if Req_EM_T (f_lhv m) 0 then inl ZeroDivisionError else inr (1 / f_lhv m));
    delta *: power AB theta #0.5 *: #(f_mref m) *: #g0 *: #a0 *: #inv *: cF).

(** openap/addon/bada4.py:344-372; the mass is not used *)
Definition b4_ff_idle (m : b4_fuel) (tas alt : T AB) : T AB :=
  let tas := col tas in let alt := col alt in
  item (
    let h := alt *: #ft in
    let v := tas *: #kts in
    do mach <- tas2mach AB v h #0;
    do delta <- pressure AB h #0 /: #p0;
    do theta <- temperature AB h #0 /: #T0;
    do fi <- matrix (f_fi m) 3 3;
    do cF <- einsum fi 3 3 (powers 3 delta) (powers 3 mach);
    b4_calc_fuel m (inr delta) (inr theta) (inr cF)).

(** openap/addon/bada4.py:374-412; [vs] is [None] when not given (the number 0, which is not converted) *)
Definition b4_ff_enroute (m : b4_fuel) (mass tas alt : T AB) (vs : option (T AB)) : T AB :=
  let mass := col mass in let tas := col tas in let alt := col alt in
  let vs := match vs with Some x => col x | None => #0 end in
  item (
    let h := alt *: #ft in
    let v := tas *: #kts in
    do mach <- tas2mach AB v h #0;
    do delta <- pressure AB h #0 /: #p0;
    do theta <- temperature AB h #0 /: #T0;
    let gamma := barctan2 AB (vs *: #fpm) v in
    let D := b4_clean (f_drag m) mass tas alt in
    let Tn := D +: mass *: #g0 *: bsin AB gamma in
    do cT <- Tn /: (col (inr delta) *: #(f_mref m) *: #g0);
    do f <- matrix (f_f m) 5 5;
    do cF <- einsum f 5 5 (powers 5 cT) (powers 5 mach);
    let non_idle := b4_calc_fuel m (inr delta) (inr theta) (inr cF) in
    let idle := b4_ff_idle m tas alt in
    where_ AB (gt AB #(-250) vs) idle non_idle).
