(** * Model of openap/addon/bada3.py (classes Drag, Thrust, FuelFlow and the merge of aircraft data)

    The classes take the dictionary that [load_bada3] returns; how it is read from the text files
    (SYNONYM.NEW, *.OPF) is in Bada3Text.v.  [self.sci] is read by most methods but set by no class
    (openap/base.py:27-29, 57-59, 97-99); [sci] says whether somebody has set it to NumPy. *)
From Coq Require Import String List Bool Reals.
From Verif Require Import Num Aero Py Vec.
Import ListNotations.
Open Scope R_scope.

(** the entries of the dictionary that are read (openap/addon/bada3.py:236-267, 279-286, 395-413, 523-528) *)
Record bada3 : Type := mkBada3 {
  b3_S : R;              (* model["wing"]["area"], m2 *)
  b3_cd0_cr : R; b3_cd2_cr : R;
  b3_cd0_ap : R; b3_cd2_ap : R;
  b3_cd0_ld : R; b3_cd2_ld : R;
  b3_cd0_lgear : R;
  b3_engine : string;    (* model["engine"]["type"] *)
  b3_ct1 : R; b3_ct2 : R; b3_ct3 : R; b3_ct4 : R; b3_ct5 : R;
  b3_ctdeshigh : R; b3_ctdeslow : R; b3_ctdesapp : R; b3_ctdesld : R;
  b3_HpDes : R;          (* ft *)
  b3_cf1 : R; b3_cf2 : R; b3_cf3 : R; b3_cf4 : R; b3_cfcr : R
}.

(** engine types accepted by the formulas (openap/addon/bada3.py:430-437) *)
Inductive engine_kind : Type := Jet | Prop_ | Flat | Unknown.
(** openap/addon/bada3.py:430-437, 555-564, 602-607, 626-629 *)
Definition kind_of (s : string) : engine_kind :=
  if String.eqb s "turbofan" then Jet
  else if String.eqb s "turboprop" then Prop_
  else if String.eqb s "piston" || String.eqb s "electric" then Flat
  else Unknown.

Section Bada3.
Context (b : backend).
(** Python's [if x:] on the result of a comparison (openap/addon/bada3.py:499) *)
Context (truth : C b -> py bool).
(** is the attribute [sci] there? *)
Context (sci : bool).
Local Notation "# r" := (cst b r) (at level 1, r at level 0, format "# r").
Local Notation "x +: y" := (add b x y) (at level 50, left associativity).
Local Notation "x -: y" := (sub b x y) (at level 50, left associativity).
Local Notation "x *: y" := (mul b x y) (at level 40, left associativity).
Local Notation "x /: y" := (div b x y) (at level 40, left associativity).
(** evaluation of the argument [x], then of the rest (sequencing of Python statements, e.g.
    openap/addon/bada3.py:343-346) *)
Local Notation "'do' x <- e ; f" := (match e with inl err => inl err | inr x => f end)
  (at level 200, x pattern, e at level 100, f at level 200, right associativity).
(** [self.sci.f(...)] (openap/addon/bada3.py:325) *)
Definition with_sci {A : Type} (x : A) : py A := if sci then inr x else inl AttributeError.

(** openap/addon/bada3.py:289-303 [_cd] *)
Definition b3_cd (cl cd0 cd2 cd0_lg : T b) : T b := cd0 +: cd0_lg +: cd2 *: powi b cl 2.

(** openap/addon/bada3.py:306-327 [_cl]: lift coefficient and q S *)
Definition b3_cl (m : bada3) (mass tas alt : T b) : py (T b * T b) :=
  let v := tas *: #kts in
  let h := alt *: #ft in
  let rho := density b h #0 in
  let qS := #0.5 *: rho *: powi b v 2 *: #(b3_S m) in
  let L := mass *: #g0 in
  do q <- with_sci (maximum b qS #1e-3);
  inr (L /: q, qS).

(** openap/addon/bada3.py:330-346 [clean] *)
Definition b3_clean (m : bada3) (mass tas alt : T b) : py (T b) :=
  do (cl, qS) <- b3_cl m mass tas alt;
  let cd := b3_cd cl #(b3_cd0_cr m) #(b3_cd2_cr m) #0 in
  inr (cd *: qS).

(** openap/addon/bada3.py:349-384 [nonclean]; [phase] is None when not given *)
Definition b3_nonclean (m : bada3) (mass tas alt : T b) (landing_gear : bool) (phase : option string) : py (T b) :=
  let go (ap : bool) : py (T b) :=
    do (cl, qS) <- b3_cl m mass tas alt;
    let cd :=
      if ap then
        if Req_EM_T (b3_cd0_ap m) 0 then
          if Req_EM_T (b3_cd2_ap m) 0 then b3_cd cl #(b3_cd0_cr m) #(b3_cd2_cr m) #0
          else b3_cd cl #(b3_cd0_ap m) #(b3_cd2_ap m) #0
        else b3_cd cl #(b3_cd0_ap m) #(b3_cd2_ap m) #0
      else
        let ld := b3_cd cl #(b3_cd0_ld m) #(b3_cd2_ld m) #(if landing_gear then b3_cd0_lgear m else 0) in
        if Req_EM_T (b3_cd0_ld m) 0 then
          if Req_EM_T (b3_cd2_ld m) 0 then b3_cd cl #(b3_cd0_cr m) #(b3_cd2_cr m) #0 else ld
        else ld in
    inr (cd *: qS) in
  match phase with
  | None => inl ValueError
  | Some s => if String.eqb s "AP" then go true else if String.eqb s "LD" then go false else inl ValueError
  end.

(** openap/addon/bada3.py:402-413: the altitude [hpdes] kept by the Thrust object *)
Definition b3_thrust_new (m : bada3) : py R :=
  let zero x := if Req_EM_T x 0 then true else false in
  let nc_avail := zero (b3_cd0_ap m) && zero (b3_cd0_ld m) && zero (b3_cd0_lgear m) && zero (b3_cd2_ap m) && zero (b3_cd2_ld m) in
  if nc_avail then with_sci (Rmax (b3_HpDes m) 8000) else inr (b3_HpDes m).

(** openap/addon/bada3.py:429-437: thrust at ISA *)
Definition b3_thr_isa (m : bada3) (tas alt : T b) : py (T b) :=
  match kind_of (b3_engine m) with
  | Jet => inr (#(b3_ct1 m) *: (#1 -: alt /: #(b3_ct2 m) +: #(b3_ct3 m) *: powi b alt 2))
  | Prop_ => inr (#(b3_ct1 m) /: tas *: (#1 -: alt /: #(b3_ct2 m)) +: #(b3_ct3 m))
  | Flat => inr (#(b3_ct1 m) *: (#1 -: alt /: #(b3_ct2 m)) +: #(b3_ct3 m) /: tas)
  | Unknown => inl ValueError
  end.

(** openap/addon/bada3.py:416-445 [climb] *)
Definition b3_climb (m : bada3) (tas alt dT : T b) : py (T b) :=
  do thr_isa <- b3_thr_isa m tas alt;
  let dT_eff := dT -: #(b3_ct4 m) in
  do c_tc5 <- with_sci (maximum b #(b3_ct5 m) #0);
  do dT_lim <- with_sci (maximum b #0 (minimum b (c_tc5 *: dT_eff) #0.4));
  inr (thr_isa *: (#1 -: dT_lim)).

(** openap/addon/bada3.py:448-464 [cruise] *)
Definition b3_cruise (m : bada3) (tas alt dT : T b) : py (T b) :=
  do thr <- b3_climb m tas alt dT;
  inr (#0.95 *: thr).

(** openap/addon/bada3.py:467-479 [takeoff] *)
Definition b3_takeoff (m : bada3) (tas alt dT : T b) : py (T b) := b3_climb m tas alt dT.

(** openap/addon/bada3.py:482-509 [idle] of a Thrust object with the given [hpdes] *)
Definition b3_thr_idle (m : bada3) (hpdes : R) (tas alt dT : T b) (config : option string) : py (T b) :=
  do thr <- b3_climb m tas alt dT;
  let at_ (low : R) : py (T b) :=
    do high <- truth (gt b alt #hpdes);
    inr (#(if high : bool then b3_ctdeshigh m else low) *: thr) in
  match config with
  | None => inl ValueError
  | Some s =>
      if String.eqb s "CR" then at_ (b3_ctdeslow m)
      else if String.eqb s "AP" then at_ (b3_ctdesapp m)
      else if String.eqb s "LD" then at_ (b3_ctdesld m)
      else inl ValueError
  end.

(** openap/addon/bada3.py:589-608 [idle] of FuelFlow, kg/s *)
Definition b3_ff_idle (m : bada3) (alt : T b) : py (T b) :=
  match kind_of (b3_engine m) with
  | Jet | Prop_ => inr (#(b3_cf3 m) *: (#1 -: alt /: #(b3_cf4 m)) /: #60)
  | Flat => inr (#(b3_cf3 m) /: #60)
  | Unknown => inl ValueError
  end.

(** openap/addon/bada3.py:544-552 [nominal]: the thrust used *)
Definition b3_ff_thrust (m : bada3) (mass tas alt vs : T b) : py (T b) :=
  let v := tas *: #kts in
  do gamma <- with_sci (barctan2 b (vs *: #fpm) v);
  do D <- b3_clean m mass tas alt;
  do s <- with_sci (bsin b gamma);
  do Tcl <- b3_climb m tas alt #0;
  with_sci (minimum b (D +: mass *: #g0 *: s) Tcl).

(** openap/addon/bada3.py:531-568 [nominal] *)
Definition b3_ff_nominal (m : bada3) (mass tas alt vs : T b) : py (T b) :=
  do Tn <- b3_ff_thrust m mass tas alt vs;
  do f <- match kind_of (b3_engine m) with
          | Jet => inr (#(b3_cf1 m) *: (#1 +: tas /: #(b3_cf2 m)) *: #1e-3 *: Tn)
          | Prop_ => inr (#(b3_cf1 m) *: (#1 -: tas /: #(b3_cf2 m)) *: (tas /: #1e3) *: #1e-3 *: Tn)
          | Flat => inr #(b3_cf1 m)
          | Unknown => inl ValueError
          end;
  do i <- b3_ff_idle m alt;
  do f' <- with_sci (maximum b f i);
  inr (f' /: #60).

(** openap/addon/bada3.py:571-586 [enroute] *)
Definition b3_ff_enroute (m : bada3) (mass tas alt vs : T b) : py (T b) :=
  do f <- b3_ff_nominal m mass tas alt vs;
  inr (#(b3_cfcr m) *: f).

(** openap/addon/bada3.py:611-633 [approach] *)
Definition b3_ff_approach (m : bada3) (mass tas alt vs : T b) : py (T b) :=
  let go : py (T b) :=
    do f <- b3_ff_nominal m mass tas alt vs;
    do i <- b3_ff_idle m alt;
    with_sci (maximum b f i) in
  match kind_of (b3_engine m) with Jet | Prop_ => go | _ => inl ValueError end.

(** openap/addon/bada3.py:515-528: constructor of FuelFlow; builds a Thrust and a Drag object *)
Definition b3_fuelflow_new (m : bada3) : py R := b3_thrust_new m.
End Bada3.

(** a condition on single numbers; comparisons with NaN are false (openap/addon/bada3.py:499) *)
Definition truth_np (c : option bool) : py bool := match c with Some t => inr t | None => inr false end.
(** truth value of an array: defined for one element only, ValueError otherwise
    (openap/addon/bada3.py:499) *)
Definition truth_vec (c : varr (option bool)) : py bool :=
  match c with Sc x | Ar [x] => truth_np x | _ => inl ValueError end.

(** ** Merging the data into an aircraft dictionary *)
(** values in the files that are not mappings (openap/prop.py:82-83, openap/addon/bada3.py:236-267) *)
Inductive leaf : Type := LNone | LNum (r : R) | LStr (s : string) | LList (l : list R).
(** a parsed value: a mapping or anything else (openap/addon/bada3.py:28-33) *)
Inductive value : Type :=
| Leaf (x : leaf)
| Dict (l : list (string * value)).
(** [d.get(k)] (openap/addon/bada3.py:28-31, openap/prop.py:87) *)
Fixpoint vget (l : list (string * value)) (k : string) : option value :=
  match l with [] => None | (k', v) :: t => if String.eqb k k' then Some v else vget t k end.
(** [d[k] = v]: replaces in place or appends (openap/addon/bada3.py:35) *)
Fixpoint vset (l : list (string * value)) (k : string) (v : value) : list (string * value) :=
  match l with [] => [(k, v)] | (k', v') :: t => if String.eqb k k' then (k', v) :: t else (k', v') :: vset t k v end.
(** openap/addon/bada3.py:25-35 [deep_update] on the values of one key, recursing on [upd] *)
Fixpoint merge (old : option value) (upd : value) {struct upd} : value :=
  match upd with
  | Dict u =>
      match old with
      | Some (Dict t) =>
          Dict ((fix go (t : list (string * value)) (u : list (string * value)) {struct u} :=
             match u with [] => t | (k, v) :: u' => go (vset t k (merge (vget t k) v)) u' end) t u)
      | _ => upd
      end
  | _ => upd
  end.
(** openap/addon/bada3.py:25-35 *)
Definition deep_update (target updates : list (string * value)) : list (string * value) :=
  match merge (Some (Dict target)) (Dict updates) with Dict l => l | Leaf _ => [] end.

(** [acdict.get(k)]: None for a missing key (openap/prop.py:87-93) *)
Definition get_none (l : list (string * value)) (k : string) : value :=
  match vget l k with Some v => v | None => Leaf LNone end.
(** openap/prop.py:86-94: the entry [limits] added to the content of an aircraft file *)
Definition with_limits (l : list (string * value)) : list (string * value) :=
  vset l "limits" (Dict
    [("MTOW", get_none l "mtow"); ("MLW", get_none l "mlw"); ("OEW", get_none l "oew"); ("MFC", get_none l "mfc");
     ("VMO", get_none l "vmo"); ("MMO", get_none l "mmo"); ("ceiling", get_none l "ceiling")]%string).

(** what the searches of the OPF file found, None when a pattern does not occur
    (openap/addon/bada3.py:137-232); the searches themselves are in Bada3Text.v *)
Record opf : Type := mkOpf {
  o_engine : option string;      (* word found in the line after "Actype" *)
  o_number : option R;
  o_mass : option (R * R * R * R);
  o_envelope : option (R * R * R);
  o_area : option R;
  o_cr : option (R * R); o_ic : option (R * R); o_to : option (R * R); o_ap : option (R * R); o_ld : option (R * R);
  o_lgear : option R;
  o_ct : option (R * R * R * R * R);
  o_ctdes : option (R * R * R * R * R);
  o_cf : option (R * R);
  o_cfdes : option (R * R);
  o_cfcr : option R;
  o_hpdes : option R;
  o_ground : option (R * R * R * R)
}.
(** [get_floats] and [get_drag_coeff]: the default when nothing was found (openap/addon/bada3.py:137-150) *)
Definition found {A : Type} (x : option A) (d : A) : A := match x with Some a => a | None => d end.
(** openap/addon/bada3.py:152-170: the kind of engine *)
Definition opf_engine (o : opf) : string := found (o_engine o) "turbofan"%string.
(** openap/addon/bada3.py:235-267, the part of the dictionary read by the classes (see [bada3]) *)
Definition opf_model (o : opf) : bada3 :=
  let '(ct1, ct2, ct3, ct4, ct5) := found (o_ct o) (0, 0, 0, 0, 0) in
  let '(low, high, _, app, ld) := found (o_ctdes o) (0, 0, 0, 0, 0) in
  let '(cf1, cf2) := found (o_cf o) (0, 0) in
  let '(cf3, cf4) := found (o_cfdes o) (0, 0) in
  mkBada3 (found (o_area o) 0)
    (fst (found (o_cr o) (0, 0))) (snd (found (o_cr o) (0, 0)))
    (fst (found (o_ap o) (0, 0))) (snd (found (o_ap o) (0, 0)))
    (fst (found (o_ld o) (0, 0))) (snd (found (o_ld o) (0, 0)))
    (found (o_lgear o) 0) (opf_engine o)
    ct1 ct2 ct3 ct4 ct5 high low app ld (found (o_hpdes o) 8000)
    cf1 cf2 cf3 cf4 (found (o_cfcr o) 1).
(** openap/addon/bada3.py:235-267 [parse_opf_content], the returned dictionary *)
Definition opf_dict (o : opf) : list (string * value) :=
  let n r := Leaf (LNum r) in
  let '(mref, mmin, mmax, mpl) := found (o_mass o) (0, 0, 0, 0) in
  let '(vmo, mmo, hmo) := found (o_envelope o) (0, 0, 0) in
  let '(_, _, span, len) := found (o_ground o) (0, 0, 0, 0) in
  let '(ct1, ct2, ct3, ct4, ct5) := found (o_ct o) (0, 0, 0, 0, 0) in
  let '(low, high, _, app, ld) := found (o_ctdes o) (0, 0, 0, 0, 0) in
  let '(cf1, cf2) := found (o_cf o) (0, 0) in
  let '(cf3, cf4) := found (o_cfdes o) (0, 0) in
  [("mtow", n (mmax * 1000)); ("mref", n (mref * 1000)); ("oew", n (mmin * 1000)); ("mpl", n (mpl * 1000));
   ("vmo", n vmo); ("mmo", n mmo); ("ceiling", n (hmo * 0.3048));
   ("fuselage", Dict [("length", n len)]);
   ("wing", Dict [("area", n (found (o_area o) 0)); ("span", n span)]);
   ("engine", Dict [("type", Leaf (LStr (opf_engine o))); ("number", match o_number o with Some r => n r | None => Leaf LNone end)]);
   ("CD0", Dict [("CR", n (fst (found (o_cr o) (0, 0)))); ("IC", n (fst (found (o_ic o) (0, 0)))); ("TO", n (fst (found (o_to o) (0, 0))));
                 ("AP", n (fst (found (o_ap o) (0, 0)))); ("LD", n (fst (found (o_ld o) (0, 0))))]);
   ("CD2", Dict [("CR", n (snd (found (o_cr o) (0, 0)))); ("IC", n (snd (found (o_ic o) (0, 0)))); ("TO", n (snd (found (o_to o) (0, 0))));
                 ("AP", n (snd (found (o_ap o) (0, 0)))); ("LD", n (snd (found (o_ld o) (0, 0))))]);
   ("CD0_lgear", n (found (o_lgear o) 0));
   ("Ct", Leaf (LList [ct1; ct2; ct3; ct4; ct5]));
   ("CTdeshigh", n high); ("CTdeslow", n low); ("CTdesapp", n app); ("CTdesld", n ld);
   ("HpDes", n (found (o_hpdes o) 8000));
   ("Cf", Leaf (LList [cf1; cf2])); ("CfDes", Leaf (LList [cf3; cf4])); ("CfCrz", n (found (o_cfcr o) 1))]%string.
(** openap/addon/bada3.py:69-74 [load_bada3], given the line of the synonym file *)
Definition b3_load (ac manufacturer model synonym : string) (o : opf) : list (string * value) :=
  [("typecode", Leaf (LStr ac)); ("aircraft", Leaf (LStr (manufacturer ++ " " ++ model)));
   ("manufacturer", Leaf (LStr manufacturer)); ("model", Leaf (LStr model)); ("synonym", Leaf (LStr synonym))]%string
  ++ opf_dict o.
(** openap/addon/bada3.py:12-39 [bada3_aircraft], given the content of the aircraft file *)
Definition b3_aircraft (file : list (string * value)) (ac manufacturer model synonym : string) (o : opf) : list (string * value) :=
  deep_update (with_limits file) (b3_load ac manufacturer model synonym o).
