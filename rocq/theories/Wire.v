(** * How constructors receive their arguments: openap, openap.casadi, openap.jax

    The constructors of Build.v take what they need; here the calls are modelled as Python makes them: positional and
    keyword arguments, [**kwargs] handed on from call to call, [backend or default_backend()].  The values that pass
    through are kept as [pyval].  The data part of each constructor is that of Build.v. *)
From Coq Require Import String List Bool ZArith QArith.
From Verif Require Import Py Str PropPy Build.
Import ListNotations.
Local Open Scope nat_scope.
Open Scope string_scope.

(** the backend objects: openap/backends/__init__.py:25-28 (three classes) and any other object of the protocol
    (openap/backends/protocol.py:12), of which only the identity and the truth value matter here.  Two instances of one of the
    three classes are not distinguished: their only state is the imported module (openap/backends/casadi_backend.py:23-40). *)
Inductive bk : Type := BNumpy | BCasadi | BJax | BUser (n : nat) (truth : bool).
(** a value given by the caller (openap/thrust.py:26-32, openap/drag.py:26-32): the kinds of value that the signatures
    mention; numbers stand for any other object without string methods *)
Inductive pyval : Type := VNone | VBool (b : bool) | VInt (z : Z) | VStr (s : string) | VBk (b : bk).
(** Python's truth value, as used by [backend or default_backend()] (openap/base.py:24), [if self.wave_drag] (openap/drag.py:48),
    [if use_synonym and ...] (openap/prop.py:65), [not force_engine] (openap/thrust.py:55) *)
Definition truthy (v : pyval) : bool :=
  match v with
  | VNone => false
  | VBool b => b
  | VInt z => negb (Z.eqb z 0)
  | VStr s => negb (String.eqb s "")
  | VBk (BUser _ t) => t
  | VBk _ => true
  end.

(** keyword arguments (the dictionaries [kwargs] of openap/base.py:17, openap/drag.py:31, openap/fuel.py:27 and others) *)
Definition kwd : Type := list (string * pyval).
(** [kwargs.get(name)] (openap/drag.py:42, openap/thrust.py:43, openap/kinematic.py:48) *)
Fixpoint kwget (n : string) (k : kwd) : option pyval :=
  match k with
  | [] => None
  | (m, v) :: t => if String.eqb m n then Some v else kwget n t
  end.
(** no name twice (a Python call with a repeated keyword, e.g. [f(backend=x, **kwargs)] of openap/casadi.py:35, raises TypeError) *)
Fixpoint distinct (l : list string) : bool :=
  match l with
  | [] => true
  | x :: t => negb (mem x t) && distinct t
  end.
(** a parameter list: names with their defaults, [None] = required (openap/drag.py:26-32 and the other signatures below) *)
Definition sig : Type := list (string * option pyval).
(** values of the parameters that were not given by position *)
Fixpoint fill (s : sig) (k : kwd) : py (list pyval) :=
  match s with
  | [] => inr []
  | (n, dflt) :: t =>
      do v <- (match kwget n k, dflt with
               | Some v, _ => inr v
               | None, Some v => inr v
               | None, None => inl TypeError
               end);
      do r <- fill t k;
      inr (v :: r)
  end.
(** binding of the arguments of a call to the parameters, for a function with ([varkw]) or without [**kwargs]:
    values of the parameters, and the remaining keyword arguments.  Python language reference, section "Calls"; used for every
    call that passes [**kwargs] on: openap/drag.py:40, 44; openap/thrust.py:40, 42; openap/fuel.py:38, 51, 61-63;
    openap/emission.py:34, 36; openap/casadi.py:35, 42, 49, 56; openap/jax.py:44, 51, 58, 65. *)
Definition bind_args (s : sig) (varkw : bool) (pos : list pyval) (k : kwd) : py (list pyval * kwd) :=
  let names := map fst s in
  let keys := map fst k in
  if negb (distinct keys) then inl TypeError
  else if Nat.ltb (length s) (length pos) then inl TypeError
  else if existsb (fun n => mem n keys) (firstn (length pos) names) then inl TypeError
  else
    let extra := filter (fun p => negb (mem (fst p) names)) k in
    if negb varkw && negb (Nat.eqb (length extra) 0) then inl TypeError
    else
      do r <- fill (skipn (length pos) s) k;
      inr ((pos ++ r)%list, extra).

(** ** Objects: the data of Build.v, the backend of the object and of its [aero] *)
(** openap/drag.py:26-49, openap/base.py:24-26 *)
Record wdrag : Type := mkWd { wd_backend : pyval; wd_aero : pyval; wd_wave : pyval; wd_data : drag_obj }.
(** openap/thrust.py:26-74, openap/base.py:52-54 *)
Record wthrust : Type := mkWt { wt_backend : pyval; wt_aero : pyval; wt_data : thrust_obj }.
(** openap/emission.py:18-42, openap/base.py:118-120 *)
Record wemission : Type := mkWe { we_backend : pyval; we_aero : pyval; we_data : emission_obj }.
(** openap/fuel.py:22-65, openap/base.py:88-90 *)
Record wfuel : Type := mkWf {
  wf_backend : pyval; wf_aero : pyval; wf_ac : acrec; wf_eng : engres;
  wf_thrust : wthrust; wf_drag : wdrag; wf_wrap : wrrec; wf_model : fmrec * Q }.

(** a parameter by its position in the bound list (the local variables of a function body, e.g. openap/drag.py:40-46) *)
Definition parg (l : list pyval) (n : nat) : pyval := nth n l VNone.
(** [x.lower()], [x.upper()], [x.strip()] need a string (openap/base.py:26, openap/fuel.py:56, openap/thrust.py:48, openap/prop.py:157) *)
Definition as_str (v : pyval) : py string := match v with VStr s => inr s | _ => inl AttributeError end.
(** [if eng is None: eng = default] (openap/thrust.py:45-46, openap/fuel.py:53-54, openap/emission.py:39-40) *)
Definition eng_arg (v : pyval) : py (option string) := match v with VNone => inr None | VStr s => inr (Some s) | _ => inl AttributeError end.
(** [backend or default_backend()] (openap/base.py:24, 52, 88, 118; openap/aero.py:90; openap/backends/__init__.py:35, 62-68) *)
Definition or_default (v : pyval) : pyval := if truthy v then v else VBk BNumpy.
(** openap/aero.py:84-90 [Aero.__init__]: the backend of the object *)
Definition aero_new (pos : list pyval) (k : kwd) : py pyval :=
  do r <- bind_args [("backend", Some VNone)] false pos k;
  inr (or_default (parg (fst r) 0)).
(** openap/geo.py:50-56 [Geo.__init__] *)
Definition geo_new (pos : list pyval) (k : kwd) : py pyval :=
  do r <- bind_args [("backend", Some VNone)] false pos k;
  inr (or_default (parg (fst r) 0)).

(** [self] is the first positional argument of every method; a keyword of that name raises.  It is a string here, any value would do
    (openap/base.py:17 and the other constructors) *)
Definition self : pyval := VStr "self".
(** openap/base.py:17-26 [DragBase.__init__]: backend, backend of [aero], lower-case type code *)
Definition drag_base (pos : list pyval) (k : kwd) : py (pyval * pyval * string) :=
  do r <- bind_args [("self", None); ("ac", None); ("backend", Some VNone)] true (self :: pos) k;
  let backend := or_default (parg (fst r) 2) in
  do aero <- aero_new [] [("backend", backend)];
  do ac <- as_str (parg (fst r) 1);
  inr (backend, aero, lower ac).
(** openap/base.py:38-54, 72-90, 104-120: [ThrustBase.__init__], [FuelFlowBase.__init__], [EmissionBase.__init__], which are alike *)
Definition eng_base (pos : list pyval) (k : kwd) : py (pyval * pyval * string) :=
  do r <- bind_args [("self", None); ("ac", None); ("eng", Some VNone); ("backend", Some VNone)] true (self :: pos) k;
  let backend := or_default (parg (fst r) 3) in
  do aero <- aero_new [] [("backend", backend)];
  do ac <- as_str (parg (fst r) 1);
  inr (backend, aero, lower ac).
(** openap/prop.py:48 [aircraft(ac, use_synonym=False, **kwargs)] *)
Definition prop_aircraft (d : db) (pos : list pyval) (k : kwd) : py acrec :=
  do r <- bind_args [("ac", None); ("use_synonym", Some (VBool false))] true pos k;
  do ac <- as_str (parg (fst r) 0);
  aircraft d ac (truthy (parg (fst r) 1)).
(** openap/kinematic.py:39-63 [WRAP.__init__(self, ac, **kwargs)] *)
Definition wrap_init (d : db) (pos : list pyval) (k : kwd) : py wrrec :=
  do r <- bind_args [("self", None); ("ac", None)] true (self :: pos) k;
  do ac <- as_str (parg (fst r) 1);
  wrap_new d ac (option_map truthy (kwget "use_synonym" (snd r))).

(** openap/drag.py:26-49 [Drag.__init__] *)
Definition drag_init (d : db) (pos : list pyval) (k : kwd) : py wdrag :=
  do r <- bind_args [("self", None); ("ac", None); ("wave_drag", Some (VBool false)); ("backend", Some VNone)] true (self :: pos) k;
  let kwargs := snd r in
  do b <- drag_base [parg (fst r) 1] (("backend", parg (fst r) 3) :: kwargs);
  let '(backend, aero, lac) := b in
  let use_synonym := match kwget "use_synonym" kwargs with Some v => truthy v | None => false end in
  do a <- prop_aircraft d [VStr lac] kwargs;
  do p <- load_drag_model d lac use_synonym;
  inr (mkWd backend aero (parg (fst r) 2) (mkDo a p)).
(** openap/thrust.py:26-74 [Thrust.__init__] up to the numeric part *)
Definition thrust_init (d : db) (pos : list pyval) (k : kwd) : py wthrust :=
  do r <- bind_args [("self", None); ("ac", None); ("eng", Some VNone); ("backend", Some VNone)] true (self :: pos) k;
  let kwargs := snd r in
  do b <- eng_base [parg (fst r) 1; parg (fst r) 2] (("backend", parg (fst r) 3) :: kwargs);
  let '(backend, aero, _) := b in
  do a <- prop_aircraft d [parg (fst r) 1] kwargs;
  let force_engine := match kwget "force_engine" kwargs with Some v => truthy v | None => false end in
  do eng <- eng_arg (parg (fst r) 2);
  do e <- engine d (upper (get eng (ac_default a)));
  if negb force_engine && negb (engine_matches (ac_options a) (er_name e))
  then inl ValueError
  else inr (mkWt backend aero (mkTo a e)).
(** openap/emission.py:18-42 [Emission.__init__] *)
Definition emission_init (d : db) (pos : list pyval) (k : kwd) : py wemission :=
  do r <- bind_args [("self", None); ("ac", None); ("eng", Some VNone); ("backend", Some VNone)] true (self :: pos) k;
  let kwargs := snd r in
  do b <- eng_base [parg (fst r) 1; parg (fst r) 2] (("backend", parg (fst r) 3) :: kwargs);
  let '(backend, aero, _) := b in
  do a <- prop_aircraft d [parg (fst r) 1] kwargs;
  do eng <- eng_arg (parg (fst r) 2);
  do e <- engine d (get eng (ac_default a));
  inr (mkWe backend aero (mkEo a e)).
(** openap/fuel.py:22-65 [FuelFlow.__init__] (the classes [Thrust], [Drag], [WRAP] are those of the package, openap/fuel.py:40-47) *)
Definition fuel_init (d : db) (pos : list pyval) (k : kwd) : py wfuel :=
  do r <- bind_args [("self", None); ("ac", None); ("eng", Some VNone); ("backend", Some VNone)] true (self :: pos) k;
  let kwargs := snd r in
  let ac := parg (fst r) 1 in
  do b <- eng_base [ac; parg (fst r) 2] (("backend", parg (fst r) 3) :: kwargs);
  let '(backend, aero, lac) := b in
  do a <- prop_aircraft d [VStr lac] kwargs;
  do oeng <- eng_arg (parg (fst r) 2);
  let eng := get oeng (ac_default a) in
  do e <- engine d eng;
  do t <- thrust_init d [ac; VStr eng] (("backend", backend) :: kwargs);
  do dr <- drag_init d [ac] (("backend", backend) :: kwargs);
  do w <- wrap_init d [ac] kwargs;
  do m <- load_fuel_model d lac (upper eng) (er_row e);
  inr (mkWf backend aero a e t dr w m).

(** ** The classes of openap.casadi and openap.jax *)
(** the packages that export the four classes: openap/__init__.py:1-12, openap/casadi.py:31-56, openap/jax.py:40-65 *)
Inductive pkg : Type := Openap | OpenapCasadi | OpenapJax.
(** openap/casadi.py:22 [_casadi_backend], openap/jax.py:31 [_jax_backend] *)
Definition pkg_backend (p : pkg) : bk := match p with Openap => BNumpy | OpenapCasadi => BCasadi | OpenapJax => BJax end.
(** openap/casadi.py:34-35, openap/jax.py:43-44 [Drag.__init__(self, ac, **kwargs)] *)
Definition drag_pkg (p : pkg) (d : db) (pos : list pyval) (k : kwd) : py wdrag :=
  match p with
  | Openap => drag_init d pos k
  | _ =>
      do r <- bind_args [("self", None); ("ac", None)] true (self :: pos) k;
      drag_init d [parg (fst r) 1] (("backend", VBk (pkg_backend p)) :: snd r)
  end.
(** openap/casadi.py:41-42, 48-49, 55-56; openap/jax.py:50-51, 57-58, 64-65 [__init__(self, ac, eng=None, **kwargs)] *)
Definition eng_pkg {A} (init : db -> list pyval -> kwd -> py A) (p : pkg) (d : db) (pos : list pyval) (k : kwd) : py A :=
  match p with
  | Openap => init d pos k
  | _ =>
      do r <- bind_args [("self", None); ("ac", None); ("eng", Some VNone)] true (self :: pos) k;
      init d [parg (fst r) 1; parg (fst r) 2] (("backend", VBk (pkg_backend p)) :: snd r)
  end.
(** openap/casadi.py:60, openap/jax.py:69: the exported [aero] *)
Definition aero_pkg (p : pkg) : py pyval :=
  match p with
  | Openap => aero_new [] [("backend", VBk BNumpy)]      (* openap/aero.py:332 [_default_aero] *)
  | _ => aero_new [] [("backend", VBk (pkg_backend p))]
  end.

(** openap/backends/__init__.py:38-59 [get_backend] *)
Definition get_backend (name : pyval) : py bk :=
  match name with
  | VStr s =>
      if String.eqb s "numpy" then inr BNumpy
      else if String.eqb s "casadi" then inr BCasadi
      else if String.eqb s "jax" then inr BJax
      else inl ValueError
  | _ => inl ValueError
  end.

(** the four classes (openap/drag.py:21, openap/thrust.py:23, openap/fuel.py:19, openap/emission.py:15) and their objects *)
Inductive cls : Type := CDrag | CThrust | CFuelFlow | CEmission.
Inductive obj : Type := ODrag (o : wdrag) | OThrust (o : wthrust) | OFuelFlow (o : wfuel) | OEmission (o : wemission).
(** a call [Class( *pos, **k)] of a class of one of the packages (openap/__init__.py:1-12, openap/casadi.py:31-56, openap/jax.py:40-65) *)
Definition new (p : pkg) (c : cls) (d : db) (pos : list pyval) (k : kwd) : py obj :=
  match c with
  | CDrag => do o <- drag_pkg p d pos k; inr (ODrag o)
  | CThrust => do o <- eng_pkg thrust_init p d pos k; inr (OThrust o)
  | CFuelFlow => do o <- eng_pkg fuel_init p d pos k; inr (OFuelFlow o)
  | CEmission => do o <- eng_pkg emission_init p d pos k; inr (OEmission o)
  end.
